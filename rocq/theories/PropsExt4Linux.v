(** Property C73: descriptors and inodes are looked up where Linux keeps them. *)

From Verif Require Import Base BaseFacts Io SpecStream IoFacts SpecMd SpecExt4 SpecExt4Inode SpecExt4Fs SpecExt4Linux Superblock Ext4Superblock Ext4Inode Ext4Fs
  SuperblockFacts TestData Ext4FsFacts PropsExt4Superblock PropsExt4Inode PropsExt4Fs.

(** ** Arithmetic *)

Lemma block_size_pos sb : 0 < sb4_block_size sb.
Proof. unfold sb4_block_size. apply N.neq_0_lt_0, N.pow_nonzero. discriminate. Qed.

(** An array of entries of [e] bytes that fill blocks of [m * e] bytes: counting by blocks or straight on is the same. *)
Lemma entries_in_blocks m e i : 0 < m -> 0 < e -> (i / m) * (m * e) + (i mod m) * e = i * e.
Proof. intros M E. rewrite (N.div_mod i m) at 3 by lia. lia. Qed.

Lemma usual_per_block sb m e : 0 < m -> sb4_block_size sb = m * e -> 0 < e /\ sb4_block_size sb / e = m.
Proof.
  intros M B. pose proof (block_size_pos sb). assert (0 < e) by (destruct e; lia). split; [assumption|]. rewrite B. apply N.div_mul. lia.
Qed.

(** Two counts of groups: the code counts from block 0 on, so that it may see one more. *)
Lemma linux_groups_le sb k k' : linux_group_count sb k -> sb4_group_count sb k' -> k <= k'.
Proof.
  unfold linux_group_count, sb4_group_count. cbv zeta. intros (A & [->|B]) (C & D); [lia|].
  destruct (N.le_gt_cases k k'); [assumption|]. exfalso. assert (X : k' <= k - 1) by lia.
  apply (N.mul_le_mono_r _ _ (sb4_blocks_per_group sb)) in X. lia.
Qed.

Lemma linux_desc_offset sb i : linux_usual sb -> linux_desc_at sb i (sb4_desc_offset sb i).
Proof.
  intros [B6 PL (m & M & B) D6 F _ _ _]. unfold linux_desc_at, linux_desc_block, linux_desc_per_block, linux_desc_size, sb4_desc_offset.
  rewrite B6, PL. cbn [andb]. fold (linux_first_data sb). rewrite F. destruct (usual_per_block _ _ _ M B) as [E ->].
  eexists. split; [reflexivity|]. pose proof (entries_in_blocks m (sb4_desc_size sb) i M E) as X. rewrite <- B in X. nia.
Qed.

Lemma linux_desc_at_unique sb i o o' : linux_meta_bg sb = false -> linux_desc_at sb i o -> linux_desc_at sb i o' -> o = o'.
Proof. intros PL (b & D & ->) (b' & D' & ->). unfold linux_desc_block in *. rewrite PL in *. cbn [andb] in *. now subst. Qed.

Lemma linux_inode_offset c n : let sb := window c 1024 1024 in linux_usual sb ->
  linux_inode_at c n (inode_offset sb (window c (sb4_desc_offset sb (inode_group sb n)) (sb4_desc_size sb)) n).
Proof.
  cbv zeta. set (sb := window c 1024 1024). intros U. unfold linux_inode_at. fold sb. exists (sb4_desc_offset sb (inode_group sb n)).
  split; [now apply linux_desc_offset|]. destruct U as [B6 PL _ D6 F (m & M & B) R _].
  assert (Z : linux_inode_size sb = sb4_inode_size sb).
  { unfold linux_inode_size. destruct (N.eqb_spec (uint_le sb 0x4c 4) 0); [|reflexivity]. destruct R; [contradiction|congruence]. }
  unfold linux_desc_size, linux_inode_table, linux_desc_size. rewrite B6, Z. destruct (N.leb_spec 64 (sb4_desc_size sb)); [|lia].
  destruct (usual_per_block _ _ _ M B) as [E ->]. unfold inode_offset, desc_inode_table, inode_index.
  set (t := _ + _). pose proof (entries_in_blocks m (sb4_inode_size sb) ((n - 1) mod sb4_inodes_per_group sb) M E) as X. rewrite <- B in X. nia.
Qed.

Lemma linux_inode_at_unique c n o o' : linux_meta_bg (window c 1024 1024) = false -> linux_inode_at c n o -> linux_inode_at c n o' -> o = o'.
Proof. intros PL (d & D & ->) (d' & D' & ->). now rewrite (linux_desc_at_unique _ _ _ _ PL D D'). Qed.

Section Linux.
  Context {S : Type} (st : stream S) (c : bytes) (bad : N -> Prop) (at_ : S -> N -> Prop) (OK : stream_ok st c bad at_).
  Let legal := legal at_.

  (** C73: an opened file system of the usual geometry has, for every group that Linux sees, the fields of the descriptor
      that Linux uses. *)
  Theorem linux_descriptors_partial : forall s s' f k i o, legal s -> fs_open st s = (s', Ok f) -> linux_usual (window c 1024 1024) ->
    linux_group_count (window c 1024 1024) k -> i < k -> linux_desc_at (window c 1024 1024) i o ->
    exists g, nth_N (fs_groups f) i = Some g /\
      forall p w, p + N.of_nat w <= 60 -> uint_le g p w = uint_le (window c o (linux_desc_size (window c 1024 1024))) p w.
  Proof.
    intros s s' f k i o A E U K I D. destruct (fs_open_sound st c bad at_ OK s s' f A E) as [_ O].
    rewrite (linux_desc_at_unique _ _ _ _ (lu_plain _ U) D (linux_desc_offset _ i U)).
    pose proof (op_count _ _ _ O) as CN. pose proof (op_group _ _ _ O) as G. rewrite (op_sb _ _ _ O) in CN, G.
    pose proof (linux_groups_le _ _ _ K CN). destruct (nth_N (fs_groups f) i) as [g|] eqn:Eg.
    2: { destruct (nth_N_lt_some (fs_groups f) i ltac:(lia)) as (? & ?). congruence. }
    exists g. split; [reflexivity|]. unfold linux_desc_size. rewrite (lu_64bit _ U). exact (G i g Eg).
  Qed.

  (** C73: every inode number of a file system of the usual geometry leads to the inode that Linux means. *)
  Theorem linux_inodes_partial : forall s s1 f n o s2 r, legal s -> fs_open st s = (s1, Ok f) -> linux_usual (window c 1024 1024) ->
    1 <= n <= sb4_inodes (window c 1024 1024) -> linux_inode_at c n o -> fs_read_inode st f n s1 = (s2, r) ->
    match r with
    | Ok i => o + sb4_inode_size (fs_sb f) <= len c /\
        (forall p w, uint_le (in_storage i) p w = uint_le (inode_visible (window c o (sb4_inode_size (fs_sb f)))) p w) /\
        inode_seed (fs_sb f) n (window c o (sb4_inode_size (fs_sb f))) (in_seed i)
    | Err _ => u64_max < o + sb4_inode_size (fs_sb f) \/ len c < o + sb4_inode_size (fs_sb f) \/ exists q, o <= q < o + sb4_inode_size (fs_sb f) /\ bad q
    | Panic => let slot := window c o (sb4_inode_size (fs_sb f)) in 32 < inode_extra slot \/ sb4_inode_size (fs_sb f) < 128 + inode_extra slot
    end.
  Proof.
    intros s s1 f n o s2 r A E U R L X. destruct (fs_open_sound st c bad at_ OK s s1 f A E) as [A1 O].
    rewrite (linux_inode_at_unique _ _ _ _ (lu_plain _ U) L (linux_inode_offset c n U)). pose proof (op_sb _ _ _ O) as Eb. rewrite <- Eb in *.
    assert (G : inode_group (fs_sb f) n < len (fs_groups f)).
    { destruct (lu_inodes _ U) as (k & K & I). pose proof (linux_groups_le _ _ _ K (op_count _ _ _ O)).
      enough (inode_group (fs_sb f) n < k) by lia. unfold inode_group. apply N.div_lt_upper_bound; [exact (su_ipg _ (op_supported _ _ _ O))|]. lia. }
    destruct r as [i|e|].
    - destruct (fs_read_inode_sound st c bad at_ OK s1 f n s2 i A1 O X) as (_ & _ & _ & H1 & H2 & H3). auto.
    - destruct (fs_read_inode_spec st c bad at_ OK s1 f n s2 (Err e) A1 O X) as (_ & [(_ & _ & _ & _ & N)|(e' & _ & [(C & _)|[(_ & C & _)|(_ & _ & C)]])]).
      + symmetry in N. now apply inode_new_no_error in N.
      + contradiction.
      + lia.
      + unfold u64_ok in C. destruct C as [C|[C|C]]; [right; left; exact C|left; lia|right; right; exact C].
    - apply (fs_read_inode_panics_only st c bad at_ OK s1 f n A1 O). now rewrite X.
  Qed.

  (** C73, false of the code: file systems without the feature 64bit, for which mke2fs leaves the size of descriptors zero,
      are all refused. *)
  Theorem linux_32bit_refused : forall s s' r, legal s -> 2048 <= len c -> (forall q, 1024 <= q < 2048 -> ~ bad q) ->
    sb4_acceptable (window c 1024 1024) -> sb4_desc_size (window c 1024 1024) = 0 -> sb4_blocks_per_group (window c 1024 1024) <> 0 ->
    fs_open st s = (s', r) -> r = Err Unsupported.
  Proof.
    intros s s' r A L NB AC D B E. apply (fs_open_refuses st c bad at_ OK s s' r A L NB AC); [|exact B|exact E]. intros SU. now apply (su_desc _ SU).
  Qed.

  (** C73, false of the code: with blocks of 1024 bytes and first data block 0 (which Linux accepts with the feature
      bigalloc), Linux has the first descriptor at byte 2048, while the code takes the superblock for it. *)
  Theorem linux_bigalloc_wrong : forall s s' f, legal s -> fs_open st s = (s', Ok f) -> linux_meta_bg (fs_sb f) = false ->
    sb4_block_size (fs_sb f) = 1024 -> linux_first_data (fs_sb f) = 0 ->
    linux_desc_at (fs_sb f) 0 2048 /\
    forall g p w, nth_N (fs_groups f) 0 = Some g -> p + N.of_nat w <= 60 -> p + N.of_nat w <= sb4_desc_size (fs_sb f) ->
      uint_le g p w = uint_le (fs_sb f) p w.
  Proof.
    intros s s' f A E M B F. destruct (fs_open_sound st c bad at_ OK s s' f A E) as [_ O]. split.
    - unfold linux_desc_at, linux_desc_block. rewrite M. cbn [andb]. unfold linux_sb_block. rewrite B.
      assert (Z : 0 / linux_desc_per_block (fs_sb f) = 0) by (destruct (linux_desc_per_block (fs_sb f)); reflexivity).
      assert (Z' : 0 mod linux_desc_per_block (fs_sb f) = 0) by (destruct (linux_desc_per_block (fs_sb f)); reflexivity).
      rewrite Z, Z'. exists 2. split; reflexivity.
    - intros g p w Hg P Q. rewrite (op_group _ _ _ O 0 g Hg p w P). unfold sb4_desc_offset. fold (linux_first_data (fs_sb f)). rewrite F, B.
      replace (uint_le (fs_sb f) p w) with (uint_le (window c 1024 1024) p w) by (now rewrite (op_sb _ _ _ O)). change ((0 + 1) * 1024 + 0 * sb4_desc_size (fs_sb f)) with 1024.
      rewrite !uint_le_window, !window_window by lia. reflexivity.
  Qed.
End Linux.
Print Assumptions linux_descriptors_partial.
Print Assumptions linux_inodes_partial.
Print Assumptions linux_32bit_refused.
Print Assumptions linux_bigalloc_wrong.

(** ** Examples and refutations *)

(** Blocks of 1024 bytes, [groups] groups of 8 of them, two inodes in each, features extents, 64bit and [incompat]. *)
Definition linux_ex_sb (groups incompat ro_compat : N) : bytes :=
  fold_left poke [
    (0x0, to_le 4 (2 * groups)); (0x4, to_le 4 (8 * groups + 1)); (0x14, to_le 4 1); (0x20, to_le 4 8); (0x24, to_le 4 8); (0x28, to_le 4 2);
    (0x38, to_le 2 0xef53); (0x3c, to_le 2 1); (0x4c, to_le 4 1); (0x58, to_le 2 256); (0x60, to_le 4 (0xc0 + incompat)); (0x64, to_le 4 ro_compat);
    (0xfe, to_le 2 64)]
    (zeros 1024).
Definition linux_ex_desc (block : N) : bytes := poke (zeros 64) (0x8, to_le 4 block).

(** Two groups; the inode tables are in blocks 3 and 9; the fourth inode is in use. *)
Definition linux_ex_image : bytes :=
  zeros 1024 ++ linux_ex_sb 2 0 1 ++ linux_ex_desc 3 ++ linux_ex_desc 9 ++ zeros (1024 - 128) ++ zeros (6 * 1024) ++ zeros 256 ++ root_inode_slot ++ zeros (8 * 1024 - 512).

Lemma linux_ex_usual : linux_usual (window linux_ex_image 1024 1024).
Proof.
  constructor; try (vm_compute; reflexivity).
  - exists 16. vm_compute. split; reflexivity.
  - vm_compute. discriminate.
  - exists 4. vm_compute. split; reflexivity.
  - left. vm_compute. discriminate.
  - exists 2. repeat split; try (vm_compute; congruence). right. vm_compute. reflexivity.
Qed.

Example linux_inodes_ex : exists s1 f s2 i,
  fs_open mem_stream (mem_new linux_ex_image 512) = (s1, Ok f) /\ linux_inode_at linux_ex_image 4 9472 /\
  fs_read_inode mem_stream f 4 s1 = (s2, Ok i) /\ in_file_size_bytes i = 4096 /\
  (forall p w, uint_le (in_storage i) p w = uint_le (inode_visible (window linux_ex_image 9472 256)) p w).
Proof.
  assert (Y : match fs_open mem_stream (mem_new linux_ex_image 512) with
    | (s1, Ok f) => match fs_read_inode mem_stream f 4 s1 with
      | (_, Ok i) => (sb4_inode_size (fs_sb f) =? 256) && (in_file_size_bytes i =? 4096)
      | _ => false
      end
    | _ => false
    end = true) by (vm_compute; reflexivity).
  destruct (fs_open mem_stream (mem_new linux_ex_image 512)) as [s1 [f|e|]] eqn:E; [|discriminate Y..].
  destruct (fs_read_inode mem_stream f 4 s1) as [s2 [i|e|]] eqn:R; [|discriminate Y..].
  apply andb_prop in Y as [Z Fs]. apply N.eqb_eq in Z, Fs.
  assert (L : linux_inode_at linux_ex_image 4 9472).
  { exact (linux_inode_offset linux_ex_image 4 linux_ex_usual). }
  exists s1, f, s2, i. split; [reflexivity|]. split; [exact L|]. split; [exact R|]. split.
  - exact Fs.
  - assert (OK : stream_ok mem_stream linux_ex_image (fun _ => False) (mem_at linux_ex_image 512)) by (apply mem_stream_ok; vm_compute; discriminate).
    assert (A : legal (mem_at linux_ex_image 512) (mem_new linux_ex_image 512)) by (exists 0; repeat split; vm_compute; discriminate).
    pose proof (linux_inodes_partial _ _ _ _ OK _ _ _ 4 _ _ _ A E linux_ex_usual ltac:(vm_compute; split; discriminate) L R) as H. cbn beta iota in H.
    rewrite Z in H. exact (proj1 (proj2 H)).
Qed.

Example linux_descriptors_ex : exists s1 f g, fs_open mem_stream (mem_new linux_ex_image 512) = (s1, Ok f) /\ linux_desc_at (fs_sb f) 1 2112 /\
  nth_N (fs_groups f) 1 = Some g /\ uint_le g 8 4 = 9.
Proof.
  assert (Y : match snd (fs_open mem_stream (mem_new linux_ex_image 512)) with Ok _ => true | _ => false end = true) by (vm_compute; reflexivity).
  destruct (fs_open mem_stream (mem_new linux_ex_image 512)) as [s1 [f|e|]] eqn:E; [|discriminate Y..].
  assert (OK : stream_ok mem_stream linux_ex_image (fun _ => False) (mem_at linux_ex_image 512)) by (apply mem_stream_ok; vm_compute; discriminate).
  assert (A : legal (mem_at linux_ex_image 512) (mem_new linux_ex_image 512)) by (exists 0; repeat split; vm_compute; discriminate).
  pose proof (op_sb _ _ _ (proj2 (fs_open_sound _ _ _ _ OK _ _ _ A E))) as Eb.
  assert (L : linux_desc_at (window linux_ex_image 1024 1024) 1 2112) by exact (linux_desc_offset _ 1 linux_ex_usual).
  destruct (linux_descriptors_partial _ _ _ _ OK _ _ _ 2 1 2112 A E linux_ex_usual) as (g & G & H); [|reflexivity|exact L|].
  - split; [vm_compute; discriminate|right; vm_compute; reflexivity].
  - exists s1, f, g. rewrite Eb. split; [reflexivity|]. split; [exact L|]. split; [exact G|]. rewrite H by discriminate. vm_compute. reflexivity.
Qed.

(** 18 groups with the feature meta_bg: Linux has descriptors 16 and 17 in block 129, the first of group 16. *)
Definition meta_bg_image : bytes :=
  zeros 1024 ++ linux_ex_sb 18 0x10 1 ++ concat (map (fun i => linux_ex_desc (7 + 8 * i)) (map N.of_nat (seq 0 16))) ++ zeros (126 * 1024) ++
  linux_ex_desc 135 ++ linux_ex_desc 143 ++ zeros (1024 - 128) ++ zeros (5 * 1024) ++ root_inode_slot ++ zeros (10 * 1024 - 256).

(** C73, false of the code: with the feature meta_bg, which is accepted when opening, inodes are looked up in the wrong
    places. *)
Theorem linux_meta_bg_refuted : ~ (forall c s1 f n o s2 i,
  fs_open mem_stream (mem_new c 512) = (s1, Ok f) -> 1 <= n <= sb4_inodes (fs_sb f) -> linux_inode_at c n o -> o + 256 <= len c ->
  len c <= 2 ^ 20 -> linux_inode_size (fs_sb f) = 256 -> fs_read_inode mem_stream f n s1 = (s2, Ok i) ->
  forall p w, uint_le (in_storage i) p w = uint_le (inode_visible (window c o 256)) p w).
Proof.
  intros H.
  assert (L : linux_inode_at meta_bg_image 33 138240).
  { exists 132096. split; [|vm_compute; reflexivity].
    exists 129. split; [|vm_compute; reflexivity].
    assert (B : ~ linux_backup (window meta_bg_image 1024 1024) 16).
    { intros [X|X]; [discriminate|]. replace (linux_sparse_super2 _) with false in X by (vm_compute; reflexivity).
      replace (linux_sparse_super _) with true in X by (vm_compute; reflexivity). destruct X as [X|[X|(b & n & I & X)]]; [discriminate..|].
      assert (O : N.odd b = true) by (destruct I as [<-|[<-|[<-|[]]]]; reflexivity).
      destruct (N.eq_dec n 0) as [->|N0]; [discriminate|]. pose proof (N.odd_pow b n N0) as Y. rewrite <- X, O in Y. discriminate. }
    assert (Ni : (33 - 1) / sb4_inodes_per_group (window meta_bg_image 1024 1024) / linux_desc_per_block (window meta_bg_image 1024 1024) = 1) by (vm_compute; reflexivity).
    assert (Ng : linux_desc_per_block (window meta_bg_image 1024 1024) * 1 = 16) by (vm_compute; reflexivity).
    rewrite Ni. unfold linux_desc_block. replace (linux_meta_bg _ && _) with true by (vm_compute; reflexivity). cbv zeta. rewrite Ng.
    exists 0. split; [right; split; [exact B|reflexivity]|]. vm_compute. reflexivity. }
  assert (X : exists s1 f s2 i, fs_open mem_stream (mem_new meta_bg_image 512) = (s1, Ok f) /\ fs_read_inode mem_stream f 33 s1 = (s2, Ok i) /\
    sb4_inodes (fs_sb f) = 36 /\ linux_inode_size (fs_sb f) = 256 /\ uint_le (in_storage i) 0 2 = 0).
  { assert (Y : match fs_open mem_stream (mem_new meta_bg_image 512) with
      | (s1, Ok f) => match fs_read_inode mem_stream f 33 s1 with
        | (_, Ok i) => (sb4_inodes (fs_sb f) =? 36) && (linux_inode_size (fs_sb f) =? 256) && (uint_le (in_storage i) 0 2 =? 0)
        | _ => false
        end
      | _ => false
      end = true) by (vm_compute; reflexivity).
    destruct (fs_open mem_stream (mem_new meta_bg_image 512)) as [s1 [f|e|]]; [|discriminate..].
    destruct (fs_read_inode mem_stream f 33 s1) as [s2 [i|e|]] eqn:R; [|discriminate..].
    apply andb_prop in Y as [Y Y3]. apply andb_prop in Y as [Y1 Y2]. apply N.eqb_eq in Y1, Y2, Y3. exists s1, f, s2, i. auto 10. }
  destruct X as (s1 & f & s2 & i & E & R & I & Z & V).
  specialize (H meta_bg_image s1 f 33 138240 s2 i E ltac:(rewrite I; split; discriminate) L ltac:(vm_compute; discriminate) ltac:(vm_compute; discriminate) Z R 0 2%nat).
  rewrite V in H. vm_compute in H. discriminate H.
Qed.
Print Assumptions linux_meta_bg_refuted.

(** The small image again without the feature 64bit, as mke2fs makes it: descriptors of 32 bytes, size not stated. *)
Definition linux_32bit_image : bytes :=
  zeros 1024 ++ poke (poke (linux_ex_sb 2 0 1) (0x60, to_le 4 0x40)) (0xfe, to_le 2 0) ++ window (linux_ex_desc 3) 0 32 ++ window (linux_ex_desc 9) 0 32 ++
  zeros (1024 - 64) ++ zeros (6 * 1024) ++ zeros 256 ++ root_inode_slot ++ zeros (8 * 1024 - 512).

(** Linux finds the fourth inode of it; the code refuses the file system. *)
Theorem linux_32bit_refuted : exists c o s,
  sb4_acceptable (window c 1024 1024) /\ has_bit (uint_le (window c 1024 1024) 0x60 4) 6 = true /\
  linux_inode_at c 4 o /\ window c o 256 = root_inode_slot /\ legal (mem_at c 512) s /\
  snd (fs_open mem_stream s) = Err Unsupported.
Proof.
  exists linux_32bit_image, 9472, (mem_new linux_32bit_image 512).
  assert (L : len linux_32bit_image = 17408) by (vm_compute; reflexivity).
  assert (AC : sb4_acceptable (window linux_32bit_image 1024 1024)) by (apply acceptable_by_computation; vm_compute; reflexivity).
  assert (A : legal (mem_at linux_32bit_image 512) (mem_new linux_32bit_image 512)) by (exists 0; repeat split; rewrite L; discriminate).
  split; [exact AC|]. split; [vm_compute; reflexivity|]. split.
  - exists 2080. split; [|vm_compute; reflexivity]. exists 2. split; vm_compute; reflexivity.
  - split; [vm_compute; reflexivity|]. split; [exact A|]. destruct (fs_open mem_stream (mem_new linux_32bit_image 512)) as [s' r] eqn:E.
    refine (linux_32bit_refused mem_stream linux_32bit_image (fun _ => False) _ _ _ _ _ A _ _ AC _ _ E).
    + apply mem_stream_ok. rewrite L. discriminate.
    + rewrite L. discriminate.
    + auto.
    + vm_compute. reflexivity.
    + vm_compute. discriminate.
Qed.
Print Assumptions linux_32bit_refuted.

(** The small image again with the feature bigalloc and first data block 0. *)
Definition linux_bigalloc_image : bytes :=
  zeros 1024 ++ fold_left poke [(0x14, to_le 4 0); (0x1c, to_le 4 4); (0x64, to_le 4 0x201)] (linux_ex_sb 2 0 1) ++ linux_ex_desc 3 ++ linux_ex_desc 9 ++
  zeros (1024 - 128) ++ zeros (6 * 1024) ++ zeros 256 ++ root_inode_slot ++ zeros (8 * 1024 - 512).

Theorem linux_bigalloc_refuted : exists c s s1 f g s2 i,
  legal (mem_at c 512) s /\ fs_open mem_stream s = (s1, Ok f) /\ linux_inode_at c 4 9472 /\ window c 9472 256 = root_inode_slot /\
  fs_read_inode mem_stream f 4 s1 = (s2, Ok i) /\ uint_le (in_storage i) 0 2 = 0 /\ uint_le root_inode_slot 0 2 = 16877 /\
  nth_N (fs_groups f) 0 = Some g /\ forall p w, p + N.of_nat w <= 60 -> uint_le g p w = uint_le (fs_sb f) p w.
Proof.
  set (c := linux_bigalloc_image). assert (L : len c = 17408) by (vm_compute; reflexivity).
  assert (A : legal (mem_at c 512) (mem_new c 512)) by (exists 0; repeat split; rewrite L; discriminate).
  assert (Y : match fs_open mem_stream (mem_new c 512) with
    | (s1, Ok f) => match fs_read_inode mem_stream f 4 s1, nth_N (fs_groups f) 0 with
      | (_, Ok i), Some _ => negb (linux_meta_bg (fs_sb f)) && (sb4_block_size (fs_sb f) =? 1024) && (linux_first_data (fs_sb f) =? 0) &&
          (sb4_desc_size (fs_sb f) =? 64) && (uint_le (in_storage i) 0 2 =? 0)
      | _, _ => false
      end
    | _ => false
    end = true) by (vm_compute; reflexivity).
  destruct (fs_open mem_stream (mem_new c 512)) as [s1 [f|e|]] eqn:E; [|discriminate Y..].
  destruct (fs_read_inode mem_stream f 4 s1) as [s2 [i|e|]] eqn:R; [|discriminate Y..].
  destruct (nth_N (fs_groups f) 0) as [g|] eqn:G; [|discriminate Y].
  apply andb_prop in Y as [Y Y5]. apply andb_prop in Y as [Y Y4]. apply andb_prop in Y as [Y Y3]. apply andb_prop in Y as [Y1 Y2].
  apply negb_true_iff in Y1. apply N.eqb_eq in Y2, Y3, Y4, Y5.
  assert (OK : stream_ok mem_stream c (fun _ => False) (mem_at c 512)) by (apply mem_stream_ok; rewrite L; discriminate).
  destruct (linux_bigalloc_wrong _ _ _ _ OK _ _ _ A E Y1 Y2 Y3) as [_ W].
  exists c, (mem_new c 512), s1, f, g, s2, i. split; [exact A|]. split; [exact E|]. split.
  - exists 2112. split; [|vm_compute; reflexivity]. exists 2. split; vm_compute; reflexivity.
  - split; [vm_compute; reflexivity|]. split; [exact R|]. split; [exact Y5|]. split; [vm_compute; reflexivity|]. split; [exact G|].
    intros p w P. apply W; [exact G|exact P|lia].
Qed.
Print Assumptions linux_bigalloc_refuted.
