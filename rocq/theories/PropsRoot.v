(** Properties C126, C73: the root of a file system is its second inode, wherever the device was left. *)

From Verif Require Import Base BaseFacts Io SpecStream IoFacts SpecMd SpecExt4 SpecExt4Inode SpecExt4Fs SpecExt4Linux Superblock Ext4Superblock Ext4Inode Ext4Fs
  SuperblockFacts TestData Ext4FsFacts PropsExt4Superblock PropsExt4Inode PropsExt4Fs PropsExt4Linux.

(** The number that Linux gives to the root (fs/ext4/ext4.h, EXT4_ROOT_INO). *)
Definition linux_root_number : N := 2.

(** The second slot of the inode table of the first group starts at byte [o]. *)
Definition second_slot_at (c : bytes) (o : N) : Prop :=
  let sb := window c 1024 1024 in
  let bs := 1024 * 2 ^ uint_le sb 0x18 4 in
  let desc := window c ((uint_le sb 0x14 4 + 1) * bs) (uint_le sb 0xfe 2) in
  o = (uint_le desc 0x8 4 + 2 ^ 32 * uint_le desc 0x28 4) * bs + uint_le sb 0x58 2.

Section Root.
  Context {S : Type} (st : stream S) (c : bytes) (bad : N -> Prop) (at_ : S -> N -> Prop) (OK : stream_ok st c bad at_).
  Let legal := legal at_.

  (** C126: if groups have room for two inodes or more, the root is read from the second slot of the first table, and
      from any position of the device; it is refused only if there are no two inodes, or if the slot is not readable. *)
  Theorem root_inode_found : forall s0 s1 f s s2 r o, legal s0 -> fs_open st s0 = (s1, Ok f) -> legal s ->
    2 <= uint_le (window c 1024 1024) 0x28 4 -> second_slot_at c o ->
    fs_read_root_inode st f s = (s2, r) ->
    let sb := window c 1024 1024 in
    let size := uint_le sb 0x58 2 in
    let slot := window c o size in
    legal s2 /\
    match r with
    | Ok i => 2 <= uint_le sb 0 4 /\ o + size <= len c /\
        (forall p w, uint_le (in_storage i) p w = uint_le (inode_visible slot) p w) /\ inode_seed sb linux_root_number slot (in_seed i)
    | Err e => ((uint_le sb 0 4 < 2 \/ sb4_group_count sb 0) /\ e = InvalidInput) \/
        2 <= uint_le sb 0 4 /\ (len c < o + size \/ ~ u64_ok o \/ exists q, o <= q < o + size /\ bad q)
    | Panic => 2 <= uint_le sb 0 4 /\ (32 < inode_extra slot \/ size < 128 + inode_extra slot)
    end.
  Proof.
    intros s0 s1 f s s2 r o A0 E A P L X. cbv zeta. destruct (fs_open_sound st c bad at_ OK s0 s1 f A0 E) as [_ O].
    pose proof (op_sb _ _ _ O) as Eb. set (sb := window c 1024 1024) in *.
    assert (IG : inode_group (fs_sb f) 2 = 0) by (unfold inode_group; apply N.div_small; rewrite Eb; change (2 - 1) with 1; unfold sb4_inodes_per_group; lia).
    assert (EO : inode_offset (fs_sb f) (window c (sb4_desc_offset (fs_sb f) (inode_group (fs_sb f) 2)) (sb4_desc_size (fs_sb f))) 2 = o).
    { rewrite IG. unfold inode_offset, inode_index. rewrite N.mod_small by (rewrite Eb; change (2 - 1) with 1; unfold sb4_inodes_per_group; lia).
      unfold second_slot_at in L. cbv zeta in L. fold sb in L. rewrite Eb, L. unfold sb4_desc_offset, desc_inode_table. rewrite N.mul_0_l, N.add_0_r.
      change (2 - 1) with 1. rewrite N.mul_1_l. replace (sb4_block_size sb) with (1024 * 2 ^ uint_le sb 0x18 4); [reflexivity|].
      unfold sb4_block_size. rewrite N.pow_add_r. reflexivity. }
    unfold fs_read_root_inode in X. lazymatch type of X with fs_read_inode _ _ 2 _ = _ => idtac end.
    destruct (fs_read_inode_spec st c bad at_ OK s f 2 s2 r A O X) as (A2 & Y). cbv zeta in Y. rewrite EO, IG in Y. split; [exact A2|].
    assert (CN : len (fs_groups f) <= 0 -> sb4_group_count sb 0).
    { intros Z. pose proof (op_count _ _ _ O) as CN. rewrite Eb in CN. replace (len (fs_groups f)) with 0 in CN by lia. exact CN. }
    destruct r as [i|e|].
    - destruct (fs_read_inode_sound st c bad at_ OK s f 2 s2 i A O X) as (_ & R & _ & H1 & H2 & H3).
      rewrite EO in H1, H2, H3. rewrite Eb in R, H1, H2, H3. unfold sb4_inodes in R. unfold sb4_inode_size in *. split; [lia|]. auto.
    - rewrite Eb in Y. unfold sb4_inodes, sb4_inode_size in Y. destruct Y as [(_ & _ & _ & _ & N)|(e' & Q & [(C & Q')|[(C & C' & Q')|(C & _ & C')]])].
      + symmetry in N. now apply inode_new_no_error in N.
      + left. injection Q as ->. split; [lia|exact Q'].
      + left. injection Q as ->. split; [right; exact (CN C')|exact Q'].
      + right. split; [lia|exact C'].
    - pose proof (fs_read_inode_panics_only st c bad at_ OK s f 2 A O ltac:(now rewrite X)) as H. cbv zeta in H. rewrite EO, Eb in H.
      unfold sb4_inodes, sb4_inode_size in H. split; [lia|]. exact (proj2 H).
  Qed.

  (** C73: with the usual geometry that is the inode which Linux has for the root, however few inodes a group has. *)
  Theorem root_inode_linux_partial : forall s s1 f s2 i o, legal s -> fs_open st s = (s1, Ok f) -> linux_usual (window c 1024 1024) ->
    linux_inode_at c linux_root_number o -> fs_read_root_inode st f s1 = (s2, Ok i) ->
    let slot := window c o (linux_inode_size (window c 1024 1024)) in
    o + linux_inode_size (window c 1024 1024) <= len c /\
    (forall p w, uint_le (in_storage i) p w = uint_le (inode_visible slot) p w) /\ inode_seed (window c 1024 1024) linux_root_number slot (in_seed i).
  Proof.
    intros s s1 f s2 i o A E U L X. cbv zeta. destruct (fs_open_sound st c bad at_ OK s s1 f A E) as [A1 O].
    pose proof (op_sb _ _ _ O) as Eb. unfold fs_read_root_inode in X. lazymatch type of X with fs_read_inode _ _ 2 _ = _ => idtac end.
    destruct (fs_read_inode_sound st c bad at_ OK s1 f 2 s2 i A1 O X) as (_ & R & _). rewrite Eb in R.
    pose proof (linux_inodes_partial st c bad at_ OK s s1 f 2 o s2 (Ok i) A E U R L X) as H. cbn beta iota in H. rewrite Eb in H.
    assert (Z : linux_inode_size (window c 1024 1024) = sb4_inode_size (window c 1024 1024)).
    { unfold linux_inode_size. destruct (N.eqb_spec (uint_le (window c 1024 1024) 0x4c 4) 0); [|reflexivity].
      destruct (lu_revision _ U); [contradiction|congruence]. }
    rewrite Z. exact H.
  Qed.
End Root.
Print Assumptions root_inode_found.
Print Assumptions root_inode_linux_partial.

(** The image of C73 with the inode in use moved to the second slot of the first table, which is in block 3. *)
Definition root_ex_image : bytes :=
  zeros 1024 ++ linux_ex_sb 2 0 1 ++ linux_ex_desc 3 ++ linux_ex_desc 9 ++ zeros (1024 - 128) ++ zeros 256 ++ root_inode_slot ++ zeros (14 * 1024 - 512).

Lemma root_ex_usual : linux_usual (window root_ex_image 1024 1024).
Proof.
  constructor; try (vm_compute; reflexivity).
  - exists 16. vm_compute. split; reflexivity.
  - vm_compute. discriminate.
  - exists 4. vm_compute. split; reflexivity.
  - left. vm_compute. discriminate.
  - exists 2. repeat split; try (vm_compute; congruence). right. vm_compute. reflexivity.
Qed.

(** The root is found after reading another inode as well, from wherever that left the device. *)
Example root_inode_ex : exists s1 f s2 j s3 i,
  fs_open mem_stream (mem_new root_ex_image 512) = (s1, Ok f) /\ fs_read_inode mem_stream f 4 s1 = (s2, Ok j) /\ in_file_size_bytes j = 0 /\
  second_slot_at root_ex_image 3328 /\ linux_inode_at root_ex_image linux_root_number 3328 /\
  fs_read_root_inode mem_stream f s2 = (s3, Ok i) /\ in_file_size_bytes i = 4096 /\
  (forall p w, uint_le (in_storage i) p w = uint_le (inode_visible root_inode_slot) p w).
Proof.
  assert (Y : match fs_open mem_stream (mem_new root_ex_image 512) with
    | (s1, Ok f) => match fs_read_inode mem_stream f 4 s1 with
      | (s2, Ok j) => match fs_read_root_inode mem_stream f s2 with
        | (_, Ok i) => (in_file_size_bytes j =? 0) && (in_file_size_bytes i =? 4096)
        | _ => false
        end
      | _ => false
      end
    | _ => false
    end = true) by (vm_compute; reflexivity).
  destruct (fs_open mem_stream (mem_new root_ex_image 512)) as [s1 [f|e|]] eqn:E; [|discriminate Y..].
  destruct (fs_read_inode mem_stream f 4 s1) as [s2 [j|e|]] eqn:J; [|discriminate Y..].
  destruct (fs_read_root_inode mem_stream f s2) as [s3 [i|e|]] eqn:R; [|discriminate Y..].
  apply andb_prop in Y as [Y1 Y2]. apply N.eqb_eq in Y1, Y2.
  assert (L : second_slot_at root_ex_image 3328) by (vm_compute; reflexivity).
  assert (OK : stream_ok mem_stream root_ex_image (fun _ => False) (mem_at root_ex_image 512)) by (apply mem_stream_ok; vm_compute; discriminate).
  assert (A : legal (mem_at root_ex_image 512) (mem_new root_ex_image 512)) by (exists 0; repeat split; vm_compute; discriminate).
  destruct (fs_open_sound _ _ _ _ OK _ _ _ A E) as [A1 O].
  destruct (fs_read_inode_sound _ _ _ _ OK _ _ _ _ _ A1 O J) as (A2 & _).
  destruct (root_inode_found _ _ _ _ OK _ _ _ _ _ _ _ A E A2 ltac:(vm_compute; discriminate) L R) as (_ & _ & _ & H & _).
  exists s1, f, s2, j, s3, i. split; [reflexivity|]. split; [exact J|]. split; [exact Y1|]. split; [exact L|].
  split; [exact (linux_inode_offset root_ex_image 2 root_ex_usual)|]. split; [exact R|]. split; [exact Y2|].
  replace root_inode_slot with (window root_ex_image 3328 (uint_le (window root_ex_image 1024 1024) 0x58 2)) by (vm_compute; reflexivity). exact H.
Qed.
