(** Properties C67 and C68: opening a file by its inode number, from the bytes of the device to the content of the file. *)

From Coq Require Import Strings.String.
From Verif Require Import Base BaseFacts Io SpecStream IoFacts SpecMd SuperblockFacts Superblock SpecCrc CrcFacts Crc PropsCrc Ext4Superblock SpecExt4 PropsExt4Superblock
  Ext4Inode SpecExt4Inode PropsExt4Inode Ext4Fs SpecExt4Fs Ext4FsFacts PropsExt4Fs Ext4Extent SpecExt4File Ext4File Ext4FileFacts PropsExt4File
  Ext4Dir SpecExt4Dir PropsExt4Dir PropsExt4Listing PropsExt4Flat PropsExt4Array SpecExt4Open.

Lemma maps_mono c bs limit (P Q : N -> Prop) : (forall q, P q -> Q q) -> forall b p l, maps c bs limit P b p l -> maps c bs limit Q b p l.
Proof.
  intros H. fix IH 4. intros b p l [b' p' l' F D E|b' p' l' F D E].
  - now apply maps_leaf.
  - apply maps_branch; [exact F|exact D|]. revert E. generalize (entries_of b') as es. clear F D b' b l p. revert p' l'.
    fix IHc 4. intros p l es [p'|e es' p' l1 l2 E R M C]; [constructor|]. constructor; [exact E|now apply H|now apply IH|now apply IHc].
Qed.

Lemma sb4_seed_unique sb s s' : sb4_seed sb s -> sb4_seed sb s' -> s = s'.
Proof.
  unfold sb4_seed. destruct (has_bit _ 13); [congruence|]. destruct (has_bit _ 10); [|congruence].
  intros H H'. apply crc32c_is_remainder in H, H'; [congruence|reflexivity..].
Qed.

Lemma inode_seed_unique sb n slot a b : inode_seed sb n slot a -> inode_seed sb n slot b -> a = b.
Proof.
  unfold inode_seed. destruct (has_bit (uint_le sb 0x64 4) 10) eqn:MC; [|congruence].
  intros (s & v & -> & S & V) (s' & v' & -> & S' & V'). pose proof (sb4_seed_unique _ _ _ S S') as <-.
  assert (B : s < 2 ^ 32).
  { unfold sb4_seed in S. rewrite MC in S. destruct (has_bit _ 13); [subst s; apply uint_le_bound|exact (proj1 S)]. }
  apply crc32c_is_remainder in V, V'; [congruence|exact B..].
Qed.

Section Open.
  Context {S : Type} (st : stream S) (c : bytes) (bad : N -> Prop) (at_ : S -> N -> Prop).
  Hypothesis OK : stream_ok st c bad at_.
  Notation legal := (legal at_).
  Context (clone : S -> S * res S).
  (** Cloning fails, or gives another legal handle on the same content. *)
  Hypothesis CL : forall s s' r, legal s -> clone s = (s', r) -> legal s' /\ r <> Panic /\ (forall t, r = Ok t -> legal t).

  (** What the decoded inode says is what the slot says. *)
  Lemma slot_fields sb n slot i : inode_new sb n slot = Ok i ->
    file_type_code (in_file_type i) = slot_kind slot /\ in_file_size_bytes i = slot_size slot /\ in_blocks_buffer i = slot_root slot /\
    contains (in_flags i) flag_hash_indexed = slot_indexed slot /\
    contains (in_flags i) flag_has_extents && negb (contains (in_flags i) flag_has_inline_data) = slot_by_extents slot /\
    inode_seed sb n slot (in_seed i) /\ len (in_storage i) = 160.
  Proof.
    intros E. destruct (inode_published _ _ _ _ E) as (P1 & P2 & _ & _ & RT). cbv zeta in P1, P2.
    destruct (inode_new_decodes _ _ _ _ E) as (_ & IL & SE).
    assert (V : forall o w, o + N.of_nat w <= 128 -> uint_le (inode_visible slot) o w = uint_le slot o w).
    { intros o w H. unfold inode_visible. apply uint_le_prefix. lia. }
    apply Forall_inv in P1 as M. apply Forall_inv_tail in P1. apply Forall_inv_tail in P1. apply Forall_inv in P1 as FL.
    apply Forall_inv_tail in P2. apply Forall_inv in P2 as SZ. cbv beta iota in M, FL, SZ.
    rewrite V in M, FL by (vm_compute; congruence). rewrite !V in SZ by (vm_compute; congruence).
    split; [|split; [|split; [|split; [|split; [|split]]]]].
    - unfold in_file_type. rewrite M. pose proof (uint_le_bound slot 0 2) as B. apply (mode_fields (uint_le slot 0 2) 0 B).
    - rewrite SZ. reflexivity.
    - exact RT.
    - rewrite FL. change flag_hash_indexed with (2 ^ 12). apply contains_bit.
    - rewrite FL. change flag_has_extents with (2 ^ 19). change flag_has_inline_data with (2 ^ 28). now rewrite !contains_bit.
    - exact SE.
    - exact IL.
  Qed.

  Lemma seed_bound sb n slot seed : inode_seed sb n slot seed -> forall sd, seed = Some sd -> sd < 2 ^ 32.
  Proof.
    unfold inode_seed. intros H sd ->. destruct (has_bit _ 10); [|discriminate]. destruct H as (s & v & E & _ & B & _). injection E as ->. exact B.
  Qed.

  (** ** C67: what an opened file is, and what it then answers

      Whatever is on the device and whichever reads fail. *)
  Theorem open_file_sound s s1 F number s2 own a : legal s -> fs_open st s = (s1, Ok F) -> open_file st clone F number s1 = (s2, Ok (own, a)) ->
    let slot := device_slot c number in
    let bs := sb4_block_size (device_sb c) in
    legal s2 /\ 1 <= number <= sb4_inodes (device_sb c) /\ device_slot_offset c number + sb4_inode_size (device_sb c) <= len c /\
    match a with
    | AnyRegular f => slot_kind slot = 8 /\ slot_by_extents slot = true /\
        forall fuel bufs s' f' calls, run_file st fuel own f bufs = Some (s', f', calls) ->
          answers c bs (slot_root slot) (slot_size slot) 0 0 calls
    | AnyDirectory d => slot_kind slot = 4 /\ slot_by_extents slot = true /\ slot_indexed slot = false /\
        exists seed, inode_seed (device_sb c) number slot seed /\
        forall fuel n s' d' rs, run_dir st fuel n own d = Some (s', d', rs) ->
          exists calls, answers c bs (slot_root slot) (slot_size slot) 0 0 calls /\
            Forall (fun '(buf, _, _) => buf = zeros bs) calls /\ listing seed bs calls rs
    | AnyUnsupported t => slot_kind slot <> 8 /\ slot_kind slot <> 4 /\ file_type_code t = slot_kind slot
    end.
  Proof.
    intros A FO E slot bs. destruct (fs_open_sound st c bad at_ OK _ _ _ A FO) as [A1 OP].
    unfold open_file in E. destruct (clone s1) as [s1' r] eqn:C. destruct (CL _ _ _ A1 C) as (A1' & _ & T).
    destruct r as [t|e|]; [|discriminate..]. specialize (T t eq_refl).
    destruct (fs_read_inode st F number s1') as [s3 r] eqn:R. apply pair_equal_spec in E as [-> E].
    destruct r as [i|e|]; [|discriminate..]. cbn [rbind] in E.
    assert (SB : fs_sb F = device_sb c) by apply (op_sb _ _ _ OP).
    destruct (fs_read_inode_sound st c bad at_ OK _ _ _ _ _ A1' OP R) as (A2 & RG & _ & IN & _).
    destruct (fs_read_inode_spec st c bad at_ OK _ _ _ _ _ A1' OP R) as (_ & X). cbv zeta in X, IN.
    destruct X as [(_ & _ & _ & _ & N)|(e & X & _)]; [|discriminate]. symmetry in N. rewrite SB in RG, IN, N.
    fold (device_desc c number) in IN, N. fold (device_slot_offset c number) in IN, N. fold (device_slot c number) in N. fold slot in N.
    destruct (slot_fields _ _ _ _ N) as (K & SZ & RT & HI & HE & SE & IL).
    destruct (any_open F i) as [a'|e|] eqn:AO; [|discriminate..]. cbn [rbind] in E. injection E as -> ->.
    split; [exact A2|]. split; [exact RG|]. split; [exact IN|].
    unfold any_open in AO. unfold bs. rewrite <- SB, <- K, <- RT, <- SZ, <- HE, <- HI.
    destruct (in_file_type i) eqn:FT; try (injection AO as <-; split; [discriminate|split; [discriminate|reflexivity]]).
    - destruct (file_open F i) as [f|e|] eqn:FO'; [|discriminate..]. injection AO as <-. split; [reflexivity|].
      pose proof FO' as FO''. unfold file_open, tree_from_inode in FO''. destruct (_ && _); [|discriminate]. split; [reflexivity|].
      intros fuel bufs s' f' calls RF. exact (file_sound st c bad at_ OK F i OP IL fuel own f bufs s' f' calls T FO' RF).
    - destruct (dir_open F i) as [d|e|] eqn:DO; [|discriminate..]. injection AO as <-. split; [reflexivity|].
      pose proof DO as DO'. unfold dir_open in DO'. destruct (contains (in_flags i) flag_hash_indexed); [discriminate|].
      unfold file_open, tree_from_inode in DO'. destruct (_ && _); [|discriminate]. split; [reflexivity|]. split; [reflexivity|].
      exists (in_seed i). rewrite SB at 1. split; [exact SE|]. intros fuel n s' d' rs RD.
      exact (dir_listing_sound st c bad at_ OK F i OP IL (seed_bound _ _ _ _ SE) fuel n own d s' d' rs T DO RD).
    - injection AO as <-. cbn [file_type_code]. assert (code <> 8 /\ code <> 4) as [K8 K4]; [|auto].
      unfold in_file_type, mode_file_type, file_type_of in FT. clear - FT. set (v := N.shiftr (in_file_mode i) 12 mod 256) in *.
      destruct (v =? 12), (v =? 10), (N.eqb_spec v 8), (v =? 6), (N.eqb_spec v 4), (v =? 2), (v =? 1); try discriminate. injection FT as <-. auto.
  Qed.

  (** ** C67: which files are opened

      With a clone to be had and a readable, well-formed slot, by what the slot says alone. *)
  Theorem open_file_decides s s1 F k number s1' own : legal s -> fs_open st s = (s1, Ok F) -> sb4_group_count (device_sb c) k ->
    u64_ok (len c) -> device_inode c k number -> clone s1 = (s1', Ok own) ->
    let slot := device_slot c number in
    let o := device_slot_offset c number in
    (forall q, o <= q < o + sb4_inode_size (device_sb c) -> ~ bad q) ->
    exists s2 r, open_file st clone F number s1 = (s2, r) /\ legal s2 /\ legal own /\
      if (slot_kind slot =? 8) || (slot_kind slot =? 4) then
        if slot_by_extents slot && negb ((slot_kind slot =? 4) && slot_indexed slot)
        then exists i, len (in_storage i) = 160 /\ in_blocks_buffer i = slot_root slot /\ in_file_size_bytes i = slot_size slot /\
               inode_seed (device_sb c) number slot (in_seed i) /\
               if slot_kind slot =? 8 then exists f, file_open F i = Ok f /\ r = Ok (own, AnyRegular f)
               else exists d, dir_open F i = Ok d /\ r = Ok (own, AnyDirectory d)
        else r = Err Unsupported
      else exists t, r = Ok (own, AnyUnsupported t) /\ file_type_code t = slot_kind slot.
  Proof.
    intros A FO GC U (RG & GL & IN & X1 & X2) C slot o NB. destruct (fs_open_sound st c bad at_ OK _ _ _ A FO) as [A1 OP].
    destruct (CL _ _ _ A1 C) as (A1' & _ & T). specialize (T own eq_refl).
    assert (SB : fs_sb F = device_sb c) by apply (op_sb _ _ _ OP).
    assert (GN : len (fs_groups F) = k).
    { pose proof (op_count _ _ _ OP) as G. pose proof (op_supported _ _ _ OP) as SU. rewrite SB in G, SU.
      exact (group_count_unique _ _ _ (su_bpg _ SU) G GC). }
    destruct (fs_read_inode_complete st c bad at_ OK s1' F number A1' OP) as (s2 & i & R); cbv zeta; rewrite ?SB, ?GN; auto.
    destruct (fs_read_inode_spec st c bad at_ OK _ _ _ _ _ A1' OP R) as (A2 & X). cbv zeta in X.
    destruct X as [(_ & _ & _ & _ & N)|(e & X & _)]; [|discriminate]. symmetry in N. rewrite SB in N.
    fold (device_desc c number) in N. fold (device_slot_offset c number) in N. fold (device_slot c number) in N. fold slot in N.
    destruct (slot_fields _ _ _ _ N) as (K & SZ & RT & HI & HE & SE & IL).
    unfold open_file. rewrite C, R. cbn [rbind]. eexists. eexists. split; [reflexivity|]. split; [exact A2|]. split; [exact T|].
    rewrite <- K, <- HE, <- HI, <- RT, <- SZ. unfold any_open.
    destruct (in_file_type i) eqn:FT; try (cbn; eexists; split; reflexivity).
    - cbn [file_type_code N.eqb orb Pos.eqb andb negb]. rewrite andb_true_r. unfold file_open, tree_from_inode. destruct (_ && _) eqn:BE; [|reflexivity].
      exists i. do 4 (split; [auto|]). rewrite BE. cbn [rbind ok_or]. eexists. split; reflexivity.
    - cbn [file_type_code N.eqb orb Pos.eqb andb negb]. unfold dir_open. destruct (contains (in_flags i) flag_hash_indexed) eqn:HI'; cbn [negb].
      + now rewrite andb_false_r.
      + rewrite andb_true_r. unfold file_open, tree_from_inode. destruct (_ && _) eqn:BE; [|reflexivity].
        exists i. do 4 (split; [auto|]). rewrite HI', BE. cbn [rbind ok_or]. eexists. split; reflexivity.
    - cbn [file_type_code]. assert (code <> 8 /\ code <> 4) as [K8 K4].
      { unfold in_file_type, mode_file_type, file_type_of in FT. clear - FT. set (v := N.shiftr (in_file_mode i) 12 mod 256) in *.
        destruct (v =? 12), (v =? 10), (N.eqb_spec v 8), (v =? 6), (N.eqb_spec v 4), (v =? 2), (v =? 1); try discriminate. injection FT as <-. auto. }
      apply N.eqb_neq in K8, K4. rewrite K8, K4. cbn. eexists. split; reflexivity.
  Qed.

  (** ** C68: a file is read back as it is on the device

      From the superblock to the last byte: opening the file system, opening the file by its inode number and reading
      blocks until the end delivers exactly the bytes of the device blocks that the extents of the inode name, in order,
      cut to the size of the file, whatever else on the device cannot be read.  (Partial: the extents map every block of the file and have at most 32767 blocks; see
      C49-C51 for the other files.) *)
  Theorem read_file_partial s k number l bufs : legal s -> (forall s, legal s -> exists s' t, clone s = (s', Ok t)) ->
    device_supported c k -> device_inode c k number -> metadata_good c bad k number ->
    let slot := device_slot c number in
    let bs := sb4_block_size (device_sb c) in
    slot_kind slot = 8 -> slot_by_extents slot = true ->
    maps c bs 32767 (block_good c bad bs) (slot_root slot) 0 l ->
    Forall (block_good c bad bs) l -> len l <= u32_max -> slot_size slot <= len l * bs < slot_size slot + bs ->
    (length l <= length bufs)%nat -> Forall (fun buf => len buf = bs) bufs ->
    exists s1 F s2 own f fuel s' f' calls,
      fs_open st s = (s1, Ok F) /\ open_file st clone F number s1 = (s2, Ok (own, AnyRegular f)) /\
      run_file st fuel own f bufs = Some (s', f', calls) /\
      delivered calls = file_content c bs (slot_size slot) l /\ len (delivered calls) = slot_size slot /\
      Forall (fun '(_, _, r) => exists n, r = Ok n) calls.
  Proof.
    intros A CL' (L & U & AC & SU & GC & TB & AL) DI NB slot bs K8 BE M IN LL SZ LB LBs.
    destruct (fs_open_complete st c bad at_ OK s k A L AC SU GC TB U AL) as (s1 & F & FO & A1 & OP); [intros q [Q|Q]; apply NB; auto|].
    destruct (CL' s1 A1) as (s1' & own & C).
    destruct (open_file_decides s s1 F k number s1' own A FO GC U DI C) as (s2 & r & E & A2 & T & X); [intros q Q; apply NB; auto|].
    fold slot in X. rewrite K8, BE in X. cbn [N.eqb Pos.eqb orb andb negb] in X. destruct X as (i & IL & RT & SZ' & _ & f & FO' & ->).
    assert (SB : fs_sb F = device_sb c) by apply (op_sb _ _ _ OP).
    assert (RDB : forall q, block_good c bad bs q -> readable c bad F q).
    { intros q Q. unfold readable. rewrite SB. fold bs. exact Q. }
    assert (M' : maps c (sb4_block_size (fs_sb F)) 32767 (readable c bad F) (in_blocks_buffer i) 0 l).
    { rewrite SB, RT. eapply maps_mono; [exact RDB|exact M]. }
    destruct (file_complete_partial st c bad at_ OK F i OP IL own f l bufs T FO' U M') as (fuel & s' & f' & RF); auto.
    - eapply Forall_impl; [|exact IN]. exact RDB.
    - rewrite SB, SZ'. exact SZ.
    - rewrite SB. exact LBs.
    - rewrite SB, SZ' in RF. fold bs in RF. destruct (file_calls_deliver c bs (slot_size slot) l bufs LB) as [DE LE]; [lia|eapply Forall_impl; [|exact IN]; intros q [Q _]; exact Q|].
      exists s1, F, s2, own, f, fuel, s', f', (file_calls c bs (slot_size slot) l 0 bufs).
      do 4 (split; [assumption|]). split; [now rewrite DE|]. clear. generalize (slot_size slot) as z, 0 as t. intros z.
      revert l. induction bufs as [|b bufs IH]; intros l t; [destruct l; constructor|]. destruct l as [|q l]; cbn [file_calls]; constructor; eauto.
  Qed.

  (** The same for a directory: it lists the records of its blocks in order, and then ends.  (Partial as above, and the
      records of each block fill it, with a tail with the right checksum where the file system has them.) *)
  Theorem list_directory_partial s k number seed l ess n : legal s -> (forall s, legal s -> exists s' t, clone s = (s', Ok t)) ->
    device_supported c k -> device_inode c k number -> metadata_good c bad k number ->
    let slot := device_slot c number in
    let bs := sb4_block_size (device_sb c) in
    slot_kind slot = 4 -> slot_by_extents slot = true -> slot_indexed slot = false -> inode_seed (device_sb c) number slot seed ->
    maps c bs 32767 (block_good c bad bs) (slot_root slot) 0 l ->
    Forall (block_good c bad bs) l -> len l <= u32_max -> slot_size slot = len l * bs ->
    Forall2 (fun q es => dir_tail_ok seed (device_block c bs q) /\
               records (device_block c bs q) (dir_limit seed (device_block c bs q)) 0 es) l ess ->
    exists s1 F s2 own d fuel s' d',
      fs_open st s = (s1, Ok F) /\ open_file st clone F number s1 = (s2, Ok (own, AnyDirectory d)) /\
      run_dir st fuel n own d = Some (s', d', firstn n (map (fun e => Ok (Some e)) (concat ess) ++ repeat (Ok None) n)).
  Proof.
    intros A CL' (L & U & AC & SU & GC & TB & AL) DI NB slot bs K4 BE NI SD M IN LL SZ RE.
    destruct (fs_open_complete st c bad at_ OK s k A L AC SU GC TB U AL) as (s1 & F & FO & A1 & OP); [intros q [Q|Q]; apply NB; auto|].
    destruct (CL' s1 A1) as (s1' & own & C).
    destruct (open_file_decides s s1 F k number s1' own A FO GC U DI C) as (s2 & r & E & A2 & T & X); [intros q Q; apply NB; auto|].
    fold slot in X. rewrite K4, BE, NI in X. cbn [N.eqb Pos.eqb orb andb negb] in X. destruct X as (i & IL & RT & SZ' & SD' & d & DO & ->).
    pose proof (inode_seed_unique _ _ _ _ _ SD SD') as ->.
    assert (SB : fs_sb F = device_sb c) by apply (op_sb _ _ _ OP).
    assert (RDB : forall q, block_good c bad bs q -> readable c bad F q).
    { intros q Q. unfold readable. rewrite SB. fold bs. exact Q. }
    assert (M' : maps c (sb4_block_size (fs_sb F)) 32767 (readable c bad F) (in_blocks_buffer i) 0 l).
    { rewrite SB, RT. eapply maps_mono; [exact RDB|exact M]. }
    destruct (dir_listing_complete_partial st c bad at_ OK F i OP IL (seed_bound _ _ _ _ SD') own d l ess n T DO U M') as (fuel & s' & d' & RD); auto.
    - eapply Forall_impl; [|exact IN]. exact RDB.
    - rewrite SB, SZ'. exact SZ.
    - rewrite SB. exact RE.
    - exists s1, F, s2, own, d, fuel, s', d'. auto.
  Qed.
End Open.
Print Assumptions open_file_sound.
Print Assumptions open_file_decides.
Print Assumptions read_file_partial.
Print Assumptions list_directory_partial.

(** ** Examples

    The image of PropsExt4File with, in the slot of inode 5, the file of four blocks of that module; in that of inode 6 a
    directory of one block, without a checksum; in
    that of inode 7 an indexed directory; in that of inode 8 a symbolic link. *)
Definition ex_slot (mode size flags : N) (root : bytes) : bytes :=
  fold_left poke [(0, to_le 2 mode); (0x4, to_le 4 size); (0x20, to_le 4 flags); (0x28, root); (0x80, to_le 2 32)] (zeros 256).
Definition ex_plain_block (ds : list (dirent * N)) : bytes :=
  let b := concat (map encode_record ds) in b ++ zeros (1024 - len b).
Definition plain_block : list (dirent * N) := [(Dirent 2 [x2e] x02, 3); (Dirent 2 [x2e; x2e] x02, 2); (Dirent 12 [x61; x62] x01, 990)].
Definition open_image : bytes :=
  fold_left poke [
    (4096, ex_slot 0x81a4 3500 0x80000 (in_blocks_buffer ex_file));
    (4352, ex_slot 0x41ed 1024 0x80000 (ex_root (ex_header 1 4 0 ++ ex_extent 0 1 15)));
    (4608, ex_slot 0x41ed 1024 0x81000 (ex_root (ex_header 1 4 0 ++ ex_extent 0 1 15)));
    (4864, ex_slot 0xa1ff 7 0 (zeros 60));
    (15360, ex_plain_block plain_block)] ex_image.

Lemma open_image_len : len open_image = 16384.
Proof. vm_compute. reflexivity. Qed.
Lemma open_image_u64 : u64_ok (len open_image).
Proof. rewrite open_image_len. discriminate. Qed.
Lemma open_image_ok : stream_ok mem_stream open_image (fun _ => False) (mem_at open_image 512).
Proof. apply mem_stream_ok, open_image_u64. Qed.
Lemma open_image_start : legal (mem_at open_image 512) (mem_new open_image 512).
Proof. exists 0. repeat split. rewrite open_image_len. discriminate. Qed.
Lemma open_image_sb : device_sb open_image = small_sb.
Proof. vm_compute. reflexivity. Qed.
Lemma open_image_supported : device_supported open_image 1.
Proof.
  assert (O : opened open_image (fs_sb ex_fs) (fs_groups ex_fs)).
  { eapply (opened_by_computation open_image); [exact open_image_u64|]. vm_compute. reflexivity. }
  unfold device_supported. rewrite open_image_len. fold (device_sb open_image). rewrite <- (op_sb _ _ _ O : _ = device_sb open_image).
  split; [discriminate|]. split; [discriminate|]. split; [apply (op_acceptable _ _ _ O)|]. split; [apply (op_supported _ _ _ O)|].
  split; [apply (op_count _ _ _ O)|]. split; vm_compute; discriminate.
Qed.
Lemma open_image_inode n : In n [5; 6; 7; 8] -> device_inode open_image 1 n.
Proof. intros [<-|[<-|[<-|[<-|[]]]]]; vm_compute; repeat split; discriminate. Qed.
Lemma mem_clone_ok c bs s s' r : legal (mem_at c bs) s -> mem_clone s = (s', r) ->
  legal (mem_at c bs) s' /\ r <> Panic /\ (forall t, r = Ok t -> legal (mem_at c bs) t).
Proof.
  intros A E. unfold mem_clone in E. cbn in E. injection E as <- <-. split; [exact A|]. split; [discriminate|]. now intros t [= <-].
Qed.
Lemma mem_clone_there c bs s : legal (mem_at c bs) s -> exists s' t, mem_clone s = (s', Ok t).
Proof. intros A. eexists. eexists. reflexivity. Qed.

Example open_file_sound_ex : exists s1 F, fs_open mem_stream (mem_new open_image 512) = (s1, Ok F) /\
  (exists f own, snd (open_file mem_stream mem_clone F 5 s1) = Ok (own, AnyRegular f)) /\
  (exists d own, snd (open_file mem_stream mem_clone F 6 s1) = Ok (own, AnyDirectory d)) /\
  snd (open_file mem_stream mem_clone F 7 s1) = Err Unsupported /\
  (exists own, snd (open_file mem_stream mem_clone F 8 s1) = Ok (own, AnyUnsupported FtSymbolicLink)) /\
  snd (open_file mem_stream mem_clone F 17 s1) = Err InvalidInput.
Proof.
  eexists. eexists. split; [vm_compute; reflexivity|].
  split; [eexists; eexists; vm_compute; reflexivity|]. split; [eexists; eexists; vm_compute; reflexivity|].
  split; [vm_compute; reflexivity|]. split; [eexists; vm_compute; reflexivity|]. vm_compute. reflexivity.
Qed.

Example open_file_decides_ex : exists s1 F s1' own, fs_open mem_stream (mem_new open_image 512) = (s1, Ok F) /\
  mem_clone s1 = (s1', Ok own) /\ sb4_group_count (device_sb open_image) 1 /\ device_inode open_image 1 7 /\
  slot_kind (device_slot open_image 7) = 4 /\ slot_by_extents (device_slot open_image 7) = true /\ slot_indexed (device_slot open_image 7) = true.
Proof.
  eexists. eexists. eexists. eexists. split; [vm_compute; reflexivity|]. split; [reflexivity|].
  split; [apply open_image_supported|]. split; [apply open_image_inode; cbn; auto|]. vm_compute. repeat split.
Qed.

Lemma on_image q : q < 16 -> block_good open_image (fun _ => False) 1024 q.
Proof. intros Q. split; [rewrite open_image_len; lia|auto]. Qed.

Example read_file_ex : exists s1 F s2 own f fuel s' f' calls,
  fs_open mem_stream (mem_new open_image 512) = (s1, Ok F) /\ open_file mem_stream mem_clone F 5 s1 = (s2, Ok (own, AnyRegular f)) /\
  run_file mem_stream fuel own f (repeat (zeros 1024) 5) = Some (s', f', calls) /\
  delivered calls = repeat x12 1024 ++ repeat x14 1024 ++ repeat x08 1024 ++ repeat x09 428.
Proof.
  pose proof open_image_sb as SB. pose proof open_image_supported as SU. pose proof (open_image_inode 5 ltac:(cbn; auto)) as DI.
  pose proof (read_file_partial mem_stream open_image (fun _ => False) (mem_at open_image 512) open_image_ok mem_clone (mem_clone_ok open_image 512)
    (mem_new open_image 512) 1 5 [12; 14; 8; 9] (repeat (zeros 1024) 5) open_image_start (mem_clone_there open_image 512) SU DI (fun _ _ F => F)) as R.
  cbv zeta in R. assert (BS : sb4_block_size (device_sb open_image) = 1024) by (vm_compute; reflexivity). rewrite BS in R.
  assert (SZ : slot_size (device_slot open_image 5) = 3500) by (vm_compute; reflexivity). rewrite SZ in R.
  assert (RT : slot_root (device_slot open_image 5) = in_blocks_buffer ex_file) by (vm_compute; reflexivity). rewrite RT in R.
  destruct R as (s1 & F & s2 & own & f & fuel & s' & f' & calls & R1 & R2 & R3 & R4 & _).
  - vm_compute. reflexivity.
  - vm_compute. reflexivity.
  - apply maps_branch; [vm_compute; congruence|vm_compute; congruence|].
    replace (entries_of (in_blocks_buffer ex_file)) with [ex_index 0 10; ex_index 2 11] by (vm_compute; reflexivity).
    apply (children_cons _ _ _ _ _ _ 0 [12; 14] [8; 9]); [reflexivity|apply on_image; vm_compute; reflexivity| |].
    + apply maps_leaf; [vm_compute; congruence|vm_compute; congruence|].
      replace (entries_of _) with [ex_extent 0 1 12; ex_extent 1 1 14] by (vm_compute; reflexivity).
      cbn [extents_map]. split; [reflexivity|]. split; [vm_compute; congruence|]. split; [vm_compute; congruence|].
      exists [14]. split; [reflexivity|]. split; [reflexivity|]. split; [vm_compute; congruence|]. split; [vm_compute; congruence|].
      exists []. split; reflexivity.
    + apply (children_cons _ _ _ _ _ _ (0 + len [12; 14]) [8; 9] []); [reflexivity|apply on_image; vm_compute; reflexivity| |constructor].
      apply maps_leaf; [vm_compute; congruence|vm_compute; congruence|].
      replace (entries_of _) with [ex_extent 2 2 8] by (vm_compute; reflexivity).
      cbn [extents_map]. split; [reflexivity|]. split; [vm_compute; congruence|]. split; [vm_compute; congruence|].
      exists []. split; reflexivity.
  - repeat constructor; apply on_image; reflexivity.
  - discriminate.
  - split; [discriminate|reflexivity].
  - cbn. lia.
  - apply Forall_forall. intros b Hb. apply repeat_spec in Hb as ->. apply len_zeros.
  - exists s1, F, s2, own, f, fuel, s', f', calls. do 3 (split; [assumption|]). rewrite R4. vm_compute. reflexivity.
Qed.

Lemma plain_block_ok : Forall dirent_ok plain_block.
Proof. unfold plain_block. repeat (constructor; [repeat split; try (vm_compute; congruence); cbn [In]; intuition discriminate|]). constructor. Qed.

Example list_directory_ex : exists s1 F s2 own d fuel s' d',
  fs_open mem_stream (mem_new open_image 512) = (s1, Ok F) /\ open_file mem_stream mem_clone F 6 s1 = (s2, Ok (own, AnyDirectory d)) /\
  run_dir mem_stream fuel 5 own d = Some (s', d', map (fun e => Ok (Some e)) (map encode_record plain_block) ++ [Ok None; Ok None]).
Proof.
  pose proof open_image_supported as SU. pose proof (open_image_inode 6 ltac:(cbn; auto)) as DI.
  pose proof (list_directory_partial mem_stream open_image (fun _ => False) (mem_at open_image 512) open_image_ok mem_clone (mem_clone_ok open_image 512)
    (mem_new open_image 512) 1 6 None [15] [map encode_record plain_block] 5 open_image_start (mem_clone_there open_image 512) SU DI (fun _ _ F => F)) as R.
  cbv zeta in R. assert (BS : sb4_block_size (device_sb open_image) = 1024) by (vm_compute; reflexivity). rewrite BS in R.
  assert (B : device_block open_image 1024 15 = ex_plain_block plain_block) by (vm_compute; reflexivity).
  destruct R as (s1 & F & s2 & own & d & fuel & s' & d' & R1 & R2 & R3).
  - vm_compute. reflexivity.
  - vm_compute. reflexivity.
  - vm_compute. reflexivity.
  - unfold inode_seed. replace (has_bit _ 10) with false by (vm_compute; reflexivity). reflexivity.
  - apply maps_leaf; [vm_compute; congruence|vm_compute; congruence|].
    replace (entries_of _) with [ex_extent 0 1 15] by (vm_compute; reflexivity).
    cbn [extents_map]. split; [reflexivity|]. split; [vm_compute; congruence|]. split; [vm_compute; congruence|].
    exists []. split; reflexivity.
  - repeat constructor; apply on_image; reflexivity.
  - discriminate.
  - vm_compute. reflexivity.
  - constructor; [|constructor]. rewrite B. split; [exact I|].
    pose proof (encoded_records plain_block [] [] plain_block_ok) as ER. cbn [app] in ER. rewrite app_nil_r in ER.
    replace (ex_plain_block plain_block) with (concat (map encode_record plain_block)) by (vm_compute; reflexivity).
    exact ER.
  - exists s1, F, s2, own, d, fuel, s', d'. do 2 (split; [assumption|]). rewrite R3. reflexivity.
Qed.
