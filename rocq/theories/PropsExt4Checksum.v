(** Property C74: metadata with a wrong checksum. *)

From Verif Require Import Base BaseFacts Io SpecStream IoFacts SpecMd SpecCrc SpecExt4 SpecExt4Inode SpecExt4Fs SpecExt4File SpecExt4Open SpecExt4Checksum
  Superblock SuperblockFacts Crc CrcFacts PropsCrc TestData Ext4Superblock Ext4Inode Ext4Fs Ext4File Ext4Dir
  PropsExt4Array PropsExt4Superblock PropsExt4Inode PropsExt4Fs PropsExt4File PropsExt4Open.

(** ** Both checksums can be computed *)

Lemma group_checksum_iff sb group desc : group_checksum_ok sb group desc <->
  uint_le desc 0x1e 2 = ext4_crc32c (e4_checksum_seed sb) (to_le 4 group ++ window desc 0 0x1e ++ zeros 2 ++ window desc 0x20 (len desc - 0x20)) mod 2 ^ 16.
Proof.
  unfold group_checksum_ok. split.
  - intros (seed & v & S & C & E). apply sb4_seed_published in S. subst seed. apply crc32c_is_remainder in C; [|apply checksum_seed_bound]. now subst v.
  - intros E. exists (e4_checksum_seed sb). eexists. split; [now apply sb4_seed_published|]. split; [|exact E].
    apply crc32c_is_remainder; [apply checksum_seed_bound|reflexivity].
Qed.

Definition slot_seed (sb : bytes) (number : N) (slot : bytes) : N := ext4_crc32c (e4_checksum_seed sb) (to_le 4 number ++ window slot 100 4).
Definition slot_crc (sb : bytes) (number : N) (slot : bytes) : N :=
  ext4_crc32c (slot_seed sb number slot) (window slot 0 0x7c ++ zeros 2 ++ window slot 0x7e 4 ++
    (if 4 <=? inode_extra slot then zeros 2 else window slot 0x82 2) ++ window slot 0x84 (len slot - 0x84)).

Lemma inode_checksum_iff sb number slot : metadata_csum sb = true -> inode_checksum_ok sb number slot <->
  uint_le slot 0x7c 2 = slot_crc sb number slot mod 2 ^ 16 /\ (4 <= inode_extra slot -> uint_le slot 0x82 2 = slot_crc sb number slot / 2 ^ 16).
Proof.
  unfold metadata_csum, inode_checksum_ok, inode_seed. intros M. rewrite M. cbv zeta. rewrite <- N.leb_le.
  assert (SB : slot_seed sb number slot < 2 ^ 32) by apply crc32c_bound, checksum_seed_bound.
  split.
  - intros (seed & v & (s & sd & [= <-] & S & C1) & C & E). apply sb4_seed_published in S. subst s.
    apply crc32c_is_remainder in C1; [|apply checksum_seed_bound]. fold (slot_seed sb number slot) in C1. subst seed.
    apply crc32c_is_remainder in C; [|exact SB]. fold (slot_crc sb number slot) in C. subst v. exact E.
  - intros E. exists (slot_seed sb number slot), (slot_crc sb number slot). split; [|split; [apply crc32c_is_remainder; [exact SB|reflexivity]|exact E]].
    exists (e4_checksum_seed sb), (slot_seed sb number slot). split; [reflexivity|]. split; [now apply sb4_seed_published|].
    apply crc32c_is_remainder; [apply checksum_seed_bound|reflexivity].
Qed.

(** The specification agrees with real images: the first descriptor and the root inode of src/ext4/test_data/ext4-100MB-empty
    (those of the other test data, with the UUID of that image). *)
Definition empty_100mb_superblock : bytes :=
  poke root_inode_superblock (0x68, [x6c; x74; x93; x54; x0f; xb2; x40; x7a; x87; x79; xbb; x3e; x4a; x36; x44; xb8]).

Example group_checksum_ex : group_checksum_ok empty_100mb_superblock 0 group_descriptor_bytes.
Proof. apply group_checksum_iff. vm_compute. reflexivity. Qed.
Example inode_checksum_ex : inode_checksum_ok empty_100mb_superblock 2 root_inode_slot.
Proof. apply inode_checksum_iff; [vm_compute; reflexivity|]. split; [|intros _]; vm_compute; reflexivity. Qed.

(** ** C74, false of the code *)

(** The image of PropsExt4Open with the feature metadata_csum.  The superblock has its checksum; descriptors, inodes and
    extent blocks have zeros in its place. *)
Definition unsummed_sb : bytes :=
  let sb := fold_left poke [(0x64, to_le 4 0x400); (0x175, [x01])] small_sb in
  poke sb (0x3fc, to_le 4 (ext4_crc32c 0xffffffff (window sb 0 1020))).
Definition unsummed_image : bytes := poke open_image (1024, unsummed_sb).

(** What a program gets that opens the file system and file [number], and reads [n] blocks. *)
Definition read_number (c : bytes) (number : N) (n : nat) : option bytes :=
  match fs_open mem_stream (mem_new c 512) with
  | (s, Ok F) =>
      match open_file mem_stream mem_clone F number s with
      | (_, Ok (own, AnyRegular f)) =>
          match run_file mem_stream 100 own f (repeat (zeros 1024) n) with
          | Some (_, _, calls) => if forallb (fun '(_, _, r) => match r with Ok _ => true | _ => false end) calls then Some (delivered calls) else None
          | None => None
          end
      | _ => None
      end
  | _ => None
  end.

Theorem metadata_checksums_refuted : exists c number seed,
  sb4_acceptable (device_sb c) /\ sb4_supported (device_sb c) /\ sb4_checksum_ok (device_sb c) /\ metadata_csum (device_sb c) = true /\
  ~ group_checksum_ok (device_sb c) 0 (device_desc c number) /\
  ~ inode_checksum_ok (device_sb c) number (device_slot c number) /\
  inode_seed (device_sb c) number (device_slot c number) (Some seed) /\ ~ extent_block_ok (Some seed) (device_block c 1024 10) /\
  read_number c number 5 = Some (repeat x12 1024 ++ repeat x14 1024 ++ repeat x08 1024 ++ repeat x09 428).
Proof.
  exists unsummed_image, 5, (slot_seed unsummed_sb 5 (device_slot unsummed_image 5)).
  assert (SB : device_sb unsummed_image = unsummed_sb) by (vm_compute; reflexivity).
  assert (M : metadata_csum unsummed_sb = true) by (vm_compute; reflexivity). rewrite SB.
  assert (SD : slot_seed unsummed_sb 5 (device_slot unsummed_image 5) < 2 ^ 32) by apply crc32c_bound, checksum_seed_bound.
  split; [apply acceptable_by_computation; vm_compute; reflexivity|]. split.
  { rewrite <- SB. assert (Y : match snd (fs_open mem_stream (mem_new unsummed_image 512)) with Ok _ => true | _ => false end = true) by (vm_compute; reflexivity).
    destruct (fs_open mem_stream (mem_new unsummed_image 512)) as [s [F|e|]] eqn:E; [|discriminate Y..].
    apply opened_by_computation in E; [|vm_compute; discriminate]. unfold device_sb. rewrite <- (op_sb _ _ _ E). exact (op_supported _ _ _ E). }
  split; [unfold sb4_checksum_ok; apply crc32c_is_remainder; [reflexivity|vm_compute; reflexivity]|]. split; [exact M|].
  split; [rewrite group_checksum_iff; vm_compute; discriminate|].
  split; [rewrite (inode_checksum_iff _ _ _ M); intros [X _]; vm_compute in X; discriminate X|].
  split.
  { unfold inode_seed. fold (metadata_csum unsummed_sb). rewrite M. exists (e4_checksum_seed unsummed_sb). eexists. split; [reflexivity|].
    split; [now apply sb4_seed_published|]. apply crc32c_is_remainder; [apply checksum_seed_bound|reflexivity]. }
  split; [|vm_compute; reflexivity].
  intros (_ & _ & _ & X). apply crc32c_is_remainder in X; [|exact SD]. vm_compute in X. discriminate X.
Qed.
Print Assumptions metadata_checksums_refuted.

(** What holds instead: the checksum of an inode makes no difference at all to how it is read. *)
Definition in_inode_checksum (p : N) : bool := (0x7c <=? p) && (p <? 0x7e) || (0x82 <=? p) && (p <? 0x84).

Theorem inode_checksum_ignored : forall sb n slot slot', len slot = len slot' ->
  (forall p, in_inode_checksum p = false -> nth_N slot p = nth_N slot' p) ->
  match inode_new sb n slot, inode_new sb n slot' with
  | Ok i, Ok i' => in_seed i = in_seed i' /\ forall p, in_inode_checksum p = false -> uint_le (in_storage i) p 1 = uint_le (in_storage i') p 1
  | Panic, Panic => True
  | _, _ => False
  end.
Proof.
  intros sb n slot slot' L A.
  assert (U : forall w o, (forall q, o <= q < o + N.of_nat w -> in_inode_checksum q = false) -> uint_le slot o w = uint_le slot' o w).
  { induction w as [|w IH]; intros o H; [reflexivity|]. cbn [uint_le]. rewrite !byte_val_nth, (A o), (IH (o + 1)); [reflexivity| |apply H; lia].
    intros q Q. apply H. lia. }
  assert (X : inode_extra slot = inode_extra slot').
  { unfold inode_extra. rewrite <- L, U; [reflexivity|]. intros q Q. unfold in_inode_checksum.
    destruct (N.leb_spec 0x7c q), (N.ltb_spec q 0x7e), (N.leb_spec 0x82 q), (N.ltb_spec q 0x84); cbn in *; try reflexivity; lia. }
  assert (V : forall p, in_inode_checksum p = false -> uint_le (inode_visible slot) p 1 = uint_le (inode_visible slot') p 1).
  { intros p P. unfold inode_visible. rewrite <- X. cbn [uint_le]. rewrite !byte_val_nth.
    destruct (N.lt_ge_cases p (128 + inode_extra slot)) as [I|O].
    - rewrite !nth_N_window by exact I. rewrite N.add_0_l. now rewrite (A p P).
    - assert (Z : forall l : bytes, nth_N (window l 0 (128 + inode_extra slot)) p = None).
      { intros l. rewrite nth_N_spec. apply nth_error_None. pose proof (len_window l 0 (128 + inode_extra slot)). unfold len in *. lia. }
      now rewrite !Z. }
  assert (W : window slot 100 4 = window slot' 100 4).
  { apply nth_ext with (d := x00) (d' := x00).
    - pose proof (len_window slot 100 4) as H. pose proof (len_window slot' 100 4) as H'. rewrite <- L in H'. unfold len in *. lia.
    - intros k K. assert (K4 : N.of_nat k < 4) by (pose proof (len_window slot 100 4); unfold len in *; lia).
      assert (N1 : forall l : bytes, nth k (window l 100 4) x00 = match nth_N l (100 + N.of_nat k) with Some b => b | None => x00 end).
      { intros l. rewrite <- (nth_N_window l 100 4) by exact K4. rewrite nth_N_spec, Nnat.Nat2N.id.
        destruct (nth_error (window l 100 4) k) as [b|] eqn:E; [now apply nth_error_nth|]. apply nth_overflow. now apply nth_error_None. }
      rewrite !N1, A; [reflexivity|]. unfold in_inode_checksum.
      destruct (N.leb_spec 0x7c (100 + N.of_nat k)), (N.leb_spec 0x82 (100 + N.of_nat k)); try lia; reflexivity. }
  assert (SE : forall a b, inode_seed sb n slot a -> inode_seed sb n slot' b -> a = b).
  { intros a b Sa Sb. apply (inode_seed_unique sb n slot a b Sa). unfold inode_seed in *. now rewrite W. }
  destruct (inode_new sb n slot) as [i|e|] eqn:E; [|now apply inode_new_no_error in E|].
  - destruct (inode_new sb n slot') as [i'|e'|] eqn:E'; [|now apply inode_new_no_error in E'|].
    + apply inode_new_decodes in E as (F & _ & S), E' as (F' & _ & S'). split; [now apply SE|]. intros p P. rewrite F, F'. now apply V.
    + apply inode_new_panics_iff in E'. rewrite <- X, <- L in E'. apply (inode_new_panics_iff sb n) in E'. congruence.
  - apply inode_new_panics_iff in E. rewrite X, L in E. apply (inode_new_panics_iff sb n) in E. now rewrite E.
Qed.
Print Assumptions inode_checksum_ignored.

Example inode_checksum_ignored_ex : exists i i',
  inode_new empty_100mb_superblock 2 root_inode_slot = Ok i /\ inode_new empty_100mb_superblock 2 (poke root_inode_slot (0x7c, [xff; xff])) = Ok i' /\
  in_seed i = in_seed i' /\ in_checksum i = 0xda6e700e /\ in_checksum i' = 0xda6effff.
Proof. eexists. eexists. split; [vm_compute; reflexivity|]. split; [vm_compute; reflexivity|]. vm_compute. repeat split. Qed.
