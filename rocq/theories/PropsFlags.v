(** Property C113: a flag is reported if and only if Linux would see it in the bytes of the disk. *)

From Coq Require Import Strings.String.
From Verif Require Import Base BaseFacts Io SpecMd SuperblockFacts Superblock SpecCrc CrcFacts Ext4Superblock SpecExt4 PropsExt4Superblock
  Ext4Inode SpecExt4Inode PropsExt4Inode Flags SpecFlags TestData.

(** Every flag of [flags] has a bit in Linux, and is in the value [read] if that bit is in the number [raw]. *)
Definition as_linux (flags linux : list (string * N)) (read raw : N) : Prop :=
  forall name m, In (name, m) flags -> exists k, In (name, k) linux /\ contains read m = has_bit raw k.

Lemma contains_bit v k : contains v (2 ^ k) = has_bit v k.
Proof.
  unfold contains, has_bit. destruct (N.testbit v k) eqn:B.
  - apply N.eqb_eq, N.bits_inj. intros i. rewrite N.land_spec, N.pow2_bits_eqb.
    destruct (N.eqb_spec k i) as [<-|]; [now rewrite B|apply andb_false_r].
  - apply N.eqb_neq. intros H. apply (f_equal (fun x => N.testbit x k)) in H.
    now rewrite N.land_spec, N.pow2_bits_eqb, N.eqb_refl, B in H.
Qed.

(** The number of the bit of a mask, looked up by name. *)
Definition agree (linux : list (string * N)) (f : string * N) : bool :=
  existsb (fun r => (fst r =? fst f)%string && (2 ^ snd r =? snd f)) linux.

Lemma as_linux_all flags linux v : forallb (agree linux) flags = true -> as_linux flags linux v v.
Proof.
  intros H name m I. rewrite forallb_forall in H. specialize (H _ I). unfold agree in H.
  apply existsb_exists in H as ((n, k) & I' & E). apply andb_true_iff in E as [E1 E2].
  apply String.eqb_eq in E1. apply N.eqb_eq in E2. cbn [fst snd] in E1, E2. subst n m. exists k. split; [exact I'|apply contains_bit].
Qed.

(** ** C113 *)

(** Full claim: this, and that the three flags of the journal mode are reported as Linux understands them, which is false
    (mount_mode_refuted). *)
Theorem flags_linux_partial st slot sb n i group md : inode_new sb n slot = Ok i ->
  as_linux compatible_flags linux_compatible (e4_compatible_features st) (uint_le st 0x5c 4) /\
  as_linux incompatible_flags linux_incompatible (e4_incompatible_features st) (uint_le st 0x60 4) /\
  as_linux read_only_flags linux_read_only (e4_read_only_compatible_features st) (uint_le st 0x64 4) /\
  as_linux state_flags linux_state (e4_state st) (uint_le st 0x3a 2) /\
  as_linux superblock_flags linux_sb_flags (e4_flags st) (uint_le st 0x160 4) /\
  as_linux (filter (fun f => negb (existsb (String.eqb (fst f)) (map fst linux_modes))) mount_flags) linux_mount
    (e4_default_mount_options st) (uint_le st 0x100 4) /\
  as_linux inode_flags linux_inode (in_flags i) (uint_le (inode_visible slot) 0x20 4) /\
  as_linux permission_flags linux_permissions (in_permissions i) (uint_le (inode_visible slot) 0 2) /\
  as_linux group_flags linux_group (bg_flags (bg_new group)) (uint_le group 0x12 2) /\
  as_linux md_features linux_md (fle v1_layout "features" md) (uint_le md 8 4) /\
  as_linux md_device_flags linux_md_device (fle v1_layout "device_flags" md) (uint_le md 184 1).
Proof.
  intros NI. pose proof (inode_published _ _ _ _ NI) as [P _]. cbv zeta in P. inversion P as [|? ? M P1]; subst.
  inversion P1 as [|? ? _ P2]; subst. inversion P2 as [|? ? FL _]; subst.
  pose proof (sb4_numbers_published st) as Q.
  assert (Hs : e4_state st = uint_le st 0x3a 2 /\ e4_compatible_features st = uint_le st 0x5c 4 /\
    e4_incompatible_features st = uint_le st 0x60 4 /\ e4_read_only_compatible_features st = uint_le st 0x64 4 /\
    e4_flags st = uint_le st 0x160 4 /\ e4_default_mount_options st = uint_le st 0x100 4).
  { repeat split; (etransitivity; [apply (fle_uint sb4_layout); reflexivity|reflexivity]). }
  destruct Hs as (-> & -> & -> & -> & -> & ->). rewrite FL. pose proof (group_descriptor_published group) as G.
  replace (bg_flags (bg_new group)) with (uint_le group 0x12 2) by (symmetry; apply G).
  rewrite (fle_uint v1_layout "features" 8 4 md), (fle_uint v1_layout "device_flags" 184 1 md) by reflexivity.
  change (N.to_nat 4) with 4%nat. change (N.to_nat 1) with 1%nat.
  split; [now apply as_linux_all|]. split; [now apply as_linux_all|]. split; [now apply as_linux_all|].
  split; [now apply as_linux_all|]. split; [now apply as_linux_all|]. split; [now apply as_linux_all|].
  split; [now apply as_linux_all|]. split.
  - intros name m I. destruct (as_linux_all permission_flags linux_permissions (uint_le (inode_visible slot) 0 2)) with name m as (k & K & E);
      [reflexivity|exact I|]. exists k. split; [exact K|].
    pose proof (uint_le_bound (inode_visible slot) 0 2) as B. change (256 ^ N.of_nat 2) with 65536 in B.
    destruct (mode_fields (in_file_mode i) k) as [_ H]; [rewrite M; exact B|].
    assert (P3 : m = 2 ^ k /\ k < 12).
    { assert (C : forallb (fun f => forallb (fun r => implb (fst r =? fst f)%string ((snd f =? 2 ^ snd r) && (snd r <? 12))) linux_permissions)
        permission_flags = true) by reflexivity.
      rewrite forallb_forall in C. specialize (C _ I). rewrite forallb_forall in C. specialize (C _ K). cbn [fst snd] in C.
      rewrite String.eqb_refl in C. apply andb_true_iff in C as [C1 C2]. split; [now apply N.eqb_eq|now apply N.ltb_lt]. }
    destruct P3 as [-> L]. rewrite contains_bit. unfold in_permissions. rewrite H, M.
    destruct (N.ltb_spec k 12); [reflexivity|lia].
  - split; [now apply as_linux_all|]. split; now apply as_linux_all.
Qed.
Print Assumptions flags_linux_partial.

(** Full claim for the journal mode: each of the three flags is reported exactly if Linux would use that mode. *)
Definition modes_as_linux (st : bytes) : Prop :=
  forall name m j, In (name, m) mount_flags -> In (name, j) linux_modes ->
  (contains (e4_default_mount_options st) m = true <-> linux_journal_mode (uint_le st 0x100 4) = j).

(** It is true where the mode is not writeback and the bit that has no meaning in Linux is not set. *)
Theorem mount_mode_partial st :
  linux_journal_mode (uint_le st 0x100 4) <> 3 -> has_bit (uint_le st 0x100 4) 7 = false -> modes_as_linux st.
Proof.
  intros N3 B7 name m j I J. replace (e4_default_mount_options st) with (uint_le st 0x100 4)
    by (symmetry; etransitivity; [apply (fle_uint sb4_layout); reflexivity|reflexivity]).
  revert N3 B7. set (v := uint_le st 0x100 4). intros N3 B7. clearbody v.
  assert (B5 : has_bit v 5 = negb (linux_journal_mode v mod 2 =? 0)).
  { unfold has_bit, linux_journal_mode. rewrite N.testbit_eqb. change (2 ^ 5) with 32. generalize (v / 32). intros x.
    destruct (N.eqb_spec (x mod 4 mod 2) 0), (N.eqb_spec (x mod 2) 1); try reflexivity; lia. }
  assert (B6 : has_bit v 6 = negb (linux_journal_mode v / 2 =? 0)).
  { unfold has_bit, linux_journal_mode. rewrite N.testbit_eqb. change (2 ^ 6) with 64.
    replace (v / 64) with (v / 32 / 2) by (rewrite N.div_div by lia; reflexivity). generalize (v / 32). intros x.
    destruct (N.eqb_spec (x mod 4 / 2) 0), (N.eqb_spec (x / 2 mod 2) 1); try reflexivity; lia. }
  assert (J4 : linux_journal_mode v < 4) by (unfold linux_journal_mode; generalize (v / 32); intros; lia).
  revert N3 B5 B6 J4. generalize (linux_journal_mode v). intros mode N3 B5 B6 J4.
  unfold mount_flags, linux_modes in I, J.
  repeat (destruct J as [J|J]; [injection J; intros; subst; clear J;
    repeat (destruct I as [I|I]; [try discriminate I; injection I; intros; subst; clear I|]); try destruct I|]); try destruct J.
  - change 32 with (2 ^ 5). rewrite contains_bit, B5. assert (C : mode = 0 \/ mode = 1 \/ mode = 2) by lia.
    destruct C as [->|[->| ->]]; cbn; intuition discriminate.
  - change 64 with (2 ^ 6). rewrite contains_bit, B6. assert (C : mode = 0 \/ mode = 1 \/ mode = 2) by lia.
    destruct C as [->|[->| ->]]; cbn; intuition discriminate.
  - change 128 with (2 ^ 7). rewrite contains_bit, B7. split; [discriminate|intros ->; congruence].
Qed.
Print Assumptions mount_mode_partial.

(** A superblock whose default options are [o]. *)
Definition options_sb (o : byte) : bytes := poke (zeros 1024) (0x100, [o]).

(** With data=writeback as the default, both other modes are reported, and this one is not. *)
Theorem mount_mode_refuted :
  let st := options_sb x60 in
  linux_journal_mode (uint_le st 0x100 4) = 3 /\ ~ modes_as_linux st /\
  contains (e4_default_mount_options st) 0x20 = true /\ contains (e4_default_mount_options st) 0x40 = true /\
  contains (e4_default_mount_options st) 0x80 = false.
Proof.
  cbv zeta. split; [reflexivity|]. split; [|repeat split].
  intros H. assert (E : contains (e4_default_mount_options (options_sb x60)) 0x80 = true).
  { apply (H "DATA_ORDERING_NOT_PRESERVED"%string 0x80 3); [cbn; tauto|cbn; tauto|reflexivity]. }
  vm_compute in E. discriminate E.
Qed.
Print Assumptions mount_mode_refuted.

(** The hypotheses can be met: data=ordered as the default; the superblock and the root inode of the tests. *)
Example mount_mode_ex : let st := options_sb x40 in
  linux_journal_mode (uint_le st 0x100 4) = 2 /\ has_bit (uint_le st 0x100 4) 7 = false.
Proof. split; reflexivity. Qed.

Example flags_linux_ex : exists i, inode_new sb_ext4_1 2 root_inode_slot = Ok i /\
  as_linux inode_flags linux_inode (in_flags i) 0x80000 /\ contains (in_flags i) 0x80000 = true /\
  contains (in_permissions i) 0x100 = true /\ contains (e4_read_only_compatible_features sb_ext4_1) 0x400 = true.
Proof.
  destruct (inode_new sb_ext4_1 2 root_inode_slot) as [i|e|] eqn:E; [|vm_compute in E; discriminate E|vm_compute in E; discriminate E].
  exists i. split; [reflexivity|]. assert (F : in_flags i = 0x80000 /\ in_permissions i = 0x1ed).
  { assert (G : match inode_new sb_ext4_1 2 root_inode_slot with Ok i => (in_flags i, in_permissions i) | _ => (0, 0) end = (0x80000, 0x1ed))
      by (vm_compute; reflexivity). rewrite E in G. injection G as G1 G2. now split. }
  destruct F as [-> ->]. split; [now apply as_linux_all|repeat split; vm_compute; reflexivity].
Qed.

(** The flags that the rest of the model looks at are those of these tables. *)
Example flags_used_ex :
  In ("FILES_USE_EXTENTS"%string, incompat_extents) incompatible_flags /\
  In ("METADATA_CHECKSUM_SEED"%string, incompat_checksum_seed) incompatible_flags /\
  incompat_known = map snd incompatible_flags /\
  In ("BIGALLOC"%string, ro_bigalloc) read_only_flags /\ In ("METADATA_CHECKSUMS"%string, ro_metadata_checksums) read_only_flags /\
  In ("HASH_INDEXED_DIRECTORY"%string, flag_hash_indexed) inode_flags /\
  In ("HAS_EXTENTS"%string, flag_has_extents) inode_flags /\ In ("HAS_INLINE_DATA"%string, flag_has_inline_data) inode_flags /\
  permissions_known = map snd permission_flags /\
  In ("BITMAP_OFFSET"%string, feature_bitmap_offset) md_features /\ In ("RECOVERY_OFFSET"%string, feature_recovery_offset) md_features /\
  In ("RESHAPE_ACTIVE"%string, feature_reshape_active) md_features /\ In ("JOURNAL"%string, feature_journal) md_features /\
  In ("PPL"%string, feature_ppl) md_features.
Proof. repeat split; try reflexivity; cbn; tauto. Qed.
