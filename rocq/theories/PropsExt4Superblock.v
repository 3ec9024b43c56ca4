(** C35, C36, C37: the ext4 superblock. *)

From Coq Require Import Strings.String.
From Verif Require Import Base BaseFacts Io SpecMd SuperblockFacts Superblock Crc SpecCrc CrcFacts CrcPoly PropsCrc
  Ext4Superblock SpecExt4 TestData.

(** ** Fields *)

Lemma fle_uint lay name o w st : field lay name = Some (o, w) -> fle lay name st = uint_le st o (N.to_nat w).
Proof. intros F. unfold fle, fbytes. rewrite F, uint_le_window, N2Nat.id. reflexivity. Qed.

Ltac s4_field :=
  match goal with |- context [s4 ?n ?st] =>
    let f := eval vm_compute in (field sb4_layout n) in
    match f with Some (?o, ?w) =>
      let k := eval vm_compute in (N.to_nat w) in
      change (s4 n st) with (fle sb4_layout n st); rewrite (fle_uint sb4_layout n o w st) by reflexivity;
      change (N.to_nat w) with k
    end
  end.

Lemma uint_le_bound st o w : uint_le st o w < 256 ^ N.of_nat w.
Proof.
  revert o. induction w as [|w IH]; intros o; [reflexivity|]. cbn [uint_le].
  rewrite Nat2N.inj_succ, N.pow_succ_r by lia. specialize (IH (o + 1)).
  assert (byte_val st o < 256) by (unfold byte_val; destruct nth_error as [b|]; [apply bval_bound|lia]). lia.
Qed.

Lemma lor_shift low high bits : low < 2 ^ bits -> from_low_high bits low high = low + 2 ^ bits * high.
Proof.
  intros H. unfold from_low_high. rewrite N.shiftl_mul_pow2.
  rewrite <- N.lxor_lor, <- N.add_nocarry_lxor; [lia| |]; apply N.bits_inj; intros i; rewrite N.land_spec, N.bits_0;
    (destruct (N.ltb_spec i bits) as [L|L];
     [rewrite N.mul_pow2_bits_low by exact L; apply andb_false_r|
      rewrite (proj1 (bits_bound low bits) H) by exact L; reflexivity]).
Qed.

(** ** C37 *)

(** Every accessor that reads one number. *)
Theorem sb4_numbers_published st :
  Forall (fun '(accessor, o, w) => accessor st = uint_le st o w)
   [(e4_inodes_count, 0x0, 4%nat); (e4_free_inodes_count, 0x10, 4%nat); (e4_blocks_per_group, 0x20, 4%nat);
    (e4_clusters_per_group, 0x24, 4%nat); (e4_inodes_per_group, 0x28, 4%nat); (e4_mount_count, 0x34, 2%nat);
    (e4_max_mount_count, 0x36, 2%nat); (e4_magic, 0x38, 2%nat); (e4_state, 0x3a, 2%nat);
    (e4_minor_revision_level, 0x3e, 2%nat); (e4_revision_level, 0x4c, 4%nat);
    (e4_default_reserved_user_id, 0x50, 2%nat); (e4_default_reserved_group_id, 0x52, 2%nat);
    (e4_first_inode, 0x54, 4%nat); (e4_inode_size, 0x58, 2%nat); (e4_block_group_number, 0x5a, 2%nat);
    (e4_compatible_features, 0x5c, 4%nat); (e4_incompatible_features, 0x60, 4%nat);
    (e4_read_only_compatible_features, 0x64, 4%nat); (e4_algorithm_usage_bitmap, 0xc8, 4%nat);
    (e4_preallocate_blocks, 0xcc, 1%nat); (e4_preallocate_directory_blocks, 0xcd, 1%nat);
    (e4_reserved_gdt_blocks, 0xce, 2%nat); (e4_journal_inode_number, 0xe0, 4%nat);
    (e4_journal_device_number, 0xe4, 4%nat); (e4_last_orphan, 0xe8, 4%nat);
    (e4_journal_backup_type, 0xfd, 1%nat); (e4_group_descriptor_size, 0xfe, 2%nat);
    (e4_default_mount_options, 0x100, 4%nat); (e4_first_meta_block_group, 0x104, 4%nat);
    (e4_minimum_extra_inode_size, 0x15c, 2%nat); (e4_wanted_extra_inode_size, 0x15e, 2%nat);
    (e4_flags, 0x160, 4%nat); (e4_raid_stride, 0x164, 2%nat);
    (e4_multi_mount_prevention_interval, 0x166, 2%nat); (e4_multi_mount_prevention_block, 0x168, 8%nat);
    (e4_raid_stripe_width, 0x170, 4%nat); (e4_kbytes_written, 0x178, 8%nat);
    (e4_snapshot_inode_number, 0x180, 4%nat); (e4_snapshot_id, 0x184, 4%nat);
    (e4_snapshot_reserved_blocks_count, 0x188, 8%nat); (e4_snapshot_list_inode_number, 0x190, 4%nat);
    (e4_error_count, 0x194, 4%nat); (e4_first_error_inode, 0x19c, 4%nat); (e4_first_error_block, 0x1a0, 8%nat);
    (e4_first_error_line, 0x1c8, 4%nat); (e4_last_error_inode, 0x1d0, 4%nat);
    (e4_last_error_line, 0x1d4, 4%nat); (e4_last_error_block, 0x1d8, 8%nat);
    (e4_user_quota_inode_number, 0x240, 4%nat); (e4_group_quota_inode_number, 0x244, 4%nat);
    (e4_overhead_blocks, 0x248, 4%nat); (e4_lost_and_found_inode_number, 0x268, 4%nat);
    (e4_project_quota_inode_number, 0x26c, 4%nat); (e4_filename_character_encoding, 0x27c, 2%nat);
    (e4_filename_character_encoding_flags, 0x27e, 2%nat); (e4_orphan_file_inode_number, 0x280, 4%nat)].
Proof.
  repeat (apply Forall_cons; [etransitivity; [apply (fle_uint sb4_layout); reflexivity|reflexivity]|]).
  apply Forall_nil.
Qed.
Print Assumptions sb4_numbers_published.

(** Accessors that combine two numbers, convert one, or leave out an unset one. *)
Theorem sb4_values_published st :
  e4_blocks_count st = uint_le st 0x4 4 + 2 ^ 32 * uint_le st 0x150 4 /\
  e4_reserved_blocks_count st = uint_le st 0x8 4 + 2 ^ 32 * uint_le st 0x154 4 /\
  e4_free_blocks_count st = uint_le st 0xc 4 + 2 ^ 32 * uint_le st 0x158 4 /\
  e4_first_data_block st = uint_le st 0x14 4 /\
  e4_write_time st = uint_le st 0x30 4 + 2 ^ 32 * uint_le st 0x274 1 /\
  e4_last_check_time st = uint_le st 0x40 4 + 2 ^ 32 * uint_le st 0x277 1 /\
  e4_superblock_backup_block_groups st = [uint_le st 0x24c 4; uint_le st 0x250 4] /\
  e4_creator_os st = creator_os_of (uint_le st 0x48 4) /\
  e4_error_policy st = error_policy_of (uint_le st 0x3c 2) /\
  e4_default_hash_version st = hash_version_of (uint_le st 0xfc 1).
Proof.
  unfold e4_blocks_count, e4_reserved_blocks_count, e4_free_blocks_count, e4_first_data_block, e4_write_time,
    e4_last_check_time, e4_superblock_backup_block_groups, e4_creator_os, e4_error_policy, e4_default_hash_version,
    time_from_low_high.
  repeat s4_field. rewrite !lor_shift by apply uint_le_bound. repeat (split; [reflexivity|]). reflexivity.
Qed.
Print Assumptions sb4_values_published.

(** Optional times and durations: absent exactly when they are 0. *)
Theorem sb4_optional_published st :
  Forall (fun '(accessor, v) => forall t, accessor st = Some t <-> t = v /\ v <> 0)
   [(e4_mount_time, uint_le st 0x2c 4 + 2 ^ 32 * uint_le st 0x275 1);
    (e4_creation_time, uint_le st 0x108 4 + 2 ^ 32 * uint_le st 0x276 1);
    (e4_first_error_time, uint_le st 0x198 4 + 2 ^ 32 * uint_le st 0x278 1);
    (e4_last_error_time, uint_le st 0x1cc 4 + 2 ^ 32 * uint_le st 0x279 1);
    (e4_check_interval, uint_le st 0x44 4)].
Proof.
  assert (H : forall v t, some_time v = Some t <-> t = v /\ v <> 0).
  { intros v t. unfold some_time. destruct (N.eqb_spec v 0); split; intros; [discriminate|tauto|split; congruence|].
    f_equal. symmetry. tauto. }
  repeat (apply Forall_cons; [intros t;
    unfold e4_mount_time, e4_creation_time, e4_first_error_time, e4_last_error_time, e4_check_interval, time_from_low_high;
    repeat s4_field; rewrite ?lor_shift by apply uint_le_bound; apply H|]).
  apply Forall_nil.
Qed.
Print Assumptions sb4_optional_published.

Lemma null_terminated_spec b : is_c_string b (null_terminated b).
Proof.
  induction b as [|x b [N IH]]; [split; [exact id|now left]|]. cbn [null_terminated].
  destruct (Byte.eqb x x00) eqn:E.
  - apply Byte.byte_dec_bl in E as ->. split; [exact id|]. right. now exists b.
  - split.
    + intros [->|I]; [discriminate E|exact (N I)].
    + destruct IH as [IH|[rest IH]]; [left; now rewrite <- IH|]. right. exists rest. cbn. now rewrite <- IH.
Qed.

Lemma c_string_unique b s s' : is_c_string b s -> is_c_string b s' -> s = s'.
Proof.
  revert s s'. induction b as [|x b IH]; intros s s' [N C] [N' C'].
  - destruct C as [<-|[r C]]; [|destruct s; discriminate]. destruct C' as [<-|[r' C']]; [reflexivity|destruct s'; discriminate].
  - assert (T : forall u, is_c_string (x :: b) u -> match u with [] => x = x00 | y :: v => y = x /\ x <> x00 /\ is_c_string b v end).
    { intros [|y v] [Nv Cv].
      - destruct Cv as [Cv|[r Cv]]; [discriminate|now inversion Cv].
      - assert (y = x /\ (b = v \/ exists r, b = v ++ x00 :: r)) as [-> R].
        { destruct Cv as [Cv|[r Cv]]; inversion Cv; subst; split; eauto. }
        split; [reflexivity|]. split; [intros ->; apply Nv; now left|]. split; [|exact R]. intros I. apply Nv. now right. }
    pose proof (T s (conj N C)) as A. pose proof (T s' (conj N' C')) as A'.
    destruct s, s'; try tauto; try (destruct A as (_ & A & _); congruence); try (destruct A' as (_ & A' & _); congruence).
    destruct A as (-> & _ & A), A' as (-> & _ & A'). f_equal. now apply IH.
Qed.

(** Byte fields and strings. *)
Theorem sb4_bytes_published st :
  e4_uuid st = window st 0x68 16 /\ e4_journal_uuid st = window st 0xd0 16 /\ e4_hash_seed st = window st 0xec 16 /\
  e4_journal_blocks st = window st 0x10c 68 /\ e4_encryption_password_salt st = window st 0x258 16 /\
  (forall s, e4_mount_options st = s <-> is_c_string (window st 0x200 64) s) /\
  Forall (fun '(accessor, o, w) => forall s, accessor st = Some s <-> is_c_string (window st o w) s /\ s <> [])
   [(e4_volume_name, 0x78, 16); (e4_last_mounted_path, 0x88, 64); (e4_first_error_function_name, 0x1a8, 32);
    (e4_last_error_function_name, 0x1e0, 32)].
Proof.
  do 5 (split; [reflexivity|]).
  assert (H : forall b s, null_terminated b = s <-> is_c_string b s).
  { intros b s. split; [intros <-; apply null_terminated_spec|]. intros C. eapply c_string_unique; [apply null_terminated_spec|exact C]. }
  split; [apply H|].
  assert (G : forall b s, some_string (null_terminated b) = Some s <-> is_c_string b s /\ s <> []).
  { intros b s. rewrite <- H. destruct (null_terminated b) as [|x t]; cbn [some_string].
    - split; [discriminate|]. intros [<- N]. now elim N.
    - split; [intros [= <-]; split; congruence|]. intros [<- _]. reflexivity. }
  repeat (apply Forall_cons; [intros s; apply G|]). apply Forall_nil.
Qed.
Print Assumptions sb4_bytes_published.

(** Encryption algorithms: the four bytes without the unused ones, in order. *)
Theorem sb4_encryption_published st :
  e4_encryption_algorithms st =
  map (fun b => match bval b with 1 => EaAes256Xts | 2 => EaAes256Gcm | 3 => EaAes256Cbc | c => EaUnknown c end)
    (filter (fun b => negb (bval b =? 0)) (window st 0x254 4)).
Proof.
  transitivity (map (fun b => encryption_algorithm_of (bval b)) (filter (fun b => negb (bval b =? 0)) (window st 0x254 4))).
  2:{ apply map_ext_in. intros b I. apply filter_In in I as [_ I]. unfold encryption_algorithm_of. destruct (bval b =? 0); [discriminate I|].
      destruct (bval b) as [|[[?|?|]|[?|?|]|]]; reflexivity. }
  unfold e4_encryption_algorithms. change (s4_bytes "encryption_algorithms" st) with (window st 0x254 4).
  induction (window st 0x254 4) as [|b l IH]; [reflexivity|]. cbn [map filter].
  assert (E : ea_is_invalid (encryption_algorithm_of (bval b)) = (bval b =? 0)).
  { unfold encryption_algorithm_of. destruct (bval b =? 0); [reflexivity|].
    destruct (bval b =? 1); [reflexivity|]. destruct (bval b =? 2); [reflexivity|]. destruct (bval b =? 3); reflexivity. }
  rewrite E. destruct (bval b =? 0); cbn [negb]; [exact IH|]. cbn [map]. now rewrite IH.
Qed.
Print Assumptions sb4_encryption_published.

(** The seed of the other checksums. *)
Theorem sb4_seed_published st seed : e4_checksum_seed st = seed <-> sb4_seed st seed.
Proof.
  unfold e4_checksum_seed, sb4_seed, e4_incompatible_features, e4_read_only_compatible_features.
  repeat s4_field.
  change incompat_checksum_seed with (2 ^ 13). change ro_metadata_checksums with (2 ^ 10). rewrite !contains_bit.
  change (s4_bytes "uuid" st) with (window st 0x68 16).
  destruct (has_bit (uint_le st 0x60 4) 13); [split; congruence|].
  destruct (has_bit (uint_le st 0x64 4) 10); [|split; congruence].
  change 4294967295 with crc_initial. rewrite crc32c_is_remainder by reflexivity. split; congruence.
Qed.
Print Assumptions sb4_seed_published.

Example sb4_published_ex :
  e4_inodes_count sb_ext4_1 = 64 /\ e4_blocks_count sb_ext4_1 = 128 /\ e4_volume_name sb_ext4_1 = None /\
  e4_write_time sb_ext4_1 = 1731941452 /\ e4_creation_time sb_ext4_1 = Some 1731941452 /\
  e4_checksum_seed sb_ext4_1 = 363013734 /\ e4_group_descriptor_size sb_ext4_1 = 64 /\
  e4_volume_name (poke sb_ext4_1 (0x78, [x61; x62; x00; x63])) = Some [x61; x62].
Proof. vm_compute. repeat split. Qed.

(** What the published codes mean, and that a code without meaning is kept. *)
Theorem sb4_codes_published st :
  Forall (fun '(code, v) => e4_creator_os st = v <-> uint_le st 0x48 4 = code)
   [(0, OsLinux); (1, OsHurd); (2, OsMasix); (3, OsFreeBsd); (4, OsLites)] /\
  (forall c, e4_creator_os st = OsUnknown c <-> uint_le st 0x48 4 = c /\ 4 < c) /\
  Forall (fun '(code, v) => e4_error_policy st = v <-> uint_le st 0x3c 2 = code)
   [(1, EpContinue); (2, EpRemountReadOnly); (3, EpPanic)] /\
  (forall c, e4_error_policy st = EpUnknown c <-> uint_le st 0x3c 2 = c /\ (c = 0 \/ 3 < c)) /\
  Forall (fun '(code, v) => e4_default_hash_version st = v <-> uint_le st 0xfc 1 = code)
   [(0, HvLegacy); (1, HvHalfMd4); (2, HvTea); (3, HvLegacyUnsigned); (4, HvHalfMd4Unsigned); (5, HvTeaUnsigned)] /\
  (forall c, e4_default_hash_version st = HvUnknown c <-> uint_le st 0xfc 1 = c /\ 5 < c) /\
  (e4_checksum st = ChecksumNone <-> uint_le st 0x175 1 = 0) /\
  (forall v, e4_checksum st = ChecksumCrc32c v <-> uint_le st 0x175 1 = 1 /\ v = uint_le st 0x3fc 4) /\
  (forall t v, e4_checksum st = ChecksumUnknown t v <-> uint_le st 0x175 1 = t /\ 1 < t /\ v = uint_le st 0x3fc 4).
Proof.
  unfold e4_creator_os, e4_error_policy, e4_default_hash_version, e4_checksum,
    checksum_type_of, error_policy_of, creator_os_of, hash_version_of.
  repeat s4_field.
  generalize (uint_le st 0x48 4) (uint_le st 0x3c 2) (uint_le st 0xfc 1) (uint_le st 0x175 1) (uint_le st 0x3fc 4).
  intros vo vp vh vt vc.
  repeat match goal with |- _ /\ _ => split end;
    try (repeat (apply Forall_cons; [|]); [..|apply Forall_nil]); intros;
    repeat match goal with |- context [if ?a =? ?b then _ else _] => destruct (N.eqb_spec a b) end;
    split; intros H; try discriminate H; try congruence; try lia;
    try (injection H as H; subst); try (repeat split; congruence || lia);
    repeat match goal with H : _ /\ _ |- _ => destruct H end; subst; try congruence; try lia.
Qed.
Print Assumptions sb4_codes_published.

Example sb4_codes_ex : e4_creator_os sb_ext4_1 = OsLinux /\ e4_error_policy sb_ext4_1 = EpContinue /\
  e4_default_hash_version sb_ext4_1 = HvHalfMd4 /\
  e4_error_policy (poke sb_ext4_1 (0x3c, [x07])) = EpUnknown 7 /\
  e4_creator_os (poke sb_ext4_1 (0x48, [x03])) = OsFreeBsd.
Proof. vm_compute. repeat split. Qed.

(** The sizes that are stored as exponents. *)
Theorem sb4_sizes_published st :
  (uint_le st 0x18 4 <= 53 -> e4_block_size_bytes st = Ok (1024 * 2 ^ uint_le st 0x18 4)) /\
  (uint_le st 0x1c 4 <= 53 -> e4_cluster_size_blocks st = Ok (1024 * 2 ^ uint_le st 0x1c 4)) /\
  (uint_le st 0x174 1 < 64 -> e4_groups_per_flex st = 2 ^ uint_le st 0x174 1).
Proof.
  assert (S : forall v, v <= 53 -> shl_10_plus v = Ok (1024 * 2 ^ v)).
  { intros v H. unfold shl_10_plus, cadd32, unbounded_shl1. destruct (N.leb_spec (10 + v) u32_max) as [L|L]; [|unfold u32_max in L; lia].
    destruct (N.ltb_spec (10 + v) 64); [|lia]. f_equal. now rewrite N.pow_add_r. }
  unfold e4_block_size_bytes, e4_cluster_size_blocks, e4_groups_per_flex, unbounded_shl1. repeat s4_field.
  split; [apply S|]. split; [apply S|]. intros H. now apply N.ltb_lt in H as ->.
Qed.
Print Assumptions sb4_sizes_published.

Example sb4_sizes_ex : e4_block_size_bytes sb_ext4_1 = Ok 4096 /\ e4_block_size_bytes (poke sb_ext4_1 (0x18, [x00])) = Ok 1024 /\
  e4_cluster_size_blocks (poke sb_ext4_1 (0x1c, [x04])) = Ok 16384 /\ e4_groups_per_flex sb_ext4_1 = 16.
Proof. vm_compute. repeat split. Qed.

(** Each code of an enumeration has its own meaning. *)
Theorem sb4_enums_injective v w :
  (checksum_type_of v = checksum_type_of w -> v = w) /\ (error_policy_of v = error_policy_of w -> v = w) /\
  (creator_os_of v = creator_os_of w -> v = w) /\ (hash_version_of v = hash_version_of w -> v = w) /\
  (encryption_algorithm_of v = encryption_algorithm_of w -> v = w).
Proof.
  unfold checksum_type_of, error_policy_of, creator_os_of, hash_version_of, encryption_algorithm_of.
  repeat split; intros E;
    repeat match type of E with context [?a =? ?b] => destruct (N.eqb_spec a b); try congruence end.
Qed.
Print Assumptions sb4_enums_injective.

Example sb4_enums_ex : creator_os_of 3 = OsFreeBsd /\ hash_version_of 1 = HvHalfMd4 /\ error_policy_of 7 = EpUnknown 7.
Proof. repeat split. Qed.

(** ** C36 *)

Lemma shl_10_plus_ok log : log <= 52 -> shl_10_plus log = Ok (2 ^ (10 + log)).
Proof.
  intros H. unfold shl_10_plus, cadd32. destruct (N.leb_spec (10 + log) u32_max) as [L|L]; [|unfold u32_max in L; lia].
  unfold unbounded_shl1. destruct (N.ltb_spec (10 + log) 64); [reflexivity|lia].
Qed.

(** Validation never panics, and accepts exactly the acceptable superblocks. *)
Theorem sb4_valid_iff st : len st = 1024 ->
  exists b, e4_valid st = Ok b /\ (b = true <-> sb4_acceptable st).
Proof.
  intros L. unfold e4_valid, e4_valid_magic, e4_valid_block_size, e4_valid_cluster_size, e4_valid_clusters_per_group,
    e4_valid_error_policy, e4_valid_groups_per_flex, e4_valid_checksum, e4_checksum, e4_expected_checksum,
    e4_cluster_size_blocks, e4_block_size_bytes, e4_magic, e4_error_policy, e4_clusters_per_group, e4_blocks_per_group,
    e4_read_only_compatible_features.
  repeat s4_field. change (field sb4_layout "checksum") with (Some (0x3fc, 4)). cbv iota beta.
  assert (SL : slice_to st 0x3fc = Some (window st 0 1020)).
  { unfold slice_to. rewrite L. reflexivity. }
  rewrite SL. cbn [unwrap rbind].
  change ro_bigalloc with (2 ^ 9). rewrite contains_bit.
  fold (sb4_log_block st) (sb4_log_cluster st) (sb4_bigalloc st).
  assert (CK : (uint_le st 0x3fc 4 =? ext4_crc32c crc_initial (window st 0 1020)) = true <-> sb4_checksum_ok st).
  { unfold sb4_checksum_ok. change 0xffffffff with crc_initial. rewrite crc32c_is_remainder by reflexivity. apply N.eqb_eq. }
  cbn [and_then].
  destruct (N.eqb_spec (uint_le st 0x38 2) 0xef53) as [M|M].
  2:{ exists false. split; [reflexivity|]. split; [discriminate|]. intros A. elim M. apply A. }
  cbn [and_then]. destruct (N.ltb_spec (sb4_log_block st) 53) as [B|B].
  2:{ exists false. split; [reflexivity|]. split; [discriminate|]. intros A. apply sa_block in A. lia. }
  cbn [and_then]. destruct (N.ltb_spec (sb4_log_cluster st) 53) as [C|C].
  2:{ exists false. split; [reflexivity|]. split; [discriminate|]. intros A. apply sa_cluster in A. lia. }
  assert (CS : (if sb4_bigalloc st then Ok true
                else let? c := shl_10_plus (sb4_log_cluster st) in let? b := shl_10_plus (sb4_log_block st) in Ok (c =? b))
               = Ok (sb4_bigalloc st || (sb4_log_cluster st =? sb4_log_block st))).
  { rewrite !shl_10_plus_ok by lia. cbn [rbind]. destruct (sb4_bigalloc st); [reflexivity|]. cbn [orb]. f_equal.
    destruct (N.eqb_spec (sb4_log_cluster st) (sb4_log_block st)) as [->|Ne]; [apply N.eqb_refl|]. apply N.eqb_neq.
    intros E. apply N.pow_inj_r in E; lia. }
  rewrite CS. clear CS. cbn [and_then].
  destruct (sb4_bigalloc st || (sb4_log_cluster st =? sb4_log_block st)) eqn:CS.
  2:{ exists false. split; [reflexivity|]. split; [discriminate|]. intros A. apply orb_false_iff in CS as [CS1 CS2].
      apply N.eqb_neq in CS2. elim CS2. now apply (sa_same st A). }
  cbn [and_then]. destruct (sb4_bigalloc st || (uint_le st 0x24 4 =? uint_le st 0x20 4)) eqn:CG.
  2:{ exists false. split; [reflexivity|]. split; [discriminate|]. intros A. apply orb_false_iff in CG as [CG1 CG2].
      apply N.eqb_neq in CG2. elim CG2. now apply (sa_same st A). }
  cbn [and_then].
  assert (EP : (match error_policy_of (uint_le st 0x3c 2) with EpUnknown _ => false | _ => true end) = true <->
               1 <= uint_le st 0x3c 2 <= 3).
  { unfold error_policy_of. destruct (N.eqb_spec (uint_le st 0x3c 2) 1) as [->|]; [intuition lia|].
    destruct (N.eqb_spec (uint_le st 0x3c 2) 2) as [->|]; [intuition lia|].
    destruct (N.eqb_spec (uint_le st 0x3c 2) 3) as [->|]; [intuition lia|]. split; [discriminate|lia]. }
  destruct (match error_policy_of (uint_le st 0x3c 2) with EpUnknown _ => false | _ => true end).
  2:{ exists false. split; [reflexivity|]. split; [discriminate|]. intros A. apply EP, A. }
  cbn [and_then]. destruct (N.ltb_spec (uint_le st 0x174 1) 63) as [F|F].
  2:{ exists false. split; [reflexivity|]. split; [discriminate|]. intros A. apply sa_flex in A. lia. }
  cbn [and_then].
  assert (REST : uint_le st 0x175 1 = 0 \/ (uint_le st 0x175 1 = 1 /\ sb4_checksum_ok st) -> sb4_acceptable st).
  { intros X. pose proof (proj1 EP eq_refl). constructor; try assumption; try lia. intros BA. rewrite BA in *. cbn [orb] in *. split; now apply N.eqb_eq. }
  unfold checksum_type_of. destruct (N.eqb_spec (uint_le st 0x175 1) 0) as [T0|T0].
  { exists true. split; [reflexivity|]. split; [intros _; apply REST; now left|reflexivity]. }
  destruct (N.eqb_spec (uint_le st 0x175 1) 1) as [T1|T1].
  - eexists. split; [reflexivity|]. rewrite CK. split; [intros X; apply REST; now right|].
    intros A. destruct (sa_checksum st A) as [X|[_ X]]; [contradiction|exact X].
  - exists false. split; [reflexivity|]. split; [discriminate|].
    intros A. destruct (sa_checksum st A) as [X|[X _]]; contradiction.
Qed.
Print Assumptions sb4_valid_iff.

Example sb4_valid_ex : len sb_ext4_1 = 1024 /\ e4_valid sb_ext4_1 = Ok true /\
  e4_valid (poke sb_ext4_1 (0x18, [x03])) = Ok false /\ e4_valid (zeros 1024) = Ok false.
Proof. vm_compute. repeat split. Qed.

(** What acceptance guarantees about the geometry: both sizes exist and are powers of two between 1 KiB and 2^62,
    equal unless BIGALLOC (feature bit 9) is set; flexible groups are a power of two below 2^63. *)
Theorem sb4_geometry st : len st = 1024 -> e4_valid st = Ok true ->
  exists b c f,
    e4_block_size_bytes st = Ok (2 ^ b) /\ 10 <= b <= 62 /\
    e4_cluster_size_blocks st = Ok (2 ^ c) /\ 10 <= c <= 62 /\
    e4_groups_per_flex st = 2 ^ f /\ f <= 62 /\
    (has_bit (uint_le st 0x64 4) 9 = false -> c = b /\ e4_clusters_per_group st = e4_blocks_per_group st).
Proof.
  intros L V. destruct (sb4_valid_iff st L) as (b & E & I). rewrite V in E. injection E as <-.
  destruct (proj1 I eq_refl) as [_ B C S _ F _].
  exists (10 + sb4_log_block st), (10 + sb4_log_cluster st), (uint_le st 0x174 1).
  unfold e4_block_size_bytes, e4_cluster_size_blocks, e4_groups_per_flex, e4_clusters_per_group, e4_blocks_per_group.
  repeat s4_field. fold (sb4_log_block st) (sb4_log_cluster st) (sb4_bigalloc st).
  rewrite !shl_10_plus_ok by assumption.
  split; [reflexivity|]. split; [lia|]. split; [reflexivity|]. split; [lia|]. split.
  { unfold unbounded_shl1. destruct (N.ltb_spec (uint_le st 0x174 1) 64); [reflexivity|lia]. }
  split; [exact F|]. intros BA. destruct (S BA) as [-> ->]. split; reflexivity.
Qed.
Print Assumptions sb4_geometry.

(** Without validation the size accessors panic (in a build with overflow checks) on the ten largest codes, and only
    there. *)
Theorem sb4_block_size_panics_iff st :
  e4_block_size_bytes st = Panic <-> 2 ^ 32 - 10 <= uint_le st 0x18 4.
Proof.
  unfold e4_block_size_bytes. s4_field. unfold shl_10_plus, cadd32.
  pose proof (uint_le_bound st 0x18 4) as B. change (256 ^ N.of_nat 4) with (2 ^ 32) in B.
  destruct (N.leb_spec (10 + uint_le st 0x18 4) u32_max) as [H|H]; unfold u32_max in H; change (2 ^ 32) with 4294967296 in *;
    split; intros; try discriminate; try reflexivity; lia.
Qed.
Print Assumptions sb4_block_size_panics_iff.

Example sb4_block_size_panics_ex : e4_block_size_bytes (poke sb_ext4_1 (0x18, [xff; xff; xff; xff])) = Panic.
Proof. reflexivity. Qed.

(** ** C35 *)

Lemma byte_burst_len a b : byte_burst a b -> len a = len b.
Proof. intros (_ & p & x & y & s & -> & -> & L & _). rewrite !len_app. lia. Qed.

(** A checksummed superblock that is right is, as a whole, a code word. *)
Lemma sb4_codeword st : len st = 1024 -> sb4_checksum_ok st <-> ext4_crc32c crc_initial st = 0.
Proof.
  intros L. unfold sb4_checksum_ok. change 0xffffffff with crc_initial. rewrite crc32c_is_remainder by reflexivity.
  rewrite uint_le_window. change (N.of_nat 4) with 4.
  rewrite <- (crc32c_codeword crc_initial (window st 0 1020) (window st 0x3fc 4)).
  - rewrite <- window_app_split. change (1020 + 4) with 1024. rewrite <- L, window_full. reflexivity.
  - reflexivity.
  - apply len_window_in. rewrite L. reflexivity.
Qed.

(** The alterations that CRC-32C is good for: up to 32 consecutive bits, up to three bits anywhere, or any odd number. *)
Definition small_change (a b : bytes) : Prop :=
  a <> b /\ (burst 32 (bits_of a) (bits_of b) \/ distance (bits_of a) (bits_of b) <= 3 \/
             N.odd (distance (bits_of a) (bits_of b)) = true).

Lemma crc_small_change seed a b : seed < 2 ^ 32 -> len a = len b -> 8 * len a <= 2 ^ 31 - 1 -> small_change a b ->
  ext4_crc32c seed a <> ext4_crc32c seed b.
Proof.
  intros Hs L M [N [B|[D|O]]].
  - now apply crc32c_detects_bursts.
  - now apply crc32c_detects_three.
  - now apply crc32c_detects_odd.
Qed.

(** An accepted superblock that uses the checksum, altered a little anywhere (the checksum itself included) but not in
    the checksum type, is rejected. *)
Theorem sb4_corruption_rejected st st' : len st = 1024 -> len st' = 1024 -> e4_valid st = Ok true ->
  uint_le st 0x175 1 = 1 -> uint_le st' 0x175 1 = 1 -> small_change st st' -> e4_valid st' = Ok false.
Proof.
  intros L L' V T T' C.
  destruct (sb4_valid_iff st L) as (b & E & I). rewrite V in E. injection E as <-.
  destruct (sb4_valid_iff st' L') as (b' & E' & I'). rewrite E'. f_equal.
  destruct b'; [|reflexivity]. exfalso.
  destruct (sa_checksum st (proj1 I eq_refl)) as [X|[_ X]]; [congruence|].
  destruct (sa_checksum st' (proj1 I' eq_refl)) as [X'|[_ X']]; [congruence|].
  apply sb4_codeword in X; [|exact L]. apply sb4_codeword in X'; [|exact L'].
  apply (crc_small_change crc_initial st st'); [reflexivity|congruence|rewrite L; discriminate|exact C|congruence].
Qed.
Print Assumptions sb4_corruption_rejected.

Lemma byte_burst_small a b : byte_burst a b -> small_change a b.
Proof. intros B. split; [apply B|]. left. now apply byte_burst_bits. Qed.

(** In particular when only four consecutive bytes are altered. *)
Theorem sb4_burst_rejected st st' : len st = 1024 -> e4_valid st = Ok true ->
  uint_le st 0x175 1 = 1 -> uint_le st' 0x175 1 = 1 -> byte_burst st st' -> e4_valid st' = Ok false.
Proof.
  intros L V T T' B. apply (sb4_corruption_rejected st); auto using byte_burst_small.
  rewrite <- L. symmetry. apply byte_burst_len, B.
Qed.
Print Assumptions sb4_burst_rejected.

(** The volume name altered, and a burst that straddles the covered part and the checksum. *)
Example sb4_corruption_ex :
  e4_valid sb_ext4_1 = Ok true /\ uint_le sb_ext4_1 0x175 1 = 1 /\
  byte_burst sb_ext4_1 (poke sb_ext4_1 (0x78, [x61; x62])) /\
  byte_burst sb_ext4_1 (poke sb_ext4_1 (0x3fa, [x61; x62; x63])).
Proof.
  split; [vm_compute; reflexivity|]. split; [reflexivity|]. split.
  - split; [intros E; vm_compute in E; discriminate|].
    exists (window sb_ext4_1 0 0x78), [x00; x00], [x61; x62], (window sb_ext4_1 0x7a 902).
    split; [vm_compute; reflexivity|split; [vm_compute; reflexivity|split; [reflexivity|discriminate]]].
  - split; [intros E; vm_compute in E; discriminate|].
    exists (window sb_ext4_1 0 0x3fa), [x00; x00; x17], [x61; x62; x63], (window sb_ext4_1 0x3fd 3).
    split; [vm_compute; reflexivity|split; [vm_compute; reflexivity|split; [reflexivity|discriminate]]].
Qed.

(** If the checksum type byte is not protected the claim is false: this image differs from an accepted, checksummed one
    in four consecutive bytes (one of them the type), and is accepted with wrong contents. *)
Theorem sb4_type_byte_refuted :
  ~ (forall st st', len st = 1024 -> e4_valid st = Ok true -> uint_le st 0x175 1 = 1 -> byte_burst st st' ->
     e4_valid st' = Ok false).
Proof.
  intros H. specialize (H sb_ext4_1 (poke sb_ext4_1 (0x174, [x07; x00]))).
  assert (E : e4_valid (poke sb_ext4_1 (0x174, [x07; x00])) = Ok false).
  { apply H; [reflexivity|vm_compute; reflexivity|reflexivity|].
    split; [intros E; vm_compute in E; discriminate|].
    exists (window sb_ext4_1 0 0x174), [x04; x01], [x07; x00], (window sb_ext4_1 0x176 650).
    split; [vm_compute; reflexivity|split; [vm_compute; reflexivity|split; [reflexivity|discriminate]]]. }
  vm_compute in E. discriminate E.
Qed.
Print Assumptions sb4_type_byte_refuted.

(** With checksum type 0 the stored checksum and the reserved bytes are ignored: no alteration of the last 380 bytes is
    noticed. *)
Theorem sb4_unchecksummed_ignored st st' : len st = 1024 -> len st' = 1024 -> uint_le st 0x175 1 = 0 ->
  window st 0 0x284 = window st' 0 0x284 -> e4_valid st' = e4_valid st.
Proof.
  intros L L' T W.
  assert (S : forall o w, o + N.of_nat w <= 0x284 -> uint_le st' o w = uint_le st o w).
  { intros o w H. rewrite !uint_le_window. f_equal.
    replace (window st o (N.of_nat w)) with (window (window st 0 0x284) o (N.of_nat w)) by now rewrite window_nested.
    replace (window st' o (N.of_nat w)) with (window (window st' 0 0x284) o (N.of_nat w)) by now rewrite window_nested.
    now rewrite W. }
  destruct (sb4_valid_iff st L) as (b & -> & I), (sb4_valid_iff st' L') as (b' & -> & I'). f_equal.
  assert (A : sb4_acceptable st <-> sb4_acceptable st').
  { split; intros [a1 a2 a3 a4 a5 a6 a7]; constructor; unfold sb4_log_block, sb4_log_cluster, sb4_bigalloc in *;
      rewrite ?S in * by (vm_compute; congruence); auto. }
  destruct b, b'; intuition congruence.
Qed.
Print Assumptions sb4_unchecksummed_ignored.

Example sb4_unchecksummed_ex :
  e4_valid (poke sb_ext4_1 (0x175, [x00])) = Ok true /\
  e4_valid (poke (poke sb_ext4_1 (0x175, [x00])) (0x3fc, [x01; x02; x03; x04])) = Ok true.
Proof. vm_compute. split; reflexivity. Qed.
