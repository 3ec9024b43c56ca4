(** Model of src/ext4/superblock: the ext4 superblock. *)

From Coq Require Import Strings.String.
From Verif Require Import Base Io Superblock Crc.

(** ** src/ext/wide_unsigned.rs 6-8: [WideUnsigned::from_low_high] with halves of [bits] bits. *)
Definition from_low_high (bits low high : N) : N := N.lor low (N.shiftl high bits).

(** src/ext/system_time.rs 9-11: [SystemTimeExt::from_low_high]; a time is its number of seconds since the epoch. *)
Definition time_from_low_high (low high : N) : N := from_low_high 32 low high.

(** ** src/ext4/string.rs *)

(** 11-13, [from_null_terminated_bytes]: everything before the first zero byte. *)
Fixpoint null_terminated (bs : bytes) : bytes :=
  match bs with
  | [] => []
  | b :: t => if Byte.eqb b x00 then [] else b :: null_terminated t
  end.

(** ** Enumerations; [num_enum] with [catch_all] keeps an unknown code. *)

(** src/ext4/superblock/checksum_type.rs 9-14. *)
Inductive checksum_type : Type := CsNone | CsCrc32c | CsUnknown (code : N).
Definition checksum_type_of (v : N) : checksum_type :=
  if v =? 0 then CsNone else if v =? 1 then CsCrc32c else CsUnknown v.

(** src/ext4/superblock/error_policy.rs 9-15. *)
Inductive error_policy : Type := EpContinue | EpRemountReadOnly | EpPanic | EpUnknown (code : N).
Definition error_policy_of (v : N) : error_policy :=
  if v =? 1 then EpContinue else if v =? 2 then EpRemountReadOnly else if v =? 3 then EpPanic else EpUnknown v.

(** src/ext4/superblock/creator_os.rs 9-17. *)
Inductive creator_os : Type := OsLinux | OsHurd | OsMasix | OsFreeBsd | OsLites | OsUnknown (code : N).
Definition creator_os_of (v : N) : creator_os :=
  if v =? 0 then OsLinux else if v =? 1 then OsHurd else if v =? 2 then OsMasix else if v =? 3 then OsFreeBsd
  else if v =? 4 then OsLites else OsUnknown v.

(** src/ext4/superblock/hash_version.rs 9-18. *)
Inductive hash_version : Type :=
  HvLegacy | HvHalfMd4 | HvTea | HvLegacyUnsigned | HvHalfMd4Unsigned | HvTeaUnsigned | HvUnknown (code : N).
Definition hash_version_of (v : N) : hash_version :=
  if v =? 0 then HvLegacy else if v =? 1 then HvHalfMd4 else if v =? 2 then HvTea else if v =? 3 then HvLegacyUnsigned
  else if v =? 4 then HvHalfMd4Unsigned else if v =? 5 then HvTeaUnsigned else HvUnknown v.

(** src/ext4/superblock/encryption_algorithm.rs 9-16. *)
Inductive encryption_algorithm : Type := EaInvalid | EaAes256Xts | EaAes256Gcm | EaAes256Cbc | EaUnknown (code : N).
Definition encryption_algorithm_of (v : N) : encryption_algorithm :=
  if v =? 0 then EaInvalid else if v =? 1 then EaAes256Xts else if v =? 2 then EaAes256Gcm
  else if v =? 3 then EaAes256Cbc else EaUnknown v.
Definition ea_is_invalid (a : encryption_algorithm) : bool := match a with EaInvalid => true | _ => false end.

(** src/ext4/superblock/checksum.rs 2-6. *)
Inductive checksum : Type := ChecksumNone | ChecksumCrc32c (v : N) | ChecksumUnknown (t v : N).

(** ** Feature flags that the code looks at; all flag sets keep unknown bits ([from_bits_retain]). *)

(** src/ext4/superblock/incompatible_features.rs 7-28. *)
Definition incompat_extents : N := 0x40.
Definition incompat_checksum_seed : N := 0x2000.
Definition incompat_known : list N :=
  [1; 2; 4; 8; 0x10; 0x40; 0x80; 0x100; 0x200; 0x400; 0x1000; 0x2000; 0x4000; 0x8000; 0x10000].
(** [IncompatibleFeatures::all()]. *)
Definition incompat_all : N := fold_right N.lor 0 incompat_known.

(** src/ext4/superblock/read_only_compatible_features.rs 39, 42. *)
Definition ro_bigalloc : N := 0x200.
Definition ro_metadata_checksums : N := 0x400.

(** ** src/ext4/superblock/superblock.rs *)

(** 18-121. *)
Definition sb4_layout : layout :=
  [("inodes_count", 4); ("blocks_count_low", 4); ("reserved_blocks_count_low", 4);
   ("free_blocks_count_low", 4); ("free_inodes_count", 4); ("first_data_block", 4); ("log_block_size", 4);
   ("log_cluster_size", 4); ("blocks_per_group", 4); ("clusters_per_group", 4); ("inodes_per_group", 4);
   ("mount_time_low", 4); ("write_time_low", 4); ("mount_count", 2); ("max_mount_count", 2); ("magic", 2);
   ("state", 2); ("error_policy", 2); ("minor_revision_level", 2); ("last_check_time_low", 4);
   ("check_interval", 4); ("creator_os", 4); ("revision_level", 4); ("default_reserved_user_id", 2);
   ("default_reserved_group_id", 2); ("first_inode", 4); ("inode_size", 2); ("block_group_number", 2);
   ("compatible_features", 4); ("incompatible_features", 4); ("read_only_compatible_features", 4);
   ("uuid", 16); ("volume_name", 16); ("last_mounted_path", 64); ("algorithm_usage_bitmap", 4);
   ("preallocate_blocks", 1); ("preallocate_directory_blocks", 1); ("reserved_gdt_blocks", 2);
   ("journal_uuid", 16); ("journal_inode_number", 4); ("journal_device_number", 4); ("last_orphan", 4);
   ("hash_seed", 16); ("default_hash_version", 1); ("journal_backup_type", 1); ("group_descriptor_size", 2);
   ("default_mount_options", 4); ("first_meta_block_group", 4); ("creation_time_low", 4);
   ("journal_blocks", 68); ("blocks_count_high", 4); ("reserved_blocks_count_high", 4);
   ("free_blocks_count_high", 4); ("minimum_extra_inode_size", 2); ("wanted_extra_inode_size", 2);
   ("flags", 4); ("raid_stride", 2); ("multi_mount_prevention_interval", 2);
   ("multi_mount_prevention_block", 8); ("raid_stripe_width", 4); ("log_groups_per_flex", 1);
   ("checksum_type", 1); ("reserved_0", 2); ("kbytes_written", 8); ("snapshot_inode_number", 4);
   ("snapshot_id", 4); ("snapshot_reserved_blocks_count", 8); ("snapshot_list_inode_number", 4);
   ("error_count", 4); ("first_error_time_low", 4); ("first_error_inode", 4); ("first_error_block", 8);
   ("first_error_function_name", 32); ("first_error_line", 4); ("last_error_time_low", 4);
   ("last_error_inode", 4); ("last_error_line", 4); ("last_error_block", 8); ("last_error_function_name", 32);
   ("mount_options", 64); ("user_quota_inode_number", 4); ("group_quota_inode_number", 4);
   ("overhead_blocks", 4); ("superblock_backup_block_group_0", 4); ("superblock_backup_block_group_1", 4);
   ("encryption_algorithms", 4); ("encryption_password_salt", 16); ("lost_and_found_inode_number", 4);
   ("project_quota_inode_number", 4); ("checksum_seed", 4); ("write_time_high", 1); ("mount_time_high", 1);
   ("creation_time_high", 1); ("last_check_time_high", 1); ("first_error_time_high", 1);
   ("last_error_time_high", 1); ("reserved_1", 2); ("filename_character_encoding", 2);
   ("filename_character_encoding_flags", 2); ("orphan_file_inode_number", 4); ("reserved_2", 376);
   ("checksum", 4)]%string.

(** 644-646, [view]; a plain accessor reads the field of its name. *)
Definition s4 (name : string) (st : bytes) : N := fle sb4_layout name st.
Definition s4_bytes (name : string) (st : bytes) : bytes := fbytes sb4_layout name st.

(** [1u64.unbounded_shl(n)]. *)
Definition unbounded_shl1 (n : N) : N := if n <? 64 then 2 ^ n else 0.

(** The accessors that only read one field. *)
(** 178-180. *)
Definition e4_inodes_count (st : bytes) : N := s4 "inodes_count" st.
(** 206-208. *)
Definition e4_free_inodes_count (st : bytes) : N := s4 "free_inodes_count" st.
(** 222-224. *)
Definition e4_blocks_per_group (st : bytes) : N := s4 "blocks_per_group" st.
(** 226-228. *)
Definition e4_clusters_per_group (st : bytes) : N := s4 "clusters_per_group" st.
(** 230-232. *)
Definition e4_inodes_per_group (st : bytes) : N := s4 "inodes_per_group" st.
(** 250-252. *)
Definition e4_mount_count (st : bytes) : N := s4 "mount_count" st.
(** 254-256. *)
Definition e4_max_mount_count (st : bytes) : N := s4 "max_mount_count" st.
(** 258-260. *)
Definition e4_magic (st : bytes) : N := s4 "magic" st.
(** 262-264. *)
Definition e4_state (st : bytes) : N := s4 "state" st.
(** 266-268. *)
Definition e4_error_policy (st : bytes) : error_policy := error_policy_of (s4 "error_policy" st).
(** 270-272. *)
Definition e4_minor_revision_level (st : bytes) : N := s4 "minor_revision_level" st.
(** 291-293. *)
Definition e4_creator_os (st : bytes) : creator_os := creator_os_of (s4 "creator_os" st).
(** 295-297. *)
Definition e4_revision_level (st : bytes) : N := s4 "revision_level" st.
(** 299-301. *)
Definition e4_default_reserved_user_id (st : bytes) : N := s4 "default_reserved_user_id" st.
(** 303-305. *)
Definition e4_default_reserved_group_id (st : bytes) : N := s4 "default_reserved_group_id" st.
(** 307-309. *)
Definition e4_first_inode (st : bytes) : N := s4 "first_inode" st.
(** 311-313. *)
Definition e4_inode_size (st : bytes) : N := s4 "inode_size" st.
(** 315-317. *)
Definition e4_block_group_number (st : bytes) : N := s4 "block_group_number" st.
(** 319-321. *)
Definition e4_compatible_features (st : bytes) : N := s4 "compatible_features" st.
(** 323-325. *)
Definition e4_incompatible_features (st : bytes) : N := s4 "incompatible_features" st.
(** 327-329. *)
Definition e4_read_only_compatible_features (st : bytes) : N := s4 "read_only_compatible_features" st.
(** 356-358. *)
Definition e4_algorithm_usage_bitmap (st : bytes) : N := s4 "algorithm_usage_bitmap" st.
(** 360-362. *)
Definition e4_preallocate_blocks (st : bytes) : N := s4 "preallocate_blocks" st.
(** 364-366. *)
Definition e4_preallocate_directory_blocks (st : bytes) : N := s4 "preallocate_directory_blocks" st.
(** 368-370. *)
Definition e4_reserved_gdt_blocks (st : bytes) : N := s4 "reserved_gdt_blocks" st.
(** 376-378. *)
Definition e4_journal_inode_number (st : bytes) : N := s4 "journal_inode_number" st.
(** 380-382. *)
Definition e4_journal_device_number (st : bytes) : N := s4 "journal_device_number" st.
(** 384-386. *)
Definition e4_last_orphan (st : bytes) : N := s4 "last_orphan" st.
(** 396-398. *)
Definition e4_default_hash_version (st : bytes) : hash_version := hash_version_of (s4 "default_hash_version" st).
(** 400-402. *)
Definition e4_journal_backup_type (st : bytes) : N := s4 "journal_backup_type" st.
(** 404-406. *)
Definition e4_group_descriptor_size (st : bytes) : N := s4 "group_descriptor_size" st.
(** 408-410. *)
Definition e4_default_mount_options (st : bytes) : N := s4 "default_mount_options" st.
(** 412-414. *)
Definition e4_first_meta_block_group (st : bytes) : N := s4 "first_meta_block_group" st.
(** 437-439. *)
Definition e4_minimum_extra_inode_size (st : bytes) : N := s4 "minimum_extra_inode_size" st.
(** 441-443. *)
Definition e4_wanted_extra_inode_size (st : bytes) : N := s4 "wanted_extra_inode_size" st.
(** 445-447. *)
Definition e4_flags (st : bytes) : N := s4 "flags" st.
(** 449-451. *)
Definition e4_raid_stride (st : bytes) : N := s4 "raid_stride" st.
(** 453-455. *)
Definition e4_multi_mount_prevention_interval (st : bytes) : N := s4 "multi_mount_prevention_interval" st.
(** 457-459. *)
Definition e4_multi_mount_prevention_block (st : bytes) : N := s4 "multi_mount_prevention_block" st.
(** 461-463. *)
Definition e4_raid_stripe_width (st : bytes) : N := s4 "raid_stripe_width" st.
(** 469-471. *)
Definition e4_kbytes_written (st : bytes) : N := s4 "kbytes_written" st.
(** 473-475. *)
Definition e4_snapshot_inode_number (st : bytes) : N := s4 "snapshot_inode_number" st.
(** 477-479. *)
Definition e4_snapshot_id (st : bytes) : N := s4 "snapshot_id" st.
(** 481-483. *)
Definition e4_snapshot_reserved_blocks_count (st : bytes) : N := s4 "snapshot_reserved_blocks_count" st.
(** 485-487. *)
Definition e4_snapshot_list_inode_number (st : bytes) : N := s4 "snapshot_list_inode_number" st.
(** 489-491. *)
Definition e4_error_count (st : bytes) : N := s4 "error_count" st.
(** 506-508. *)
Definition e4_first_error_inode (st : bytes) : N := s4 "first_error_inode" st.
(** 510-512. *)
Definition e4_first_error_block (st : bytes) : N := s4 "first_error_block" st.
(** 525-527. *)
Definition e4_first_error_line (st : bytes) : N := s4 "first_error_line" st.
(** 542-544. *)
Definition e4_last_error_inode (st : bytes) : N := s4 "last_error_inode" st.
(** 546-548. *)
Definition e4_last_error_line (st : bytes) : N := s4 "last_error_line" st.
(** 550-552. *)
Definition e4_last_error_block (st : bytes) : N := s4 "last_error_block" st.
(** 569-571. *)
Definition e4_user_quota_inode_number (st : bytes) : N := s4 "user_quota_inode_number" st.
(** 573-575. *)
Definition e4_group_quota_inode_number (st : bytes) : N := s4 "group_quota_inode_number" st.
(** 577-579. *)
Definition e4_overhead_blocks (st : bytes) : N := s4 "overhead_blocks" st.
(** 608-610. *)
Definition e4_lost_and_found_inode_number (st : bytes) : N := s4 "lost_and_found_inode_number" st.
(** 612-614. *)
Definition e4_project_quota_inode_number (st : bytes) : N := s4 "project_quota_inode_number" st.
(** 632-634. *)
Definition e4_filename_character_encoding (st : bytes) : N := s4 "filename_character_encoding" st.
(** 636-638. *)
Definition e4_filename_character_encoding_flags (st : bytes) : N := s4 "filename_character_encoding_flags" st.
(** 640-642. *)
Definition e4_orphan_file_inode_number (st : bytes) : N := s4 "orphan_file_inode_number" st.

(** 182-204: split counts. *)
Definition e4_blocks_count (st : bytes) : N := from_low_high 32 (s4 "blocks_count_low" st) (s4 "blocks_count_high" st).
Definition e4_reserved_blocks_count (st : bytes) : N :=
  from_low_high 32 (s4 "reserved_blocks_count_low" st) (s4 "reserved_blocks_count_high" st).
Definition e4_free_blocks_count (st : bytes) : N :=
  from_low_high 32 (s4 "free_blocks_count_low" st) (s4 "free_blocks_count_high" st).

(** 210-212. *)
Definition e4_first_data_block (st : bytes) : N := s4 "first_data_block" st.

(** 214-220; [10 + log] is a [u32] addition. *)
Definition shl_10_plus (log : N) : res N :=
  match cadd32 10 log with Some n => Ok (unbounded_shl1 n) | None => Panic end.
Definition e4_block_size_bytes (st : bytes) : res N := shl_10_plus (s4 "log_block_size" st).
Definition e4_cluster_size_blocks (st : bytes) : res N := shl_10_plus (s4 "log_cluster_size" st).

(** 234-243, 416-427, 493-504, 529-540: optional times. *)
Definition some_time (t : N) : option N := if t =? 0 then None else Some t.
Definition e4_mount_time (st : bytes) : option N :=
  some_time (time_from_low_high (s4 "mount_time_low" st) (s4 "mount_time_high" st)).
Definition e4_creation_time (st : bytes) : option N :=
  some_time (time_from_low_high (s4 "creation_time_low" st) (s4 "creation_time_high" st)).
Definition e4_first_error_time (st : bytes) : option N :=
  some_time (time_from_low_high (s4 "first_error_time_low" st) (s4 "first_error_time_high" st)).
Definition e4_last_error_time (st : bytes) : option N :=
  some_time (time_from_low_high (s4 "last_error_time_low" st) (s4 "last_error_time_high" st)).

(** 245-248, 274-280. *)
Definition e4_write_time (st : bytes) : N := time_from_low_high (s4 "write_time_low" st) (s4 "write_time_high" st).
Definition e4_last_check_time (st : bytes) : N :=
  time_from_low_high (s4 "last_check_time_low" st) (s4 "last_check_time_high" st).

(** 282-289; a duration is its number of seconds. *)
Definition e4_check_interval (st : bytes) : option N := some_time (s4 "check_interval" st).

(** 331-333, 372-374, 388-394, 429-435, 600-606: byte fields. *)
Definition e4_uuid (st : bytes) : bytes := s4_bytes "uuid" st.
Definition e4_journal_uuid (st : bytes) : bytes := s4_bytes "journal_uuid" st.
Definition e4_hash_seed (st : bytes) : bytes := s4_bytes "hash_seed" st.
Definition e4_journal_blocks (st : bytes) : bytes := s4_bytes "journal_blocks" st.
Definition e4_encryption_password_salt (st : bytes) : bytes := s4_bytes "encryption_password_salt" st.

(** 335-354, 514-523, 554-567: strings. *)
Definition some_string (s : bytes) : option bytes := match s with [] => None | _ => Some s end.
Definition e4_volume_name (st : bytes) : option bytes := some_string (null_terminated (s4_bytes "volume_name" st)).
Definition e4_last_mounted_path (st : bytes) : option bytes :=
  some_string (null_terminated (s4_bytes "last_mounted_path" st)).
Definition e4_first_error_function_name (st : bytes) : option bytes :=
  some_string (null_terminated (s4_bytes "first_error_function_name" st)).
Definition e4_last_error_function_name (st : bytes) : option bytes :=
  some_string (null_terminated (s4_bytes "last_error_function_name" st)).
Definition e4_mount_options (st : bytes) : bytes := null_terminated (s4_bytes "mount_options" st).

(** 465-467. *)
Definition e4_groups_per_flex (st : bytes) : N := unbounded_shl1 (s4 "log_groups_per_flex" st).

(** 581-587. *)
Definition e4_superblock_backup_block_groups (st : bytes) : list N :=
  [s4 "superblock_backup_block_group_0" st; s4 "superblock_backup_block_group_1" st].

(** 589-598. *)
Definition e4_encryption_algorithms (st : bytes) : list encryption_algorithm :=
  filter (fun a => negb (ea_is_invalid a))
    (map (fun b => encryption_algorithm_of (bval b)) (s4_bytes "encryption_algorithms" st)).

(** 616-630. *)
Definition e4_checksum_seed (st : bytes) : N :=
  if contains (e4_incompatible_features st) incompat_checksum_seed then s4 "checksum_seed" st
  else if contains (e4_read_only_compatible_features st) ro_metadata_checksums
  then ext4_crc32c crc_initial (s4_bytes "uuid" st)
  else 0.

(** 648-655. *)
Definition e4_checksum (st : bytes) : checksum :=
  match checksum_type_of (s4 "checksum_type" st) with
  | CsNone => ChecksumNone
  | CsCrc32c => ChecksumCrc32c (s4 "checksum" st)
  | CsUnknown t => ChecksumUnknown t (s4 "checksum" st)
  end.

(** 657-662; [OFFSET] of the checksum field. *)
Definition e4_expected_checksum (st : bytes) : res N :=
  match field sb4_layout "checksum" with
  | Some (o, _) => let? covered := unwrap (slice_to st o) in Ok (ext4_crc32c crc_initial covered)
  | None => Panic
  end.

(** 140-176. *)
Definition e4_valid_magic (st : bytes) : bool := e4_magic st =? 0xef53.
Definition e4_valid_block_size (st : bytes) : bool := s4 "log_block_size" st <? 53.
Definition e4_valid_cluster_size (st : bytes) : res bool :=
  if s4 "log_cluster_size" st <? 53 then
    if contains (e4_read_only_compatible_features st) ro_bigalloc then Ok true
    else let? c := e4_cluster_size_blocks st in
         let? b := e4_block_size_bytes st in
         Ok (c =? b)
  else Ok false.
Definition e4_valid_clusters_per_group (st : bytes) : bool :=
  contains (e4_read_only_compatible_features st) ro_bigalloc || (e4_clusters_per_group st =? e4_blocks_per_group st).
Definition e4_valid_error_policy (st : bytes) : bool :=
  match e4_error_policy st with EpUnknown _ => false | _ => true end.
Definition e4_valid_groups_per_flex (st : bytes) : bool := s4 "log_groups_per_flex" st <? 63.
Definition e4_valid_checksum (st : bytes) : res bool :=
  match e4_checksum st with
  | ChecksumNone => Ok true
  | ChecksumCrc32c c => let? e := e4_expected_checksum st in Ok (c =? e)
  | ChecksumUnknown _ _ => Ok false
  end.

(** 130-138: [&&] evaluates from left to right and stops at the first false. *)
Definition and_then (a : res bool) (b : res bool) : res bool :=
  match a with Ok true => b | _ => a end.
Definition e4_valid (st : bytes) : res bool :=
  and_then (Ok (e4_valid_magic st)) (
  and_then (Ok (e4_valid_block_size st)) (
  and_then (e4_valid_cluster_size st) (
  and_then (Ok (e4_valid_clusters_per_group st)) (
  and_then (Ok (e4_valid_error_policy st)) (
  and_then (Ok (e4_valid_groups_per_flex st)) (e4_valid_checksum st)))))).

(** ** Calls on a byte stream that may fail

    A computation takes the state of the stream and gives the new state and a result; [?] stops at the first failure. *)
Definition io (S A : Type) : Type := S -> S * res A.
Definition io_lift {S A} (r : res A) : io S A := fun s => (s, r).
Definition io_ret {S A} (a : A) : io S A := io_lift (Ok a).
Definition io_bind {S A B} (m : io S A) (k : A -> io S B) : io S B :=
  fun s => let '(s, r) := m s in
           match r with Ok a => k a s | Err e => (s, Err e) | Panic => (s, Panic) end.
Notation "'let!' x ':=' m 'in' k" := (io_bind m (fun x => k))
  (at level 200, x pattern, m at level 100, k at level 200).

(** [let mut buf = vec![0u8; n]; reader.read_exact(&mut buf)?]; an allocation failure is not modelled. *)
Definition io_read_exact {S} (st : stream S) (n : N) : io S bytes :=
  fun s => let '(s, buf, r) := read_exact st s (zeros n) in (s, let? _ := r in Ok buf).

(** [reader.seek(SeekFrom::Start(o))?] *)
Definition io_seek {S} (st : stream S) (o : N) : io S unit :=
  fun s => let '(s, r) := st_seek st s (SeekStart o) in (s, let? _ := r in Ok tt).

(** 666-675, [Superblock::read]. *)
Definition e4_read {S} (st : stream S) : io S bytes :=
  let! buf := io_read_exact st (layout_size sb4_layout) in
  let! ok := io_lift (e4_valid buf) in
  if ok : bool then io_ret buf else io_lift (Err InvalidData).
