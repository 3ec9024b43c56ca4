(** The tests of md-recover, run on the model: every [#\[test\]] of the source as an example with the same name, the same input
    and the same expected answer.  They say nothing for other inputs; they are here to compare the model with the code. *)

From Coq Require Import Strings.String.
From Verif Require Import Base BaseFacts Io SpecMd Raid Superblock Crc Ext4Superblock Ext4Inode Ext4Fs Ext4Extent Ext4String Ext4File Ext4Dir Flags
  TestData TestImages.

(** [A | B | ...] *)
Definition flags (set : flag_set) (names : list string) : N :=
  fold_right N.lor 0 (map (fun n => match find (fun f => String.eqb (fst f) n) set with Some f => snd f | None => 0 end) names).

Definition str (s : string) : bytes := list_byte_of_string s.

(** ** src/ext4/superblock/test.rs *)

Open Scope string_scope.
Example superblock_test_size_of_superblock : layout_size sb4_layout = 1024.
Proof. reflexivity. Qed.
Example superblock_test_valid_magic : e4_valid_magic sb_ext4_1 = true.
Proof. vm_compute. reflexivity. Qed.
Example superblock_test_valid_magic_ext2 : e4_valid_magic sb_ext2 = true.
Proof. vm_compute. reflexivity. Qed.
Example superblock_test_valid_magic_random : e4_valid_magic sb_random = false.
Proof. vm_compute. reflexivity. Qed.
Example superblock_test_valid_cluster_size : e4_valid_cluster_size sb_ext4_1 = Ok true.
Proof. vm_compute. reflexivity. Qed.
Example superblock_test_valid_cluster_size_ext2 : e4_valid_cluster_size sb_ext2 = Ok true.
Proof. vm_compute. reflexivity. Qed.
Example superblock_test_valid_cluster_size_random : e4_valid_cluster_size sb_random = Ok false.
Proof. vm_compute. reflexivity. Qed.
Example superblock_test_valid_clusters_per_group : e4_valid_clusters_per_group sb_ext4_1 = true.
Proof. vm_compute. reflexivity. Qed.
Example superblock_test_valid_clusters_per_group_ext2 : e4_valid_clusters_per_group sb_ext2 = true.
Proof. vm_compute. reflexivity. Qed.
Example superblock_test_valid_clusters_per_group_random : e4_valid_clusters_per_group sb_random = false.
Proof. vm_compute. reflexivity. Qed.
Example superblock_test_valid_error_policy : e4_valid_error_policy sb_ext4_1 = true.
Proof. vm_compute. reflexivity. Qed.
Example superblock_test_valid_error_policy_random : e4_valid_error_policy sb_random = false.
Proof. vm_compute. reflexivity. Qed.
Example superblock_test_valid_groups_per_flex : e4_valid_groups_per_flex sb_ext4_1 = true.
Proof. vm_compute. reflexivity. Qed.
Example superblock_test_valid_groups_per_flex_random : e4_valid_groups_per_flex sb_random = false.
Proof. vm_compute. reflexivity. Qed.
Example superblock_test_valid_checksum : e4_valid_checksum sb_ext4_1 = Ok true.
Proof. vm_compute. reflexivity. Qed.
Example superblock_test_valid_checksum_ext2 : e4_valid_checksum sb_ext2 = Ok true.
Proof. vm_compute. reflexivity. Qed.
Example superblock_test_valid_checksum_random : e4_valid_checksum sb_random = Ok false.
Proof. vm_compute. reflexivity. Qed.
Example superblock_test_inodes_count : e4_inodes_count sb_ext4_1 = 64.
Proof. vm_compute. reflexivity. Qed.
Example superblock_test_inodes_count_ext2 : e4_inodes_count sb_ext2 = 64.
Proof. vm_compute. reflexivity. Qed.
Example superblock_test_blocks_count : e4_blocks_count sb_ext4_1 = 128.
Proof. vm_compute. reflexivity. Qed.
Example superblock_test_blocks_count_ext2 : e4_blocks_count sb_ext2 = 128.
Proof. vm_compute. reflexivity. Qed.
Example superblock_test_first_data_block : e4_first_data_block sb_ext4_1 = 0.
Proof. vm_compute. reflexivity. Qed.
Example superblock_test_first_data_block_ext2 : e4_first_data_block sb_ext2 = 0.
Proof. vm_compute. reflexivity. Qed.
Example superblock_test_block_size_bytes : e4_block_size_bytes sb_ext4_1 = Ok 4096.
Proof. vm_compute. reflexivity. Qed.
Example superblock_test_block_size_bytes_random : e4_block_size_bytes sb_random = Ok 0.
Proof. vm_compute. reflexivity. Qed.
Example superblock_test_cluster_size_blocks : e4_cluster_size_blocks sb_ext4_1 = Ok 4096.
Proof. vm_compute. reflexivity. Qed.
Example superblock_test_cluster_size_blocks_random : e4_cluster_size_blocks sb_random = Ok 0.
Proof. vm_compute. reflexivity. Qed.
Example superblock_test_mount_time_1 : e4_mount_time sb_ext4_1 = None.
Proof. vm_compute. reflexivity. Qed.
Example superblock_test_mount_time_2 : e4_mount_time sb_ext4_2 = Some (1732062563).
Proof. vm_compute. reflexivity. Qed.
Example superblock_test_write_time_1 : e4_write_time sb_ext4_1 = 1731941452.
Proof. vm_compute. reflexivity. Qed.
Example superblock_test_write_time_2 : e4_write_time sb_ext4_2 = 1732062580.
Proof. vm_compute. reflexivity. Qed.
Example superblock_test_magic : e4_magic sb_ext4_1 = 0xef53.
Proof. vm_compute. reflexivity. Qed.
Example superblock_test_magic_ext2 : e4_magic sb_ext2 = 0xef53.
Proof. vm_compute. reflexivity. Qed.
Example superblock_test_state : e4_state sb_ext4_1 = flags state_flags ["CLEANLY_UNMOUNTED"].
Proof. vm_compute. reflexivity. Qed.
Example superblock_test_state_ext2 : e4_state sb_ext2 = flags state_flags ["CLEANLY_UNMOUNTED"].
Proof. vm_compute. reflexivity. Qed.
Example superblock_test_error_policy : e4_error_policy sb_ext4_1 = EpContinue.
Proof. vm_compute. reflexivity. Qed.
Example superblock_test_last_check_time : e4_last_check_time sb_ext4_1 = 1731941452.
Proof. vm_compute. reflexivity. Qed.
Example superblock_test_check_interval_1 : e4_check_interval sb_ext4_1 = None.
Proof. vm_compute. reflexivity. Qed.
Example superblock_test_check_interval_3 : e4_check_interval sb_ext4_3 = Some (259200).
Proof. vm_compute. reflexivity. Qed.
Example superblock_test_creator_os : e4_creator_os sb_ext4_1 = OsLinux.
Proof. vm_compute. reflexivity. Qed.
Example superblock_test_revision_level : e4_revision_level sb_ext4_1 = 1.
Proof. vm_compute. reflexivity. Qed.
Example superblock_test_default_reserved_user_id_1 : e4_default_reserved_user_id sb_ext4_1 = 0.
Proof. vm_compute. reflexivity. Qed.
Example superblock_test_default_reserved_user_id_3 : e4_default_reserved_user_id sb_ext4_3 = 1000.
Proof. vm_compute. reflexivity. Qed.
Example superblock_test_default_reserved_group_id_1 : e4_default_reserved_group_id sb_ext4_1 = 0.
Proof. vm_compute. reflexivity. Qed.
Example superblock_test_default_reserved_group_id_3 : e4_default_reserved_group_id sb_ext4_3 = 1000.
Proof. vm_compute. reflexivity. Qed.
Example superblock_test_first_inode : e4_first_inode sb_ext4_1 = 11.
Proof. vm_compute. reflexivity. Qed.
Example superblock_test_inode_size : e4_inode_size sb_ext4_1 = 256.
Proof. vm_compute. reflexivity. Qed.
Example superblock_test_block_group_number : e4_block_group_number sb_ext4_1 = 0.
Proof. vm_compute. reflexivity. Qed.
Example superblock_test_compatible_features_1 : e4_compatible_features sb_ext4_1 = flags compatible_flags
  ["SUPPORTS_EXTENDED_ATTRIBUTES"; "HAS_RESERVED_GDT_BLOCKS"; "HAS_DIRECTORY_INDICES"].
Proof. vm_compute. reflexivity. Qed.
Example superblock_test_compatible_features_2 : e4_compatible_features sb_ext4_2 = flags compatible_flags
  ["HAS_JOURNAL"; "SUPPORTS_EXTENDED_ATTRIBUTES"; "HAS_RESERVED_GDT_BLOCKS"; "HAS_DIRECTORY_INDICES"].
Proof. vm_compute. reflexivity. Qed.
Example superblock_test_incompatible_features : e4_incompatible_features sb_ext4_1 = flags incompatible_flags
  ["DIRECTORY_ENTRIES_RECORD_FILE_TYPE"; "FILES_USE_EXTENTS"; "IS_64_BIT"; "FLEXIBLE_BLOCK_GROUPS"].
Proof. vm_compute. reflexivity. Qed.
Example superblock_test_incompatible_features_ext2 : e4_incompatible_features sb_ext2 = flags incompatible_flags
  ["DIRECTORY_ENTRIES_RECORD_FILE_TYPE"].
Proof. vm_compute. reflexivity. Qed.
Example superblock_test_read_only_compatible_features : e4_read_only_compatible_features sb_ext4_1 = flags
  read_only_flags ["SPARSE_SUPERBLOCKS"; "CONTAINS_LARGE_FILES"; "CONTAINS_HUGE_FILES"; "UNLIMITED_SUBDIRECTORIES";
  "CONTAINS_LARGE_INODES"; "METADATA_CHECKSUMS"].
Proof. vm_compute. reflexivity. Qed.
Example superblock_test_read_only_compatible_features_ext2 : e4_read_only_compatible_features sb_ext2 = flags
  read_only_flags ["SPARSE_SUPERBLOCKS"; "CONTAINS_LARGE_FILES"].
Proof. vm_compute. reflexivity. Qed.
Example superblock_test_uuid : e4_uuid sb_ext4_3 = [x96; x88; x27; xba; xcc; x32; x40; x67; xba; x37; x23; xfb; x86;
  xf9; xae; xfd].
Proof. vm_compute. reflexivity. Qed.
Example superblock_test_volume_name_1 : e4_volume_name sb_ext4_1 = None.
Proof. vm_compute. reflexivity. Qed.
Example superblock_test_volume_name_3 : e4_volume_name sb_ext4_3 = Some (list_byte_of_string "ext4-3").
Proof. vm_compute. reflexivity. Qed.
Example superblock_test_last_mounted_path : e4_last_mounted_path sb_ext4_1 = None.
Proof. vm_compute. reflexivity. Qed.
Example superblock_test_journal_uuid_1 : e4_journal_uuid sb_ext4_1 = zeros 16.
Proof. vm_compute. reflexivity. Qed.
Example superblock_test_journal_uuid_2 : e4_journal_uuid sb_ext4_2 = zeros 16.
Proof. vm_compute. reflexivity. Qed.
Example superblock_test_journal_inode_number_1 : e4_journal_inode_number sb_ext4_1 = 0.
Proof. vm_compute. reflexivity. Qed.
Example superblock_test_journal_inode_number_2 : e4_journal_inode_number sb_ext4_2 = 8.
Proof. vm_compute. reflexivity. Qed.
Example superblock_test_journal_device_number : e4_journal_device_number sb_ext4_1 = 0.
Proof. vm_compute. reflexivity. Qed.
Example superblock_test_creation_time_1 : e4_creation_time sb_ext4_1 = Some (1731941452).
Proof. vm_compute. reflexivity. Qed.
Example superblock_test_creation_time_2 : e4_creation_time sb_ext4_2 = Some (1732062470).
Proof. vm_compute. reflexivity. Qed.
Example superblock_test_flags : e4_flags sb_ext4_1 = flags superblock_flags ["SIGNED_DIRECTORY_HASH"].
Proof. vm_compute. reflexivity. Qed.
Example superblock_test_first_error_time : e4_first_error_time sb_ext4_1 = None.
Proof. vm_compute. reflexivity. Qed.
Example superblock_test_encryption_algorithms : e4_encryption_algorithms sb_ext4_1 = [].
Proof. vm_compute. reflexivity. Qed.
Example superblock_test_checksum : e4_checksum sb_ext4_1 = ChecksumCrc32c 0x42350b17.
Proof. vm_compute. reflexivity. Qed.
Example superblock_test_checksum_ext2 : e4_checksum sb_ext2 = ChecksumNone.
Proof. vm_compute. reflexivity. Qed.
Example superblock_test_expected_checksum : e4_expected_checksum sb_ext4_1 = Ok 0x42350b17.
Proof. vm_compute. reflexivity. Qed.
Close Scope string_scope.

(** ** src/md/superblock/version_1/tests.rs *)

Example view_of_superblock_version_1 :
  fle v1_layout "magic" md_v1_data = 0xa92b4efc /\
  fle v1_layout "major_version" md_v1_data = 1 /\
  fle v1_layout "features" md_v1_data = 0 /\
  fbytes v1_layout "array_uuid" md_v1_data = [xc5; x98; x7f; x03; x80; xf5; xe1; xbf; x7a; x42; x17; xa1; x15; x09; x17; x33] /\
  fbytes v1_layout "array_name" md_v1_data = [x6d; x65; x64; x69; x65; x76; x61; x6c; x20; x73; x74; x6f; x72; x6d; x00; x00; x00; x00; x00; x00; x00; x00; x00; x00; x00; x00; x00; x00; x00; x00; x00; x00] /\
  fle v1_layout "ctime" md_v1_data = 0x1149dcd1f9bd2423 /\
  fle v1_layout "level" md_v1_data = 5 /\
  fle v1_layout "layout" md_v1_data = 0xa64a04b3 /\
  fle v1_layout "sectors_per_device" md_v1_data = 0xa8fff95a3beda8d6 /\
  fle v1_layout "chunk_size" md_v1_data = 65536 /\
  fle v1_layout "raid_device_count" md_v1_data = 4 /\
  fbytes v1_layout "bitmap_offset_or_ppl_info" md_v1_data = [x7b; x1d; x5a; x5a] /\
  fle v1_reshape_layout "new_level" (fbytes v1_layout "reshape_status" md_v1_data) = 6 /\
  fle v1_reshape_layout "reshape_position" (fbytes v1_layout "reshape_status" md_v1_data) = 0xe30dc65274cef739 /\
  fle v1_reshape_layout "delta_devices" (fbytes v1_layout "reshape_status" md_v1_data) = 1 /\
  fle v1_reshape_layout "new_layout" (fbytes v1_layout "reshape_status" md_v1_data) = 0x979a6999 /\
  fle v1_reshape_layout "new_chunk_size" (fbytes v1_layout "reshape_status" md_v1_data) = 65536 /\
  fle v1_reshape_layout "new_offset" (fbytes v1_layout "reshape_status" md_v1_data) = 0 /\
  fle v1_layout "data_offset" md_v1_data = 0xfae3d184a79c8efd /\
  fle v1_layout "data_size" md_v1_data = 0x588ab17ce9f1a413 /\
  fle v1_layout "super_offset" md_v1_data = 0xf544698b366331f0 /\
  fle v1_layout "recovery_offset_or_journal_tail" md_v1_data = 0x943efeb94d6afd2d /\
  fle v1_layout "device_role_index" md_v1_data = 0xc2b6dd5b /\
  fle v1_layout "count_corrected_read" md_v1_data = 0x944a80e7 /\
  fbytes v1_layout "device_uuid" md_v1_data = [x31; x79; x2c; x4c; xcc; xbe; x9d; x9f; x21; x04; xc6; xa8; x0f; x65; xb0; x46] /\
  fle v1_layout "device_flags" md_v1_data = 0 /\
  fle v1_layout "bad_block_log_shift" md_v1_data = 0xa1 /\
  fle v1_layout "bad_block_log_size" md_v1_data = 0xcca0 /\
  fle v1_layout "bad_block_log_offset" md_v1_data = 0xad79cc21 /\
  fle v1_layout "utime" md_v1_data = 0x5ce35f80ed788341 /\
  fle v1_layout "event_count" md_v1_data = 0x71954b9d8fff836a /\
  fle v1_layout "resync_offset" md_v1_data = 0xc191af9aef59e8b5 /\
  fle v1_layout "superblock_checksum" md_v1_data = 0x55dc4d55 /\
  fle v1_layout "max_devices" md_v1_data = 4 /\
  window (skipn (N.to_nat (layout_size v1_layout)) md_v1_data) 0 8 = [x01; x00; x02; x00; x03; x00; x04; x00].
Proof. repeat split; vm_compute; reflexivity. Qed.

(** ** src/md/superblock/version_0/little_endian/tests.rs *)

Example size_of_little_endian_superblock_version_0 :
  v0_size = 4096.
Proof. repeat split; vm_compute; reflexivity. Qed.

Example view_of_little_endian_superblock_version_0 :
  fval Little v0_layout "magic" md_v0_little_data = 0xa92b4efc /\
  fval Little v0_layout "major_version" md_v0_little_data = 0 /\
  fval Little v0_layout "minor_version" md_v0_little_data = 90 /\
  fval Little v0_layout "patch_version" md_v0_little_data = 1 /\
  fval Little v0_layout "gvalid_words" md_v0_little_data = 0 /\
  fval Little v0_layout "array_uuid_0" md_v0_little_data = 0x12345678 /\
  fval Little v0_layout "ctime" md_v0_little_data = 0x59cd9a68 /\
  fval Little v0_layout "level" md_v0_little_data = 5 /\
  fval Little v0_layout "sectors_per_device" md_v0_little_data = 0x4654579d /\
  fval Little v0_layout "total_device_count" md_v0_little_data = 4 /\
  fval Little v0_layout "raid_device_count" md_v0_little_data = 4 /\
  fval Little v0_layout "md_minor" md_v0_little_data = 7 /\
  fval Little v0_layout "not_persistent" md_v0_little_data = 0 /\
  fval Little v0_layout "array_uuid_1" md_v0_little_data = 0xcc253946 /\
  fval Little v0_layout "array_uuid_2" md_v0_little_data = 0x1649afcc /\
  fval Little v0_layout "utime" md_v0_little_data = 0x40ea6820 /\
  fval Little v0_layout "state" md_v0_little_data = 0 /\
  fval Little v0_layout "active_device_count" md_v0_little_data = 4 /\
  fval Little v0_layout "working_device_count" md_v0_little_data = 4 /\
  fval Little v0_layout "failed_device_count" md_v0_little_data = 0 /\
  fval Little v0_layout "spare_device_count" md_v0_little_data = 0 /\
  fval Little v0_layout "superblock_checksum" md_v0_little_data = 0x4742e3fa /\
  fval Little v0_layout "event_count" md_v0_little_data = 0x05ada75c5431f9cf /\
  fval Little v0_layout "checkpoint_event_count" md_v0_little_data = 0x7d613e63f79eea5b /\
  fval Little v0_layout "recovery_checkpoint" md_v0_little_data = 0x46e39b46 /\
  fval Little v0_reshape_layout "reshape_position" (fbytes v0_layout "reshape_status" md_v0_little_data) = 0 /\
  fval Little v0_reshape_layout "new_level" (fbytes v0_layout "reshape_status" md_v0_little_data) = 0 /\
  fval Little v0_reshape_layout "delta_devices" (fbytes v0_layout "reshape_status" md_v0_little_data) = 0 /\
  fval Little v0_reshape_layout "new_layout" (fbytes v0_layout "reshape_status" md_v0_little_data) = 0 /\
  fval Little v0_reshape_layout "new_chunk_size" (fbytes v0_layout "reshape_status" md_v0_little_data) = 0 /\
  fval Little v0_layout "layout" md_v0_little_data = 0xc49704fc /\
  fval Little v0_layout "chunk_size" md_v0_little_data = 65536 /\
  fval Little v0_layout "root_pv" md_v0_little_data = 0xbdbdd227 /\
  fval Little v0_layout "root_block" md_v0_little_data = 0xa7feefba.
Proof. repeat split; vm_compute; reflexivity. Qed.

Example size_of_little_endian_device_descriptor :
  layout_size v0_descriptor_layout = 128.
Proof. repeat split; vm_compute; reflexivity. Qed.

Example view_of_little_endian_superblock_version_0_device_1 :
  fval Little v0_descriptor_layout "index" (window (fbytes v0_layout "devices" md_v0_little_data) 0 128) = 1 /\
  fval Little v0_descriptor_layout "major" (window (fbytes v0_layout "devices" md_v0_little_data) 0 128) = 0xe9b52f41 /\
  fval Little v0_descriptor_layout "minor" (window (fbytes v0_layout "devices" md_v0_little_data) 0 128) = 0x08783284 /\
  device_number (fval Little v0_descriptor_layout "role" (window (fbytes v0_layout "devices" md_v0_little_data) 0 128)) = Some (1) /\
  fval Little v0_descriptor_layout "state" (window (fbytes v0_layout "devices" md_v0_little_data) 0 128) = 0.
Proof. repeat split; vm_compute; reflexivity. Qed.

Example view_of_little_endian_superblock_version_0_device_2 :
  fval Little v0_descriptor_layout "index" (window (fbytes v0_layout "devices" md_v0_little_data) 128 128) = 2 /\
  fval Little v0_descriptor_layout "major" (window (fbytes v0_layout "devices" md_v0_little_data) 128 128) = 0x9632a95b /\
  fval Little v0_descriptor_layout "minor" (window (fbytes v0_layout "devices" md_v0_little_data) 128 128) = 0x4df28944 /\
  device_number (fval Little v0_descriptor_layout "role" (window (fbytes v0_layout "devices" md_v0_little_data) 128 128)) = Some (2) /\
  fval Little v0_descriptor_layout "state" (window (fbytes v0_layout "devices" md_v0_little_data) 128 128) = 0.
Proof. repeat split; vm_compute; reflexivity. Qed.

(** ** src/md/superblock/version_0/big_endian/tests.rs *)

Example size_of_big_endian_superblock_version_0 :
  v0_size = 4096.
Proof. repeat split; vm_compute; reflexivity. Qed.

Example view_of_big_endian_superblock_version_0 :
  fval Big v0_layout "magic" md_v0_big_data = 0xa92b4efc /\
  fval Big v0_layout "major_version" md_v0_big_data = 0 /\
  fval Big v0_layout "minor_version" md_v0_big_data = 90 /\
  fval Big v0_layout "patch_version" md_v0_big_data = 1 /\
  fval Big v0_layout "gvalid_words" md_v0_big_data = 0 /\
  fval Big v0_layout "array_uuid_0" md_v0_big_data = 0x12345678 /\
  fval Big v0_layout "ctime" md_v0_big_data = 0x59cd9a68 /\
  fval Big v0_layout "level" md_v0_big_data = 5 /\
  fval Big v0_layout "sectors_per_device" md_v0_big_data = 0x4654579d /\
  fval Big v0_layout "total_device_count" md_v0_big_data = 4 /\
  fval Big v0_layout "raid_device_count" md_v0_big_data = 4 /\
  fval Big v0_layout "md_minor" md_v0_big_data = 7 /\
  fval Big v0_layout "not_persistent" md_v0_big_data = 0 /\
  fval Big v0_layout "array_uuid_1" md_v0_big_data = 0xcc253946 /\
  fval Big v0_layout "array_uuid_2" md_v0_big_data = 0x1649afcc /\
  fval Big v0_layout "utime" md_v0_big_data = 0x40ea6820 /\
  fval Big v0_layout "state" md_v0_big_data = 0 /\
  fval Big v0_layout "active_device_count" md_v0_big_data = 4 /\
  fval Big v0_layout "working_device_count" md_v0_big_data = 4 /\
  fval Big v0_layout "failed_device_count" md_v0_big_data = 0 /\
  fval Big v0_layout "spare_device_count" md_v0_big_data = 0 /\
  fval Big v0_layout "superblock_checksum" md_v0_big_data = 0x4742e3fa /\
  fval Big v0_layout "event_count" md_v0_big_data = 0x05ada75c5431f9cf /\
  fval Big v0_layout "checkpoint_event_count" md_v0_big_data = 0x7d613e63f79eea5b /\
  fval Big v0_layout "recovery_checkpoint" md_v0_big_data = 0x46e39b46 /\
  fval Big v0_reshape_layout "reshape_position" (fbytes v0_layout "reshape_status" md_v0_big_data) = 0 /\
  fval Big v0_reshape_layout "new_level" (fbytes v0_layout "reshape_status" md_v0_big_data) = 0 /\
  fval Big v0_reshape_layout "delta_devices" (fbytes v0_layout "reshape_status" md_v0_big_data) = 0 /\
  fval Big v0_reshape_layout "new_layout" (fbytes v0_layout "reshape_status" md_v0_big_data) = 0 /\
  fval Big v0_reshape_layout "new_chunk_size" (fbytes v0_layout "reshape_status" md_v0_big_data) = 0 /\
  fval Big v0_layout "layout" md_v0_big_data = 0xc49704fc /\
  fval Big v0_layout "chunk_size" md_v0_big_data = 65536 /\
  fval Big v0_layout "root_pv" md_v0_big_data = 0xbdbdd227 /\
  fval Big v0_layout "root_block" md_v0_big_data = 0xa7feefba.
Proof. repeat split; vm_compute; reflexivity. Qed.

Example size_of_big_endian_device_descriptor :
  layout_size v0_descriptor_layout = 128.
Proof. repeat split; vm_compute; reflexivity. Qed.

Example view_of_big_endian_superblock_version_0_device_1 :
  fval Big v0_descriptor_layout "index" (window (fbytes v0_layout "devices" md_v0_big_data) 0 128) = 1 /\
  fval Big v0_descriptor_layout "major" (window (fbytes v0_layout "devices" md_v0_big_data) 0 128) = 0xe9b52f41 /\
  fval Big v0_descriptor_layout "minor" (window (fbytes v0_layout "devices" md_v0_big_data) 0 128) = 0x08783284 /\
  device_number (fval Big v0_descriptor_layout "role" (window (fbytes v0_layout "devices" md_v0_big_data) 0 128)) = Some (1) /\
  fval Big v0_descriptor_layout "state" (window (fbytes v0_layout "devices" md_v0_big_data) 0 128) = 0.
Proof. repeat split; vm_compute; reflexivity. Qed.

Example view_of_big_endian_superblock_version_0_device_2 :
  fval Big v0_descriptor_layout "index" (window (fbytes v0_layout "devices" md_v0_big_data) 128 128) = 2 /\
  fval Big v0_descriptor_layout "major" (window (fbytes v0_layout "devices" md_v0_big_data) 128 128) = 0x9632a95b /\
  fval Big v0_descriptor_layout "minor" (window (fbytes v0_layout "devices" md_v0_big_data) 128 128) = 0x4df28944 /\
  device_number (fval Big v0_descriptor_layout "role" (window (fbytes v0_layout "devices" md_v0_big_data) 128 128)) = Some (2) /\
  fval Big v0_descriptor_layout "state" (window (fbytes v0_layout "devices" md_v0_big_data) 128 128) = 0.
Proof. repeat split; vm_compute; reflexivity. Qed.

(** ** src/ext4/inode/time.rs; times in nanoseconds *)

Example time_test :
  decode_extra_time 0x80000000 0 = Ok (-2147483648000000000)%Z /\
  decode_extra_time 0x80000000 (N.shiftl 999999999 2) = Ok (-2147483647000000001)%Z /\
  decode_extra_time 0xffffffff 0 = Ok (-1000000000)%Z /\
  decode_extra_time 0xffffffff (N.shiftl 999999999 2) = Ok (-1)%Z /\
  decode_extra_time 0 0 = Ok (0)%Z /\
  decode_extra_time 0x80000000 1 = Ok (2147483648000000000)%Z /\
  decode_extra_time 0xffffffff (N.lor (N.shiftl 999999999 2) 1) = Ok (4294967295999999999)%Z /\
  decode_extra_time 0 1 = Ok (4294967296000000000)%Z /\
  decode_extra_time 0x80000000 2 = Ok (6442450944000000000)%Z /\
  decode_extra_time 0 2 = Ok (8589934592000000000)%Z /\
  decode_extra_time 0x80000000 3 = Ok (10737418240000000000)%Z /\
  decode_extra_time 0 3 = Ok (12884901888000000000)%Z.
Proof. repeat split; vm_compute; reflexivity. Qed.

(** ** src/ext/wide_unsigned.rs *)

Example test_u16 : from_low_high 8 0xab 0xcd = 0xcdab.
Proof. reflexivity. Qed.
Example test_u32 : from_low_high 16 0x1234 0x5678 = 0x56781234.
Proof. reflexivity. Qed.
Example test_u64 : from_low_high 32 0x12345678 0x9abcdef0 = 0x9abcdef012345678.
Proof. reflexivity. Qed.
Example test_u128 : from_low_high 64 0x123456789abcdef0 0x0fedcba987654321 = 0x0fedcba987654321123456789abcdef0.
Proof. reflexivity. Qed.

(** ** src/ext4/crc.rs *)

Example crc_test : ext4_crc32c crc_initial [x12; x34] = ext4_crc32c (ext4_crc32c crc_initial [x12]) [x34].
Proof. vm_compute. reflexivity. Qed.

(** ** src/ext4/inode/file_mode.rs *)

Example from_file_type_and_permissions :
  mode_from FtDirectory (flags permission_flags ["USER_READ"; "USER_WRITE"; "USER_EXECUTE"]%string) = 0x41c0 /\
  mode_from FtSocket 0xffff = 0xcfff.
Proof. split; reflexivity. Qed.

(** ** src/ext4/block_group/test.rs *)

(** What the tests say of a group descriptor. *)
Definition descriptor_as_expected (d : bytes) : Prop :=
  bg_block_bitmap_block d = 0xe /\ bg_inode_bitmap_block d = 0x1e /\ bg_inode_table_block d = 0x2e /\
  bg_free_block_count d = 22954 /\ bg_free_inode_count d = 25589 /\ bg_used_directories_count d = 2 /\
  bg_flags d = flags group_flags ["INODE_TABLE_ZEROED"]%string /\ bg_exclude_bitmap_block d = 0 /\
  bg_block_bitmap_checksum d = 0x30609723 /\ bg_inode_bitmap_checksum d = 0x957502e9 /\
  bg_unused_inode_count d = 0x63f5 /\ bg_checksum d = 0x67e2.

Example parse : descriptor_as_expected (bg_new group_descriptor_bytes).
Proof. repeat split; vm_compute; reflexivity. Qed.

(** ** src/ext4/inode/test.rs *)

(** What the tests say of the root inode. *)
Definition root_as_expected (i : inode) : Prop :=
  in_file_mode i = mode_from FtDirectory (flags permission_flags ["USER_READ"; "USER_WRITE"; "USER_EXECUTE"; "GROUP_READ"; "GROUP_EXECUTE"; "OTHER_READ"; "OTHER_EXECUTE"]%string) /\
  in_owner_user_id i = 0 /\ in_file_size_bytes i = 4096 /\
  in_access_time i = Ok (1762868061000000000)%Z /\ in_change_time i = Ok (1762868061000000000)%Z /\ in_modified_time i = Ok (1762868061000000000)%Z /\ in_delete_time i = Ok 0%Z /\
  in_group_id i = 0 /\ in_links_count i = 3 /\ in_block_count i = 8 /\ in_flags i = flags inode_flags ["HAS_EXTENTS"]%string /\
  in_version i = 0 /\ in_blocks_buffer i = [x0a; xf3; x01; x00; x04; x00; x00; x00; x00; x00; x00; x00; x00; x00; x00; x00; x01; x00; x00; x00; x0f] ++ zeros 39 /\
  in_generation i = 0 /\ in_file_acl i = 0 /\ in_checksum i = 0xda6e700e /\ in_creation_time i = Ok (1762868061000000000)%Z /\ in_project_id i = 0.

Definition holds_of {A} (r : res A) (P : A -> Prop) : Prop := match r with Ok a => P a | _ => False end.

Example root : holds_of (inode_new root_inode_superblock 2 root_inode_slot) root_as_expected.
Proof. vm_compute. repeat split. Qed.

(** ** src/ext4/extent/tree.rs *)

Example extent_and_index_are_the_same_size : layout_size extent_layout = layout_size index_layout.
Proof. reflexivity. Qed.

Example root_fields : holds_of (inode_new root_inode_superblock 2 root_inode_slot) (fun i =>
  match tree_from_inode i with
  | Some (Leaf leaf) => tree_valid (Leaf leaf) = Ok true /\ nd_max_entries leaf = 4 /\ nd_generation leaf = 0
  | _ => False
  end).
Proof. vm_compute. repeat split. Qed.

Example root_iter : holds_of (inode_new root_inode_superblock 2 root_inode_slot) (fun i =>
  match tree_from_inode i with
  | Some (Leaf leaf) => nd_entry_count leaf = 1 /\
      match nd_entry_at leaf 0 with
      | Ok (Some extent) => ex_initialized extent = true /\ ex_first_file_block extent = 0 /\ ex_length extent = 1 /\ ex_first_fs_block extent = 15
      | _ => False
      end
  | _ => False
  end).
Proof. vm_compute. repeat split. Qed.

(** ** src/ext4/directory/dir_entry.rs *)

Definition entry_as_expected (e : bytes) (name : string) (t : inline_type) (i : N) : Prop :=
  entry_name e = str name /\ entry_file_type e = t /\ entry_inode e = i.

Example dir_entry : match entry_from_buf dir_entry_bytes with
  | (Some e, rest) => entry_as_expected e "." ItDirectory 2 /\ rest = []
  | _ => False
  end.
Proof. vm_compute. repeat split. Qed.

Example dir_entries_with_padding : match entry_from_buf dir_entries_with_padding_bytes with
  | (Some e, rest) => entry_as_expected e "." ItDirectory 2 /\
      match entry_from_buf rest with
      | (Some e, rest) => entry_as_expected e ".." ItDirectory 2 /\ entry_from_buf rest = (None, zeros 96)
      | _ => False
      end
  | _ => False
  end.
Proof. vm_compute. repeat split. Qed.

(** ** src/ext4/directory/block.rs *)

Example read_empty_root_dir : match dir_block_new root_directory_block (Some 1485601019) with
  | Ok (Some d) => match run_block 4 d with
      | [Ok (Some a); Ok (Some b); Ok (Some c); Ok None] =>
          entry_as_expected a "." ItDirectory 2 /\ entry_as_expected b ".." ItDirectory 2 /\ entry_as_expected c "lost+found" ItDirectory 11
      | _ => False
      end
  | _ => False
  end.
Proof. vm_compute. repeat split. Qed.

(** ** src/block_device/reader.rs *)

(** The bytes from [a] up to [b]. *)
Definition from_to (a b : N) : bytes := map (fun i => byte_of (N.of_nat i)) (seq (N.to_nat a) (N.to_nat (b - a))).

Definition test_reader : reader memdev := reader_new (mem_new (from_to 0 256) 32).

(** Calls of [read_exact] with a buffer of that many bytes, and of [seek]; what is in the buffer after each. *)
Inductive call : Type := CallRead (n : N) | CallSeek (p : seek_from).
Fixpoint calls (r : reader memdev) (cs : list call) : list (option bytes) :=
  match cs with
  | [] => []
  | CallRead n :: cs => match read_exact (reader_stream mem_block) r (zeros n) with
      | (r, b, Ok _) => Some b :: calls r cs
      | _ => [None]
      end
  | CallSeek p :: cs => match st_seek (reader_stream mem_block) r p with
      | (r, Ok _) => calls r cs
      | _ => [None]
      end
  end.

Example read_bytes : calls test_reader [CallRead 16] = [Some (from_to 0 16)].
Proof. vm_compute. reflexivity. Qed.
Example read_bytes_sequentially :
  calls test_reader [CallRead 4; CallRead 4; CallRead 4] = [Some (from_to 0 4); Some (from_to 4 8); Some (from_to 8 12)].
Proof. vm_compute. reflexivity. Qed.
Example read_bytes_across_block_boundary : calls test_reader [CallRead 48] = [Some (from_to 0 48)].
Proof. vm_compute. reflexivity. Qed.
Example read_bytes_sequentially_across_block_boundary :
  calls test_reader [CallRead 24; CallRead 24] = [Some (from_to 0 24); Some (from_to 24 48)].
Proof. vm_compute. reflexivity. Qed.
Example seek_from_start_and_read_bytes : calls test_reader [CallSeek (SeekStart 8); CallRead 4] = [Some (from_to 8 12)].
Proof. vm_compute. reflexivity. Qed.
Example seek_from_start_and_read_bytes_across_block_boundary :
  calls test_reader [CallSeek (SeekStart 12); CallRead 8] = [Some (from_to 12 20)].
Proof. vm_compute. reflexivity. Qed.
Example read_bytes_and_seek_from_current_and_read_bytes_across_block_boundary :
  calls test_reader [CallRead 8; CallSeek (SeekCurrent 6); CallRead 8] = [Some (from_to 0 8); Some (from_to 14 22)].
Proof. vm_compute. reflexivity. Qed.
Example seek_from_end_and_read_bytes : calls test_reader [CallSeek (SeekEnd (-4)); CallRead 4] = [Some (from_to 252 256)].
Proof. vm_compute. reflexivity. Qed.

(** ** src/ext4/fs.rs and src/ext4/directory/directory.rs *)

(** A block device of [count] blocks of 4096 bytes, of which all but those listed are zero.  The tests have the bytes in
    memory; an in-memory device of 100 MB is too large to compute with. *)
Definition sparse_block (blocks : list (N * bytes)) (n : N) : bytes :=
  match find (fun b => fst b =? n) blocks with Some b => snd b | None => zeros 4096 end.

Definition sparse_ops (blocks : list (N * bytes)) (count : N) : blockdev unit := {|
  bd_size _ := Ok 4096;
  bd_count _ := Ok count;
  bd_read s n buf :=
    if len buf <? 4096 then (s, buf, Err InvalidInput)
    else match byte_pos n 4096 with
         | None => (s, buf, Err InvalidInput)
         | Some _ => if n <? count then (if len buf =? 4096 then (s, sparse_block blocks n, Ok 4096) else (s, buf, Panic)) else (s, buf, Panic)
         end;
  bd_clone s := Ok s
|}.

(** The bytes that such a device stands for. *)
Definition sparse_image (blocks : list (N * bytes)) (count : N) : bytes :=
  flat_map (fun i => sparse_block blocks (N.of_nat i)) (seq 0 (N.to_nat count)).

(** Call for call it answers as the in-memory device of these bytes. *)
Definition sparse_well (blocks : list (N * bytes)) : bool := forallb (fun b => len (snd b) =? 4096) blocks.

Lemma sparse_block_len blocks n : sparse_well blocks = true -> len (sparse_block blocks n) = 4096.
Proof.
  intros W. unfold sparse_block. destruct (find _ blocks) as [b|] eqn:F; [|apply len_zeros].
  apply find_some in F as [I _]. unfold sparse_well in W. rewrite forallb_forall in W. now apply N.eqb_eq, W.
Qed.

Lemma sparse_part blocks k : sparse_well blocks = true -> forall s n, (n < k)%nat ->
  window (flat_map (fun i => sparse_block blocks (N.of_nat i)) (seq s k)) (N.of_nat n * 4096) 4096 = sparse_block blocks (N.of_nat (s + n)).
Proof.
  intros W. induction k as [|k IH]; [lia|]. intros s n L. cbn [seq flat_map].
  pose proof (sparse_block_len blocks (N.of_nat s) W) as E. unfold len in E. destruct n as [|n].
  - replace (N.of_nat 0 * 4096) with 0 by lia. unfold window. rewrite skipn_O || cbn [skipn N.to_nat].
    rewrite firstn_app. replace (N.to_nat 4096 - Datatypes.length (sparse_block blocks (N.of_nat s)))%nat with 0%nat by lia.
    rewrite firstn_O, app_nil_r, firstn_all2 by lia. f_equal. lia.
  - replace (s + S n)%nat with (S s + n)%nat by lia. rewrite <- (IH (S s) n) by lia.
    unfold window at 1. rewrite skipn_app. rewrite skipn_all2 by lia. cbn [app].
    replace (N.to_nat (N.of_nat (S n) * 4096) - Datatypes.length (sparse_block blocks (N.of_nat s)))%nat with (N.to_nat (N.of_nat n * 4096)) by lia.
    reflexivity.
Qed.

Lemma sparse_image_len blocks k : sparse_well blocks = true -> forall s,
  len (flat_map (fun i => sparse_block blocks (N.of_nat i)) (seq s k)) = N.of_nat k * 4096.
Proof.
  intros W. induction k as [|k IH]; [reflexivity|]. intros s. cbn [seq flat_map]. rewrite len_app, IH, sparse_block_len by exact W. lia.
Qed.

Lemma sparse_same blocks count n buf : sparse_well blocks = true -> count * 4096 <= u64_max ->
  let mem := mem_new (sparse_image blocks count) 4096 in
  bd_size mem_block mem = bd_size (sparse_ops blocks count) tt /\ bd_count mem_block mem = bd_count (sparse_ops blocks count) tt /\
  let '(mem', b, r) := bd_read mem_block mem n buf in mem' = mem /\ bd_read (sparse_ops blocks count) tt n buf = (tt, b, r).
Proof.
  intros W L. cbv zeta. unfold mem_new, mem_block, sparse_ops. cbn [bd_size bd_count bd_read m_mem m_bs].
  assert (E : len (sparse_image blocks count) = count * 4096).
  { unfold sparse_image. rewrite (sparse_image_len blocks (N.to_nat count) W). lia. }
  split; [reflexivity|]. split.
  { rewrite E. unfold cdiv64. cbn. rewrite N.div_mul by lia. reflexivity. }
  destruct (len buf <? 4096); [now split|]. destruct (byte_pos n 4096) as [o|] eqn:P; [|now split].
  unfold byte_pos, cmul64 in P. assert (o = n * 4096) as ->.
  { destruct (n * 4096 <=? u64_max) eqn:X; [now injection P as <-|discriminate P]. }
  destruct (N.ltb_spec n count) as [H|H].
  - rewrite sub_some by lia. unfold copy_from_slice.
    assert (Q : window (sparse_image blocks count) (n * 4096) 4096 = sparse_block blocks n).
    { pose proof (sparse_part blocks (N.to_nat count) W 0 (N.to_nat n)) as Q. cbn [Nat.add] in Q. rewrite N2Nat.id in Q. apply Q. lia. }
    rewrite Q, (sparse_block_len _ _ W). destruct (len buf =? 4096); now split.
  - rewrite sub_none by lia. now split.
Qed.

Definition sparse_stream (blocks : list (N * bytes)) (count : N) : stream (reader unit) := reader_stream (sparse_ops blocks count).

Example open_zero_32mb : snd (fs_open (sparse_stream [] 8192) (reader_new tt)) = Err InvalidData.
Proof. vm_compute. reflexivity. Qed.

(** Of this image only the bytes of the superblock are here; the superblock is the first thing that is read. *)
Example open_random_2mb_zero_30mb :
  snd (fs_open (sparse_stream [(0, zeros 1024 ++ random_superblock ++ zeros 2048)] 8192) (reader_new tt)) = Err InvalidData.
Proof. vm_compute. reflexivity. Qed.

Definition empty_stream : stream (reader unit) := sparse_stream empty_blocks 25600.
Definition empty_fs : res fs := snd (fs_open empty_stream (reader_new tt)).

Example open_100mb_empty : holds_of empty_fs (fun f => let sb := fs_sb f in
  e4_valid sb = Ok true /\ e4_inodes_count sb = 25600 /\ e4_blocks_count sb = 25600 /\ e4_reserved_blocks_count sb = 1280 /\
  e4_free_blocks_count sb = 22954 /\ e4_free_inodes_count sb = 25589 /\ e4_first_data_block sb = 0 /\
  e4_block_size_bytes sb = Ok 4096 /\ e4_cluster_size_blocks sb = Ok 4096 /\ e4_blocks_per_group sb = 32768 /\
  e4_clusters_per_group sb = 32768 /\ e4_inodes_per_group sb = 25600 /\ e4_creator_os sb = OsLinux /\ e4_revision_level sb = 1 /\
  e4_first_inode sb = 11 /\ e4_inode_size sb = 256 /\ e4_block_group_number sb = 0 /\
  e4_compatible_features sb = flags compatible_flags
    ["HAS_JOURNAL"; "SUPPORTS_EXTENDED_ATTRIBUTES"; "HAS_RESERVED_GDT_BLOCKS"; "HAS_DIRECTORY_INDICES"]%string /\
  e4_incompatible_features sb = flags incompatible_flags
    ["DIRECTORY_ENTRIES_RECORD_FILE_TYPE"; "FILES_USE_EXTENTS"; "IS_64_BIT"; "FLEXIBLE_BLOCK_GROUPS"]%string /\
  e4_read_only_compatible_features sb = flags read_only_flags
    ["SPARSE_SUPERBLOCKS"; "CONTAINS_LARGE_FILES"; "CONTAINS_HUGE_FILES"; "UNLIMITED_SUBDIRECTORIES"; "CONTAINS_LARGE_INODES";
     "METADATA_CHECKSUMS"]%string /\
  match fs_groups f with [d] => descriptor_as_expected d | _ => False end).
Proof. vm_compute. repeat split. Qed.

Example read_root_inode : holds_of empty_fs (fun f => holds_of (snd (fs_read_root_inode empty_stream f (reader_new tt))) root_as_expected).
Proof. vm_compute. repeat split. Qed.

(** The bytes that the test expects. *)
Definition expected_root_block : bytes :=
  fold_left poke [
   (0, [x02; x00; x00; x00; x0c; x00; x01; x02; x2e; x00; x00; x00; x02; x00; x00; x00; x0c; x00; x02; x02;
     x2e; x2e; x00; x00; x0b; x00; x00; x00; xdc; x0f; x0a; x02; x6c; x6f; x73; x74; x2b; x66; x6f; x75; x6e;
     x64]);
   (4088, [x0c; x00; x00; xde; x78; x37; x38; xff])] (zeros 4096).

Example root_directory_read_raw_blocks : holds_of empty_fs (fun f =>
  match open_file empty_stream (fun s => (s, Ok s)) f 2 (reader_new tt) with
  | (_, Ok (s, AnyDirectory d)) =>
      match run_file empty_stream 10 s (dr_file d) [zeros 4096; zeros 4096] with
      | Some (_, _, [(_, buf, Ok 4096); (_, _, Ok 0)]) => buf = expected_root_block
      | _ => False
      end
  | _ => False
  end).
Proof. vm_compute. reflexivity. Qed.

(** Not a test of md-recover: what the listing of that directory gives. *)
Example root_directory_listed : holds_of empty_fs (fun f =>
  match open_file empty_stream (fun s => (s, Ok s)) f 2 (reader_new tt) with
  | (_, Ok (s, AnyDirectory d)) =>
      match run_dir empty_stream 10 4 s d with
      | Some (_, _, [Ok (Some a); Ok (Some b); Ok (Some c); Ok None]) =>
          entry_as_expected a "." ItDirectory 2 /\ entry_as_expected b ".." ItDirectory 2 /\ entry_as_expected c "lost+found" ItDirectory 11
      | _ => False
      end
  | _ => False
  end).
Proof. vm_compute. repeat split. Qed.
