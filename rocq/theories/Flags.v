(** Model of the sets of flags (bitflags); a set is its bits, and unknown bits are kept ([from_bits_retain]). *)

From Coq Require Import Strings.String.
From Verif Require Import Base.

(** The named flags of a set with their bits. *)
Definition flag_set := list (string * N).

(** src/ext4/inode/flags.rs 7-33. *)
Definition inode_flags : flag_set :=
  [("SECURE_DELETE", 1); ("UNDELETE", 2); ("COMPRESSED", 4); ("SYNCHRONOUS_UPDATES", 8); ("IMMUTABLE", 0x10);
   ("APPEND_ONLY", 0x20); ("NO_DUMP", 0x40); ("NO_UPDATE_ACCESS_TIME", 0x80); ("DIRTY", 0x100);
   ("COMPRESSED_CLUSTERS", 0x200); ("NO_COMPRESS", 0x400); ("ENCRYPTED", 0x800); ("HASH_INDEXED_DIRECTORY",
   0x1000); ("AFS_DIRECTORY", 0x2000); ("JOURNAL_DATA", 0x4000); ("NO_TAIL_MERGE", 0x8000); ("DIRECTORY_SYNC",
   0x10000); ("TOP_DIRECTORY", 0x20000); ("HUGE_FILE", 0x40000); ("HAS_EXTENTS", 0x80000); ("VERITY_PROTECTED",
   0x100000); ("LARGE_EXTENDED_ATTRIBUTES", 0x200000); ("DIRECT_ACCESS", 0x2000000); ("HAS_INLINE_DATA",
   0x10000000); ("INHERIT_PROJECT_ID", 0x20000000); ("CASE_FOLDED", 0x40000000); ("RESERVED", 0x80000000)]%string.

(** src/ext4/block_group/flags.rs 7-9. *)
Definition group_flags : flag_set :=
  [("INODE_NOT_IN_USE", 1); ("BLOCK_BITMAP_NOT_IN_USE", 2); ("INODE_TABLE_ZEROED", 4)]%string.

(** src/ext4/superblock/compatible_features.rs 7-18. *)
Definition compatible_flags : flag_set :=
  [("DIRECTORY_PREALLOCATION", 1); ("MAGIC_INODES", 2); ("HAS_JOURNAL", 4); ("SUPPORTS_EXTENDED_ATTRIBUTES",
   8); ("HAS_RESERVED_GDT_BLOCKS", 0x10); ("HAS_DIRECTORY_INDICES", 0x20); ("LAZY_BG", 0x40); ("EXCLUDE_INODE",
   0x80); ("EXCLUDE_BITMAP", 0x100); ("SPARSE_SUPERBLOCK_V2", 0x200); ("SUPPORTS_FAST_COMMITS", 0x400);
   ("ORPHAN_PRESENT", 0x1000)]%string.

(** src/ext4/superblock/incompatible_features.rs 7-27. *)
Definition incompatible_flags : flag_set :=
  [("COMPRESSION", 1); ("DIRECTORY_ENTRIES_RECORD_FILE_TYPE", 2); ("NEEDS_RECOVERY", 4);
   ("HAS_SEPARATE_JOURNAL_DEVICE", 8); ("HAS_META_BLOCK_GROUPS", 0x10); ("FILES_USE_EXTENTS", 0x40);
   ("IS_64_BIT", 0x80); ("MULTIPLE_MOUNT_PROTECTION", 0x100); ("FLEXIBLE_BLOCK_GROUPS", 0x200);
   ("INODES_STORE_LARGE_EXTENDED_ATTRIBUTE_VALUES", 0x400); ("DATA_IN_DIRECTORY_ENTRY", 0x1000);
   ("METADATA_CHECKSUM_SEED", 0x2000); ("LARGE_DIRECTORIES", 0x4000); ("DATA_IN_INODE", 0x8000);
   ("HAS_ENCRYPTED_INODES", 0x10000)]%string.

(** src/ext4/superblock/read_only_compatible_features.rs 7-58. *)
Definition read_only_flags : flag_set :=
  [("SPARSE_SUPERBLOCKS", 1); ("CONTAINS_LARGE_FILES", 2); ("BTREE_DIR", 4); ("CONTAINS_HUGE_FILES", 8);
   ("GROUP_DESCRIPTORS_HAVE_CHECKSUMS", 0x10); ("UNLIMITED_SUBDIRECTORIES", 0x20); ("CONTAINS_LARGE_INODES",
   0x40); ("HAS_SNAPSHOT", 0x80); ("QUOTA", 0x100); ("BIGALLOC", 0x200); ("METADATA_CHECKSUMS", 0x400);
   ("REPLICA", 0x800); ("READ_ONLY", 0x1000); ("PROJECT_QUOTA", 0x2000); ("VERITY", 0x8000); ("ORPHAN_PRESENT",
   0x10000)]%string.

(** src/ext4/superblock/flags.rs 8-14. *)
Definition superblock_flags : flag_set :=
  [("SIGNED_DIRECTORY_HASH", 1); ("UNSIGNED_DIRECTORY_HASH", 2); ("TEST_FILESYSTEM", 4)]%string.

(** src/ext4/superblock/state.rs 6-8. *)
Definition state_flags : flag_set :=
  [("CLEANLY_UNMOUNTED", 1); ("ERRORS_DETECTED", 2); ("ORPHANS_BEING_RECOVERED", 4)]%string.

(** src/ext4/superblock/mount_options.rs 7-18. *)
Definition mount_flags : flag_set :=
  [("PRINT_DEBUGGING_INFO", 1); ("NEW_FILES_INHERIT_DIRECTORY_GROUP_ID", 2);
   ("ENABLE_USERSPACE_EXTENDED_ATTRIBUTES", 4); ("ENABLE_POSIX_ACLS", 8); ("DISABLE_16_BIT_USER_IDS", 0x10);
   ("COMMIT_ALL_DATA_AND_METADATA_TO_JOURNAL", 0x20); ("FLUSH_ALL_DATA_BEFORE_COMMITTING_METADATA", 0x40);
   ("DATA_ORDERING_NOT_PRESERVED", 0x80); ("DISABLE_WRITE_FLUSHES", 0x100); ("TRACK_METADATA_BLOCKS", 0x200);
   ("ENABLE_DISCARD", 0x400); ("DISABLE_DELAYED_ALLOCATION", 0x800)]%string.

(** src/ext4/inode/permissions.rs 4-15. *)
Definition permission_flags : flag_set :=
  [("SET_USER_ID", 0x0800); ("SET_GROUP_ID", 0x0400); ("STICKY", 0x0200); ("USER_READ", 0x0100); ("USER_WRITE",
   0x0080); ("USER_EXECUTE", 0x0040); ("GROUP_READ", 0x0020); ("GROUP_WRITE", 0x0010); ("GROUP_EXECUTE",
   0x0008); ("OTHER_READ", 0x0004); ("OTHER_WRITE", 0x0002); ("OTHER_EXECUTE", 0x0001)]%string.

(** src/md/superblock/version_1/features.rs 7-18. *)
Definition md_features : flag_set :=
  [("BITMAP_OFFSET", 1); ("RECOVERY_OFFSET", 2); ("RESHAPE_ACTIVE", 4); ("BAD_BLOCKS", 8); ("REPLACEMENT", 16);
   ("RESHAPE_BACKWARDS", 32); ("NEW_OFFSET", 64); ("BITMAP_VERSIONED", 256); ("JOURNAL", 512); ("PPL", 1024);
   ("MULTIPLE_PPLS", 2048); ("RAID0_LAYOUT", 4096)]%string.

(** src/md/superblock/version_1/device_flags.rs 7-8. *)
Definition md_device_flags : flag_set :=
  [("WRITE_MOSTLY", 1); ("FAIL_FAST", 2)]%string.

