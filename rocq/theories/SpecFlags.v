(** What the bits of the flag fields mean to Linux: fs/ext4/ext4.h and include/uapi/linux/raid/md_p.h.  Each row has the name
    that md-recover gives to a flag and the number of the bit that Linux has for it; the names of Linux are in comments. *)

From Coq Require Import Strings.String.
From Verif Require Import Base.

(** EXT4_FEATURE_COMPAT_*: DIR_PREALLOC, IMAGIC_INODES, HAS_JOURNAL, EXT_ATTR, RESIZE_INODE, DIR_INDEX, (lazy_bg, exclude_inode
    and exclude_bitmap of e2fsprogs), SPARSE_SUPER2, FAST_COMMIT, ORPHAN_FILE *)
Definition linux_compatible : list (string * N) :=
  [("DIRECTORY_PREALLOCATION", 0); ("MAGIC_INODES", 1); ("HAS_JOURNAL", 2); ("SUPPORTS_EXTENDED_ATTRIBUTES", 3);
   ("HAS_RESERVED_GDT_BLOCKS", 4); ("HAS_DIRECTORY_INDICES", 5); ("LAZY_BG", 6); ("EXCLUDE_INODE", 7);
   ("EXCLUDE_BITMAP", 8); ("SPARSE_SUPERBLOCK_V2", 9); ("SUPPORTS_FAST_COMMITS", 10); ("ORPHAN_PRESENT", 12)]%string.

(** EXT4_FEATURE_INCOMPAT_*: COMPRESSION, FILETYPE, RECOVER, JOURNAL_DEV, META_BG, EXTENTS, 64BIT, MMP, FLEX_BG, EA_INODE,
    DIRDATA, CSUM_SEED, LARGEDIR, INLINE_DATA, ENCRYPT *)
Definition linux_incompatible : list (string * N) :=
  [("COMPRESSION", 0); ("DIRECTORY_ENTRIES_RECORD_FILE_TYPE", 1); ("NEEDS_RECOVERY", 2);
   ("HAS_SEPARATE_JOURNAL_DEVICE", 3); ("HAS_META_BLOCK_GROUPS", 4); ("FILES_USE_EXTENTS", 6); ("IS_64_BIT", 7);
   ("MULTIPLE_MOUNT_PROTECTION", 8); ("FLEXIBLE_BLOCK_GROUPS", 9); ("INODES_STORE_LARGE_EXTENDED_ATTRIBUTE_VALUES", 10);
   ("DATA_IN_DIRECTORY_ENTRY", 12); ("METADATA_CHECKSUM_SEED", 13); ("LARGE_DIRECTORIES", 14); ("DATA_IN_INODE", 15);
   ("HAS_ENCRYPTED_INODES", 16)]%string.

(** EXT4_FEATURE_RO_COMPAT_*: SPARSE_SUPER, LARGE_FILE, BTREE_DIR, HUGE_FILE, GDT_CSUM, DIR_NLINK, EXTRA_ISIZE, (snapshots),
    QUOTA, BIGALLOC, METADATA_CSUM, (replica), READONLY, PROJECT, VERITY, ORPHAN_PRESENT *)
Definition linux_read_only : list (string * N) :=
  [("SPARSE_SUPERBLOCKS", 0); ("CONTAINS_LARGE_FILES", 1); ("BTREE_DIR", 2); ("CONTAINS_HUGE_FILES", 3);
   ("GROUP_DESCRIPTORS_HAVE_CHECKSUMS", 4); ("UNLIMITED_SUBDIRECTORIES", 5); ("CONTAINS_LARGE_INODES", 6);
   ("HAS_SNAPSHOT", 7); ("QUOTA", 8); ("BIGALLOC", 9); ("METADATA_CHECKSUMS", 10); ("REPLICA", 11); ("READ_ONLY", 12);
   ("PROJECT_QUOTA", 13); ("VERITY", 15); ("ORPHAN_PRESENT", 16)]%string.

(** EXT4_VALID_FS, EXT4_ERROR_FS, EXT4_ORPHAN_FS *)
Definition linux_state : list (string * N) :=
  [("CLEANLY_UNMOUNTED", 0); ("ERRORS_DETECTED", 1); ("ORPHANS_BEING_RECOVERED", 2)]%string.

(** EXT2_FLAGS_SIGNED_HASH, EXT2_FLAGS_UNSIGNED_HASH, EXT2_FLAGS_TEST_FILESYS *)
Definition linux_sb_flags : list (string * N) :=
  [("SIGNED_DIRECTORY_HASH", 0); ("UNSIGNED_DIRECTORY_HASH", 1); ("TEST_FILESYSTEM", 2)]%string.

(** EXT4_DEFM_*: DEBUG, BSDGROUPS, XATTR_USER, ACL, UID16, NOBARRIER, BLOCK_VALIDITY, DISCARD, NODELALLOC *)
Definition linux_mount : list (string * N) :=
  [("PRINT_DEBUGGING_INFO", 0); ("NEW_FILES_INHERIT_DIRECTORY_GROUP_ID", 1); ("ENABLE_USERSPACE_EXTENDED_ATTRIBUTES", 2);
   ("ENABLE_POSIX_ACLS", 3); ("DISABLE_16_BIT_USER_IDS", 4); ("DISABLE_WRITE_FLUSHES", 8); ("TRACK_METADATA_BLOCKS", 9);
   ("ENABLE_DISCARD", 10); ("DISABLE_DELAYED_ALLOCATION", 11)]%string.

(** EXT4_DEFM_JMODE (0x60) is a number of two bits: JMODE_DATA (0x20), JMODE_ORDERED (0x40), JMODE_WBACK (0x60). *)
Definition linux_journal_mode (options : N) : N := options / 32 mod 4.
Definition linux_modes : list (string * N) :=
  [("COMMIT_ALL_DATA_AND_METADATA_TO_JOURNAL", 1); ("FLUSH_ALL_DATA_BEFORE_COMMITTING_METADATA", 2);
   ("DATA_ORDERING_NOT_PRESERVED", 3)]%string.

(** EXT4_*_FL *)
Definition linux_inode : list (string * N) :=
  [("SECURE_DELETE", 0); ("UNDELETE", 1); ("COMPRESSED", 2); ("SYNCHRONOUS_UPDATES", 3); ("IMMUTABLE", 4);
   ("APPEND_ONLY", 5); ("NO_DUMP", 6); ("NO_UPDATE_ACCESS_TIME", 7); ("DIRTY", 8); ("COMPRESSED_CLUSTERS", 9);
   ("NO_COMPRESS", 10); ("ENCRYPTED", 11); ("HASH_INDEXED_DIRECTORY", 12); ("AFS_DIRECTORY", 13); ("JOURNAL_DATA", 14);
   ("NO_TAIL_MERGE", 15); ("DIRECTORY_SYNC", 16); ("TOP_DIRECTORY", 17); ("HUGE_FILE", 18); ("HAS_EXTENTS", 19);
   ("VERITY_PROTECTED", 20); ("LARGE_EXTENDED_ATTRIBUTES", 21); ("DIRECT_ACCESS", 25); ("HAS_INLINE_DATA", 28);
   ("INHERIT_PROJECT_ID", 29); ("CASE_FOLDED", 30); ("RESERVED", 31)]%string.

(** S_ISUID, S_ISGID, S_ISVTX, S_IRUSR ... S_IXOTH *)
Definition linux_permissions : list (string * N) :=
  [("SET_USER_ID", 11); ("SET_GROUP_ID", 10); ("STICKY", 9); ("USER_READ", 8); ("USER_WRITE", 7); ("USER_EXECUTE", 6);
   ("GROUP_READ", 5); ("GROUP_WRITE", 4); ("GROUP_EXECUTE", 3); ("OTHER_READ", 2); ("OTHER_WRITE", 1);
   ("OTHER_EXECUTE", 0)]%string.

(** EXT4_BG_INODE_UNINIT, EXT4_BG_BLOCK_UNINIT, EXT4_BG_INODE_ZEROED *)
Definition linux_group : list (string * N) :=
  [("INODE_NOT_IN_USE", 0); ("BLOCK_BITMAP_NOT_IN_USE", 1); ("INODE_TABLE_ZEROED", 2)]%string.

(** MD_FEATURE_*; bit 7 (RECOVERY_BITMAP) has no name in md-recover *)
Definition linux_md : list (string * N) :=
  [("BITMAP_OFFSET", 0); ("RECOVERY_OFFSET", 1); ("RESHAPE_ACTIVE", 2); ("BAD_BLOCKS", 3); ("REPLACEMENT", 4);
   ("RESHAPE_BACKWARDS", 5); ("NEW_OFFSET", 6); ("BITMAP_VERSIONED", 8); ("JOURNAL", 9); ("PPL", 10); ("MULTIPLE_PPLS", 11);
   ("RAID0_LAYOUT", 12)]%string.

(** WriteMostly1, FailFast1 *)
Definition linux_md_device : list (string * N) := [("WRITE_MOSTLY", 0); ("FAIL_FAST", 1)]%string.
