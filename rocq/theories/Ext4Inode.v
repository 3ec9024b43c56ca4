(** Model of src/ext4/block_group and src/ext4/inode: group descriptors and inodes. *)

From Coq Require Import Strings.String.
From Verif Require Import Base Io Superblock Crc Ext4Superblock.

(** ** src/ext4/block_group/descriptor.rs *)

(** 6-29. *)
Definition bg_layout : layout :=
  [("block_bitmap_block_low", 4); ("inode_bitmap_block_low", 4); ("inode_table_block_low", 4);
   ("free_block_count_low", 2); ("free_inode_count_low", 2); ("used_directories_count_low", 2); ("flags", 2);
   ("exclude_bitmap_block_low", 4); ("block_bitmap_checksum_low", 2); ("inode_bitmap_checksum_low", 2);
   ("unused_inode_count_low", 2); ("checksum", 2); ("block_bitmap_block_high", 4); ("inode_bitmap_block_high", 4);
   ("inode_table_block_high", 4); ("free_block_count_high", 2); ("free_inode_count_high", 2);
   ("used_directories_count_high", 2); ("unused_inode_count_high", 2); ("exclude_bitmap_block_high", 4);
   ("block_bitmap_checksum_high", 2); ("inode_bitmap_checksum_high", 2)]%string.

(** 34-39; [storage[..n].copy_from_slice(&buffer[..n])] with [n] at most both lengths cannot panic. *)
Definition bg_new (buffer : bytes) : bytes :=
  let size := layout_size bg_layout in
  let source_length := N.min (len buffer) size in
  firstn (N.to_nat source_length) buffer ++ zeros (size - source_length).

Definition bg (name : string) (st : bytes) : N := fle bg_layout name st.

(** 41-116. *)
Definition bg_block_bitmap_block (st : bytes) : N :=
  from_low_high 32 (bg "block_bitmap_block_low" st) (bg "block_bitmap_block_high" st).
Definition bg_inode_bitmap_block (st : bytes) : N :=
  from_low_high 32 (bg "inode_bitmap_block_low" st) (bg "inode_bitmap_block_high" st).
Definition bg_inode_table_block (st : bytes) : N :=
  from_low_high 32 (bg "inode_table_block_low" st) (bg "inode_table_block_high" st).
Definition bg_free_block_count (st : bytes) : N :=
  from_low_high 16 (bg "free_block_count_low" st) (bg "free_block_count_high" st).
Definition bg_free_inode_count (st : bytes) : N :=
  from_low_high 16 (bg "free_inode_count_low" st) (bg "free_inode_count_high" st).
Definition bg_used_directories_count (st : bytes) : N :=
  from_low_high 16 (bg "used_directories_count_low" st) (bg "used_directories_count_high" st).
Definition bg_flags (st : bytes) : N := bg "flags" st.
Definition bg_exclude_bitmap_block (st : bytes) : N :=
  from_low_high 32 (bg "exclude_bitmap_block_low" st) (bg "exclude_bitmap_block_high" st).
Definition bg_block_bitmap_checksum (st : bytes) : N :=
  from_low_high 16 (bg "block_bitmap_checksum_low" st) (bg "block_bitmap_checksum_high" st).
Definition bg_inode_bitmap_checksum (st : bytes) : N :=
  from_low_high 16 (bg "inode_bitmap_checksum_low" st) (bg "inode_bitmap_checksum_high" st).
Definition bg_unused_inode_count (st : bytes) : N :=
  from_low_high 16 (bg "unused_inode_count_low" st) (bg "unused_inode_count_high" st).
Definition bg_checksum (st : bytes) : N := bg "checksum" st.

(** ** src/ext4/inode/file_type.rs 9-19, with the conversions derived by [num_enum]. *)
Inductive file_type : Type :=
  FtSocket | FtSymbolicLink | FtRegularFile | FtBlockDevice | FtDirectory | FtCharacterDevice | FtFifo
| FtUnknown (code : N).
Definition file_type_of (v : N) : file_type :=
  if v =? 12 then FtSocket else if v =? 10 then FtSymbolicLink else if v =? 8 then FtRegularFile
  else if v =? 6 then FtBlockDevice else if v =? 4 then FtDirectory else if v =? 2 then FtCharacterDevice
  else if v =? 1 then FtFifo else FtUnknown v.
Definition file_type_code (t : file_type) : N :=
  match t with
  | FtSocket => 12 | FtSymbolicLink => 10 | FtRegularFile => 8 | FtBlockDevice => 6 | FtDirectory => 4
  | FtCharacterDevice => 2 | FtFifo => 1 | FtUnknown v => v
  end.

(** ** src/ext4/inode/permissions.rs 3-16: a set of permissions is its bits. *)
Definition permissions_known : list N :=
  [0x800; 0x400; 0x200; 0x100; 0x80; 0x40; 0x20; 0x10; 0x8; 0x4; 0x2; 0x1].
(** [Permissions::all()]. *)
Definition permissions_all : N := fold_right N.lor 0 permissions_known.

(** ** src/ext4/inode/file_mode.rs; a [FileMode] is its 16-bit value *)

(** 10-15; the shift of a [u16] drops what leaves it. *)
Definition mode_from (t : file_type) (p : N) : N :=
  N.lor (N.shiftl (file_type_code t) 12 mod 65536) (N.land p permissions_all).
(** 17-19; the cast keeps the low eight bits. *)
Definition mode_file_type (m : N) : file_type := file_type_of (N.shiftr m 12 mod 256).
(** 21-23, [from_bits_truncate]. *)
Definition mode_permissions (m : N) : N := N.land m permissions_all.

(** ** src/ext4/directory/file_type.rs *)

(** 10-20. *)
Inductive inline_type : Type :=
  ItRegularFile | ItDirectory | ItCharacterDevice | ItBlockDevice | ItFifo | ItSocket | ItSymbolicLink
| ItUnknown (code : N).
Definition inline_type_of (v : N) : inline_type :=
  if v =? 1 then ItRegularFile else if v =? 2 then ItDirectory else if v =? 3 then ItCharacterDevice
  else if v =? 4 then ItBlockDevice else if v =? 5 then ItFifo else if v =? 6 then ItSocket
  else if v =? 7 then ItSymbolicLink else ItUnknown v.
Definition inline_type_code (t : inline_type) : N :=
  match t with
  | ItRegularFile => 1 | ItDirectory => 2 | ItCharacterDevice => 3 | ItBlockDevice => 4 | ItFifo => 5 | ItSocket => 6
  | ItSymbolicLink => 7 | ItUnknown v => v
  end.

(** 35-48. *)
Definition inline_from_file_type (t : file_type) : inline_type :=
  match t with
  | FtSocket => ItSocket | FtSymbolicLink => ItSymbolicLink | FtRegularFile => ItRegularFile
  | FtBlockDevice => ItBlockDevice | FtDirectory => ItDirectory | FtCharacterDevice => ItCharacterDevice
  | FtFifo => ItFifo | FtUnknown v => ItUnknown v
  end.
(** 50-63. *)
Definition file_type_from_inline (t : inline_type) : file_type :=
  match t with
  | ItRegularFile => FtRegularFile | ItDirectory => FtDirectory | ItCharacterDevice => FtCharacterDevice
  | ItBlockDevice => FtBlockDevice | ItFifo => FtFifo | ItSocket => FtSocket | ItSymbolicLink => FtSymbolicLink
  | ItUnknown v => FtUnknown v
  end.

(** ** src/ext4/inode/time.rs

    A [chrono::DateTime<Utc>] is its number of nanoseconds since the epoch.  Adding a duration panics when the result is
    outside chrono's range, years -262143 to 262142; these are that range's bounds in seconds. *)
Definition chrono_min : Z := -8334601228800.
Definition chrono_max : Z := 8210266876799.
Definition nanos_per_sec : Z := 1000000000.
Definition datetime_add (t d : Z) : res Z :=
  let t' := (t + d)%Z in
  if ((chrono_min * nanos_per_sec <=? t') && (t' <? (chrono_max + 1) * nanos_per_sec))%Z then Ok t' else Panic.

(** [v as i32] of a [u32]. *)
Definition as_i32 (v : N) : Z := if v <? 2147483648 then Z.of_N v else (Z.of_N v - 4294967296)%Z.

(** 3-7.  [Duration::seconds] panics on more than [i64::MAX / 1000] seconds, which these cannot reach. *)
Definition decode_extra_time (base extra : N) : res Z :=
  let seconds := (as_i32 base + Z.of_N (N.shiftl (N.land extra 3) 32))%Z in
  let nanos := Z.of_N (N.shiftr extra 2) in
  let? t := datetime_add 0 (seconds * nanos_per_sec) in
  datetime_add t nanos.

(** ** src/ext4/inode/flags.rs 19, 26, 30; unknown bits are kept. *)
Definition flag_hash_indexed : N := 0x1000.
Definition flag_has_extents : N := 0x80000.
Definition flag_has_inline_data : N := 0x10000000.

(** ** src/ext4/inode/inode.rs *)

(** 16-44, with linux_1.rs 3-5 and linux_2.rs 3-10 in place. *)
Definition inode_layout : layout :=
  [("file_mode", 2); ("user_id_low", 2); ("size_low", 4); ("access_time", 4); ("change_time", 4); ("modified_time", 4);
   ("delete_time", 4); ("group_id_low", 2); ("links_count", 2); ("block_count_low", 4); ("flags", 4); ("version", 4);
   ("blocks", 60); ("generation", 4); ("file_acl_low", 4); ("size_high", 4); ("obsolete_fragment_address", 4);
   ("block_count_high", 2); ("file_acl_high", 2); ("user_id_high", 2); ("group_id_high", 2); ("checksum_low", 2);
   ("reserved", 2); ("extra_isize", 2); ("checksum_high", 2); ("change_time_extra", 4); ("modified_time_extra", 4);
   ("access_time_extra", 4); ("creation_time", 4); ("creation_time_extra", 4); ("version_high", 4);
   ("project_id", 4)]%string.

Definition offset_of (lay : layout) (name : string) : N :=
  match field lay name with Some (o, _) => o | None => 0 end.

(** 46-49. *)
Record inode : Type := Inode { in_storage : bytes; in_seed : option N }.

(** 58-66.  [usize::clamp] applies to the extra size, before the addition. *)
Definition inode_source_length (buffer : bytes) : N :=
  offset_of inode_layout "extra_isize" +
  N.min (if offset_of inode_layout "extra_isize" + 2 <? len buffer then fle inode_layout "extra_isize" buffer else 0)
        (layout_size inode_layout).

(** 52-92. *)
Definition inode_new (sb : bytes) (number : N) (buffer : bytes) : res inode :=
  let n := inode_source_length buffer in
  let storage := zeros (layout_size inode_layout) in
  let? _ := unwrap (slice_to storage n) in
  let? source := unwrap (slice_to buffer n) in
  let storage := source ++ skipn (N.to_nat n) storage in
  if contains (e4_read_only_compatible_features sb) ro_metadata_checksums then
    let? generation := unwrap (sub buffer (offset_of inode_layout "generation") 4) in
    Ok (Inode storage (Some (ext4_crc32c (ext4_crc32c (e4_checksum_seed sb) (to_le 4 number)) generation)))
  else Ok (Inode storage None).

Definition ino (name : string) (i : inode) : N := fle inode_layout name (in_storage i).

(** 94-104. *)
Definition in_file_mode (i : inode) : N := ino "file_mode" i.
Definition in_file_type (i : inode) : file_type := mode_file_type (in_file_mode i).
Definition in_permissions (i : inode) : N := mode_permissions (in_file_mode i).
(** 106-118. *)
Definition in_owner_user_id (i : inode) : N := from_low_high 16 (ino "user_id_low" i) (ino "user_id_high" i).
Definition in_file_size_bytes (i : inode) : N := from_low_high 32 (ino "size_low" i) (ino "size_high" i).
(** 120-143. *)
Definition in_access_time (i : inode) : res Z := decode_extra_time (ino "access_time" i) (ino "access_time_extra" i).
Definition in_change_time (i : inode) : res Z := decode_extra_time (ino "change_time" i) (ino "change_time_extra" i).
Definition in_modified_time (i : inode) : res Z := decode_extra_time (ino "modified_time" i) (ino "modified_time_extra" i).
Definition in_delete_time (i : inode) : res Z := datetime_add 0 (Z.of_N (ino "delete_time" i) * nanos_per_sec).
(** 145-165. *)
Definition in_group_id (i : inode) : N := from_low_high 16 (ino "group_id_low" i) (ino "group_id_high" i).
Definition in_links_count (i : inode) : N := ino "links_count" i.
Definition in_block_count (i : inode) : N := from_low_high 32 (ino "block_count_low" i) (ino "block_count_high" i).
Definition in_flags (i : inode) : N := ino "flags" i.
(** 167-187. *)
Definition in_version (i : inode) : N := from_low_high 32 (ino "version" i) (ino "version_high" i).
Definition in_blocks_buffer (i : inode) : bytes := fbytes inode_layout "blocks" (in_storage i).
Definition in_generation (i : inode) : N := ino "generation" i.
Definition in_file_acl (i : inode) : N := from_low_high 32 (ino "file_acl_low" i) (ino "file_acl_high" i).
(** 189-205. *)
Definition in_checksum (i : inode) : N := from_low_high 16 (ino "checksum_low" i) (ino "checksum_high" i).
Definition in_creation_time (i : inode) : res Z := decode_extra_time (ino "creation_time" i) (ino "creation_time_extra" i).
Definition in_project_id (i : inode) : N := ino "project_id" i.
