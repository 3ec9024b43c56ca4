(** Model of src/md/superblock: the md on-disk superblocks, versions 0.90 and 1. *)

From Coq Require Import Strings.String.
From Verif Require Import Base Raid Io.

(** ** src/md/superblock/role.rs *)

(** 9-12. *)
Definition role_max_position : N := 0xfeff.
Definition role_spare : N := 0xffff.
Definition role_faulty : N := 0xfffe.
Definition role_journal : N := 0xfffd.

(** [MdDeviceRole] is the [u32] inside.  18-20, [is_valid]. *)
Definition is_valid (r : N) : bool := negb ((role_max_position <=? r) && (r <? role_journal)).

(** 22-28, [device_number]. *)
Definition device_number (r : N) : option N := if r <=? role_max_position then Some r else None.

(** 30-44. *)
Definition is_spare (r : N) : bool := r =? role_spare.
Definition is_faulty (r : N) : bool := r =? role_faulty.
Definition is_journal (r : N) : bool := r =? role_journal.
Definition is_invalid (r : N) : bool := (role_max_position <? r) && (r <? role_journal).

(** ** src/md/superblock/array_uuid.rs *)

(** 7-10. *)
Inductive array_uuid : Type := UuidShort (b : bytes) | UuidLong (b : bytes).

(** 13-17, [from_u32]. *)
Definition uuid_from_u32 (v : N) : array_uuid := UuidShort (to_le 4 v).

(** 19-23, [from_u32_4]. *)
Definition uuid_from_u32_4 (a b c d : N) : array_uuid :=
  UuidLong (to_le 4 a ++ to_le 4 b ++ to_le 4 c ++ to_le 4 d).

(** 25-27, [from_u8_16]. *)
Definition uuid_from_u8_16 (b : bytes) : array_uuid := UuidLong b.

(** ** src/md/superblock/reshape_status.rs 5-11 *)
Record reshape_status : Type := Reshape {
  rs_algorithm : md_algorithm;
  rs_position : N;
  rs_delta_devices : N;
  rs_chunk_size : N;
  rs_offset : N
}.

(** ** src/md/superblock/superblock.rs 8-23

    [dyn Superblock] is only ever used through its accessors, so it is the record of their values. *)
Record superblock : Type := Superblock {
  sb_major : N;
  sb_minor : N;
  sb_uuid : array_uuid;
  sb_name : option bytes;
  sb_algorithm : md_algorithm;
  sb_sectors_per_device : N;
  sb_chunk_size : N;
  sb_device_count : N;
  sb_reshape : option reshape_status;
  sb_data_offset : N;
  sb_role_index : N;
  sb_event_count : N;
  sb_roles : list N
}.

(** ** Version 1 *)

(** src/md/superblock/version_1/reshape_status.rs 12-19. *)
Definition v1_reshape_layout : layout :=
  [("new_level", 4); ("reshape_position", 8); ("delta_devices", 4); ("new_layout", 4);
   ("new_chunk_size", 4); ("new_offset", 4)]%string.

(** src/md/superblock/version_1/superblock.rs 17-50.  [dev_roles] is the rest of the storage. *)
Definition v1_layout : layout :=
  [("magic", 4); ("major_version", 4); ("features", 4); ("pad_0", 4); ("array_uuid", 16); ("array_name", 32);
   ("ctime", 8); ("level", 4); ("layout", 4); ("sectors_per_device", 8); ("chunk_size", 4);
   ("raid_device_count", 4); ("bitmap_offset_or_ppl_info", 4); ("reshape_status", layout_size v1_reshape_layout);
   ("data_offset", 8); ("data_size", 8); ("super_offset", 8); ("recovery_offset_or_journal_tail", 8);
   ("device_role_index", 4); ("count_corrected_read", 4); ("device_uuid", 16); ("device_flags", 1);
   ("bad_block_log_shift", 1); ("bad_block_log_size", 2); ("bad_block_log_offset", 4); ("utime", 8);
   ("event_count", 8); ("resync_offset", 8); ("superblock_checksum", 4); ("max_devices", 4); ("pad_3", 32)]%string.

(** src/md/superblock/version_1/features.rs 4-20. *)
Definition feature_bitmap_offset : N := 1.
Definition feature_recovery_offset : N := 2.
Definition feature_reshape_active : N := 4.
Definition feature_journal : N := 512.
Definition feature_ppl : N := 1024.

(** [bitflags] [contains] for a single flag. *)
Definition contains (flags f : N) : bool := N.land flags f =? f.

(** superblock.rs 80-86, 152-154. *)
Definition v1_valid (st : bytes) : bool :=
  (fle v1_layout "magic" st =? 0xa92b4efc) && (fle v1_layout "major_version" st =? 1).

(** reshape_status.rs 21-34. *)
Definition v1_reshape (st : bytes) : reshape_status :=
  Reshape (from_level_and_layout (fle v1_reshape_layout "new_level" st) (fle v1_reshape_layout "new_layout" st))
          (fle v1_reshape_layout "reshape_position" st)
          (fle v1_reshape_layout "delta_devices" st)
          (fle v1_reshape_layout "new_chunk_size" st)
          (fle v1_reshape_layout "new_offset" st).

(** [ReadBytesExt::read_u16_into::<LittleEndian>] on a slice. *)
Fixpoint read_u16s (n : nat) (b : bytes) : list N :=
  match n with
  | O => []
  | S n => le (firstn 2 b) :: read_u16s n (skipn 2 b)
  end.

(** superblock.rs 208-219, [device_roles]; [count] is chosen so that [read_u16_into] finds enough bytes. *)
Definition v1_roles (st : bytes) : list N :=
  let dev_roles := skipn (N.to_nat (layout_size v1_layout)) st in
  let count := N.min (fle v1_layout "max_devices" st) (len dev_roles / 2) in
  read_u16s (N.to_nat count) dev_roles.

(** superblock.rs 108-140, [bitmap_offset], [recovery_offset], [journal_tail]; [ppl_info] as (offset, size) with the
    signed offset of ppl_info.rs 6-9. *)
Definition v1_bitmap_offset (st : bytes) : option N :=
  if contains (fle v1_layout "features" st) feature_bitmap_offset
  then Some (fle v1_layout "bitmap_offset_or_ppl_info" st) else None.
Definition v1_recovery_offset (st : bytes) : option N :=
  if contains (fle v1_layout "features" st) feature_recovery_offset
  then Some (fle v1_layout "recovery_offset_or_journal_tail" st) else None.
Definition v1_journal_tail (st : bytes) : option N :=
  if contains (fle v1_layout "features" st) feature_journal
  then Some (fle v1_layout "recovery_offset_or_journal_tail" st) else None.
Definition to_signed (bits v : N) : Z :=
  if v <? 2 ^ (bits - 1) then Z.of_N v else (Z.of_N v - Z.of_N (2 ^ bits))%Z.
Definition v1_ppl_info (st : bytes) : option (Z * N) :=
  if contains (fle v1_layout "features" st) feature_ppl
  then let b := fbytes v1_layout "bitmap_offset_or_ppl_info" st in
       Some (to_signed 16 (le (window b 0 2)), le (window b 2 2))
  else None.

(** superblock.rs 156-219: all accessors. *)
Definition v1_superblock (st : bytes) (minor : N) : superblock := {|
  sb_major := fle v1_layout "major_version" st;
  sb_minor := minor;
  sb_uuid := uuid_from_u8_16 (fbytes v1_layout "array_uuid" st);
  sb_name := Some (fbytes v1_layout "array_name" st);
  sb_algorithm := from_level_and_layout (fle v1_layout "level" st) (fle v1_layout "layout" st);
  sb_sectors_per_device := fle v1_layout "sectors_per_device" st;
  sb_chunk_size := fle v1_layout "chunk_size" st;
  sb_device_count := fle v1_layout "raid_device_count" st;
  sb_reshape :=
    if contains (fle v1_layout "features" st) feature_reshape_active
    then Some (v1_reshape (fbytes v1_layout "reshape_status" st)) else None;
  sb_data_offset := fle v1_layout "data_offset" st;
  sb_role_index := fle v1_layout "device_role_index" st;
  sb_event_count := fle v1_layout "event_count" st;
  sb_roles := v1_roles st
|}.

(** superblock.rs 58, [MAX_SIZE]. *)
Definition v1_max_size : N := 4096.

(** superblock.rs 60-69, [SuperblockVersion1::read]. *)
Definition v1_read {S} (st : stream S) (s : S) (minor : N) : S * res superblock :=
  let '(s, buf, r) := read_exact st s (zeros v1_max_size) in
  (s, let? _ := r in if v1_valid buf then Ok (v1_superblock buf minor) else Err InvalidData).

(** ** Version 0.90 *)

(** src/md/superblock/version_0/{little,big}_endian/device_descriptor.rs 9-16. *)
Definition v0_descriptor_layout : layout :=
  [("index", 4); ("major", 4); ("minor", 4); ("role", 4); ("state", 4); ("reserved", 108)]%string.

(** src/md/superblock/version_0/{little,big}_endian/reshape_status.rs 12-18. *)
Definition v0_reshape_layout : layout :=
  [("reshape_position", 8); ("new_level", 4); ("delta_devices", 4); ("new_layout", 4); ("new_chunk_size", 4)]%string.

(** src/md/superblock/version_0/superblock.rs 56, [MAX_DEVICES]. *)
Definition v0_max_devices : N := 27.

(** src/md/superblock/version_0/{little,big}_endian/superblock.rs 8-45. *)
Definition v0_layout : layout :=
  [("magic", 4); ("major_version", 4); ("minor_version", 4); ("patch_version", 4); ("gvalid_words", 4);
   ("array_uuid_0", 4); ("ctime", 4); ("level", 4); ("sectors_per_device", 4); ("total_device_count", 4);
   ("raid_device_count", 4); ("md_minor", 4); ("not_persistent", 4); ("array_uuid_1", 4); ("array_uuid_2", 4);
   ("array_uuid_3", 4); ("reserved_0", 64); ("utime", 4); ("state", 4); ("active_device_count", 4);
   ("working_device_count", 4); ("failed_device_count", 4); ("spare_device_count", 4); ("superblock_checksum", 4);
   ("event_count", 8); ("checkpoint_event_count", 8); ("recovery_checkpoint", 4);
   ("reshape_status", layout_size v0_reshape_layout); ("reserved_1", 56); ("layout", 4); ("chunk_size", 4);
   ("root_pv", 4); ("root_block", 4); ("reserved_2", 240);
   ("devices", layout_size v0_descriptor_layout * v0_max_devices);
   ("this_device", layout_size v0_descriptor_layout)]%string.

(** Byte order of a layout; the little- and the big-endian sources are the same text but for this. *)
Inductive endian : Type := Little | Big.
Definition val (e : endian) (b : bytes) : N := match e with Little => le b | Big => be b end.
Definition fval (e : endian) (lay : layout) (name : string) (st : bytes) : N := val e (fbytes lay name st).

(** src/md/superblock/version_0/device_descriptor.rs 3-9. *)
Record descriptor : Type := Descriptor {
  dd_index : N; dd_major : N; dd_minor : N; dd_role : N; dd_state : N
}.

(** device_descriptor.rs 22-32. *)
Definition v0_descriptor (e : endian) (st : bytes) : descriptor :=
  let f n := fval e v0_descriptor_layout n st in
  Descriptor (f "index"%string) (f "major"%string) (f "minor"%string) (f "role"%string) (f "state"%string).

(** little_endian/reshape_status.rs 20-33. *)
Definition v0_reshape (e : endian) (st : bytes) : reshape_status :=
  let f n := fval e v0_reshape_layout n st in
  Reshape (from_level_and_layout (f "new_level"%string) (f "new_layout"%string))
          (f "reshape_position"%string) (f "delta_devices"%string) (f "new_chunk_size"%string) 0.

(** src/md/superblock/version_0/superblock.rs 13-47, [SuperblockVersion0]; the fields that no accessor uses
    (patch_version, ctime, the other device counts, ...) are in Superblock0.v. *)
Record sb0 : Type := Sb0 {
  s0_magic : N; s0_major : N; s0_minor : N;
  s0_uuid0 : N; s0_uuid1 : N; s0_uuid2 : N; s0_uuid3 : N;
  s0_level : N; s0_layout : N;
  s0_sectors : N; s0_total_devices : N; s0_raid_devices : N;
  s0_events : N; s0_reshape : reshape_status; s0_chunk : N;
  s0_devices : list descriptor; s0_this : descriptor
}.

(** {little,big}_endian/superblock.rs 49-97, [From<View<S>>]. *)
Definition v0_from_view (e : endian) (st : bytes) : sb0 :=
  let f n := fval e v0_layout n st in
  let buf := fbytes v0_layout "devices" st in
  let size := layout_size v0_descriptor_layout in
  {| s0_magic := f "magic"%string; s0_major := f "major_version"%string; s0_minor := f "minor_version"%string;
     s0_uuid0 := f "array_uuid_0"%string; s0_uuid1 := f "array_uuid_1"%string;
     s0_uuid2 := f "array_uuid_2"%string; s0_uuid3 := f "array_uuid_3"%string;
     s0_level := f "level"%string; s0_layout := f "layout"%string;
     s0_sectors := f "sectors_per_device"%string; s0_total_devices := f "total_device_count"%string;
     s0_raid_devices := f "raid_device_count"%string; s0_events := f "event_count"%string;
     s0_reshape := v0_reshape e (fbytes v0_layout "reshape_status" st);
     s0_chunk := f "chunk_size"%string;
     s0_devices := map (fun i => v0_descriptor e (window buf (N.of_nat i * size) size))
                       (seq 0 (N.to_nat v0_max_devices));
     s0_this := v0_descriptor e (fbytes v0_layout "this_device" st) |}.

(** src/md/superblock/version_0/superblock.rs 78-97; device_descriptor.rs 12-14. *)
Definition v0_valid (s : sb0) : bool :=
  (s0_magic s =? 0xa92b4efc) && (s0_major s =? 0) &&
  forallb (fun d => is_valid (dd_role d)) (firstn (N.to_nat (s0_total_devices s)) (s0_devices s)).

(** superblock.rs 107-118, [array_uuid]. *)
Definition v0_uuid (s : sb0) : array_uuid :=
  if s0_minor s <? 90 then uuid_from_u32 (s0_uuid0 s)
  else uuid_from_u32_4 (s0_uuid0 s) (s0_uuid1 s) (s0_uuid2 s) (s0_uuid3 s).

(** superblock.rs 99-162: all accessors. *)
Definition v0_superblock (s : sb0) : superblock := {|
  sb_major := s0_major s;
  sb_minor := s0_minor s;
  sb_uuid := v0_uuid s;
  sb_name := None;
  sb_algorithm := from_level_and_layout (s0_level s) (s0_layout s);
  sb_sectors_per_device := s0_sectors s;
  sb_chunk_size := s0_chunk s;
  sb_device_count := s0_raid_devices s;
  sb_reshape := Some (s0_reshape s);
  sb_data_offset := 0;
  sb_role_index := dd_index (s0_this s);
  sb_event_count := s0_events s;
  sb_roles := map dd_role (firstn (N.to_nat (s0_total_devices s)) (s0_devices s))
|}.

(** superblock.rs 50-54, [SIZE_ON_DISK]. *)
Definition v0_size : N := layout_size v0_layout.

(** superblock.rs 62-76, from the buffer on. *)
Definition v0_decode (buf : bytes) : res superblock :=
  let s := if fle v0_layout "magic" buf =? 0xa92b4efc then v0_from_view Little buf else v0_from_view Big buf in
  if v0_valid s then Ok (v0_superblock s) else Err InvalidData.

(** superblock.rs 62-76, [SuperblockVersion0::read]. *)
Definition v0_read {S} (st : stream S) (s : S) : S * res superblock :=
  let '(s, buf, r) := read_exact st s (zeros v0_size) in
  (s, let? _ := r in v0_decode buf).
