(** Model of what the program does not print itself but offers for printing: the [Display] implementations of identifiers,
    UUIDs and quantities; and of src/ext/long_mul.rs and the comparison of identifiers. *)

From Coq Require Import Strings.String.
From Verif Require Import Base Superblock Device Text.

(** ** src/md/superblock/array_uuid.rs 30-37

    [format!("{:02x}", bytes.iter().format(""))]: each byte with two lower case digits, and nothing between them. *)
Definition lower_hex_byte (b : byte) : bytes := [digit_char (bval b / 16); digit_char (bval b mod 16)].
Definition display_uuid (u : array_uuid) : bytes :=
  match u with
  | UuidShort b => flat_map lower_hex_byte b
  | UuidLong b => flat_map lower_hex_byte b
  end.

(** ** src/md/device/id.rs *)

(** 44-51; [quote] is [os_display::Quotable::maybe_quote]. *)
Definition display_device_id (quote : bytes -> bytes) (i : device_id) : bytes :=
  match id_reference i with
  | None => lit "[anonymous]"
  | Some reference => quote reference
  end.

(** 32-36, [PartialEq]. *)
Definition device_id_eq (i j : device_id) : bool := id_index i =? id_index j.

(** 38-42, [Hash]: the bytes that are fed to the hasher (those of a [u64], on a little-endian machine). *)
Definition device_id_hash (i : device_id) : bytes := to_le 8 (id_index i).

(** ** Units: the attributes [#[display(...)]] *)

Inductive quantity : Type :=
| QChunkNumber | QSectorCount | QCheckpointEventCount | QMetadataEventCount | QStripeNumber | QSectorNumber | QDeviceNumber
| QDeviceCount | QExt4BlockCount | QInodeNumber | QInodeCount | QFileBlockNumber | QFsBlockNumber | QBlockNumber | QBlockCount
| QBlockSize.

(** md/units/chunk_number.rs 5, sector_count.rs 10, checkpoint_event_count.rs 8, metadata_event_count.rs 8,
    stripe_number.rs 4, sector_number.rs 10, device_number.rs 6, device_count.rs 8; ext4/units/block_count.rs 20,
    inode_number.rs 8, inode_count.rs 22, file_block_number.rs 9, fs_block_number.rs 7; block_device/block_number.rs 7,
    block_count.rs 21, block_size.rs 20. *)
Definition display_quantity (q : quantity) (n : N) : bytes :=
  match q with
  | QChunkNumber => lit "chunk #" ++ debug_uint n
  | QSectorCount => debug_uint n ++ lit " sectors"
  | QCheckpointEventCount => debug_uint n ++ lit " superblock events"
  | QMetadataEventCount => debug_uint n ++ lit " metadata events"
  | QStripeNumber => lit "stripe #" ++ debug_uint n
  | QSectorNumber => lit "sector #" ++ debug_uint n
  | QDeviceNumber => lit "md device #" ++ debug_uint n
  | QDeviceCount => debug_uint n ++ lit " devices"
  | QExt4BlockCount => debug_uint n ++ lit " blocks"
  | QInodeNumber => lit "inode #" ++ debug_uint n
  | QInodeCount => debug_uint n ++ lit " inodes"
  | QFileBlockNumber => lit "file block #" ++ debug_uint n
  | QFsBlockNumber => lit "filesystem block #" ++ debug_uint n
  | QBlockNumber => lit "block #" ++ debug_uint n
  | QBlockCount => debug_uint n ++ lit " blocks"
  | QBlockSize => debug_uint n ++ lit " bytes"
  end.

(** ** src/ext/long_mul.rs 3-41: the product of two integers of [bits] bits, in the type of twice as many; an overflow of the
    wider type would panic. *)
Definition long_mul (bits a b : N) : res N :=
  if a * b <? 2 ^ (2 * bits) then Ok (a * b) else Panic.
Definition long_mul_signed (bits : N) (a b : Z) : res Z :=
  if ((- 2 ^ (2 * Z.of_N bits - 1) <=? a * b) && (a * b <? 2 ^ (2 * Z.of_N bits - 1)))%Z then Ok (a * b)%Z else Panic.
