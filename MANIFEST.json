{
 "claims": [
  {
   "property": "C01",
   "status": "proved",
   "theorems": [
    "reader_is_flat_stream",
    "reader_over_memory",
    "reader_over_file",
    "reader_read_amount"
   ],
   "note": "For every device meeting the block contract; instances for the in-memory and file devices."
  },
  {
   "property": "C02",
   "status": "proved",
   "theorems": [
    "reader_read_exact",
    "reader_read_exact_iff"
   ],
   "note": ""
  },
  {
   "property": "C03",
   "status": "proved",
   "theorems": [
    "file_read_block",
    "file_read_block_succeeds",
    "file_and_native_read_block"
   ],
   "note": ""
  },
  {
   "property": "C04",
   "status": "proved",
   "theorems": [
    "mem_read_block_exact",
    "mem_read_block_panics_iff"
   ],
   "note": "The code panics where an error would be expected; the exact set is proved."
  },
  {
   "property": "C05",
   "status": "proved",
   "theorems": [
    "clones_do_not_interfere",
    "clones_never_wrong",
    "fs_handles_do_not_interfere"
   ],
   "note": "Block reads, and inode, block, file and directory reads of a file system, for any number of handles on one open file description and any interleaving; reads do not fail (clones_never_wrong has the failing case for block reads)."
  },
  {
   "property": "C06",
   "status": "proved",
   "theorems": [
    "raid5_total_iff"
   ],
   "note": ""
  },
  {
   "property": "C07",
   "status": "proved",
   "theorems": [
    "raid5_distinct_in_range"
   ],
   "note": ""
  },
  {
   "property": "C08",
   "status": "proved",
   "theorems": [
    "raid5_injective",
    "raid5_parity_slot_unused",
    "raid5_surjective"
   ],
   "note": "Surjectivity is stated for stripes all of whose sectors have 64-bit numbers."
  },
  {
   "property": "C09",
   "status": "proved",
   "theorems": [
    "raid5_layout_rows",
    "raid5_chunk_contiguous"
   ],
   "note": ""
  },
  {
   "property": "C10",
   "status": "proved",
   "theorems": [
    "raid6_total_iff"
   ],
   "note": "The isolated exception is part of the statement."
  },
  {
   "property": "C11",
   "status": "proved",
   "theorems": [
    "raid6_distinct_in_range"
   ],
   "note": ""
  },
  {
   "property": "C12",
   "status": "proved",
   "theorems": [
    "raid6_injective",
    "raid6_parity_slots_unused",
    "raid6_surjective"
   ],
   "note": "Surjectivity is stated for stripes all of whose sectors have 64-bit numbers."
  },
  {
   "property": "C13",
   "status": "proved",
   "theorems": [
    "raid6_layout_rows"
   ],
   "note": ""
  },
  {
   "property": "C14",
   "status": "proved",
   "theorems": [
    "raid6_read_ok_iff",
    "raid6_read_bad_geometry",
    "raid6_read_never_panics"
   ],
   "note": ""
  },
  {
   "property": "C15",
   "status": "proved",
   "theorems": [
    "raid6_read_complete",
    "raid6_read_ok_iff"
   ],
   "note": ""
  },
  {
   "property": "C16",
   "status": "proved",
   "theorems": [
    "raid6_single_corruption_detected",
    "raid6_q_ignored"
   ],
   "note": ""
  },
  {
   "property": "C17",
   "status": "partial",
   "theorems": [
    "raid6_degraded_refuted",
    "raid6_degraded_partial"
   ],
   "note": "False of the code: no reconstruction is implemented. Refuted by a witness; proved instead that any missing member makes every read an error."
  },
  {
   "property": "C18",
   "status": "proved",
   "theorems": [
    "v1_probe_locations",
    "v0_probe_location"
   ],
   "note": ""
  },
  {
   "property": "C19",
   "status": "proved",
   "theorems": [
    "member_classification",
    "member_classification_exact",
    "file_member_classification",
    "native_member_classification",
    "memory_member_classification"
   ],
   "note": "Exact classification when no location fails to be read; what happens under I/O errors is C60."
  },
  {
   "property": "C20",
   "status": "proved",
   "theorems": [
    "v1_accessors_published",
    "v1_extra_accessors_published",
    "v1_storable",
    "v1_round_trip"
   ],
   "note": ""
  },
  {
   "property": "C21",
   "status": "proved",
   "theorems": [
    "v0_storable",
    "v0_round_trip",
    "v0_accepted_iff",
    "v0_descriptors_published",
    "v0_rest_published"
   ],
   "note": ""
  },
  {
   "property": "C22",
   "status": "partial",
   "theorems": [
    "role_classified",
    "role_valid_partial",
    "role_valid_refuted",
    "role_wide_unclassified"
   ],
   "note": "False of the code at the single code 0xfeff, which has a position but is reported as not valid; proved for all other 16-bit codes."
  },
  {
   "property": "C23",
   "status": "proved",
   "theorems": [
    "algorithm_classified",
    "algorithm_injective"
   ],
   "note": ""
  },
  {
   "property": "C24",
   "status": "proved",
   "theorems": [
    "array_format_unanimous",
    "array_new_format_unanimous",
    "array_formats_order"
   ],
   "note": "The device count of the reshaped format is the stored count plus the stored change; where that overflows there is no format, as stated in the theorem."
  },
  {
   "property": "C25",
   "status": "proved",
   "theorems": [
    "array_members_partition"
   ],
   "note": ""
  },
  {
   "property": "C26",
   "status": "partial",
   "theorems": [
    "roles_merged_value",
    "roles_fail",
    "roles_fail_iff_partial",
    "roles_order_partial",
    "roles_reserved_refuted",
    "roles_order_refuted",
    "roles_every_order",
    "roles_order_iff"
   ],
   "note": "False of the code: a reserved code overrides positions, and the outcome then depends on the order. roles_order_iff says exactly when the order matters: if two members contradict each other. Proved for member lists in which no index has a reserved code together with two different definite ones."
  },
  {
   "property": "C27",
   "status": "proved",
   "theorems": [
    "diagnosis_disagreements"
   ],
   "note": ""
  },
  {
   "property": "C28",
   "status": "proved",
   "theorems": [
    "diagnosis_members",
    "diagnosis_healthy"
   ],
   "note": ""
  },
  {
   "property": "C29",
   "status": "partial",
   "theorems": [
    "array_read_sound",
    "array_read_complete",
    "array_read_refused",
    "array_read_long_buffer_panics"
   ],
   "note": "Proved for sector-sized and shorter buffers. With a longer buffer the code panics on every successful read (array_read_long_buffer_panics)."
  },
  {
   "property": "C30",
   "status": "partial",
   "theorems": [
    "data_offset_refuted",
    "data_offset_partial"
   ],
   "note": "False of the code: the data offset is never used. Proved for data offset 0."
  },
  {
   "property": "C31",
   "status": "proved",
   "theorems": [
    "array_blocks_fill_members",
    "array_blocks_inside_raid5",
    "array_blocks_outside_refuted"
   ],
   "note": "Also shown: without the divisibility it is false."
  },
  {
   "property": "C32",
   "status": "partial",
   "theorems": [
    "stable_format_partial",
    "v0_arrays_unreadable_refuted",
    "shrinking_reshape_refuted"
   ],
   "note": "False of the code: version 0.90 superblocks always count as being reshaped, and shrinking reshapes are not recognised. Proved for members that announce no reshape."
  },
  {
   "property": "C33",
   "status": "proved",
   "theorems": [
    "crc32c_append",
    "crc32c_is_remainder",
    "crc32c_seed_injective",
    "crc32c_codeword"
   ],
   "note": ""
  },
  {
   "property": "C34",
   "status": "proved",
   "theorems": [
    "crc32c_detects_bursts",
    "crc32c_detects_byte_bursts",
    "crc32c_burst_33_missed_refuted"
   ],
   "note": "Also for bursts of 32 bits at any bit position; 33 bits are shown to be too many."
  },
  {
   "property": "C35",
   "status": "proved",
   "theorems": [
    "sb4_corruption_rejected",
    "sb4_burst_rejected",
    "sb4_type_byte_refuted",
    "sb4_unchecksummed_ignored"
   ],
   "note": "Also for any 32-bit burst, any three flipped bits and any odd number of flipped bits, the stored checksum included. Altering the checksum type byte is shown to defeat the check."
  },
  {
   "property": "C36",
   "status": "proved",
   "theorems": [
    "sb4_valid_iff",
    "sb4_geometry",
    "sb4_block_size_panics_iff"
   ],
   "note": "Acceptance is characterised exactly."
  },
  {
   "property": "C37",
   "status": "proved",
   "theorems": [
    "sb4_numbers_published",
    "sb4_values_published",
    "sb4_optional_published",
    "sb4_bytes_published",
    "sb4_encryption_published",
    "sb4_seed_published",
    "sb4_codes_published",
    "sb4_sizes_published",
    "sb4_enums_injective"
   ],
   "note": ""
  },
  {
   "property": "C38",
   "status": "partial",
   "theorems": [
    "fs_open_panics_only",
    "fs_open_panics",
    "fs_open_never_panics_refuted"
   ],
   "note": "False as stated: an acceptable superblock with zero blocks per group makes div_ceil panic; a descriptor table beyond 64-bit addresses or larger than can be allocated panics too. It is proved that there are no other panics, for every stream that satisfies the stream contract."
  },
  {
   "property": "C39",
   "status": "proved",
   "theorems": [
    "fs_open_sound",
    "fs_open_complete",
    "fs_open_refuses"
   ],
   "note": "File systems without descriptor size (not 64bit) are refused. The location is the one the code uses; for META_BG file systems ext4 places descriptors elsewhere."
  },
  {
   "property": "C40",
   "status": "proved",
   "theorems": [
    "fs_read_inode_sound",
    "fs_read_inode_out_of_range",
    "fs_read_inode_complete",
    "fs_read_inode_panics_only",
    "inode_slots_disjoint",
    "inode_slots_in_table"
   ],
   "note": "Lookups may panic on a malformed slot, see C41."
  },
  {
   "property": "C41",
   "status": "partial",
   "theorems": [
    "inode_new_panics_iff",
    "inode_new_decodes",
    "inode_new_no_error",
    "inode_new_total_refuted",
    "inode_new_small_refuted"
   ],
   "note": "False as stated: slots with an extra size of more than 32, or smaller than 128 bytes, panic. Exactly these do."
  },
  {
   "property": "C42",
   "status": "proved",
   "theorems": [
    "time_total",
    "time_roundtrip",
    "inode_times_total"
   ],
   "note": ""
  },
  {
   "property": "C43",
   "status": "proved",
   "theorems": [
    "mode_split",
    "mode_fields",
    "mode_join",
    "file_types_published",
    "file_types_correspond",
    "unknown_type_confused_refuted"
   ],
   "note": "The correspondence is a bijection on the seven known types; unknown codes are shown not to survive the translation."
  },
  {
   "property": "C44",
   "status": "proved",
   "theorems": [
    "dir_block_walk"
   ],
   "note": "Records are consecutive from offset 0, inside the block without the checksum tail, and the walk ends; the specification of records is independent of the model. Covers: the part of the block up to the first malformed record; that malformed rest is silently dropped is refuted under C48."
  },
  {
   "property": "C45",
   "status": "proved",
   "theorems": [
    "dir_block_round_trip"
   ],
   "note": "For every list of records that fits, with or without checksums; the encoder is in SpecExt4Dir.v."
  },
  {
   "property": "C46",
   "status": "partial",
   "theorems": [
    "entry_name_partial",
    "entry_name_refuted"
   ],
   "note": "Refuted: the name is read up to a NUL or the end of the record, not up to name_len, and unused entries (inode 0) are reported. The partial theorem is an exact characterisation of when the name is right."
  },
  {
   "property": "C47",
   "status": "proved",
   "theorems": [
    "dir_block_accepted_iff",
    "dir_corruption_rejected",
    "dir_burst_rejected"
   ],
   "note": ""
  },
  {
   "property": "C48",
   "status": "partial",
   "theorems": [
    "dir_listing_sound",
    "dir_listing_complete_partial",
    "dir_listing_swallows_refuted"
   ],
   "note": "Soundness for every tree and every pattern of read errors; completeness for directories whose tree maps every block and whose extents have at most 32767 blocks (see C50). Refuted: a malformed record ends its block silently, so the listing is shorter without an error."
  },
  {
   "property": "C49",
   "status": "partial",
   "theorems": [
    "extent_decoded_partial",
    "extent_max_length_refuted"
   ],
   "note": "False for an extent of 32768 blocks, which is decoded as an extent of no blocks. Proved for every other entry."
  },
  {
   "property": "C50",
   "status": "partial",
   "theorems": [
    "file_complete_partial",
    "file_calls_deliver",
    "file_complete_refuted"
   ],
   "note": "Proved for every tree of any depth whose extents have at most 32767 blocks and whose blocks end with the file. With an extent of 32768 blocks the file cannot be read."
  },
  {
   "property": "C51",
   "status": "proved",
   "theorems": [
    "file_sound"
   ],
   "note": "Every history of calls, trees and device errors arbitrary."
  },
  {
   "property": "C52",
   "status": "partial",
   "theorems": [
    "file_terminates_partial",
    "file_terminates_depth_partial",
    "file_cycle_never_returns",
    "file_terminates_refuted"
   ],
   "note": "False as stated: on a tree that contains itself the call never returns. Proved for trees without cycles, and for those whose depth fields decrease."
  },
  {
   "property": "C53",
   "status": "partial",
   "theorems": [
    "file_zeros_refuted",
    "file_sound"
   ],
   "note": "False: an unwritten extent gives the stale content of its blocks, a hole an error. What holds is that a block is returned only if an extent maps it."
  },
  {
   "property": "C54",
   "status": "partial",
   "theorems": [
    "file_complete_partial",
    "file_sound",
    "file_end_refuted"
   ],
   "note": "False as stated: with a block mapped behind the end of file the call fails with InvalidData. Proved for files whose mapped blocks end with the file."
  },
  {
   "property": "C55",
   "status": "partial",
   "theorems": [
    "extent_valid_iff",
    "extent_valid_full_partial",
    "extent_valid_refuted"
   ],
   "note": "False for blocks that are not full: the checksum is looked for behind the last entry in use, not behind the last possible one. Proved for full blocks; acceptance is characterised for all."
  },
  {
   "property": "C56",
   "status": "partial",
   "theorems": [
    "name_agree_partial",
    "name_agree_refuted",
    "name_order",
    "name_text_replaced",
    "name_text_valid"
   ],
   "note": "Refuted for names that are not UTF-8: ordering and hashing look at the lossy text, equality at the bytes. Proved for UTF-8 names; the ordering is total and is that of the code points of the text in which every ill-formed part is replaced."
  },
  {
   "property": "C57",
   "status": "partial",
   "theorems": [
    "array_session_partial"
   ],
   "note": "For every image, layout, geometry and client session, when the data areas start at offset 0. With another data offset the claim is false, see data_offset_refuted (C30)."
  },
  {
   "property": "C58",
   "status": "proved",
   "theorems": [
    "v0_uuid_equal_iff",
    "ids_distinct",
    "ids_repeat_panics"
   ],
   "note": ""
  },
  {
   "property": "C59",
   "status": "partial",
   "theorems": [
    "v0_units_refuted"
   ],
   "note": "False of the code: the stored numbers are reported unconverted; the theorem says for every image that they are right only if they are 0."
  },
  {
   "property": "C60",
   "status": "partial",
   "theorems": [
    "probe_error_reported_refuted",
    "probe_error_partial"
   ],
   "note": "False of the code: errors are treated like an absent superblock. Proved: an error never makes a superblock appear, it only hides one."
  },
  {
   "property": "C61",
   "status": "partial",
   "theorems": [
    "v1_checksum_refuted",
    "v1_checksum_ignored"
   ],
   "note": "False of the code: the checksum is never looked at. Proved: changing it never changes acceptance."
  },
  {
   "property": "C62",
   "status": "partial",
   "theorems": [
    "blank_member_refuted"
   ],
   "note": "False of the code for every list: with one such disk there is no format and no active member."
  },
  {
   "property": "C63",
   "status": "proved",
   "theorems": [
    "crc32c_detects_three",
    "crc32c_detects_odd",
    "crc32c_two_flips_missed_refuted"
   ],
   "note": "The bound of the first part is shown to be sharp."
  },
  {
   "property": "C64",
   "status": "proved",
   "theorems": [
    "group_descriptor_published",
    "inode_published"
   ],
   "note": ""
  },
  {
   "property": "C65",
   "status": "partial",
   "theorems": [
    "fs_read_block_spec",
    "fs_read_block_complete",
    "fs_read_block_large_buffer_refuted"
   ],
   "note": "False for buffers larger than a block: the whole buffer is read, which fails at the end of the device. Proved for buffers of the size of a block; for all buffers the outcome is characterised."
  },
  {
   "property": "C66",
   "status": "partial",
   "theorems": [
    "file_sound",
    "file_never_panics_refuted"
   ],
   "note": "False: a node that claims more entries than there is room for panics. By file_sound nothing else does, but for the block counter at its largest value."
  },
  {
   "property": "C67",
   "status": "proved",
   "theorems": [
    "open_file_sound",
    "open_file_decides"
   ],
   "note": "open_file_sound holds whatever is on the device and whichever reads fail; open_file_decides says for every well-formed readable slot what is returned."
  },
  {
   "property": "C68",
   "status": "partial",
   "theorems": [
    "read_file_partial",
    "list_directory_partial"
   ],
   "note": "From the superblock to the last byte. Missing: files with holes or unwritten or 32768-block extents, for which the claim is false (C49-C51), and directories with malformed records (C48)."
  },
  {
   "property": "C69",
   "status": "proved",
   "theorems": [
    "array_io_sound"
   ],
   "note": "For members of any kind whose clones share their state or have their own."
  },
  {
   "property": "C70",
   "status": "proved",
   "theorems": [
    "array_reads_sound",
    "array_reads_repeatable"
   ],
   "note": "Whole sequences of reads with the members in the state the last read left them in."
  },
  {
   "property": "C71",
   "status": "partial",
   "theorems": [
    "recover_file_partial",
    "recover_directory_partial",
    "recover_session_partial"
   ],
   "note": "Missing: members whose data area does not start at offset 0, for which the claim is false (data_offset_refuted, C30), and the files excluded in C68."
  },
  {
   "property": "C72",
   "status": "proved",
   "theorems": [
    "main_prints_failures",
    "main_prints_diagnosis",
    "main_too_small",
    "main_missing",
    "main_total"
   ],
   "note": "Devices of at most 2^63 - 1 bytes with a nonzero block size; at most 2^64 - 1 paths. Printing itself is not modelled."
  },
  {
   "property": "C73",
   "status": "partial",
   "theorems": [
    "linux_descriptors_partial",
    "linux_inodes_partial",
    "root_inode_linux_partial",
    "linux_32bit_refused",
    "linux_32bit_refuted",
    "linux_bigalloc_wrong",
    "linux_bigalloc_refuted",
    "linux_meta_bg_refuted"
   ],
   "note": "Proved for the geometry that mke2fs makes by default (64bit, no meta_bg, first data block that of the superblock). Missing: file systems without 64bit, with meta_bg, and bigalloc with 1024-byte blocks, for which the claim is false (three refutations)."
  },
  {
   "property": "C74",
   "status": "partial",
   "theorems": [
    "metadata_checksums_refuted",
    "inode_checksum_ignored",
    "dir_block_accepted_iff",
    "dir_listing_sound"
   ],
   "note": "Holds for directory blocks (C47, C48). Missing: descriptors, inodes and extent blocks, whose checksums are never looked at: the refutation reads a file through all three with wrong checksums, and inode_checksum_ignored says that the checksum of an inode makes no difference."
  },
  {
   "property": "C75",
   "status": "proved",
   "theorems": [
    "file_exact"
   ],
   "note": "For finite trees; on a tree that contains itself a call may never return (C52). Extents of 32768 blocks are taken for empty ones, which C50 refutes."
  },
  {
   "property": "C76",
   "status": "proved",
   "theorems": [
    "file_error_final"
   ],
   "note": "Trees whose extents are not empty, in ascending order and disjoint, as Linux takes them; unwritten and 32768-block extents included."
  },
  {
   "property": "C77",
   "status": "proved",
   "theorems": [
    "file_whole_iff"
   ],
   "note": "Both directions, with the answers; buffers of the size of a block."
  },
  {
   "property": "C78",
   "status": "proved",
   "theorems": [
    "dir_listing_exact"
   ],
   "note": "listing (SpecExt4Dir) over the calls that follows (SpecExt4Walk) allows. That malformed records end their block silently is part of the statement; C48 refutes the stronger claim."
  },
  {
   "property": "C79",
   "status": "proved",
   "theorems": [
    "file_linux"
   ],
   "note": "The specification of Linux (SpecExt4Content) looks every block up from the root; the exception for unwritten extents is real (file_linux_unwritten_ex, C53)."
  },
  {
   "property": "C80",
   "status": "proved",
   "theorems": [
    "file_linux_complete"
   ],
   "note": "Files with holes are not read to their end (C53), nor those with unwritten or 32768-block extents as Linux reads them (C53, C50); the statement excludes them."
  },
  {
   "property": "C81",
   "status": "proved",
   "theorems": [
    "device_linux",
    "device_linux_complete"
   ],
   "note": "For the geometry of C73. Metadata checksums, encryption and an unreplayed journal are outside the specification of Linux here (C74 and DESIGN.md)."
  },
  {
   "property": "C82",
   "status": "partial",
   "theorems": [
    "recover_linux_partial",
    "recover_linux_complete_partial"
   ],
   "note": "Missing: members whose data area does not start at offset 0, for which the claim is false (data_offset_refuted, C30)."
  },
  {
   "property": "C83",
   "status": "proved",
   "theorems": [
    "release_reader"
   ],
   "note": "The release build is Release.v: the functions with unchecked operators once more, with wrapping arithmetic."
  },
  {
   "property": "C84",
   "status": "proved",
   "theorems": [
    "release_open",
    "release_open_panics_only",
    "release_open_refuted"
   ],
   "note": "The condition on the table is necessary: the refutation opens an image of 16 KiB whose descriptors would start at 2^64, and takes those at byte 0."
  },
  {
   "property": "C85",
   "status": "proved",
   "theorems": [
    "release_session"
   ],
   "note": "Equality of the two sessions, with panics that are not overflows. Files of more than 2^32 - 1 blocks, on which a checked build panics after the block 2^32 - 1, are excluded."
  },
  {
   "property": "C86",
   "status": "proved",
   "theorems": [
    "release_device",
    "release_array"
   ],
   "note": "For arrays with the conditions of C71 (data areas at offset 0)."
  },
  {
   "property": "C87",
   "status": "partial",
   "theorems": [
    "listing_linux_partial",
    "listing_linux_complete_partial"
   ],
   "note": "The full claim - that the listings are the same - is false: records not in use are listed, and stale bytes are taken for parts of names (entry_name_refuted, C46); the statement says exactly which names are right. Missing: indexed directories, which are refused, blocks that Linux accepts in part only (linux_prefix says that nothing Linux lists of such a block is missing), and records that reach over the checksum of a block."
  },
  {
   "property": "C88",
   "status": "partial",
   "theorems": [
    "recover_listing_partial",
    "recover_listing_complete_partial"
   ],
   "note": "As C87, and data areas at offset 0 as in C82."
  },
  {
   "property": "C89",
   "status": "proved",
   "theorems": [
    "text_read_back"
   ],
   "note": "The parser is SpecText.v. Parameters: which characters the standard library prints as they are (any table), the text for an error number, and the quoting of paths (not used for a diagnosis)."
  },
  {
   "property": "C90",
   "status": "proved",
   "theorems": [
    "text_none_lines"
   ],
   "note": ""
  },
  {
   "property": "C91",
   "status": "proved",
   "theorems": [
    "text_failures"
   ],
   "note": "os_display::maybe_quote is a parameter; that quoted paths have no line end is a hypothesis."
  },
  {
   "property": "C92",
   "status": "proved",
   "theorems": [
    "text_unambiguous"
   ],
   "note": "os_display::maybe_quote is a parameter with the contract `quoting`: one line, and a colon and a blank behind it show where it ends."
  },
  {
   "property": "C93",
   "status": "proved",
   "theorems": [
    "served_elsewhere"
   ],
   "note": "For trees that are finite (have a walk, SpecExt4Walk), buffers of at most a block, and runs that both come to an end; a longer buffer reads behind the block (C65)."
  },
  {
   "property": "C94",
   "status": "proved",
   "theorems": [
    "served_alike"
   ],
   "note": "As C93. The seed matters for directories only."
  },
  {
   "property": "C95",
   "status": "partial",
   "theorems": [
    "features_linux_partial",
    "features_linux_refuted",
    "encrypted_refuted"
   ],
   "note": "The full claim is false: compression, external journals and Lustre directory data are accepted (features_linux_refuted), and encrypted files are delivered as they are stored (encrypted_refuted; C94 says that no other flag than three is looked at). Proved: every other feature that Linux does not support is refused, and of those that it does, casefold only."
  },
  {
   "property": "C96",
   "status": "partial",
   "theorems": [
    "journal_untouched_partial",
    "journal_refuted"
   ],
   "note": "The full claim is false: the journal is ignored even if the superblock says that it must be recovered (journal_refuted). Proved: whatever the journal has to write, files and directories that it does not touch are served as after the writes."
  },
  {
   "property": "C97",
   "status": "proved",
   "theorems": [
    "one_wrong_sector"
   ],
   "note": "For data areas at offset 0, as the code reads them (data_offset_refuted)."
  },
  {
   "property": "C98",
   "status": "proved",
   "theorems": [
    "damage_elsewhere"
   ],
   "note": "As C93: finite trees, buffers of at most a block, and runs that both come to an end; data areas at offset 0."
  },
  {
   "property": "C99",
   "status": "partial",
   "theorems": [
    "one_wrong_linux_partial",
    "one_wrong_complete_partial",
    "one_wrong_listing_partial"
   ],
   "note": "As C82 and C88: but for unwritten extents; the usual geometry; data areas at offset 0."
  },
  {
   "property": "C100",
   "status": "partial",
   "theorems": [
    "one_wrong_sector",
    "two_wrong_refuted"
   ],
   "note": "The full claim is false: Q is not looked at, and garbage with the right parity P in two data slots is returned (two_wrong_refuted). Proved: one wrong slot in a row is found out."
  },
  {
   "property": "C101",
   "status": "partial",
   "theorems": [
    "dropped_not_read_refuted",
    "dropped_used",
    "dropped_reported",
    "one_outsider_partial"
   ],
   "note": "The full claim is false: event counts are not looked at, and with two dropped members, as RAID-6 allows, old data are returned as if they were current (dropped_not_read_refuted); dropped_used says when a dropped member is used. Proved: one such member causes errors only (data areas at offset 0), and the diagnosis names it with its event count."
  },
  {
   "property": "C102",
   "status": "partial",
   "theorems": [
    "mixed_not_combined_refuted",
    "mixed_reported",
    "one_outsider_partial"
   ],
   "note": "The full claim is false: the identifier is not looked at, and half of the members of each of two arrays read as a mixture of both (mixed_not_combined_refuted). Proved: one member of another array causes errors only, and the diagnosis names the members of each array."
  },
  {
   "property": "C103",
   "status": "proved",
   "theorems": [
    "open_looks_at"
   ],
   "note": ""
  },
  {
   "property": "C104",
   "status": "partial",
   "theorems": [
    "reshape_format_iff",
    "reshape_grow_fails"
   ],
   "note": "The full claim is false. reshape_format_iff says exactly for which reshapes and sectors the format is the right one; while an array gets more devices no sector can be read (reshape_grow_fails)."
  },
  {
   "property": "C105",
   "status": "partial",
   "theorems": [
    "rebuilding_not_read_refuted",
    "v1_looks_at",
    "one_outsider_partial"
   ],
   "note": "The full claim is false: the recovery offset is not looked at (v1_looks_at says what is), and with two members being rebuilt what they held before is returned (rebuilding_not_read_refuted). Proved: one such member causes errors only."
  },
  {
   "property": "C106",
   "status": "proved",
   "theorems": [
    "interrupted_read",
    "interrupted_devices",
    "interrupted_probe",
    "interrupted_forever"
   ],
   "note": "interrupted_forever says what the condition on schedules is needed for."
  },
  {
   "property": "C107",
   "status": "proved",
   "theorems": [
    "read_all_rest",
    "read_all_complete",
    "read_all_device"
   ],
   "note": ""
  },
  {
   "property": "C108",
   "status": "proved",
   "theorems": [
    "file_turns",
    "file_turns_each"
   ],
   "note": "Trees without cycles; on a tree that contains itself a call need not return (C52)."
  },
  {
   "property": "C109",
   "status": "partial",
   "theorems": [
    "v0_checksum_refuted",
    "v0_looks_at"
   ],
   "note": "The full claim is false: the checksum is not looked at (v0_checksum_refuted). v0_looks_at says what is."
  },
  {
   "property": "C110",
   "status": "partial",
   "theorems": [
    "v0_placed_partial",
    "v0_placed_refuted"
   ],
   "note": "The full claim is false: only as many descriptors are read as there are devices, so in an array with a vacant place the members at the end have no position (v0_placed_refuted). Proved for arrays without vacant places."
  },
  {
   "property": "C111",
   "status": "partial",
   "theorems": [
    "members_assembled_partial",
    "data_taken_for_superblock_refuted"
   ],
   "note": "Proved for data that do not look like another superblock at the places that are looked at first, and that start at the first sector of the members (the code does not use the data offset, C30). Without the first condition the claim is false: data_taken_for_superblock_refuted."
  },
  {
   "property": "C112",
   "status": "partial",
   "theorems": [
    "paths_assembled",
    "recover_paths_linux_partial",
    "recover_paths_complete_partial",
    "recover_paths_listing_partial",
    "recover_paths_listing_complete_partial"
   ],
   "note": "Partial as C111, C79/C81 (unwritten extents) and C87 (directories) are."
  },
  {
   "property": "C113",
   "status": "partial",
   "theorems": [
    "flags_linux_partial",
    "mount_mode_partial",
    "mount_mode_refuted"
   ],
   "note": "The full claim is false for the journal mode: Linux has data=writeback as 0x60, the code has it as 0x80, so such a file system is reported with the two other modes and without this one (mount_mode_refuted). Proved for all other flags, and for the journal mode if it is not data=writeback."
  },
  {
   "property": "C114",
   "status": "partial",
   "theorems": [
    "wrong_paths_assembled",
    "wrong_paths_linux_partial",
    "wrong_paths_complete_partial",
    "wrong_paths_listing_partial",
    "wrong_paths_elsewhere",
    "but_one_written"
   ],
   "note": "Partial as C112 is: version 1.0 superblocks, data that start at the first sector of the members, unwritten extents. but_one_written: the condition on rows is met if one member is missing or holds anything and the others are as md wrote them."
  },
  {
   "property": "C115",
   "status": "proved",
   "theorems": [
    "listing_turns",
    "listing_end_refuted"
   ],
   "note": "Trees without cycles, as in C108. The second theorem shows that the calls may settle on an error."
  },
  {
   "property": "C116",
   "status": "proved",
   "theorems": [
    "asked_sound",
    "asked_exact",
    "listed_reads",
    "shared_handles",
    "shared_array",
    "shared_description"
   ],
   "note": "sessions over every stream contract with a private and a shared part of the state; instantiated for arrays of failing members (each handle with its own reader) and for one open file description; C05 covers the shared file without failures only"
  },
  {
   "property": "C117",
   "status": "proved",
   "theorems": [
    "view_block_ok",
    "blank_not_opened",
    "offset_read",
    "offset_read_whole_turns"
   ],
   "note": "describes what the code does where C30 (data offset applied) is false; offsets that are not whole chunks are covered by view_block_ok only"
  },
  {
   "property": "C118",
   "status": "partial",
   "theorems": [
    "interrupted_failures",
    "interrupted_diagnosis",
    "interrupted_natives",
    "interrupted_assembled",
    "interrupted_linux_partial",
    "interrupted_complete_partial",
    "interrupted_listing_partial",
    "interrupted_listing_complete_partial"
   ],
   "note": "the diagnosis is proved in full; recovery with the restrictions of C112 (version 1.0 superblocks, data from the first sector; unwritten extents), without which the claim is false"
  },
  {
   "property": "C119",
   "status": "proved",
   "theorems": [
    "uuid_text",
    "quantity_text",
    "quantity_told",
    "device_id_same",
    "device_id_new",
    "long_mul_exact",
    "long_mul_signed_exact"
   ],
   "note": ""
  },
  {
   "property": "C120",
   "status": "partial",
   "theorems": [
    "blk_answers_partial",
    "blk_device_size_partial",
    "blk_errors",
    "blk_answers_refuted"
   ],
   "note": "where size_t has 32 bits the claim is false: Linux encodes the size of size_t in the request (blk_answers_refuted)"
  },
  {
   "property": "C121",
   "status": "proved",
   "theorems": [
    "options_read",
    "command_line_unique",
    "any_paths",
    "outputs_ignored",
    "program_total"
   ],
   "note": "clap is represented by its documented meaning for the declaration in main.rs"
  },
  {
   "property": "C122",
   "status": "proved",
   "theorems": [
    "more_slots",
    "more_reads",
    "more_reads_io",
    "doubled_refused",
    "spare_ignored",
    "more_change_refuted",
    "more_reserved_refuted"
   ],
   "note": "the last two show that the conditions of the first three cannot be dropped"
  },
  {
   "property": "C123",
   "status": "partial",
   "theorems": [
    "physical_classification_partial",
    "physical_classification_exact_partial",
    "physical_paths_partial",
    "physical_wrong_paths_partial",
    "physical_classification_refuted",
    "physical_small_refuted"
   ],
   "note": "proved for physical block sizes that divide 4096; false for larger ones, as the refuted theorems show"
  },
  {
   "property": "C124",
   "status": "proved",
   "theorems": [
    "node_header_published",
    "node_entries_published",
    "node_entries_short",
    "leaf_iterated",
    "leaf_iterated_all",
    "leaf_iterated_short"
   ],
   "note": "nothing in the code makes an iterator over a leaf; the theorems say what one would give"
  },
  {
   "property": "C125",
   "status": "proved",
   "theorems": [
    "reader_is_block_device",
    "reader_mixed",
    "reader_nested"
   ],
   "note": ""
  },
  {
   "property": "C126",
   "status": "proved",
   "theorems": [
    "root_inode_found"
   ],
   "note": ""
  }
 ]
}