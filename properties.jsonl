{"id": "C01", "title": "Block reader is a flat byte stream", "statement": "Reading and seeking through BlockDeviceReader gives exactly the behaviour of a cursor over the flat concatenation of the device's blocks: each read returns the next contiguous bytes from the current position (never bytes from elsewhere, never 0 before the end), a successful seek moves to exactly the requested absolute position and returns it, and a failed call leaves the position unchanged.", "quantifier": "every device content, every block size > 0, every finite sequence of read and seek calls with any buffer sizes and offsets", "why_tests_cant": "The number of call sequences and of alignments between buffers and blocks is unbounded; tests exercise a handful of sequences on one 256-byte device.", "anchors": ["src/block_device/reader.rs: BlockDeviceReader::read, BlockDeviceReader::seek"]}
{"id": "C02", "title": "read_exact through the block reader returns the requested byte range or UnexpectedEof", "statement": "read_exact(n) at position p through BlockDeviceReader fills the buffer with bytes p..p+n of the flat content and advances by n if p+n is within the device, and otherwise fails with UnexpectedEof; it never returns success with wrong bytes, however many block boundaries are crossed.", "quantifier": "every content, block size, position and length", "why_tests_cant": "The loop inside read_exact runs a data-dependent number of times; a test fixes one length and one block size.", "anchors": ["src/block_device/reader.rs: BlockDeviceReader::read", "std::io::Read::read_exact (default)"]}
{"id": "C03", "title": "File-backed block reads survive short reads and never touch bytes beyond the block", "statement": "FileBlockDevice/NativeBlockDevice read_block(n, buf) either fails or fills the first block_size bytes of buf with bytes n*block_size.. of the file and leaves the rest of buf untouched, no matter how the operating system splits the transfer into short reads; a buffer shorter than a block is rejected before any I/O.", "quantifier": "every file content, block number, buffer, and every schedule of short reads and I/O errors chosen by the operating system", "why_tests_cant": "Short-read schedules are chosen by the kernel and cannot be enumerated by a test.", "anchors": ["src/block_device/internal.rs: InternalFile::read_block", "src/block_device/file.rs: FileBlockDevice", "src/block_device/native.rs: NativeBlockDevice"]}
{"id": "C04", "title": "In-memory device block reads are exact on legal calls, and the exact set of panicking calls is known", "statement": "InMemoryBlockDevice::read_block returns exactly the addressed block for in-range block numbers with a buffer of exactly one block; it never returns wrong data; it panics (instead of returning an error) exactly when the block is not fully inside the memory or the buffer is longer than a block.", "quantifier": "every memory content, block size, block number and buffer", "why_tests_cant": "Panic-freedom is a universally quantified claim over block numbers and buffer lengths.", "anchors": ["src/block_device/in_memory.rs: InMemoryBlockDevice::read_block"]}
{"id": "C05", "title": "Cloned handles that share an operating-system file cursor do not interfere", "statement": "Results of block reads, and of ext4 inode/block/file reads, performed through several clones of one file-backed device are the same as if each clone were used alone, for every interleaving of the calls, although File::try_clone shares a single cursor between clones.", "quantifier": "every interleaving of calls on any number of clones of one device", "why_tests_cant": "Interleavings grow exponentially; tests use a single handle.", "anchors": ["src/block_device/internal.rs: InternalFile::{read_block,try_clone}", "src/ext4/fs.rs: Ext4Fs::{read_block,read_inode,try_clone}"]}
{"id": "C06", "title": "RAID-5 address map is total exactly on sensible geometry", "statement": "For every 64-bit sector number the RAID-5 address computation returns a location if and only if chunk size is non-zero and there are at least two devices; no intermediate computation overflows or divides by zero.", "quantifier": "every layout, 64-bit sector number, 32-bit chunk size and 32-bit device count", "why_tests_cant": "2^128 inputs; overflow corners are not hit by sampling.", "anchors": ["src/md/raid5/algorithm.rs: MdRaid5Algorithm::compute_sector"]}
{"id": "C07", "title": "RAID-5 data and parity devices are distinct and in range", "statement": "Whenever the RAID-5 address computation succeeds, the data device and the parity device are different and both less than the device count.", "quantifier": "every layout, sector, chunk size and device count", "why_tests_cant": "Universal over device counts and stripe numbers.", "anchors": ["src/md/raid5/algorithm.rs: MdRaid5Algorithm::compute_sector"]}
{"id": "C08", "title": "RAID-5 address map is a bijection onto the non-parity slots", "statement": "Two different array sectors never map to the same (device, sector) slot, and every slot of a member device that is not the parity slot of its stripe is the image of some array sector; parity slots are never used for data.", "quantifier": "every layout, chunk size, device count, and all pairs of sectors", "why_tests_cant": "Injectivity/surjectivity over an unbounded address space.", "anchors": ["src/md/raid5/algorithm.rs: MdRaid5Algorithm::compute_sector"]}
{"id": "C09", "title": "RAID-5 layouts are the documented md layouts", "statement": "For every layout the device on which data chunk d (and parity) of stripe k is placed equals the one given by the published md layout (left/right, symmetric/asymmetric, parity-0, parity-n), given as an explicit row of the stripe; consecutive sectors of one chunk are consecutive on one device.", "quantifier": "every layout, device count, stripe, data index and offset in chunk", "why_tests_cant": "A layout is an infinite family of tables; a test checks finitely many rows.", "anchors": ["src/md/raid5/algorithm.rs: MdRaid5Algorithm::{from_layout,compute_sector}", "src/md/units/sector_number.rs: SectorNumber::in_chunk", "src/md/units/chunk_number.rs"]}
{"id": "C10", "title": "RAID-6 address map is total exactly on sensible geometry", "statement": "For every 64-bit sector number the RAID-6 address computation returns a location if and only if the chunk size is non-zero and there are at least three devices (one isolated exception: layout rotating-N-restart, chunk size 1, three devices, sector 2^64-1); nothing overflows.", "quantifier": "every layout, 64-bit sector, 32-bit chunk size and device count", "why_tests_cant": "2^128 inputs; the single exceptional point would not be found by sampling.", "anchors": ["src/md/raid6/algorithm.rs: MdRaid6Algorithm::compute_sector"]}
{"id": "C11", "title": "RAID-6 data, P and Q devices are pairwise distinct and in range", "statement": "Whenever the RAID-6 address computation succeeds, data, P and Q devices are pairwise different and all less than the device count.", "quantifier": "every layout, sector, chunk size and device count", "why_tests_cant": "Universal over device counts and stripe numbers.", "anchors": ["src/md/raid6/algorithm.rs: MdRaid6Algorithm::compute_sector"]}
{"id": "C12", "title": "RAID-6 address map is a bijection onto the non-parity slots", "statement": "Two different array sectors never map to the same (device, sector) slot; each slot that is neither the P nor the Q slot of its stripe is the image of exactly one array sector.", "quantifier": "every layout, chunk size, device count, all pairs of sectors", "why_tests_cant": "Injectivity/surjectivity over an unbounded address space.", "anchors": ["src/md/raid6/algorithm.rs: MdRaid6Algorithm::compute_sector"]}
{"id": "C13", "title": "RAID-6 layouts are the documented md/DDF layouts", "statement": "For every layout, the row of devices holding D0..Dk, P and Q of each stripe equals the published row (rotation or insertion form), for the md layouts, the three DDF layouts and the five RAID-5-plus-trailing-Q layouts.", "quantifier": "every layout, device count, stripe and data index", "why_tests_cant": "Infinite family of tables.", "anchors": ["src/md/raid6/algorithm.rs: MdRaid6Algorithm::{from_layout,compute_sector}"]}
{"id": "C14", "title": "RAID-6 read returns data only when P parity verifies, and then it is the mapped data", "statement": "A RAID-6 sector read that returns success has read the same sector of every member device, the bytewise XOR of all data sectors equals the P sector on all 512 bytes, and the returned bytes are exactly those of the data device that the address map names.", "quantifier": "every member content, layout, geometry, sector and every pattern of device read failures", "why_tests_cant": "Universal over contents and failure patterns.", "anchors": ["src/md/raid6/algorithm.rs: MdRaid6Algorithm::read_sector"]}
{"id": "C15", "title": "RAID-6 read succeeds on every P-consistent, fully readable stripe", "statement": "If every member can be read and the data sectors XOR to the P sector, the read succeeds.", "quantifier": "every member content satisfying parity, layout, geometry, sector", "why_tests_cant": "Universal over contents.", "anchors": ["src/md/raid6/algorithm.rs: MdRaid6Algorithm::read_sector"]}
{"id": "C16", "title": "RAID-6 read detects any corruption confined to one data or P sector", "statement": "Starting from a P-consistent stripe, if exactly one data or P sector is altered in any way, the read fails with InvalidData rather than returning wrong data; alterations of the Q sector alone never change the result.", "quantifier": "every consistent stripe, victim device and altered content", "why_tests_cant": "2^4096 corruptions of a sector.", "anchors": ["src/md/raid6/algorithm.rs: MdRaid6Algorithm::read_sector"]}
{"id": "C17", "title": "Degraded RAID-6 arrays are readable", "statement": "A RAID-6 array that lacks at most two members, with the remaining members consistent, still yields its data.", "quantifier": "every array content, every set of at most two missing members", "why_tests_cant": "Universal over contents and failure sets.", "anchors": ["src/md/raid6/algorithm.rs: MdRaid6Algorithm::read_sector", "src/md/array.rs: MdArray::read_block"]}
{"id": "C18", "title": "Version 1 superblock probe locations obey the md on-disk rules", "statement": "The three version 1 probe offsets are inside the device with room for the 4096-byte superblock: 4096 (1.2), 0 (1.1), and (1.0) the unique 4 KiB-aligned offset at least 8 KiB and less than 12 KiB before the end (measured in whole sectors); the version 0.90 offset is the unique 64 KiB-aligned offset at least 64 KiB and less than 128 KiB before the end. No probe reads outside the device.", "quantifier": "every device size representable in 64 bits", "why_tests_cant": "Universal over device sizes; off-by-one alignment errors only show at particular residues.", "anchors": ["src/md/device/device.rs: MdDevice::from_block_device"]}
{"id": "C19", "title": "Member classification is sound, complete and follows fixed precedence", "statement": "Opening a member classifies it as TooSmall exactly when it is smaller than 12288 bytes, otherwise as carrying the superblock found at the first valid location in the order 1.2, 1.1, 1.0, 0.90, and as Missing exactly when none of the locations holds a valid superblock; classification never panics and is independent of the initial cursor position.", "quantifier": "every device content and size, every initial cursor position, every short-read schedule", "why_tests_cant": "Universal over contents.", "anchors": ["src/md/device/device.rs: MdDevice::from_block_device", "src/md/superblock/version_1/superblock.rs: SuperblockVersion1::read", "src/md/superblock/version_0/superblock.rs: SuperblockVersion0::read"]}
{"id": "C20", "title": "Version 1 superblocks are decoded field by field from the published offsets", "statement": "Every accessor of a version 1 superblock returns the little-endian value at the byte offset published for the md version-1 format, for every superblock image; encoding any field values at those offsets and reading them back returns the same values.", "quantifier": "every 4096-byte image and every assignment of field values", "why_tests_cant": "Universal over images.", "anchors": ["src/md/superblock/version_1/superblock.rs: SuperblockVersion1"]}
{"id": "C21", "title": "Version 0.90 superblocks decode identically in both byte orders", "statement": "The little- and big-endian encodings of the same logical version 0.90 superblock are both recognised and every accessor returns the same value for both, equal to the encoded field.", "quantifier": "every assignment of field values", "why_tests_cant": "Universal over field values.", "anchors": ["src/md/superblock/version_0/superblock.rs: SuperblockVersion0", "src/md/superblock/version_0/little_endian/superblock.rs", "src/md/superblock/version_0/big_endian/superblock.rs"]}
{"id": "C22", "title": "Every device role code has exactly one meaning", "statement": "Each 16-bit role code is exactly one of: array position, spare, faulty, journal, reserved/invalid; validity, invalidity and having a position agree with each other.", "quantifier": "every 16-bit (and 32-bit, for version 0.90) role code", "why_tests_cant": "Boundary values are where classification predicates disagree; a test samples them.", "anchors": ["src/md/superblock/role.rs: MdDeviceRole"]}
{"id": "C23", "title": "RAID level/layout codes are classified totally and losslessly", "statement": "Every (level, layout) pair maps to exactly one algorithm: levels 5 and 6 with a published layout code map to that layout, everything else to Unsupported carrying the original level and layout; different pairs never map to the same algorithm.", "quantifier": "every 32-bit level and layout", "why_tests_cant": "2^64 pairs.", "anchors": ["src/md/algorithm.rs: MdAlgorithm::from_level_and_layout", "src/md/raid5/algorithm.rs: from_layout", "src/md/raid6/algorithm.rs: from_layout"]}
{"id": "C24", "title": "Array format is established exactly by unanimity", "statement": "The array has a format if and only if there is at least one member, every member has a superblock, and all of them state the same (algorithm, device size, chunk size, device count); the format then is that one. The same holds for the reshaped format. The result does not depend on the order of the members.", "quantifier": "every list of members in every order", "why_tests_cant": "Universal over lists and permutations.", "anchors": ["src/md/array.rs: MdArray::open", "src/md/format.rs: MdFormat"]}
{"id": "C25", "title": "No member is lost, duplicated or double-booked", "statement": "After opening an array from any list of members, every member is either active in exactly one slot or inactive, none appears twice, no slot has two members, and a member is active in slot k exactly when the merged role table assigns slot k to it and to no other member.", "quantifier": "every list of members and every hash iteration order", "why_tests_cant": "Universal over lists; iteration order of hash maps is unspecified.", "anchors": ["src/md/array.rs: MdArray::open"]}
{"id": "C26", "title": "Role tables of the members are merged independently of member order", "statement": "Merging the members' role tables gives the same slot assignment whatever the order in which the members are given, and a reserved/garbage role code in one superblock never overrides a proper slot number recorded in another.", "quantifier": "every list of role tables and every permutation", "why_tests_cant": "Universal over permutations and role codes.", "anchors": ["src/md/array.rs: MdArray::open (role merge)"]}
{"id": "C27", "title": "Diagnosis reports a disagreement exactly when there is one", "statement": "For each of uuid, name, algorithm, size, chunk size, device count, reshape status, event count and role table, the diagnosis contains an entry if and only if two members with superblocks state different values; the entry lists every stated value with exactly the members that state it.", "quantifier": "every list of members, every hash iteration order", "why_tests_cant": "Universal over lists and iteration orders.", "anchors": ["src/md/definition.rs: MdArrayDefinition::diagnose*", "src/ext/multi_map.rs: MultiMap::from_multi_iter"]}
{"id": "C28", "title": "Diagnosis lists exactly the too-small, superblock-less and index-conflicting members", "statement": "The diagnosis lists exactly the members without room for a superblock, exactly the members without a superblock, and, for each array index claimed by more than one member, exactly its claimants; nothing is reported for a healthy array.", "quantifier": "every list of members", "why_tests_cant": "Universal over lists.", "anchors": ["src/md/definition.rs: diagnose_device_too_small_problem, diagnose_superblock_missing_problem, diagnose_role_index_problem"]}
{"id": "C29", "title": "Array block reads return the logical sector and nothing else", "statement": "Reading block b of an array returns exactly 512 bytes: those at the address-mapped sector of the mapped member; a buffer shorter than 512 is rejected; every failure (no format, absent member, short member, parity mismatch, unsupported layout) is an error and never wrong data.", "quantifier": "every array, block number and buffer", "why_tests_cant": "Universal over arrays and block numbers.", "anchors": ["src/md/array.rs: MdArray::{block_size,block_count,read_block}"]}
{"id": "C30", "title": "Array reads start at the member's data area", "statement": "The member sector that is read for a logical sector lies in the member's data area, i.e. is offset by the data offset recorded in the member's superblock.", "quantifier": "every superblock data offset and sector", "why_tests_cant": "Test arrays use zero offsets.", "anchors": ["src/md/array.rs: MdArray::read_block", "src/md/superblock/version_1/superblock.rs: layout data_offset"]}
{"id": "C31", "title": "Every block below the array's block count maps inside every member", "statement": "If the per-member size is a multiple of the chunk size, every block number below block_count maps to a member sector below the per-member size, and distinct blocks fill exactly the data capacity.", "quantifier": "every format and block number", "why_tests_cant": "Universal over geometry.", "anchors": ["src/md/format.rs: MdFormat::{data_device_count,data_sector_count}", "src/md/array.rs: MdArray::block_count"]}
{"id": "C32", "title": "A healthy, not-reshaping array is readable whatever its superblock version", "statement": "If all members agree and the array is not being reshaped, reads use the current format (and a reshape in progress that shrinks the array is recognised).", "quantifier": "every superblock version and reshape state", "why_tests_cant": "Universal over superblock contents.", "anchors": ["src/md/array.rs: MdArray::{open,read_block}", "src/md/format.rs: from_superblock_reshape_status", "src/md/superblock/version_0/superblock.rs: reshape_status"]}
{"id": "C33", "title": "CRC32C is computed incrementally and without padding artefacts", "statement": "Checksumming a concatenation equals checksumming the second part starting from the checksum of the first; equal-length inputs with equal checksum from different seeds force equal seeds; the table-free bitwise definition equals the polynomial specification.", "quantifier": "every pair of byte strings and every seed", "why_tests_cant": "Universal over byte strings.", "anchors": ["src/ext4/crc.rs: ext4_crc32c"]}
{"id": "C34", "title": "CRC32C detects every burst of at most 32 bits", "statement": "If two byte strings of the same length differ only within four consecutive bytes, their checksums from any common seed differ.", "quantifier": "every length, seed, burst position and burst pattern", "why_tests_cant": "Unbounded lengths; 2^32 patterns per position.", "anchors": ["src/ext4/crc.rs: ext4_crc32c"]}
{"id": "C35", "title": "A checksummed superblock with a localised corruption is rejected", "statement": "If a superblock that uses the CRC32C checksum type is accepted, then any alteration confined to four consecutive bytes that keeps the checksum type byte makes it rejected (and it is shown what happens when the checksum type byte itself is altered).", "quantifier": "every accepted 1024-byte image and every such alteration", "why_tests_cant": "Universal over images and corruptions.", "anchors": ["src/ext4/superblock/superblock.rs: Superblock::{valid,valid_checksum}"]}
{"id": "C36", "title": "Superblock validation never panics and guarantees well-defined geometry", "statement": "Validation of any 1024-byte image terminates without panic; if it accepts, block size is a power of two from 2^10 to 2^62, cluster size is well defined and equals the block size unless BIGALLOC is set, and all shifts used by the accessors are in range.", "quantifier": "every 1024-byte image", "why_tests_cant": "2^8192 images; shift overflow only at large exponents.", "anchors": ["src/ext4/superblock/superblock.rs: Superblock::{valid,block_size_bytes,cluster_size_bytes,groups_per_flex}"]}
{"id": "C37", "title": "ext4 superblock accessors read the published offsets", "statement": "Every superblock accessor returns the value at the byte offset published for ext4, including split low/high fields and 40-bit times.", "quantifier": "every 1024-byte image", "why_tests_cant": "Universal over images.", "anchors": ["src/ext4/superblock/superblock.rs: layout and accessors", "src/ext/wide_unsigned.rs", "src/ext/system_time.rs"]}
{"id": "C38", "title": "Opening an ext4 file system never panics", "statement": "Opening a device as ext4 returns either a file system or an error for every device content.", "quantifier": "every device content", "why_tests_cant": "Universal over contents; crafted superblocks.", "anchors": ["src/ext4/fs.rs: Ext4Fs::open"]}
{"id": "C39", "title": "Opening an ext4 file system loads exactly the group descriptor table", "statement": "A successful open has an accepted superblock from byte 1024, with all group descriptors read in order from the block after the first data block, one per block group, each zero-extended to the 60 bytes of its fields (or cut to them); unknown incompatible features are refused.", "quantifier": "every device content and read schedule", "why_tests_cant": "Universal over contents.", "anchors": ["src/ext4/fs.rs: Ext4Fs::open", "src/ext4/block_group/descriptor.rs"]}
{"id": "C40", "title": "Inode lookup reads the right slot", "statement": "read_inode(i) succeeds only for 1 <= i <= inode count and reads exactly inode_size bytes at inode-table-block(group (i-1)/ipg)*block_size + ((i-1) mod ipg)*inode_size; different inode numbers in a group read disjoint slots; out-of-range numbers are errors.", "quantifier": "every file system and inode number", "why_tests_cant": "Universal over geometry and inode numbers.", "anchors": ["src/ext4/fs.rs: Ext4Fs::read_inode"]}
{"id": "C41", "title": "Inode decoding is total for every on-disk inode", "statement": "Decoding an inode slot never panics, whatever the bytes on disk and whatever inode size the superblock states.", "quantifier": "every inode slot content and inode size", "why_tests_cant": "Crafted extra_isize values.", "anchors": ["src/ext4/inode/inode.rs: Inode::new"]}
{"id": "C42", "title": "Timestamps decode losslessly over the whole ext4 range", "statement": "Encoding any time from 1901-12-13 to 2446-05-10 with nanosecond resolution in ext4's 32+32-bit form and decoding it returns the same time; decoding never panics.", "quantifier": "every (base, extra) pair; every second in [-2^31, 2^34-2^31) and nanosecond", "why_tests_cant": "2^64 encodings.", "anchors": ["src/ext4/inode/time.rs: decode_extra_time, decode_time"]}
{"id": "C43", "title": "File mode splits into type and permissions without loss", "statement": "Splitting any 16-bit mode into file type and permissions and recombining gives the same mode; combining a known type with any permissions and splitting gives both back; inode and directory-entry file type codes convert back and forth without confusion.", "quantifier": "every 16-bit mode, type and permission set; every 8-bit code", "why_tests_cant": "Exhaustive over all codes.", "anchors": ["src/ext4/inode/file_mode.rs", "src/ext4/inode/file_type.rs", "src/ext4/inode/permissions.rs", "src/ext4/directory/file_type.rs"]}
{"id": "C44", "title": "Walking a directory block terminates, stays in bounds, and covers the block", "statement": "Iterating a directory block yields entries whose records are consecutive, start at offset 0, lie inside the block (excluding the checksum tail when present), and the iteration ends after at most size/8 entries for every block content.", "quantifier": "every block content and size", "why_tests_cant": "Universal over contents; malicious record lengths.", "anchors": ["src/ext4/directory/block.rs: DirectoryBlock::next", "src/ext4/directory/dir_entry.rs: DirectoryEntry::from_buf"]}
{"id": "C45", "title": "A well-formed directory block is listed completely and in order", "statement": "Listing the on-disk encoding of any list of (inode, name, type) records yields exactly those records in order.", "quantifier": "every list of records that fits a block", "why_tests_cant": "Universal over lists.", "anchors": ["src/ext4/directory/block.rs", "src/ext4/directory/dir_entry.rs: DirectoryEntry::{inode,name,file_type,from_buf}"]}
{"id": "C46", "title": "A directory entry's name is the name_len bytes recorded for it", "statement": "The name reported for a directory entry consists of exactly the recorded name_len bytes (never of stale bytes behind the name), and unused entries are not reported.", "quantifier": "every directory entry", "why_tests_cant": "Depends on stale bytes that tests do not contain.", "anchors": ["src/ext4/directory/dir_entry.rs: DirectoryEntry::name"]}
{"id": "C47", "title": "A corrupted checksummed directory block is never listed", "statement": "With metadata checksums on, a directory block is listed only if its tail is well formed and the checksum matches; any corruption confined to four consecutive bytes of the covered part is rejected.", "quantifier": "every block content and corruption", "why_tests_cant": "Universal over contents.", "anchors": ["src/ext4/directory/block.rs: DirectoryBlock::new"]}
{"id": "C48", "title": "A directory listing is the concatenation of its blocks' listings", "statement": "Iterating a directory yields, in order, the entries of each of its blocks and then ends; errors are reported, never swallowed into a shorter listing.", "quantifier": "every directory content", "why_tests_cant": "Universal over contents and block counts.", "anchors": ["src/ext4/directory/directory.rs: Ext4Directory::{next_entry,next}"]}
{"id": "C49", "title": "Extent entries are decoded per the ext4 format", "statement": "Every extent entry is decoded to first file block, number of blocks and 48-bit start block as published: lengths up to 32768 are initialised extents of that length, larger values are unwritten extents of value-32768 blocks.", "quantifier": "every 12-byte extent entry", "why_tests_cant": "Boundary at 32768.", "anchors": ["src/ext4/extent/extent.rs: Extent", "src/ext4/extent/index.rs"]}
{"id": "C50", "title": "File contents: complete and exact", "statement": "Reading a file whose extent tree maps blocks 0..n-1 contiguously yields exactly file_size bytes, equal to the mapped blocks' contents in order, then Ok(0) forever.", "quantifier": "every extent tree shape and depth, file size, device content", "why_tests_cant": "Universal over tree shapes and depths.", "anchors": ["src/ext4/file.rs: Ext4FileInternal::read_next_block", "src/ext4/extent/tree.rs", "src/ext4/fs.rs: Ext4Fs::read_block"]}
{"id": "C51", "title": "File contents: never wrong data, whatever went wrong before", "statement": "Each successful non-empty block read returns the content of a device block that some extent reachable from the inode maps for exactly the next unread file block, in every history of calls including ones after errors, for every (even corrupt) tree; the total never exceeds the file size.", "quantifier": "every extent tree (well formed or not), device with arbitrary read failures, and call history", "why_tests_cant": "Universal over histories and corrupt trees.", "anchors": ["src/ext4/file.rs: Ext4FileInternal::read_next_block"]}
{"id": "C52", "title": "Reading a file always terminates", "statement": "Every call to read the next block of a file returns after finitely many steps.", "quantifier": "every (even corrupt) extent tree", "why_tests_cant": "Cyclic trees.", "anchors": ["src/ext4/file.rs: Ext4FileInternal::read_next_block"]}
{"id": "C53", "title": "Holes and unwritten extents read as zeros", "statement": "File blocks that are not mapped, or mapped by an unwritten extent, read as zeros.", "quantifier": "every sparse file", "why_tests_cant": "Universal over sparse layouts.", "anchors": ["src/ext4/file.rs: Ext4FileInternal::read_next_block", "src/ext4/extent/extent.rs: Extent::initialized"]}
{"id": "C54", "title": "End of file is reported whatever is preallocated beyond it", "statement": "After file_size bytes have been returned, reads return Ok(0), even if the tree maps further blocks beyond the end of file.", "quantifier": "every tree mapping more blocks than file_size", "why_tests_cant": "Universal over trees.", "anchors": ["src/ext4/file.rs: Ext4FileInternal::read_next_block"]}
{"id": "C55", "title": "Extent block verification accepts exactly the blocks ext4 writes", "statement": "Verification of an extent block accepts a block if its checksum, stored behind the last possible entry, matches.", "quantifier": "every extent block", "why_tests_cant": "Universal over blocks.", "anchors": ["src/ext4/extent/tree.rs: ExtentTree::valid"]}
{"id": "C56", "title": "Name equality, ordering and hashing agree", "statement": "Two names compare equal in ordering exactly when they are equal, and equal names hash equally.", "quantifier": "every pair of byte strings, including invalid UTF-8", "why_tests_cant": "Universal over byte strings.", "anchors": ["src/ext4/string.rs: Ext4String"]}
{"id": "C57", "title": "Reading a file through a RAID-6 array equals reading it from the flat image", "statement": "Opening a file system, inode and file through BlockDeviceReader over a consistent RAID-6 array returns the same results as over the array's logical content stored flat.", "quantifier": "every array content, geometry, layout and file system image", "why_tests_cant": "Composition of all layers over all contents.", "anchors": ["src/block_device/reader.rs", "src/md/array.rs", "src/ext4/fs.rs", "src/ext4/file.rs"]}
{"id": "C58", "title": "Array and volume identifiers are compared correctly", "statement": "Two version 0.90 superblocks report equal array UUIDs exactly when their stored identifiers are equal in all words that the minor version defines, in either byte order; every device gets an identifier different from all others.", "quantifier": "every stored identifier; every sequence of device openings", "why_tests_cant": "Universal over identifiers and histories.", "anchors": ["src/md/superblock/array_uuid.rs: ArrayUuid", "src/md/device/id.rs: MdDeviceId"]}
{"id": "C59", "title": "Version 0.90 sizes are converted to the units used elsewhere", "statement": "The per-device size of a version 0.90 superblock (stored in KiB) and its chunk size (stored in bytes) are reported in the same units as those of version 1 superblocks, 512-byte sectors.", "quantifier": "every version 0.90 superblock", "why_tests_cant": "Needs the meaning of every stored value, and the code reads only one of the units.", "anchors": ["src/md/superblock/version_0/superblock.rs", "src/md/superblock/superblock.rs"]}
{"id": "C60", "title": "I/O errors while looking for superblocks are reported", "statement": "If reading a possible superblock location fails with an I/O error, opening the member reports an error instead of classifying the member as having no superblock.", "quantifier": "every pattern of I/O errors on every device", "why_tests_cant": "Universal over error schedules.", "anchors": ["src/md/device/device.rs: MdDevice::from_block_device"]}
{"id": "C61", "title": "A version 1 superblock with a wrong checksum is rejected", "statement": "A version 1 superblock is accepted only if its stored checksum matches its content.", "quantifier": "every superblock image", "why_tests_cant": "Universal over images.", "anchors": ["src/md/superblock/version_1/superblock.rs"]}
{"id": "C62", "title": "A disk without a superblock does not prevent the rest of an array from being assembled", "statement": "If the members that have superblocks agree and fill their slots, adding a disk without a superblock to the list leaves the array's format and active members as they were.", "quantifier": "every list of members, every superblock-less disk", "why_tests_cant": "Universal over member lists.", "anchors": ["src/md/array.rs: MdArray::open"]}
{"id": "C63", "title": "CRC32C detects every error of up to three bits and every odd number of bits", "statement": "Two different byte strings of the same length of less than 2^28 bytes that differ in at most three bits have different checksums; so have two of any length that differ in an odd number of bits. The bounds are sharp.", "quantifier": "every length, seed and set of flipped bits", "why_tests_cant": "Universal over data and error positions; the bound is the multiplicative order of x modulo the polynomial.", "anchors": ["src/ext4/crc.rs: ext4_crc32c"]}
{"id": "C64", "title": "Inode and group descriptor accessors return the published fields", "statement": "For every stored descriptor and every inode slot, whatever their sizes, each accessor returns the little-endian number at the offset that ext4 publishes for the field, high and low halves joined, fields beyond the stored bytes counting as zero.", "quantifier": "every descriptor and inode slot of every size", "why_tests_cant": "Universal over contents and sizes; the tests look at one real image.", "anchors": ["src/ext4/inode/inode.rs", "src/ext4/block_group/descriptor.rs"]}
{"id": "C65", "title": "Reading a block gives the content of that block", "statement": "For a block that lies on the device and a buffer of at least the block size, read_block succeeds and the first block-size bytes of the buffer are the content of the block.", "quantifier": "every file system, block number, buffer size and read schedule", "why_tests_cant": "Universal over geometry, schedules and buffers.", "anchors": ["src/ext4/fs.rs: Ext4Fs::read_block"]}
{"id": "C66", "title": "Reading a file never panics", "statement": "Reading blocks of a file returns a block, the end of the file or an error, whatever the extent tree on the device contains.", "quantifier": "every extent tree, well formed or corrupt, every device and call history", "why_tests_cant": "Universal over corrupt trees.", "anchors": ["src/ext4/file.rs: Ext4FileInternal::read_next_block", "src/ext4/extent/tree.rs: ExtentTreeNode"]}
{"id": "C67", "title": "A file opened by number is the one that the inode describes", "statement": "open_file succeeds exactly for the inodes whose slot on the device is well formed and describes a regular file or an unindexed directory that is mapped by extents, or any other kind of file; regular files answer reads, and directories listings, only with bytes of the device blocks that the extents of that inode name; other kinds are reported with their own type. Indexed directories, block-mapped and inline files are refused with an error.", "quantifier": "every device content, read error pattern, inode number and call history", "why_tests_cant": "Universal over slots and histories.", "anchors": ["src/ext4/fs.rs: Ext4Fs::open_file", "src/ext4/file.rs: Ext4File::open"]}
{"id": "C68", "title": "A file is read back byte for byte from the device", "statement": "On a device with a supported file system, opening the file system, opening a regular file by its inode number and reading blocks to the end delivers the concatenation of the blocks that its extents map, cut to its size; a directory lists all the records of its blocks, in order, and then ends.", "quantifier": "every device content, geometry, extent tree of any shape, file of any size", "why_tests_cant": "Universal over extent trees and sizes.", "anchors": ["src/ext4/fs.rs: Ext4Fs::open", "src/ext4/fs.rs: Ext4Fs::open_file", "src/ext4/file.rs: Ext4FileInternal::read_next_block", "src/ext4/directory/directory.rs: Ext4Directory"]}
{"id": "C69", "title": "An array read is sound whatever its members do in between", "statement": "One read of a sector of an array returns the data sector of the P-consistent row that the members hold, or fails and leaves the buffer alone, and never panics; the members may be files that share their cursor with the clone that is read, be read short, and fail at some calls and not at others. A read fails only if the row is incomplete or inconsistent, or if a member failed at it. It changes nothing that later reads could notice in what the members hold.", "quantifier": "every array, member kind, member state, sector, schedule of short reads and errors", "why_tests_cant": "Universal over the states of all members and the schedules of the operating system; a test has one schedule.", "anchors": ["src/md/array.rs: MdArray::read_block", "src/md/raid6/algorithm.rs: Raid6Algorithm::read_sector"]}
{"id": "C70", "title": "Array reads are repeatable", "statement": "In any sequence of reads every answer is the sector that the contents of the members determine, or an error; two reads that succeed for the same sector return the same bytes, in whatever order and state, even on two arrays over different kinds of devices with the same contents.", "quantifier": "every sequence of reads on every pair of arrays with equal contents", "why_tests_cant": "Universal over histories.", "anchors": ["src/md/array.rs: MdArray::read_block"]}
{"id": "C71", "title": "A file is recovered byte for byte from the members of an array", "statement": "If md has stored the image of a supported file system on the members of a RAID-6 array, then opening the array, the file system and a regular file by its number, and reading to the end, delivers the content of the file, and a directory is listed completely, whatever the devices of the members do between reads, as long as the rows that hold the file's own data and metadata can be read.", "quantifier": "every image, geometry, layout, member kind, read schedule, pattern of unreadable sectors elsewhere, and file of any size", "why_tests_cant": "Universal over images, layouts and failure patterns; the repository has no end-to-end test.", "anchors": ["src/md/array.rs: MdArray::read_block", "src/block_device/reader.rs: BlockDeviceReader", "src/ext4/fs.rs: Ext4Fs::open", "src/ext4/file.rs: Ext4FileInternal::read_next_block"]}
{"id": "C72", "title": "The program prints all failures, or a diagnosis that names each member by its place among the arguments", "statement": "If some of the paths given cannot be opened as block devices, the program prints exactly those paths, in order, each with its own reason, and no diagnosis. Otherwise it prints a diagnosis, whatever reads fail: members are numbered by their position among the arguments, those listed as too small are exactly the arguments of less than 12288 bytes, those listed as lacking a superblock are (if no read fails) exactly the larger ones with no valid superblock at any location, and every disagreement between the superblocks found is reported. It never panics.", "quantifier": "every list of paths, every operating system behaviour for each, every content and block size of each device, every hash map order", "why_tests_cant": "Universal over argument lists, contents and read schedules; the repository has no test of the program as a whole.", "anchors": ["src/main.rs: main", "src/md/device/device.rs: MdDevice::open_path, MdDevice::from_block_device", "src/md/array.rs: MdArray::open, MdArray::diagnose"]}
{"id": "C73", "title": "Group descriptors and inodes are looked up where Linux keeps them", "statement": "For a file system that Linux can mount and that uses extents, opening it and looking up an inode number gives the inode that Linux finds under that number: descriptor sizes, the place of the descriptor table, the number of groups and the place within the inode table are those of Linux.", "quantifier": "every image, every group and inode number, every stream with short reads and errors", "why_tests_cant": "Needs all geometries, including features that the test images lack (no 64bit, meta_bg, bigalloc).", "anchors": ["src/ext4/fs.rs: Ext4Fs::open, Ext4Fs::read_inode", "src/ext4/block_group/descriptor.rs: BlockGroupDescriptor", "src/ext4/superblock/superblock.rs: Superblock::group_descriptor_size"]}
{"id": "C74", "title": "Metadata with a wrong checksum is not used", "statement": "On a file system with the feature metadata_csum, no data is delivered on the strength of a group descriptor, inode, extent block or directory block whose stored checksum is not the one that ext4 defines.", "quantifier": "every image and file", "why_tests_cant": "Needs images whose checksums are wrong in each place; no test image has one.", "anchors": ["src/ext4/fs.rs: Ext4Fs::open, Ext4Fs::read_inode", "src/ext4/inode/inode.rs: Inode::new", "src/ext4/extent/tree.rs: ExtentTree::valid", "src/ext4/file.rs: Ext4FileInternal::read_next_block"]}
{"id": "C75", "title": "What reading a file answers, call by call, for files of any shape", "statement": "For a file with any finite extent tree - with holes, overlaps, unwritten or empty extents, blocks behind its end, nodes that do not fit or cannot be read - the answers to every sequence of calls are those that one walk over its tree in order determines: a block is delivered exactly when the next extent is for the next file block; a gap is InvalidData, a block behind the end InvalidData, the end of the tree before the size UnexpectedEof, and after it Ok(0) for ever; a failure leaves out the rest of its extent or node and nothing else; a short buffer is refused and changes nothing.", "quantifier": "every finite extent tree, file size, sequence of buffers of any sizes, pattern of read errors", "why_tests_cant": "Universal over trees and histories, including what happens after errors.", "anchors": ["src/ext4/file.rs: Ext4FileInternal::read_next_block"]}
{"id": "C76", "title": "Once reading a file fails, no more data is returned", "statement": "If the extents of a file come in ascending order without overlap, as ext4 requires, then after a call that fails no later call returns data, and the end of the file is reported only if all its bytes had been returned before; so no caller that goes on after an error mistakes later data for earlier.", "quantifier": "every extent tree in order, sequence of calls, pattern of read errors", "why_tests_cant": "Universal over trees, histories and the points of failure.", "anchors": ["src/ext4/file.rs: Ext4FileInternal::read_next_block"]}
{"id": "C77", "title": "A file is read to its end without error exactly if its extents map all of its blocks and no others", "statement": "On a device without defects, reading a file with a finite extent tree block by block gives no error and then reports the end if and only if the extents, in the order of the tree, map the file blocks 0, 1, 2, ... without gap to blocks on the device, as many as the size needs; and then the answers are these blocks, the last one cut to the size.", "quantifier": "every finite extent tree and file size", "why_tests_cant": "An equivalence over all trees.", "anchors": ["src/ext4/file.rs: Ext4FileInternal::read_next_block"]}
{"id": "C78", "title": "What listing a directory answers, call by call, for directories of any shape", "statement": "For a directory with any finite extent tree and any block contents, the results of every sequence of calls are those of the blocks that one walk over its tree delivers: for each block with a good checksum the records up to the first that cannot be one, in order; InvalidData for each block with a bad checksum or cut by the size; the error for each failure, after which listing goes on as C75 says; and after the end of the file only the end.", "quantifier": "every finite extent tree, block contents, checksum seed, number of calls, pattern of read errors", "why_tests_cant": "Universal over trees, contents and histories.", "anchors": ["src/ext4/directory/directory.rs: Ext4Directory::read_next_entry, Ext4Directory::read_next_block", "src/ext4/directory/block.rs: Ext4DirectoryBlock"]}
{"id": "C79", "title": "No byte is delivered that Linux would not read at that place", "statement": "Of a file whose extents are in order, whatever is delivered before, after and between errors is byte for byte what Linux reads at the same offset of that file - looking each block up from the root by binary search, with zeros for holes - and never more than the size; except for bytes in unwritten extents, which Linux reads as zeros (refuted in C53).", "quantifier": "every extent tree in order, file size, sequence of buffers, pattern of read errors", "why_tests_cant": "Compares two algorithms (one walk, one search per block) on all trees and histories.", "anchors": ["src/ext4/file.rs: Ext4FileInternal::read_next_block", "src/ext4/extent/tree.rs: ExtentTree"]}
{"id": "C80", "title": "A file all of whose blocks Linux finds is read to its end as Linux reads it", "statement": "If Linux finds for every block of a file, and for none behind its end, a written extent of less than 32768 blocks whose block can be read, then reading the file gives no error, delivers as many bytes as its size, and each is the one that Linux reads.", "quantifier": "every extent tree in order, file size, sequence of enough buffers", "why_tests_cant": "Universal over trees; absence of holes is stated through lookups, not through the shape of the tree.", "anchors": ["src/ext4/file.rs: Ext4FileInternal::read_next_block"]}
{"id": "C81", "title": "A file opened by its number is the one that Linux means, from the superblock to its last byte", "statement": "On a file system of the usual geometry (64bit, no meta_bg), opening inode n and reading delivers only bytes that Linux reads at the same offset of its file n, but for unwritten extents; and all of them, if the file can be read as in C80.", "quantifier": "every image of the usual geometry, inode number, extent tree in order, pattern of read errors", "why_tests_cant": "Composes superblock, descriptors, inode, tree and data over all images.", "anchors": ["src/ext4/fs.rs: Ext4Fs::open, Ext4Fs::read_inode", "src/ext4/file.rs: Ext4FileInternal::read_next_block"]}
{"id": "C82", "title": "A file recovered from the members of an array is the one that Linux would read from the running array", "statement": "If md has stored the image of a file system on the members of a RAID-6 array, then reading file n through the array - with members failing, short transfers, parts that cannot be read - delivers only bytes that Linux reads at the same offset of file n of the image, but for unwritten extents; and all of them if its blocks are found, written and readable.", "quantifier": "every layout, chunk size, number of members, image, behaviour of the devices, inode number", "why_tests_cant": "Composes array and file system over all images and failures.", "anchors": ["src/md/array.rs: MdArray::read_blocks", "src/ext4/fs.rs: Ext4Fs::open", "src/ext4/file.rs: Ext4FileInternal::read_next_block"]}
{"id": "C83", "title": "A release build reads block devices as a checked build does", "statement": "In a build without overflow checks, every history of reads and seeks through BlockDeviceReader gives the answers of a build with them: the position arithmetic never wraps.", "quantifier": "every block device that keeps its contract, block size, count, history of calls with 64-bit seek offsets", "why_tests_cant": "Tests run in one profile; the claim relates two profiles over all histories.", "anchors": ["src/block_device/reader.rs: BlockDeviceReader::read", "Cargo.toml"]}
{"id": "C84", "title": "A release build opens the file systems that a checked build opens, and panics less", "statement": "If the descriptor table of an accepted superblock starts below 2^64 bytes, Ext4Fs::open has the same result and effect in both profiles; a release build panics only for zero blocks per group or a table too large to allocate.  Without the condition, what a release build opens is no file system of the device.", "quantifier": "every device content, pattern of read errors", "why_tests_cant": "Relates two profiles over all superblocks; the exception needs a block size of about 2^32 bytes or more.", "anchors": ["src/ext4/fs.rs: Ext4Fs::open", "src/ext4/superblock/superblock.rs: block_size_bytes, valid"]}
{"id": "C85", "title": "A release build answers every request as a checked build does", "statement": "On a file system that opens as in C84, any sequence of requests - reading inodes and blocks, opening files and reading them, listing directories - is answered the same in both profiles, panics included, if the files opened have at most 2^32 - 1 blocks, which is the limit of ext4.", "quantifier": "every device content, sequence of requests, pattern of read errors, extent trees of any shape", "why_tests_cant": "Relates two profiles over all sessions; the one counter that can wrap does so after 2^32 calls.", "anchors": ["src/ext4/file.rs: Ext4FileInternal::read_next_block", "src/ext4/directory/block.rs: Ext4DirectoryBlock::new", "src/ext4/units/file_block_number.rs: AddAssign"]}
{"id": "C86", "title": "Recovering from an array gives the same in both profiles", "statement": "Every session on a file system stored on the members of an array - or on any block device - is answered by a release build, from the reader up, as by a checked build, under the conditions of C84 and C85.", "quantifier": "every layout, chunk size, number of members, image, behaviour of the devices, sequence of requests", "why_tests_cant": "Relates two profiles over the whole stack.", "anchors": ["src/block_device/reader.rs: BlockDeviceReader::read", "src/md/array.rs: MdArray::read_blocks", "src/ext4/fs.rs: Ext4Fs::open"]}
{"id": "C87", "title": "A directory is listed as Linux lists it", "statement": "Whatever is listed of directory n of a device, before, after and between errors, is a record of a block that Linux finds in that directory, whose checksum is right, and which Linux goes through if it accepts the whole block.  If all blocks can be read and are accepted, then after leaving out the records with inode number zero the listing has the inodes and types of the listing of Linux, in its order; and each name exactly if it has no zero byte and is followed by one or by the end of the record.", "quantifier": "every device content, directory (not indexed), pattern of read errors, number of calls", "why_tests_cant": "Relates two readers over all directories; wrong names need remains of removed entries.", "anchors": ["src/ext4/directory/directory.rs: Ext4Directory::next_entry", "src/ext4/directory/dir_entry.rs: DirEntry", "src/ext4/directory/block.rs: Ext4DirectoryBlock"]}
{"id": "C88", "title": "A directory recovered from the members of an array is listed as Linux would list it on the running array", "statement": "If md has stored the image of a file system on the members of a RAID-6 array, listing directory n through the array gives what C87 says of the image, with members failing, short transfers and parts that cannot be read.", "quantifier": "every layout, chunk size, number of members, image, behaviour of the devices, inode number", "why_tests_cant": "Composes array and file system over all images and failures.", "anchors": ["src/md/array.rs: MdArray::read_blocks", "src/ext4/directory/directory.rs: Ext4Directory::next_entry"]}
{"id": "C89", "title": "Everything in a diagnosis can be read back from the text printed", "statement": "If every argument is a block device, the program prints a text from which a parser that knows the notation, but not the program, reads the whole diagnosis: the twelve questions, their values, and each member with its path, whatever bytes are in names and paths, in whatever order the hash tables are iterated.", "quantifier": "every content of the devices, paths, iteration order, table of printable characters", "why_tests_cant": "Names come from the disks: quotes, line ends, braces and bytes that are not UTF-8 must not be taken for structure; tests try a few names.", "anchors": ["src/main.rs: main", "src/md/diagnosis/diagnosis.rs: Diagnosis", "src/md/device/id.rs: MdDeviceId"]}
{"id": "C90", "title": "A question without a problem can be found by looking for one line", "statement": "For each question of the diagnosis, the line 'question: None,' indented by four spaces is among the lines printed exactly if there is no such problem; no name or path can forge it.", "quantifier": "every diagnosis, name, path, iteration order", "why_tests_cant": "Needs all names and paths.", "anchors": ["src/main.rs: main", "src/md/diagnosis/diagnosis.rs: Diagnosis"]}
{"id": "C91", "title": "Each argument that cannot be used is reported on one line, in order", "statement": "If arguments fail, the lines printed are, in the order of the arguments, one for each that fails: its path quoted, a colon, and the error.", "quantifier": "every list of failures; texts of the operating system and quoted paths have no line end", "why_tests_cant": "Needs all lists and paths.", "anchors": ["src/main.rs: main"]}
{"id": "C92", "title": "What is printed determines what is reported", "statement": "Two reports that print the same text are the same: both failures, with the same paths and errors in the same order, or both diagnoses, with the same answers up to the order of hash tables, about members given by the same paths.", "quantifier": "every pair of reports, every table of printable characters, error texts of one line, quoting of paths that shows where the path ends", "why_tests_cant": "Relates all pairs of reports.", "anchors": ["src/main.rs: main", "src/md/diagnosis/diagnosis.rs: Diagnosis", "src/md/device/id.rs: MdDeviceId"]}
{"id": "C93", "title": "Damage elsewhere does not matter", "statement": "Two devices of whatever kind that have the same bytes, readable, in the superblock, the group descriptors, the slot of an inode and the blocks named by the tree of its extents serve that inode alike: both open or refuse it in the same way, and every sequence of reads and every listing gets the same answers, however the devices differ elsewhere, in content and in length, and whatever cannot be read there.", "quantifier": "every pair of devices, every inode, every extent tree that is finite, every sequence of calls", "why_tests_cant": "Universal over pairs of images; tests compare a few.", "anchors": ["src/ext4/fs.rs: Ext4Fs::open, open_file", "src/ext4/file.rs: Ext4FileInternal::read_next_block", "src/ext4/directory/directory.rs: Ext4Directory::next_entry"]}
{"id": "C94", "title": "What is served for an inode is decided by its type, size, root, three flags, its checksum seed and the blocks that its tree names", "statement": "Two inodes, on the same or on different devices and wherever they are stored, that agree in type, size, the 60 bytes of the tree's root, the flags for extents, inline data and indexed directories, and the seed for checksums, with the same readable blocks named by the tree, are served alike: permissions, owners, times, link counts, all other flags, attributes and all other fields of superblock and descriptors make no difference.", "quantifier": "every pair of devices and inodes, every sequence of calls", "why_tests_cant": "Non-interference: universal over pairs of images.", "anchors": ["src/ext4/fs.rs: Ext4Fs::open_file", "src/ext4/inode/inode.rs: Inode", "src/ext4/file.rs: Ext4FileInternal"]}
{"id": "C95", "title": "What needs a feature that is not handled is refused", "statement": "A file system with an incompatible feature outside of those that Linux supports is not opened, one with supported features is not refused because of them, and files whose blocks are not their content (encrypted ones) are not delivered as if they were.", "quantifier": "every feature field, every inode", "why_tests_cant": "Needs all combinations of bits.", "anchors": ["src/ext4/fs.rs: Ext4Fs::open", "src/ext4/superblock/incompatible_features.rs: IncompatibleFeatures", "src/ext4/inode/inode.rs: Inode"]}
{"id": "C96", "title": "Files are read as after the recovery of the journal", "statement": "On a file system that was not unmounted cleanly, files have the content that they have once the committed transactions of the journal are written.", "quantifier": "every content of the journal, every file", "why_tests_cant": "Needs all journals.", "anchors": ["src/ext4/fs.rs: Ext4Fs::open", "src/ext4/file.rs: Ext4FileInternal::read_next_block"]}
{"id": "C97", "title": "A member that holds wrong data never causes wrong data to be returned", "statement": "If in every row of a RAID-6 array at most one slot does not hold what md stored there - it may hold anything, be too short, or be missing, be data or parity, and be another slot in every row - then every sector that is read from the array is the sector that was stored or an error, and an error only if some slot of its row is wrong or fails; reading never panics.", "quantifier": "every array of at least 3 devices, every layout, geometry and image, every content of the wrong slots, every sector, every behaviour of the devices under it", "why_tests_cant": "Needs all possible damage.", "anchors": ["src/md/array.rs: MdArray::read_block", "src/md/raid6/algorithm.rs: MdRaid6Algorithm::read_sector"]}
{"id": "C98", "title": "Damage elsewhere on the members makes no difference to a file", "statement": "If the rows that hold the superblock, the group descriptors, the inode and the blocks that the tree of a file or directory names are whole, the file or directory is served from the array as from an intact device with the image, whatever any number of members hold in the other rows, and whether or not they can be read there.", "quantifier": "every damage to other rows of any number of members, every image, every inode", "why_tests_cant": "Needs all possible damage.", "anchors": ["src/md/array.rs: MdArray::read_block", "src/ext4/fs.rs: Ext4Fs::open_file", "src/ext4/file.rs", "src/ext4/directory/directory.rs"]}
{"id": "C99", "title": "Files of an array with wrong members are those of Linux or fail", "statement": "Under the conditions of C97, whatever is delivered from a regular file of the file system on the array is what Linux reads from that file in the image that was stored, every directory entry that is listed is one of the directory in that image, and a file all of whose rows are whole is read to its end.", "quantifier": "every file and directory, every image, every content of the wrong slots", "why_tests_cant": "Needs all possible damage, and all file systems.", "anchors": ["src/md/array.rs: MdArray::read_block", "src/ext4/file.rs", "src/ext4/directory/directory.rs"]}
{"id": "C100", "title": "Two wrong members are found out", "statement": "As RAID-6 has two parities, wrong data in two slots of a row are an error too.", "quantifier": "every content of two slots", "why_tests_cant": "Needs all pairs of wrong sectors with the same parity.", "anchors": ["src/md/raid6/algorithm.rs: MdRaid6Algorithm::read_sector"]}
{"id": "C101", "title": "A member that md has dropped is not read", "statement": "Data are never taken from a member that a member with a higher event count declares faulty or a spare: whatever is read is what was last written to the array, or an error. Such a member is named in the diagnosis.", "quantifier": "every set of members, every role table and event count, every content of the members", "why_tests_cant": "Needs all histories of an array.", "anchors": ["src/md/array.rs: MdArray::open", "src/md/array.rs: MdArray::read_block", "src/md/definition.rs: diagnose_event_count_problem"]}
{"id": "C102", "title": "Members of different arrays are never combined", "statement": "What is read from a set of members is the content of one array, even if some of the members belong to another array (they state another identifier); such members are named in the diagnosis.", "quantifier": "every set of members, all identifiers, every content", "why_tests_cant": "Needs all mixtures of arrays.", "anchors": ["src/md/array.rs: MdArray::open", "src/md/array.rs: MdArray::read_block", "src/md/definition.rs: diagnose_array_uuid_problem"]}
{"id": "C103", "title": "What opening and reading an array look at", "statement": "The number of blocks of an array and the results of any sequence of reads from it are determined by the devices of the members and, of their superblocks, the format, the target of a reshape, the index and the role table. They do not depend on the version, the identifier, the name, the data offset, the event count, the progress of a reshape, the numbers of the devices, or the order of hash maps.", "quantifier": "every set of members, every sequence of reads, every behaviour of the devices, every order", "why_tests_cant": "Needs pairs of arbitrary runs.", "anchors": ["src/md/array.rs: MdArray::open", "src/md/array.rs: MdArray::read_block", "src/md/format.rs: MdFormat"]}
{"id": "C104", "title": "An array that is being reshaped is read in the format in which md keeps each sector", "statement": "While an array is being reshaped, sectors that the reshape has passed are read in the new format, the others in the old one, with the numbers of devices as md means them.", "quantifier": "every pair of formats, every change of the number of devices, every position of the reshape, every sector", "why_tests_cant": "Needs all reshapes and positions.", "anchors": ["src/md/format.rs: MdFormat::from_superblock_reshape_status", "src/md/array.rs: MdArray::read_block"]}
{"id": "C105", "title": "A member that is being rebuilt is not read beyond what has been rebuilt", "statement": "Sectors of a member behind the recovery offset of its superblock are not used. (What is used of a superblock is a fixed list of fields.)", "quantifier": "every superblock, every content", "why_tests_cant": "Needs all superblocks and states of a rebuild.", "anchors": ["src/md/superblock/version_1/superblock.rs: SuperblockVersion1::recovery_offset", "src/md/array.rs: MdArray::open"]}
{"id": "C106", "title": "Interrupted system calls make no difference", "statement": "Every read of a block or of a superblock from a file or a native block device during which calls of read(2) are interrupted by signals (EINTR) ends, if the interruptions of one call do not go on for ever, with the bytes asked for or with an error that has another cause; Interrupted is never reported, and never taken for a missing superblock. Seen as block devices and streams, interrupted files meet the same contracts as others, with failures only where the operating system fails otherwise.", "quantifier": "every schedule of interruptions, short reads and errors in which no call is interrupted for ever; every file content, block size, block number and buffer", "why_tests_cant": "tests do not receive signals at chosen system calls", "anchors": ["src/block_device/internal.rs:11-29", "src/block_device/file.rs:43-45", "src/block_device/native.rs:40-42", "src/md/superblock/version_1/superblock.rs:60-69"]}
{"id": "C107", "title": "Reading to the end gives everything up to the end", "statement": "read_all, on any stream, returns exactly the bytes from the current position to the end of the stream, whatever room the standard library offers at each call, or an error that is not Interrupted and that the stream may report at the position reached. On a stream that does not fail it ends after at most as many calls as bytes remain, and one. Through a block reader it returns the whole blocks of the device.", "quantifier": "every stream that meets the contract of streams (C01, C03, C04, C29), every position, every sequence of buffer sizes and contents", "why_tests_cant": "the room that the standard library offers depends on its version and on the allocator", "anchors": ["src/ext/read_all.rs:8-13", "src/block_device/reader.rs"]}
{"id": "C108", "title": "Reading a file takes a number of turns that its tree bounds", "statement": "All calls of read_next_block on one file together take at most 2n + 1 turns of its loop, plus one per call, where n counts the entries of the extent tree, once for each extent and twice for each index, and the blocks of its extents. Each turn reads the device at most once. This holds whatever fails, in whatever order the tree gives the blocks, and for calls with too short a buffer, which take none; so no call takes more than 2n + 2 turns.", "quantifier": "every extent tree without cycles, every device that meets the contract of streams, every pattern of read errors, every sequence of buffers", "why_tests_cant": "a bound on the work needs every shape of tree and every pattern of errors; tests measure single files", "anchors": ["src/ext4/file.rs:81-157"]}
{"id": "C109", "title": "A version 0.90 superblock is used only if its checksum is right", "statement": "A version 0.90 superblock is accepted only if its stored checksum matches its content. (What is used of such a superblock is a fixed list of fields.)", "quantifier": "every superblock image, in both byte orders", "why_tests_cant": "needs all images", "anchors": ["src/md/superblock/version_0/superblock.rs:62-97"]}
{"id": "C110", "title": "A version 0.90 member is put in the place that md gives it", "statement": "A member with a version 0.90 superblock gets the position that its descriptor in the superblock names if md counts it as in sync, and no position of the array otherwise, whatever other members are missing.", "quantifier": "every set of members with superblocks as md writes them, in either byte order, whatever their order", "why_tests_cant": "needs all states of an array", "anchors": ["src/md/superblock/version_0/superblock.rs:148-162", "src/md/array.rs: MdArray::open"]}
{"id": "C111", "title": "Members are put where they belong, in whatever order they are given", "statement": "Given the members of a RAID-6 array as md has written them (a superblock of version 1.0 in each, the same role table in all), opened in any order and with any device numbers, the array that is opened has the format that md has given it, every member is in the position that the role table gives it, none is left out, and the image stored on them is the content of the array; whatever the data are.", "quantifier": "every array of three or more members, every layout, chunk size, size and role table, every image, every order of the members and iteration order of the hash map, every kind of device that meets the contracts of streams and block devices", "why_tests_cant": "needs all orders of all members and all contents", "anchors": ["src/md/array.rs: MdArray::open", "src/md/device/device.rs:40-87", "src/md/superblock/version_1/superblock.rs"]}
{"id": "C112", "title": "From the paths given to the program to what Linux would read from the files", "statement": "If the paths given, in any order, are those of the block devices that hold the members of a RAID-6 array as md has written them, every one is opened, the array is assembled, and what is read from a file on it is what Linux would read at that place of that file on the running array; likewise, what is listed of a directory. A file, or a directory, whose metadata and blocks can be read is read to its end. Parts of the members that cannot be read make no difference to anything that does not need them.", "quantifier": "every set of paths, every behaviour of the operating system for each of them (short reads, errors), physical block sizes, arrays as in C111, every file system image of the usual geometry, every inode number and sequence of buffers", "why_tests_cant": "the claim spans the whole program and all contents of all disks", "anchors": ["src/main.rs:28-46", "src/md/device/device.rs:28-87", "src/md/array.rs", "src/block_device/reader.rs", "src/ext4/fs.rs", "src/ext4/file.rs", "src/ext4/directory"]}
{"id": "C113", "title": "Flags are reported as Linux understands them", "statement": "Each named flag of the feature sets, states, options, inode flags, permissions, block group flags, md features and md device flags is reported as set if and only if the bit to which Linux gives that meaning is set in the bytes of the disk. Exactly one of the three journal modes is reported if Linux would see one, and it is the one that Linux would use.", "quantifier": "every byte string read as a superblock, inode, block group descriptor or md superblock; every named flag", "why_tests_cant": "the tests have five images, in which few of the flags are set; a bit with the wrong number is not noticed while it is clear", "anchors": ["src/ext4/superblock", "src/ext4/inode/flags.rs", "src/ext4/block_group/flags.rs", "src/md/superblock/version_1/features.rs"]}
{"id": "C114", "title": "From paths of which one is missing or damaged to what Linux would read from the files", "statement": "If the paths given, in any order, are those of block devices with the superblocks of members of one RAID-6 array, and in every row of the array at most one sector is missing or is not what md has written there (for instance because one member is not given, or holds anything), then what is read from a file is what Linux would read at that place of that file on the intact array, and no directory entry is listed that Linux would not find. Whatever is in rows that a file and its metadata do not use makes no difference to it, however many members are wrong there.", "quantifier": "every set of paths, every behaviour of the operating system, every content of the members, every file system image of the usual geometry, every inode number and sequence of buffers", "why_tests_cant": "the claim is about all contents of wrong members and spans the whole program", "anchors": ["src/main.rs:28-46", "src/md/device/device.rs:28-87", "src/md/array.rs", "src/md/raid6/algorithm.rs", "src/ext4/file.rs", "src/ext4/directory"]}
{"id": "C115", "title": "Listing a directory takes a number of turns that its tree bounds, and its calls settle", "statement": "Every call of next on an opened directory returns within 2n + 2 turns for each block it reads, where n counts the steps of the directory's extent tree. In any number of calls there are no more entries than records of 8 bytes fit its blocks. After at most that many answers and 2n + 1 more, every further answer is the same: there is nothing more, or UnexpectedEof. It need not be the former: when a block cannot be read the calls settle on UnexpectedEof, so a caller that goes on after errors until there is nothing more goes on for ever.", "quantifier": "every extent tree without cycles, every content of its blocks, every device that meets the contract of streams, every pattern of read errors, every number of calls", "why_tests_cant": "that calls never stop giving something new, or loop over blocks without entries, shows only with hostile trees and blocks, and for ever", "anchors": ["src/ext4/directory/directory.rs:39-78", "src/ext4/directory/block.rs:48-53", "src/ext4/file.rs:81-157"]}
{"id": "C116", "title": "Handles used by turns answer as if each were alone, also where reads fail", "statement": "After a file system has been opened, any files and directories may be opened at any time and any of the handles be used in any order - inodes and blocks read through the file system, blocks of files read, directories listed - with all handles sharing the members of an array (each through a reader of its own) or one open file description, and with reads failing wherever and whenever the device makes them fail. Every handle then answers by the contents of the device alone: the calls of each file are the ones that its inode's tree allows (and, where the tree can be walked, exactly the ones it determines up to failing reads), the results of each directory are the records of its blocks in order, inodes and blocks read through the file system are those of the device, and the bytes delivered from a file of an array are those Linux reads, or lie in an extent that was not written.", "quantifier": "all contents, all failing positions and times of failure, all sequences of openings and calls on any number of handles, all clones that succeed or fail", "why_tests_cant": "a test interleaves a few calls on one device; handles share mutable state (cursor, members, interior positions), and an interference would need one particular order or a failure between two particular calls", "anchors": ["ext4/fs.rs:try_clone", "ext4/fs.rs:open_file", "ext4/file/regular.rs:read_next_block", "ext4/file/directory.rs:next", "block_device/reader.rs", "md/array.rs:MdArray", "file_block_device.rs"]}
{"id": "C117", "title": "What is read of members whose data start behind their beginning", "statement": "Whatever its members hold, an array is a device with one fixed content (the sector in the data slot of each row; a sector can fail only if its row is not consistent, not complete, or a member may fail there). If the members carry a data offset of m chunks (as version 1.1 and 1.2 superblocks do), then: a file system is never opened if the members have zeros where sectors 2 and 3 of the array are read; a sector of stripe k, m <= k, that no member fails at is delivered exactly if the member that the layout gives Q in stripe k holds the same there as the one with Q in stripe k - m, and what is delivered is what the data slot of stripe k holds of stripe k - m, possibly another sector or parity; and if the rows of the layout repeat after m stripes, every sector is delivered, moved up by m chunks per data disk.", "quantifier": "all layouts, geometries, images and Q sectors, all offsets that are whole chunks, all states of the members, all ways members fail", "why_tests_cant": "test arrays have no data offset; what is read with one depends on layout, number of members and offset, and with Q always on the last member wrong sectors come without an error", "anchors": ["src/md/array.rs: MdArray", "src/md/raid6/read.rs", "src/md/superblock/version_1/superblock.rs: data_offset", "src/ext4/fs.rs: Ext4Fs::open"]}
{"id": "C118", "title": "Interrupted system calls change neither the diagnosis nor what is recovered", "statement": "If system calls that read are interrupted (EINTR), however often and whenever, but none for ever, then the program ends, and prints what it would print without interruptions: the paths that cannot be used with their reasons, or the diagnosis, in which no superblock is missed because of an interruption: a location counts as empty only if no superblock is there or the operating system fails otherwise. The members opened so are assembled, and what is read of a file or listed of a directory is what Linux reads or lists on the running array, whole if what fails otherwise is not needed, as if nothing had been interrupted.", "quantifier": "all paths, contents and orders of members, all arrays of two data disks or more, all file systems supported, all patterns of interruptions, short reads and failures", "why_tests_cant": "interruptions depend on signals and timing; a test that is never interrupted does not exercise the retry, and each read of each stage may be the interrupted one", "anchors": ["src/main.rs: main", "src/md/device/device.rs: MdDevice::open_path", "src/md/superblock/version_1/superblock.rs: read", "src/md/superblock/version_0/superblock.rs: read", "src/block_device/internal.rs: read_block"]}
{"id": "C119", "title": "Printed identifiers, UUIDs and quantities can be told apart; double-width products are exact", "statement": "The text of an array's UUID has two hexadecimal digits for each byte, can be read back, and is different for different UUIDs, short ones included. The text of a quantity has the decimal digits of its number and the words of its unit, so that two texts are equal only for equal numbers of the same unit (the two kinds of block counts share their words). Device identifiers are equal exactly if the same is fed to the hasher; two that are made one after the other are never equal, even with the same path, although then their texts are. The product of two integers in the type of twice their width never overflows, signed or not.", "quantifier": "all UUIDs, all units and numbers, all counters and paths, all widths and operands", "why_tests_cant": "a test prints a few values; that no two are confused, and that no operands overflow, is a claim about all pairs", "anchors": ["src/md/superblock/array_uuid.rs: Display", "src/md/device/id.rs: MdDeviceId", "src/md/units", "src/ext4/units", "src/block_device/block_size.rs: BlockSize", "src/ext/long_mul.rs: LongMul"]}
{"id": "C120", "title": "Block devices are asked what Linux understands", "statement": "The requests with which the size and the physical block size of a block device are asked for are those that Linux defines where size_t has 64 bits; the answers are read with their proper widths: the block size is the kernel's, the number of blocks is the number of whole blocks in the device, and the size by which members are classified is the largest multiple of the block size within it. Errors of the kernel are passed on.", "quantifier": "all sizes, all block sizes but zero, all kernels that answer like Linux, with a size_t of 32 or of 64 bits", "why_tests_cant": "tests without block devices never issue the requests; on the machine of the developer only one width of size_t is present", "anchors": ["src/ioctl/blk.rs", "src/block_device/native.rs: block_size", "src/block_device/native.rs: block_count"]}
{"id": "C121", "title": "The command line names the devices, in order; outputs have no effect", "statement": "A command line is accepted exactly if it consists of paths and of the option output with a value, in any of its spellings, in any order, with any paths behind two hyphens; each command line has one meaning; every list of non-empty paths can be given. The program examines the paths in their order, and what it prints does not depend on the outputs asked for: it is what it prints for the paths alone. If every path is a block device or is refused by the operating system, something is printed: by the parser of the command line, the refused paths, or a diagnosis.", "quantifier": "all argument vectors of byte strings, all operating system behaviours", "why_tests_cant": "argument vectors are unbounded, and that an accepted option changes nothing is a claim about all runs", "anchors": ["src/main.rs: Options", "src/main.rs: main"]}
{"id": "C122", "title": "Further disks given to an array never change what is delivered", "statement": "Let an array be opened from some members and again from these and any further ones, in any order, where no role table has a reserved code and all members say the same of a change of format. Then a slot that is filled both times is filled by the same member, and a sector that is delivered both times is the same, also with other reads in between and reads that fail now and then. If a further member repeats the superblock of an active one, nothing can be read. If a further member is a spare that adds nothing to what the others say, reads and the size are exactly as before. Both conditions are needed: without either, giving more disks can change the data that is delivered.", "quantifier": "all lists of members, all supersets and orders of them, all devices, all sequences of reads", "why_tests_cant": "the claim compares two openings for all supersets of all member lists; a test compares particular ones", "anchors": ["src/md/array.rs: MdArray::open", "src/md/array.rs: MdArray::read_block", "src/md/format.rs: MdFormat::from_superblock_reshape_status"]}
{"id": "C123", "title": "A size that is no multiple of the physical block size does no harm to members", "statement": "The program takes the size of a block device in whole physical blocks, md takes it in sectors. Whatever the size of a block device is, its superblock is looked for exactly where md puts it for the size of the whole device, and it is called too small exactly if md has no room on it, also if parts of it cannot be read. And if all members of an array were written by md on block devices of any sizes, all of them are opened and put in their places, and the image that the array holds is the one that was written; if some are missing or wrong, it is right as far as the whole devices are.", "quantifier": "all contents and sizes of devices, all physical block sizes, all behaviours of the operating system, all arrays and orders of paths", "why_tests_cant": "the rounding matters only for particular residues of the size of the device, which tests on images of round sizes do not meet", "anchors": ["src/block_device/native.rs: NativeBlockDevice::block_count", "src/md/device/device.rs: MdDevice::from_block_device", "src/main.rs: main"]}
{"id": "C124", "title": "The entries of a node of an extent tree can be read one by one or by the iterator, without panic, if it is valid", "statement": "The accessors of a node read the published fields of its header, and it is a leaf exactly if its depth is 0. In a node that is valid, the entry at any position is the one that lies there, or none from the number of entries on; no position panics. The iterator over a leaf gives the extents in order, each once, and nothing from then on, however often it is called; together they are the bytes between the header and the tail. In a node that is too short for its number of entries, which is never valid, reading any of them panics.", "quantifier": "all contents and sizes of nodes, all positions, all numbers of calls", "why_tests_cant": "positions and contents are unbounded; a test reads one node, and none of the code's tests uses the iterator", "anchors": ["src/ext4/extent/tree.rs: ExtentTree::from_block", "src/ext4/extent/tree.rs: ExtentLeaf::extent_at", "src/ext4/extent/tree.rs: ExtentBranch::subtree_index_at", "src/ext4/extent/tree.rs: ExtentLeafIter::next"]}
{"id": "C125", "title": "A reader serves as a byte stream and as a block device at the same time", "statement": "Over any block device, reads and seeks through a reader can be mixed in any order with reads of whole blocks, questions for the size and number of blocks, and clones that are used instead from then on: the bytes read and the positions are those of one cursor over the concatenated blocks, which reading blocks does not move and which a clone takes over; blocks, sizes and numbers are those of the device. A reader over a reader reads the same bytes and leaves the inner one where it is.", "quantifier": "all block devices that meet the contract, all lists of calls of both kinds, all failures of reads", "why_tests_cant": "the claim is about all interleavings of two interfaces; tests use one at a time", "anchors": ["src/block_device/reader.rs: BlockDeviceReader::read_block", "src/block_device/reader.rs: BlockDeviceReader::try_clone", "src/block_device/reader.rs: BlockDeviceReader::read", "src/block_device/reader.rs: BlockDeviceReader::seek"]}
{"id": "C126", "title": "The root of a file system is its second inode", "statement": "When groups have room for two inodes or more, reading the root of an opened file system gives the inode in the second slot of the inode table that the first descriptor names, whatever was read before and wherever that left the device. It is refused only if the file system claims to have fewer than two inodes or no groups, or if the slot is outside the device or not readable; it panics only if the slot states an extra size that does not fit.", "quantifier": "all devices and contents, all failures of reads, all positions of the device", "why_tests_cant": "tests read the root of one small file system right after opening it", "anchors": ["src/ext4/fs.rs: Ext4Fs::read_root_inode", "src/ext4/fs.rs: Ext4Fs::read_inode"]}
