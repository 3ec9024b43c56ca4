# Formal model of md-recover

Source: `/repo` (djcsdy/md-recover, pinned commit), read as text; nothing is built or run.
Prover: Coq/Rocq 8.16.1, standard library only.  Build: `coq_makefile -f _CoqProject -o Makefile && make -j4` in `rocq/`.

## 1. Ground rules of the model

* **Integers.** Unsigned machine integers are `N`, signed ones `Z`; every bound, wrap or overflow check of the
  source is written out. `usize` is 64 bits.
* **Bytes** are `Byte.byte`, so "every byte string" needs no side condition.
* **Failure is data.** `res A = Ok a | Err kind | Panic`. `Panic` stands for a Rust panic: slice out of range,
  `copy_from_slice` length mismatch, `unwrap` on `None`, division by zero, and arithmetic overflow on the
  unchecked operators (the overflow-checked build profile; a release build wraps instead, see section 5).
* **`&mut self`** becomes state passing; a `&mut [u8]` argument becomes a byte list in and a byte list out.
* **Loops** are structural recursion where a bound exists. The one loop without a bound
  (`Ext4FileInternal::read_next_block`, and the directory listing above it) takes fuel; running out of fuel is a separate
  outcome (`None`), never `Ok`, and the completeness theorems say that some fuel is enough.
* **Traits** are records of functions (`stream` for `Read+Seek`, `blockdev` for `BlockDevice`).
  Layers above are proved against a *contract* on such a record (`stream_ok`, `block_ok` in SpecStream.v); each concrete
  device is proved to meet it (IoFacts.v), and so is the RAID-6 array (PropsExt4Array.v).
* **Operating system.** A file is a byte list, a cursor and a clock. A policy function, quantified in the
  theorems, decides at every `read` call (by clock, position and length) whether it fails or how many bytes,
  at least one, are transferred. So theorems hold for every schedule of short reads and I/O errors.
* **Hash maps** are association lists; their iteration order is an arbitrary permutation, quantified in the theorems.
* **Specifications** are separate files (`Spec*.v`) that do not use the model: published offset tables, polynomial
  division for the CRC, inductive definitions of mapped extent trees, of records of a directory block, of RAID rows.
* A property that is false of the code is kept as stated, marked `partial`, and comes with a `..._refuted` theorem
  (witness) and theorems that say what does hold, as exactly as possible.

## 2. Files

| Source | Model | Specification | Facts | Properties |
|---|---|---|---|---|
| integer, slice and byte helpers of the standard library | Base | - | BaseFacts | - |
| md/raid5, md/raid6, md/algorithm.rs, md/units | Raid | SpecRaid, SpecParity | RaidFacts, ParityFacts | PropsRaid (C06-C17) |
| block_device/* | Io | SpecStream | IoFacts | PropsIo (C01-C05) |
| md/superblock/* | Superblock, Superblock0 | SpecMd | SuperblockFacts | PropsSuperblock (C20-C23, C58, C59, C61), PropsDescriptors (C21) |
| md/device/* | Device | SpecDevice | - | PropsDevice (C18, C19, C60) |
| md/array.rs, definition.rs, format.rs, diagnosis, ext/multi_map.rs | Array | SpecArray | ArrayFacts | PropsArray (C24-C28, C62), PropsRoles (C26), PropsArrayRead (C29-C32) |
| ext4/crc.rs and the crc crate's table algorithm | Crc | SpecCrc | CrcFacts, CrcPoly | PropsCrc (C33, C34, C63) |
| ext4/superblock/*, ext/wide_unsigned.rs, ext/system_time.rs | Ext4Superblock | SpecExt4 | - | PropsExt4Superblock (C35-C37) |
| ext4/inode/*, ext4/block_group/*, directory/file_type.rs | Ext4Inode | SpecExt4Inode | - | PropsExt4Inode (C41-C43, C64) |
| ext4/fs.rs | Ext4Fs | SpecExt4Fs | Ext4FsFacts | PropsExt4Fs (C38-C40, C65) |
| ext4/extent/* | Ext4Extent | SpecExt4File | - | PropsExt4File (C49, C55) |
| ext4/file.rs, regular_file.rs | Ext4File | SpecExt4File | Ext4FileFacts | PropsExt4File (C50-C54, C66) |
| ext4/directory/* | Ext4Dir | SpecExt4Dir | - | PropsExt4Dir (C44-C47), PropsExt4Listing (C48) |
| ext4/string.rs, `String::from_utf8_lossy` | Ext4String | SpecExt4String | - | PropsExt4String (C56) |
| several handles; arrays below file systems | - | - | - | PropsExt4Flat (C05), PropsExt4Array (C57) |
| fs.rs `open_file` to the last byte of a file | Ext4Dir | SpecExt4Open | - | PropsExt4Open (C67, C68) |
| array.rs and raid6 reads again, with members that change state | ArrayIo | - | - | PropsArrayIo (C69, C70) |
| array members below, files above | - | - | - | PropsExt4Recover (C71) |
| ext4/fs.rs against Linux | - | SpecExt4Linux | - | PropsExt4Linux (C73) |
| reading files of any shape | Ext4File | SpecExt4Walk | - | PropsExt4Walk (C75-C78), PropsExt4Turns (C108) |
| files as Linux reads them | Ext4File, Ext4Fs, ArrayIo | SpecExt4Content | - | PropsExt4Content (C79-C82) |
| directories as Linux lists them | Ext4Dir, ArrayIo | SpecExt4LinuxDir | - | PropsExt4LinuxDir (C87, C88) |
| what files depend on | Ext4Fs, Ext4File, Ext4Dir | SpecExt4Frame | - | PropsExt4Frame (C93, C94) |
| features, encryption, the journal | Ext4Fs, Ext4File | SpecExt4Features | - | PropsExt4Features (C95, C96) |
| wrong data on members | ArrayIo, Ext4Fs, Ext4File, Ext4Dir | SpecDamage | - | PropsExt4Damage (C97-C100) |
| members that do not belong together | Array, ArrayIo, Superblock | SpecStale, SpecReshape | - | PropsArrayStale (C101-C103), PropsArrayReshape (C104), PropsArrayRebuild (C105) |
| version 0.90 superblocks as md writes them | Superblock, Array | SpecMd90 | - | PropsSuperblock0 (C109, C110) |
| members as md writes them, and the paths of the program | Device, Array, Main, everything below | SpecMembers | - | PropsMembers (C111), PropsPaths (C112) |
| the same with members missing or damaged | the same | SpecMembers, SpecDamage | - | PropsPathsWrong (C114) |
| listing directories of any shape | Ext4Dir | SpecExt4Walk | - | PropsExt4DirTurns (C115) |
| handles that share a device, used by turns | Ext4Fs, Ext4File, Ext4Dir | SpecExt4Open, SpecExt4Walk | - | PropsExt4Shared (C116) |
| the view of an array, data offsets | ArrayIo | SpecRaid, SpecParity | - | PropsOffset (C117) |
| interrupted calls, from main on | InterruptMain.v | | | PropsCalmPaths (C118) |
| texts of identifiers, UUIDs and quantities; long_mul | Display.v | | | PropsDisplay (C119) |
| requests to block devices | Ioctl.v | | | PropsIoctl (C120) |
| command line | Options.v | | | PropsOptions (C121) |
| further members | Array.v, ArrayIo.v | SpecArray | | PropsMore (C122) |
| sizes in physical blocks | Io.v, Device.v, Main.v | SpecDevice, SpecMembers | | PropsPhysical (C123) |
| nodes of extent trees by themselves | Ext4Extent | SpecExt4File | Ext4FileFacts | PropsNodes (C124) |
| readers as block devices | Io | SpecStream | IoFacts | PropsReaderBlock (C125) |
| the root | Ext4Fs | SpecExt4Fs, SpecExt4Linux | PropsExt4Fs, PropsExt4Linux | PropsRoot (C126; C73) |
| flags and their masks | Flags | SpecFlags | - | PropsFlags (C113) |
| interrupted system calls | Interrupt | - | - | PropsInterrupt (C106) |
| ext/read_all.rs | ReadAll | - | - | PropsReadAll (C107) |
| release builds | Release | - | - | PropsRelease (C83-C86) |
| checksums of descriptors, inodes and extent blocks | - | SpecExt4Checksum | - | PropsExt4Checksum (C74) |
| main.rs, `MdDevice::open_path` | Main | - | - | PropsMain (C72) |
| main.rs, the text printed; derived `Debug` implementations | Text | SpecText | TextFacts | PropsText (C89-C92) |

`TestData.v` has byte strings of real images from the repository's tests, used in examples.
`TestImages.v` has more of these, and `RepoTests.v` has every `#[test]` of the repository as an example that is computed on the
model, with the same input and the same expected answer: a comparison of the model with the code that needs no run of the code.

## 3. How each property is proved

| Property | Proof idea |
|---|---|
| C01, C02 | simulation with a cursor on a flat list; induction on call sequences |
| C03 | induction on the read_exact loop for any policy |
| C04 | case analysis, exact panic condition |
| C05 | each operation is independent of the starting cursor, then induction on the interleaving |
| C06-C13 | arithmetic; inverse function; row specification |
| C14-C17 | loop invariants for the read loop and XOR; C17 is false of the code: refutation |
| C18, C19, C60 | arithmetic; stream contract |
| C20, C21, C58, C59, C61 | offset table computed and compared with the published one; encode/decode round trip |
| C22, C23 | arithmetic on ranges; C22 is false at 0xfeff: refutation plus exact statement |
| C24-C26, C62 | induction on the member list; C26, C62 false in general: refutation plus the largest class where it holds |
| C27, C28 | specification of grouping, permutation arguments |
| C29-C32 | composition; C30 and C32 are false of the code: refutations plus what does hold |
| C33, C34, C63 | the register is the remainder of a division of polynomials over GF(2); order of x modulo the polynomial |
| C35-C37, C64 | offset table, CRC lemma, bit lemmas |
| C38-C41, C65 | stream contract; refutations where the code panics |
| C42, C43 | arithmetic |
| C44-C48 | induction on the remaining block; C46, C48 refuted in part |
| C49-C54, C66 | inductive specification of mapped trees; stack invariant; refutations with exact conditions |
| C55 | refuted (checksum position) plus what it accepts |
| C56 | an automaton-free specification of UTF-8; refuted for invalid UTF-8, proved for valid |
| C57, C67, C68, C71 | instances and compositions of the contracts |
| C73 | arithmetic on top of C39, C40; refutations |
| C75 | the stack of the reader stands for a list of steps of the walk over the tree; one turn of the loop takes the head of the list or skips what it says |
| C76 | from C75: in an ordered tree all that is left after a failing step starts after the next block |
| C77 | from C75, by induction on the answers, in both directions |
| C78 | a listing makes a sequence of calls on its file (dir_listing_reads); C75 |
| C79 | every block delivered is mapped (C51); in an ordered tree Linux finds every extent there is, by induction over the tree; lookups are unique |
| C80 | where every block is found in an ordered tree, the tree maps the blocks without gap (`covered_maps`), so C50 applies; the bytes are those of C79 |
| C87, C88 | the records of a block that Linux accepts are those of `records`; then C48, C68, C79 with C46 for the names |
| C93, C94 | the steps of a tree (C75) depend on the blocks that they name; with these readable, the answers to the same steps are determined, so both devices give the same |
| C95 | C39, and the lists compared; computed witnesses |
| C96 | C93 with the device after the writes; computed witness with a journal in the format of jbd2 |
| C97 | a P-consistent row that differs from the stored one in one slot differs in the Q slot only (C16); then C14, C15 |
| C98 | C93, with the image made of the sectors that the data slots have: in whole rows it agrees with the stored image |
| C99 | C81, C87 with the block device of C97 |
| C100 | C97; computed witness |
| C101, C102 | C25-C27, C97; computed witnesses of four members |
| C103 | simulation of two arrays through the reader, read_exact and the row read; grouping by slot is pointwise |
| C104 | cases on the sign and the overflow of the change, against the formats of md |
| C105 | C20 at two superblocks; computed witness |
| C109 | field by field; computed witness with the checksum of md |
| C110 | C25, C26: with no place vacant every role table says the same; computed witness of three members of four |
| C111 | C25-C28: all role tables are the same, so merging them gives it back; C20, C21 for what is recognised; computed witness of four members |
| C112 | C72 (opening of paths), C111, then C81, C82, C87, C88 |
| C113 | a mask that is a power of two is contained iff the bit is set; the tables are compared by computation |
| C114 | C111 without its last part says where members are put whatever data they hold; then C97, C98 |
| C115 | a block costs a step of the tree that is worth as many entries as fit it; an error costs a node or a step, unless nothing is left |
| C116 | calls of a handle with the device in any legal state before each (`asked`, `listed`): C51, C75 and C78 only need legality, not continuity; a session with a private part per handle and one shared world keeps every handle legal, whichever handle acts; the k-th opening of the log is the handle 1 + k |
| C117 | a row is consistent iff the exclusive or of all its sectors is its Q sector, whatever the order of the slots: rows of another stripe are consistent iff the two Q members hold the same; the rows of a layout repeat after n (n - 1, 1) stripes |
| C118 | each definition over the standard library's loop ends with what the definition without fuel gives on the stream that retries (C106); any block device that agrees with the loop's answers satisfies the contract of C112's members |
| C119 | texts are read back with Horner's scheme (the lemmas of C89), which gives injectivity |
| C120 | the requests are compared with the arithmetic of Linux's fields, which the model has as shifts |
| C121 | the parser is compared with a grammar of spellings, by induction on the number of arguments and on the derivation |
| C122 | a merged position is one that somebody states and nobody contradicts, so it survives further statements if there is a table at all |
| C123 | every boundary in md's rules is a multiple of 4096, and a multiple of the block size fits in the device if and only if it fits in its whole blocks |
| C124 | a valid node has room for its entries (C55); induction on the number of calls |
| C125 | the contract of block devices holds of a reader at any fixed position; induction on the calls |
| C126 | the outcome of reading inode 2, with the offset of the slot computed from the first descriptor |
| C106 | the loop of the standard library is `read_exact` on the stream that repeats interrupted calls, which meets the contract of streams |
| C108 | twice the number of steps ahead plus the height of the stack falls with every turn that does not return |
| C107 | induction on the calls; each call but the last delivers the next bytes |
| C81, C82 | C73 says that the slot is Linux's; then C79, C80 with C67, C68, C71 |
| C83-C86 | function by function the wrapping definition equals the checked one where no overflow is possible; that the block counter is at most (bytes delivered) / (block size), rounded up, is the only invariant needed |
| C74 | computed witness; C34 for what the specification says of it |
| C89, C92 | the text of each type spells a list of tokens, indented or not; the parser takes them back; values determine diagnoses |
| C90, C91 | lines of a text that is put together from whole lines |
| C72 | induction on the arguments; C18, C19, C27, C28 |
| C69, C70 | a read looks at each member once, so it is a stateless read with, for each member, the state it was read in |

## 4. Not modelled

The texts that clap prints itself (help, version, mistakes), the encoding of `ioctl` requests on architectures that do not use asm-generic/ioctl.h (Ioctl.v
has the others; elsewhere the answers are parameters),
`Display`/`Debug`/`Hash` implementations other than those in Display.v, that of `Ext4String` and those that the program prints (Text.v; of
these the table of printable characters, the texts of error numbers and the quoting of paths are parameters), exhaustion of memory (except the capacity
overflow of `Vec::with_capacity`, which is a panic of the code), and threads (there are none).  Third-party crates
(`binary_layout`, `bitflags`, `clap`, `num_enum`, `chrono`, `itertools`, `iocuddle`, `num_integer`, `derive_more`, `uuid`) are replaced by
their documented meaning; of the `crc` crate the table algorithm itself is modelled.

Simplifications, each repeated at the definition:

* In Array.v the closure that `MdArray::read_block` passes to RAID-6 reads members through a pure function.  ArrayIo.v has
  the same functions with the state of the members carried along (shared cursors, short reads, errors that come and go),
  and C69-C71 are about those.
* Io.v has `read_exact` without interruptions.  Interrupt.v has the loop of the standard library that repeats interrupted
  calls, and C106 gives the block devices and the stream with interruptions to which all other theorems apply.
* Reading the header of an extent node of less than 12 bytes would panic; nodes have 60 bytes or a block.
* A `DateTime` is its number of nanoseconds; chrono's range check is written out.

What SpecExt4Content says of Linux is the lookup of blocks and the placement of inodes.  It leaves out that Linux verifies
checksums (C74), replays the journal first, and decrypts, verifies or decompresses files with these flags.  SpecExt4LinuxDir has the checksums
of directory blocks and the checks of each record, for directories without index, encryption and case folding.

## 5. Build profiles

`Panic` on arithmetic overflow is the behaviour of builds with overflow checks (debug, test).  A release build wraps.
Release.v has the functions with unchecked operators once more, with wrapping arithmetic:

* `Ext4Fs::open`: descriptor table block times block size - differs only for tables beyond 2^64 bytes (C84);
* `read_next_block`: the 32-bit block counter - differs only after 2^32 - 1 blocks (C85) - and the device block number,
  which never overflows;
* `BlockDeviceReader::read`: the position arithmetic - never overflows (C83);
* directory blocks of less than 12 bytes - panic in both profiles;
* `block_size_bytes`: 10 + log - never overflows for accepted superblocks.

Everything else that panics in the model (slices, `copy_from_slice`, `unwrap`, division by zero, capacity overflow)
panics in every profile, and all other arithmetic of the code is `checked_` or bounded by a check before it.  C86 carries
every theorem about sessions over to release builds.  The other theorems about opening and reading files carry over by the
lemmas `open_file_same`, `run_file_same` and `run_dir_same` of PropsRelease.v.

## 6. Trusted base

* Coq's kernel (8.16.1), including the `vm_compute` virtual machine, which some proofs and examples use.
* `Print Assumptions` says **"Closed under the global context"** for every theorem listed in MANIFEST.json; no axiom is
  used, neither of the standard library nor of this development.  Every theorem is followed by a `Print Assumptions` in
  its file, so the build log shows it.  (A checker that loads the whole library also lists seven constants of
  `Coq.ssr.ssrunder.Under_rel`; these belong to a module of the standard library that is loaded with `lia`, and no
  theorem here depends on them.)
* That the definitions in Base, Raid, Io, Superblock, Device, Array, ArrayIo, Crc, Ext4Superblock, Ext4Inode, Ext4Fs, Ext4Extent,
  Ext4File, Ext4String, Ext4Dir, Flags, Interrupt, ReadAll, Main, Text and Release say what the Rust source does; each cites the file and lines it is taken from.
* That the `Spec*.v` files say what the English properties mean.
* The documented meaning of the standard library and crates named in section 4.

## 7. What was found

Claims that a reader of the API would make and that are false of the code, each with a machine-checked witness:

| Property | What happens | Theorem |
|---|---|---|
| C04 | out-of-range block reads of the in-memory device panic | mem_read_block_panics_iff |
| C17 | degraded RAID-6 arrays cannot be read at all | raid6_degraded_refuted |
| C22 | role code 0xfeff has a position but counts as invalid | role_valid_refuted |
| C26 | merging of role tables depends on the order of members | roles_order_refuted |
| C29 | reading into a buffer longer than a sector panics | array_read_long_buffer_panics |
| C30 | the data offset of members is never applied | data_offset_refuted |
| C32 | version 0.90 arrays never have a readable format; shrinking reshapes are not seen | v0_arrays_unreadable_refuted, shrinking_reshape_refuted |
| C38 | opening a file system with zero blocks per group panics (before the check for it) | fs_open_never_panics_refuted |
| C41 | inodes with extra size above 32, or of less than 128 bytes, panic | inode_new_total_refuted, inode_new_small_refuted |
| C46 | names are cut at NUL instead of name_len and include padding; unused entries are listed | entry_name_refuted |
| C48 | a malformed directory record silently ends its block | dir_listing_swallows_refuted |
| C49, C50 | extents of 32768 blocks are read as empty | extent_max_length_refuted, file_complete_refuted |
| C52 | cyclic extent trees are read forever | file_terminates_refuted |
| C53 | holes are errors; unwritten extents give stale data | file_zeros_refuted |
| C54 | blocks preallocated behind the end of file make the last call fail | file_end_refuted |
| C55 | the checksum of extent blocks that are not full is looked for in the wrong place | extent_valid_refuted |
| C56 | names that are not UTF-8: order and hash disagree with equality | name_agree_refuted |
| C59 | version 0.90 sizes are kibibytes but reported as sectors | v0_units_refuted |
| C60 | I/O errors while probing count as a missing superblock | probe_error_reported_refuted |
| C61 | checksums of version 1 superblocks are not verified | v1_checksum_refuted |
| C62 | one disk without a superblock prevents assembly | blank_member_refuted |
| C65 | reading a block into a longer buffer reads more than the block | fs_read_block_large_buffer_refuted |
| C66 | an extent node that claims too many entries panics | file_never_panics_refuted |
| C73 | file systems without the feature 64bit are all refused; with meta_bg, or with bigalloc and 1024-byte blocks, the wrong descriptors are used | linux_32bit_refuted, linux_meta_bg_refuted, linux_bigalloc_refuted |
| C74 | checksums of descriptors, inodes and extent blocks are never verified | metadata_checksums_refuted |
| C84 | release builds: a descriptor table beyond 2^64 bytes is looked for at its offset modulo 2^64 | release_open_refuted |
| C95 | file systems with features that Linux does not support (compression, external journal, Lustre) are opened; encrypted files are delivered as stored | features_linux_refuted, encrypted_refuted |
| C96 | the journal is ignored, so recent writes are missing from files of a file system that was not unmounted | journal_refuted |
| C100 | wrong data in two members of a row are returned if P is right; Q is not used | two_wrong_refuted |
| C101 | event counts are not looked at: with two members that md has dropped, old data are returned as current | dropped_not_read_refuted |
| C102 | identifiers are not looked at: members of two arrays are read as one | mixed_not_combined_refuted |
| C104 | the position of a reshape is not looked at, and the change of the number of devices is added to the new number (md: the old number plus the change is the new one), so that no sector of a growing array can be read | reshape_format_iff, reshape_grow_fails |
| C105 | the recovery offset is not looked at: members that are being rebuilt are read where they have not been | rebuilding_not_read_refuted |
| C109 | checksums of version 0.90 superblocks are not verified | v0_checksum_refuted |
| C110 | in a version 0.90 array with a vacant place, the members at the end are taken not to belong to it | v0_placed_refuted |
| C111 | data that look like a superblock at a place that is probed first make a member be taken for one of another array | data_taken_for_superblock_refuted |
| C113 | the journal mode data=writeback (0x60 in Linux) is taken to be 0x80: both other modes are reported | mount_mode_refuted |
| C115 | once a block of a directory could not be read, its listing never comes to an end: every further call gives UnexpectedEof | listing_end_refuted |
| C117 | with the data offset of version 1.1 and 1.2 superblocks no file system is found behind blank heads; with Q on the last member (layouts 16-20) sectors of other places, or parity, are delivered without an error | blank_not_opened, offset_read, late_silent_ex |
| C118 | without the retry of the standard library an interrupted probe would be taken for a missing superblock, because device.rs discards the errors of reading | interrupted_diagnosis_ex |
| C120 | BLKGETSIZE64 is declared with a u64, but Linux encodes size_t: with a size_t of 32 bits no block device's size is found (ENOTTY) | blk_answers_refuted |
| C121 | the option `output` is accepted and has no effect: nothing is ever written | outputs_ignored |
| C122 | one more disk, such as a spare that does not know of a reshape, makes the array be read in another format without an error | more_change_refuted |
| C123 | with physical blocks of more than 4096 bytes the version 1.0 superblock is looked for in the wrong place, and members can be called too small | physical_classification_refuted, physical_small_refuted |

## 8. Wrong programs

`seeded/LOG.jsonl` has one line per edit of the model that a realistic bug would make, with the theorems that then no longer
go through.  Edits were made in copies; failing proofs were replaced by `Admitted` there, and a theorem counts as failed if it
depends on one of them.
