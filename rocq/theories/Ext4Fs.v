(** Model of src/ext4/fs.rs: opening a file system, reading inodes and blocks. *)

From Coq Require Import Strings.String.
From Verif Require Import Base Io Superblock Crc Ext4Superblock Ext4Inode.

(** 14-21; the device is passed separately, as the state of a stream. *)
Record fs : Type := Fs { fs_sb : bytes; fs_groups : list bytes }.

(** [u64::div_ceil]. *)
Definition div_ceil (a b : N) : res N :=
  if b =? 0 then Panic else Ok (if a mod b =? 0 then a / b else a / b + 1).

(** [Flags::contains_unknown_bits]. *)
Definition contains_unknown (flags all : N) : bool := negb (N.ldiff flags all =? 0).

(** 54-58. *)
Fixpoint read_groups {S} (st : stream S) (group_size : N) (n : nat) : io S (list bytes) :=
  match n with
  | O => io_ret []
  | Datatypes.S n =>
      let! buf := io_read_exact st group_size in
      let! rest := read_groups st group_size n in
      io_ret (bg_new buf :: rest)
  end.

(** 27-65.  [usize] has 64 bits, so [usize::try_from] succeeds.  [group_descriptors_block_number *
    superblock.block_size_bytes()] panics on overflow.  [Vec::with_capacity] panics when the [group_count] descriptors
    of 60 bytes need more than [isize::MAX] bytes; a smaller allocation that fails aborts the program, which is not
    modelled. *)
Definition fs_open {S} (st : stream S) : io S fs :=
  let! _ := io_seek st 1024 in
  let! sb := e4_read st in
  let blocks_per_group := e4_blocks_per_group sb in
  let! group_count := io_lift (div_ceil (e4_blocks_count sb) blocks_per_group) in
  let group_size := e4_group_descriptor_size sb in
  if (blocks_per_group =? 0) || (group_size =? 0) || (e4_inodes_per_group sb =? 0)
     || negb (match e4_creator_os sb with OsLinux => true | _ => false end)
     || negb (contains (e4_incompatible_features sb) incompat_extents)
     || contains_unknown (e4_incompatible_features sb) incompat_all
  then io_lift (Err Unsupported)
  else
    let group_descriptors_block_number := e4_first_data_block sb + 1 in
    let! bs := io_lift (e4_block_size_bytes sb) in
    let! o := io_lift (unwrap (cmul64 group_descriptors_block_number bs)) in
    let! _ := io_seek st o in
    if i64_max <? group_count * layout_size bg_layout then io_lift Panic
    else
      let! groups := read_groups st group_size (N.to_nat group_count) in
      io_ret (Fs sb groups).

(** 67-69. *)
Definition fs_block_size (f : fs) : res N := e4_block_size_bytes (fs_sb f).

(** 83-109. *)
Definition fs_read_inode {S} (st : stream S) (f : fs) (number : N) : io S inode :=
  let sb := fs_sb f in
  if (number =? 0) || (e4_inodes_count sb <? number) then io_lift (Err InvalidInput)
  else
    let! group_index := io_lift (unwrap (cdiv64 (number - 1) (e4_inodes_per_group sb))) in
    let! index_in_group := io_lift (unwrap (crem64 (number - 1) (e4_inodes_per_group sb))) in
    let! group := io_lift (ok_or (nth_N (fs_groups f) group_index) InvalidInput) in
    let inode_offset_within_table := index_in_group * e4_inode_size sb in
    let! bs := io_lift (e4_block_size_bytes sb) in
    let! inode_byte_offset := io_lift (ok_or (
      let* base := cmul64 (bg_inode_table_block group) bs in
      cadd64 base inode_offset_within_table) InvalidData) in
    let! _ := io_seek st inode_byte_offset in
    let! buffer := io_read_exact st (e4_inode_size sb) in
    io_lift (inode_new sb number buffer).

(** 71-73. *)
Definition fs_read_root_inode {S} (st : stream S) (f : fs) : io S inode := fs_read_inode st f 2.

(** 111-127; [buf] is the caller's buffer, filled as a whole. *)
Definition fs_read_block {S} (st : stream S) (f : fs) (block : N) (s : S) (buf : bytes) : S * bytes * res unit :=
  match fs_block_size f with
  | Panic => (s, buf, Panic)
  | Err e => (s, buf, Err e)
  | Ok bs =>
      if len buf <? bs then (s, buf, Err InvalidInput)
      else
        match cmul64 block bs with
        | None => (s, buf, Err InvalidInput)
        | Some o =>
            let '(s, r) := io_seek st o s in
            match r with
            | Ok _ => read_exact st s buf
            | Err e => (s, buf, Err e)
            | Panic => (s, buf, Panic)
            end
        end
  end.
