(** The code that contains unchecked arithmetic, as a release build runs it: an operator that overflows wraps around
    instead of panicking (no [overflow-checks] in Cargo.toml).  Each definition is that of the same name without [_wrap];
    only the arithmetic differs.  Panics that are not overflows stay. *)

From Coq Require Import Strings.String.
From Verif Require Import Base Io Superblock Crc Ext4Superblock Ext4Inode Ext4Fs Ext4Extent Ext4File Ext4Dir PropsExt4Flat.

Definition wadd32 (a b : N) : N := (a + b) mod 2 ^ 32.
Definition wadd64 (a b : N) : N := (a + b) mod 2 ^ 64.
(** Of numbers below 2^64. *)
Definition wsub64 (a b : N) : N := if b <=? a then a - b else a + 2 ^ 64 - b.
Definition wmul64 (a b : N) : N := (a * b) mod 2 ^ 64.

(** ** src/block_device/reader.rs 48-64: [block_size - self.byte_pos] and [self.block_pos += BlockCount(1)]. *)
Definition reader_read_wrap {D} (ops : blockdev D) (r : reader D) (buf : bytes) : reader D * bytes * res N :=
  match bd_count ops (r_dev r) with
  | Err e => (r, buf, Err e)
  | Panic => (r, buf, Panic)
  | Ok count =>
      if count <=? r_block r then (r, buf, Ok 0)
      else
        match bd_size ops (r_dev r) with
        | Err e => (r, buf, Err e)
        | Panic => (r, buf, Panic)
        | Ok bs =>
            let '(d, block, x) := bd_read ops (r_dev r) (r_block r) (zeros bs) in
            let r := Reader d (r_block r) (r_byte r) in
            match x with
            | Err e => (r, buf, Err e)
            | Panic => (r, buf, Panic)
            | Ok _ =>
                let k := N.min (len buf) (wsub64 bs (r_byte r)) in
                match sub block (r_byte r) k with
                | None => (r, buf, Panic)
                | Some src =>
                    let buf := src ++ skipn (N.to_nat k) buf in
                    let byte := wadd64 (r_byte r) k in
                    if bs <=? byte then (Reader d (wadd64 (r_block r) 1) 0, buf, Ok k)
                    else (Reader d (r_block r) byte, buf, Ok k)
                end
            end
        end
  end.
Definition reader_stream_wrap {D} (ops : blockdev D) : stream (reader D) := Stream (reader_read_wrap ops) (reader_seek ops).

(** ** src/ext4/superblock/superblock.rs 130-138, 214-220: [10 + log]. *)
Definition shl_10_plus_wrap (log : N) : N := unbounded_shl1 (wadd32 10 log).
Definition e4_block_size_wrap (st : bytes) : N := shl_10_plus_wrap (s4 "log_block_size" st).
Definition e4_valid_cluster_size_wrap (st : bytes) : bool :=
  if s4 "log_cluster_size" st <? 53 then
    if contains (e4_read_only_compatible_features st) ro_bigalloc then true
    else shl_10_plus_wrap (s4 "log_cluster_size" st) =? e4_block_size_wrap st
  else false.
Definition e4_valid_wrap (st : bytes) : res bool :=
  and_then (Ok (e4_valid_magic st)) (
  and_then (Ok (e4_valid_block_size st)) (
  and_then (Ok (e4_valid_cluster_size_wrap st)) (
  and_then (Ok (e4_valid_clusters_per_group st)) (
  and_then (Ok (e4_valid_error_policy st)) (
  and_then (Ok (e4_valid_groups_per_flex st)) (e4_valid_checksum st)))))).
Definition e4_read_wrap {S} (st : stream S) : io S bytes :=
  let! buf := io_read_exact st (layout_size sb4_layout) in
  let! ok := io_lift (e4_valid_wrap buf) in
  if ok : bool then io_ret buf else io_lift (Err InvalidData).

(** ** src/ext4/fs.rs 27-65: [group_descriptors_block_number * superblock.block_size_bytes()]. *)
Definition fs_open_wrap {S} (st : stream S) : io S fs :=
  let! _ := io_seek st 1024 in
  let! sb := e4_read_wrap st in
  let blocks_per_group := e4_blocks_per_group sb in
  let! group_count := io_lift (div_ceil (e4_blocks_count sb) blocks_per_group) in
  let group_size := e4_group_descriptor_size sb in
  if (blocks_per_group =? 0) || (group_size =? 0) || (e4_inodes_per_group sb =? 0)
     || negb (match e4_creator_os sb with OsLinux => true | _ => false end)
     || negb (contains (e4_incompatible_features sb) incompat_extents)
     || contains_unknown (e4_incompatible_features sb) incompat_all
  then io_lift (Err Unsupported)
  else
    let! _ := io_seek st (wmul64 (wadd64 (e4_first_data_block sb) 1) (e4_block_size_wrap sb)) in
    if i64_max <? group_count * layout_size bg_layout then io_lift Panic
    else
      let! groups := read_groups st group_size (N.to_nat group_count) in
      io_ret (Fs sb groups).

(** ** src/ext4/fs.rs 67-69, 83-127: through the block size only. *)
Definition fs_block_size_wrap (f : fs) : N := e4_block_size_wrap (fs_sb f).
Definition fs_read_inode_wrap {S} (st : stream S) (f : fs) (number : N) : io S inode :=
  let sb := fs_sb f in
  if (number =? 0) || (e4_inodes_count sb <? number) then io_lift (Err InvalidInput)
  else
    let! group_index := io_lift (unwrap (cdiv64 (number - 1) (e4_inodes_per_group sb))) in
    let! index_in_group := io_lift (unwrap (crem64 (number - 1) (e4_inodes_per_group sb))) in
    let! group := io_lift (ok_or (nth_N (fs_groups f) group_index) InvalidInput) in
    let inode_offset_within_table := index_in_group * e4_inode_size sb in
    let! inode_byte_offset := io_lift (ok_or (
      let* base := cmul64 (bg_inode_table_block group) (e4_block_size_wrap sb) in
      cadd64 base inode_offset_within_table) InvalidData) in
    let! _ := io_seek st inode_byte_offset in
    let! buffer := io_read_exact st (e4_inode_size sb) in
    io_lift (inode_new sb number buffer).
Definition fs_read_block_wrap {S} (st : stream S) (f : fs) (block : N) (s : S) (buf : bytes) : S * bytes * res unit :=
  if len buf <? fs_block_size_wrap f then (s, buf, Err InvalidInput)
  else
    match cmul64 block (fs_block_size_wrap f) with
    | None => (s, buf, Err InvalidInput)
    | Some o =>
        let '(s, r) := io_seek st o s in
        match r with
        | Ok _ => read_exact st s buf
        | Err e => (s, buf, Err e)
        | Panic => (s, buf, Panic)
        end
    end.

(** ** src/ext4/file.rs 81-157: [extent.first_fs_block_number() + pos] and [self.block_pos += BlockCount(1)]. *)
Definition branch_turn_wrap {S} (st : stream S) (s : S) (f : file) (buf : bytes) (n : node) (pos : N) : turn S :=
  match nd_entry_at n pos with
  | Ok (Some index) =>
      if negb (ix_block index =? fl_block f) then Return s f buf (Err InvalidData)
      else
        let '(s, block, r) := fs_read_block_wrap st (fl_fs f) (ix_leaf index) s (zeros (fs_block_size_wrap (fl_fs f))) in
        match r with
        | Ok _ => Again s (set_stack f (STree (tree_from_block (fl_inode f) block) 0 :: STree (Branch n) (pos + 1) :: fl_stack f))
        | Err e => Return s f buf (Err e)
        | Panic => Return s f buf Panic
        end
  | Ok None => Return s f buf Panic
  | Err e => Return s f buf (Err e)
  | Panic => Return s f buf Panic
  end.
Definition extent_turn_wrap {S} (st : stream S) (s : S) (f : file) (buf : bytes) (extent : bytes) (pos : N) : turn S :=
  if pos <? ex_length extent then
    if file_size_bytes f <=? fl_byte f then Return s f buf (Err InvalidData)
    else
      let '(s, buf, r) := fs_read_block_wrap st (fl_fs f) (wadd64 (ex_first_fs_block extent) pos) s buf in
      match r with
      | Ok _ =>
          let bytes_read := N.min (file_size_bytes f - fl_byte f) (fs_block_size_wrap (fl_fs f)) in
          Return s (File (fl_fs f) (fl_inode f) (SExtent extent (pos + 1) :: fl_stack f) (wadd32 (fl_block f) 1)
                         (fl_byte f + bytes_read)) buf (Ok bytes_read)
      | Err e => Return s f buf (Err e)
      | Panic => Return s f buf Panic
      end
  else Again s f.
Definition file_turn_wrap {S} (st : stream S) (s : S) (f : file) (buf : bytes) : turn S :=
  match fl_stack f with
  | [] => Return s f buf (if fl_byte f =? file_size_bytes f then Ok 0 else Err UnexpectedEof)
  | STree t pos :: stack =>
      let f := set_stack f stack in
      if pos <? tree_entry_count t then
        match t with
        | Branch n => branch_turn_wrap st s f buf n pos
        | Leaf n => leaf_turn s f buf n pos
        end
      else Again s f
  | SExtent extent pos :: stack => extent_turn_wrap st s (set_stack f stack) buf extent pos
  end.
Fixpoint file_loop_wrap {S} (st : stream S) (fuel : nat) (s : S) (f : file) (buf : bytes) : option (S * file * bytes * res N) :=
  match fuel with
  | O => None
  | Datatypes.S fuel =>
      match file_turn_wrap st s f buf with
      | Return s f buf r => Some (s, f, buf, r)
      | Again s f => file_loop_wrap st fuel s f buf
      end
  end.
Definition read_next_block_wrap {S} (st : stream S) (fuel : nat) (s : S) (f : file) (buf : bytes)
  : option (S * file * bytes * res N) :=
  if len buf <? fs_block_size_wrap (fl_fs f) then Some (s, f, buf, Err InvalidInput) else file_loop_wrap st fuel s f buf.
Fixpoint run_file_wrap {S} (st : stream S) (fuel : nat) (s : S) (f : file) (bufs : list bytes)
  : option (S * file * list (bytes * bytes * res N)) :=
  match bufs with
  | [] => Some (s, f, [])
  | buf :: bufs =>
      match read_next_block_wrap st fuel s f buf with
      | None => None
      | Some (s, f, buf', Panic) => Some (s, f, [(buf, buf', Panic)])
      | Some (s, f, buf', r) =>
          match run_file_wrap st fuel s f bufs with
          | Some (s, f, calls) => Some (s, f, (buf, buf', r) :: calls)
          | None => None
          end
      end
  end.

(** ** src/ext4/directory/block.rs 12-46: [block.len() - tail_size]. *)
Definition dir_block_new_wrap (block : bytes) (seed : option N) : res (option dir_block) :=
  match seed with
  | Some seed =>
      let tail_size := layout_size entry_tail_layout in
      let tail_offset := wsub64 (len block) tail_size in
      let? tail := unwrap (slice_from block tail_offset) in
      if negb (fle entry_tail_layout "reserved_zero_1" tail =? 0)
         || negb (fle entry_tail_layout "record_length" tail =? tail_size)
         || negb (fle entry_tail_layout "reserved_zero_2" tail =? 0)
         || negb (fle entry_tail_layout "reserved_file_type" tail =? 0xde)
      then Ok None
      else
        let? covered := unwrap (slice_to block tail_offset) in
        if negb (fle entry_tail_layout "checksum" tail =? ext4_crc32c seed covered) then Ok None
        else Ok (Some (DirBlock block 0 tail_offset))
  | None => Ok (Some (DirBlock block 0 (len block)))
  end.

(** ** src/ext4/directory/directory.rs 39-78. *)
Section Listing.
  Context {S : Type} (st : stream S).
  Definition dir_next_block_wrap (fuel : nat) (s : S) (f : file) : option (S * file * res (option dir_block)) :=
    let bs := fs_block_size_wrap (fl_fs f) in
    match read_next_block_wrap st fuel s f (zeros bs) with
    | None => None
    | Some (s, f, storage, Ok bytes_read) =>
        Some (s, f,
          if bytes_read =? 0 then Ok None
          else if bytes_read =? bs then
            let? b := dir_block_new_wrap storage (in_seed (fl_inode f)) in
            match b with Some b => Ok (Some b) | None => Err InvalidData end
          else Err InvalidData)
    | Some (s, f, _, Err e) => Some (s, f, Err e)
    | Some (s, f, _, Panic) => Some (s, f, Panic)
    end.
  Definition dir_advance_wrap (fuel : nat) (s : S) (d : directory) : option (S * directory * res unit) :=
    match dir_next_block_wrap fuel s (dr_file d) with
    | None => None
    | Some (s, f, Ok (Some b)) => Some (s, Directory f (CbBlock b), Ok tt)
    | Some (s, f, Ok None) => Some (s, Directory f CbEnd, Ok tt)
    | Some (s, f, Err e) => Some (s, Directory f (dr_current d), Err e)
    | Some (s, f, Panic) => Some (s, Directory f (dr_current d), Panic)
    end.
  Fixpoint dir_loop_wrap (fuel turns : nat) (s : S) (d : directory) : option (S * directory * res (option bytes)) :=
    match turns with
    | O => None
    | Datatypes.S turns =>
        match dr_current d with
        | CbBlock b =>
            let '(b, r) := dir_block_next b in
            let d := Directory (dr_file d) (CbBlock b) in
            match r with
            | Ok (Some e) => Some (s, d, Ok (Some e))
            | Ok None =>
                match dir_advance_wrap fuel s d with
                | None => None
                | Some (s, d, Ok _) => dir_loop_wrap fuel turns s d
                | Some (s, d, Err e) => Some (s, d, Err e)
                | Some (s, d, Panic) => Some (s, d, Panic)
                end
            | Err e => Some (s, d, Err e)
            | Panic => Some (s, d, Panic)
            end
        | _ => Some (s, d, Ok None)
        end
    end.
  Definition dir_next_wrap (fuel : nat) (s : S) (d : directory) : option (S * directory * res (option bytes)) :=
    match dr_current d with
    | CbStart =>
        match dir_advance_wrap fuel s d with
        | None => None
        | Some (s, d, Ok _) => dir_loop_wrap fuel fuel s d
        | Some (s, d, Err e) => Some (s, d, Err e)
        | Some (s, d, Panic) => Some (s, d, Panic)
        end
    | _ => dir_loop_wrap fuel fuel s d
    end.
  Fixpoint run_dir_wrap (fuel n : nat) (s : S) (d : directory) : option (S * directory * list (res (option bytes))) :=
    match n with
    | O => Some (s, d, [])
    | Datatypes.S n =>
        match dir_next_wrap fuel s d with
        | None => None
        | Some (s, d, Panic) => Some (s, d, [Panic])
        | Some (s, d, r) =>
            match run_dir_wrap fuel n s d with
            | None => None
            | Some (s, d, rs) => Some (s, d, r :: rs)
            end
        end
    end.
End Listing.

(** ** src/ext4/fs.rs 75-81 and 129-131 *)
Definition open_file_wrap {S} (st : stream S) (try_clone : S -> S * res S) (f : fs) (number : N) : io S (S * any_file) :=
  fun s =>
    let '(s, clone) := try_clone s in
    match clone with
    | Ok clone =>
        let '(s, i) := fs_read_inode_wrap st f number s in
        (s, let? i := i in let? a := any_open f i in Ok (clone, a))
    | Err e => (s, Err e)
    | Panic => (s, Panic)
    end.

(** A session of a client, as in PropsExt4Flat. *)
Definition serve_wrap {S} (st : stream S) (clone : S -> S * res S) (f : fs) (s : S) (q : request) : S * outcome :=
  match q with
  | RqInode number => let '(s, r) := fs_read_inode_wrap st f number s in (s, OcInode r)
  | RqBlock number buf => let '(s, b, r) := fs_read_block_wrap st f number s buf in (s, OcBlock r b)
  | RqOpen number fuel bufs entries =>
      let '(s, r) := open_file_wrap st clone f number s in
      (s, match r with
          | Ok (own, AnyRegular g) => OcFile (match run_file_wrap st fuel own g bufs with Some (_, _, calls) => Some calls | None => None end)
          | Ok (own, AnyDirectory d) => OcDirectory (match run_dir_wrap st fuel entries own d with Some (_, _, rs) => Some rs | None => None end)
          | Ok (_, AnyUnsupported t) => OcOther t
          | Err e => OcError e
          | Panic => OcPanic
          end)
  end.
Fixpoint serve_all_wrap {S} (st : stream S) (clone : S -> S * res S) (f : fs) (s : S) (qs : list request) : list outcome :=
  match qs with
  | [] => []
  | q :: qs => let '(s, o) := serve_wrap st clone f s q in o :: serve_all_wrap st clone f s qs
  end.
Definition session_wrap {S} (st : stream S) (clone : S -> S * res S) (s : S) (qs : list request) : res (list outcome) :=
  let '(s, r) := fs_open_wrap st s in let? f := r in Ok (serve_all_wrap st clone f s qs).
