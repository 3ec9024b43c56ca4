(** Model of src/ext4/file.rs and src/ext4/regular_file.rs: reading the blocks of a file in order. *)

From Verif Require Import Base Io Superblock Ext4Superblock Ext4Inode Ext4Fs Ext4Extent.

(** 44-53, [ReadStackEntry]. *)
Inductive stack_entry : Type :=
| STree (t : tree) (pos : N)
| SExtent (extent : bytes) (pos : N).

(** 33-42, [Ext4FileInternal]; the device of its file system is passed separately, as the state of a stream.  The top of
    the stack is the head of the list. *)
Record file : Type := File { fl_fs : fs; fl_inode : inode; fl_stack : list stack_entry; fl_block : N; fl_byte : N }.

Definition set_stack (f : file) (stack : list stack_entry) : file :=
  File (fl_fs f) (fl_inode f) stack (fl_block f) (fl_byte f).

(** 59-71, and regular_file.rs 16-18. *)
Definition file_open (f : fs) (i : inode) : res file :=
  let? t := ok_or (tree_from_inode i) Unsupported in
  Ok (File f i [STree t 0] 0 0).

(** 73-79, and regular_file.rs 20-22. *)
Definition file_block_size (f : file) : res N := fs_block_size (fl_fs f).
Definition file_size_bytes (f : file) : N := in_file_size_bytes (fl_inode f).

(** One turn of the loop of [read_next_block], 87-155: the call returns, or the loop goes on. *)
Inductive turn (S : Type) : Type :=
| Return (s : S) (f : file) (buf : bytes) (r : res N)
| Again (s : S) (f : file).
Arguments Return {S}.
Arguments Again {S}.

(** 98-114.  [f] has the entry popped off its stack already. *)
Definition branch_turn {S} (st : stream S) (s : S) (f : file) (buf : bytes) (n : node) (pos : N) : turn S :=
  match nd_entry_at n pos with
  | Ok (Some index) =>
      if negb (ix_block index =? fl_block f) then Return s f buf (Err InvalidData)
      else
        match fs_block_size (fl_fs f) with
        | Ok bs =>
            let '(s, block, r) := fs_read_block st (fl_fs f) (ix_leaf index) s (zeros bs) in
            match r with
            | Ok _ => Again s (set_stack f (STree (tree_from_block (fl_inode f) block) 0 :: STree (Branch n) (pos + 1) :: fl_stack f))
            | Err e => Return s f buf (Err e)
            | Panic => Return s f buf Panic
            end
        | Err e => Return s f buf (Err e)
        | Panic => Return s f buf Panic
        end
  | Ok None => Return s f buf Panic
  | Err e => Return s f buf (Err e)
  | Panic => Return s f buf Panic
  end.

(** 115-128. *)
Definition leaf_turn {S} (s : S) (f : file) (buf : bytes) (n : node) (pos : N) : turn S :=
  match nd_entry_at n pos with
  | Ok (Some extent) =>
      if negb (ex_first_file_block extent =? fl_block f) then Return s f buf (Err InvalidData)
      else Again s (set_stack f (SExtent extent 0 :: STree (Leaf n) (pos + 1) :: fl_stack f))
  | Ok None => Return s f buf Panic
  | Err e => Return s f buf (Err e)
  | Panic => Return s f buf Panic
  end.

(** 132-154.  The additions to the block position (32 bits) and to the device block number panic on overflow. *)
Definition extent_turn {S} (st : stream S) (s : S) (f : file) (buf : bytes) (extent : bytes) (pos : N) : turn S :=
  if pos <? ex_length extent then
    if file_size_bytes f <=? fl_byte f then Return s f buf (Err InvalidData)
    else
      match unwrap (cadd64 (ex_first_fs_block extent) pos) with
      | Ok block =>
          let '(s, buf, r) := fs_read_block st (fl_fs f) block s buf in
          match r with
          | Ok _ =>
              match fs_block_size (fl_fs f) with
              | Ok bs =>
                  let bytes_read := N.min (file_size_bytes f - fl_byte f) bs in
                  match unwrap (cadd32 (fl_block f) 1) with
                  | Ok block_pos =>
                      Return s (File (fl_fs f) (fl_inode f) (SExtent extent (pos + 1) :: fl_stack f) block_pos
                                     (fl_byte f + bytes_read)) buf (Ok bytes_read)
                  | Err e => Return s f buf (Err e)
                  | Panic => Return s f buf Panic
                  end
              | Err e => Return s f buf (Err e)
              | Panic => Return s f buf Panic
              end
          | Err e => Return s f buf (Err e)
          | Panic => Return s f buf Panic
          end
      | Err e => Return s f buf (Err e)
      | Panic => Return s f buf Panic
      end
  else Again s f.

Definition file_turn {S} (st : stream S) (s : S) (f : file) (buf : bytes) : turn S :=
  match fl_stack f with
  | [] => Return s f buf (if fl_byte f =? file_size_bytes f then Ok 0 else Err UnexpectedEof)
  | STree t pos :: stack =>
      let f := set_stack f stack in
      if pos <? tree_entry_count t then
        match t with
        | Branch n => branch_turn st s f buf n pos
        | Leaf n => leaf_turn s f buf n pos
        end
      else Again s f
  | SExtent extent pos :: stack => extent_turn st s (set_stack f stack) buf extent pos
  end.

(** 86-156: the loop, for at most [fuel] turns; [None]: it still runs. *)
Fixpoint file_loop {S} (st : stream S) (fuel : nat) (s : S) (f : file) (buf : bytes) : option (S * file * bytes * res N) :=
  match fuel with
  | O => None
  | Datatypes.S fuel =>
      match file_turn st s f buf with
      | Return s f buf r => Some (s, f, buf, r)
      | Again s f => file_loop st fuel s f buf
      end
  end.

(** 81-157, and regular_file.rs 24-26. *)
Definition read_next_block {S} (st : stream S) (fuel : nat) (s : S) (f : file) (buf : bytes)
  : option (S * file * bytes * res N) :=
  match file_block_size f with
  | Ok bs => if len buf <? bs then Some (s, f, buf, Err InvalidInput) else file_loop st fuel s f buf
  | Err e => Some (s, f, buf, Err e)
  | Panic => Some (s, f, buf, Panic)
  end.

(** A sequence of calls, one per buffer; it ends with a panic.  Each call may take [fuel] turns. *)
Fixpoint run_file {S} (st : stream S) (fuel : nat) (s : S) (f : file) (bufs : list bytes)
  : option (S * file * list (bytes * bytes * res N)) :=
  match bufs with
  | [] => Some (s, f, [])
  | buf :: bufs =>
      match read_next_block st fuel s f buf with
      | None => None
      | Some (s, f, buf', Panic) => Some (s, f, [(buf, buf', Panic)])
      | Some (s, f, buf', r) =>
          match run_file st fuel s f bufs with
          | Some (s, f, calls) => Some (s, f, (buf, buf', r) :: calls)
          | None => None
          end
      end
  end.
