(** Model of src/ext4/directory: blocks of directories and listing them; and of opening files. *)

From Coq Require Import Strings.String.
From Verif Require Import Base Io Superblock Crc Ext4Superblock Ext4Inode Ext4Fs Ext4Extent Ext4File Ext4String.

(** ** src/ext4/directory/dir_entry.rs *)

(** 7-13; the last field, [name], is what follows. *)
Definition entry_layout : layout := [("inode", 4); ("record_length", 2); ("name_length", 1); ("file_type", 1)]%string.

(** 15-29: an entry is its record; the second result is the rest of the buffer. *)
Definition entry_from_buf (buf : bytes) : option bytes * bytes :=
  if layout_size entry_layout <=? len buf then
    let record_length := fle entry_layout "record_length" buf in
    let name_length := fle entry_layout "name_length" buf in
    if (record_length <=? len buf) && (layout_size entry_layout + name_length <=? record_length)
    then (Some (window buf 0 record_length), skipn (N.to_nat record_length) buf)
    else (None, buf)
  else (None, buf).

(** 33-35. *)
Definition entry_name (e : bytes) : bytes := from_null_terminated (skipn (N.to_nat (layout_size entry_layout)) e).
(** 37-39. *)
Definition entry_file_type (e : bytes) : inline_type := inline_type_of (fle entry_layout "file_type" e).
(** 41-43. *)
Definition entry_inode (e : bytes) : N := fle entry_layout "inode" e.

(** ** src/ext4/directory/dir_entry_tail.rs 3-9 *)
Definition entry_tail_layout : layout :=
  [("reserved_zero_1", 4); ("record_length", 2); ("reserved_zero_2", 1); ("reserved_file_type", 1); ("checksum", 4)]%string.

(** ** src/ext4/directory/block.rs *)

(** 5-9. *)
Record dir_block : Type := DirBlock { db_storage : bytes; db_pos : N; db_len : N }.

(** 12-46. *)
Definition dir_block_new (block : bytes) (seed : option N) : res (option dir_block) :=
  match seed with
  | Some seed =>
      let tail_size := layout_size entry_tail_layout in
      let? tail_offset := unwrap (csub64 (len block) tail_size) in
      let? tail := unwrap (slice_from block tail_offset) in
      if negb (fle entry_tail_layout "reserved_zero_1" tail =? 0)
         || negb (fle entry_tail_layout "record_length" tail =? tail_size)
         || negb (fle entry_tail_layout "reserved_zero_2" tail =? 0)
         || negb (fle entry_tail_layout "reserved_file_type" tail =? 0xde)
      then Ok None
      else
        let? covered := unwrap (slice_to block tail_offset) in
        if negb (fle entry_tail_layout "checksum" tail =? ext4_crc32c seed covered) then Ok None
        else Ok (Some (DirBlock block 0 tail_offset))
  | None => Ok (Some (DirBlock block 0 (len block)))
  end.

(** 48-53.  The new position is the distance of the rest, which ends at [db_len], from the start of the block. *)
Definition dir_block_next (d : dir_block) : dir_block * res (option bytes) :=
  if (db_pos d <=? db_len d) && (db_len d <=? len (db_storage d)) then
    let '(entry, rest) := entry_from_buf (window (db_storage d) (db_pos d) (db_len d - db_pos d)) in
    (DirBlock (db_storage d) (db_len d - len rest) (db_len d), Ok entry)
  else (d, Panic).

(** A sequence of [n] calls. *)
Fixpoint run_block (n : nat) (d : dir_block) : list (res (option bytes)) :=
  match n with
  | O => []
  | S n => let '(d, r) := dir_block_next d in r :: run_block n d
  end.

(** ** src/ext4/directory/directory.rs *)

(** 18-22. *)
Inductive current_block : Type := CbStart | CbBlock (b : dir_block) | CbEnd.
(** 10-16. *)
Record directory : Type := Directory { dr_file : file; dr_current : current_block }.

(** 28-37. *)
Definition dir_open (f : fs) (i : inode) : res directory :=
  if contains (in_flags i) flag_hash_indexed then Err Unsupported
  else let? file := file_open f i in Ok (Directory file CbStart).

Section Listing.
  Context {S : Type} (st : stream S).

  (** 61-78. *)
  Definition dir_next_block (fuel : nat) (s : S) (f : file) : option (S * file * res (option dir_block)) :=
    match file_block_size f with
    | Ok bs =>
        match read_next_block st fuel s f (zeros bs) with
        | None => None
        | Some (s, f, storage, Ok bytes_read) =>
            Some (s, f,
              if bytes_read =? 0 then Ok None
              else if bytes_read =? bs then
                let? b := dir_block_new storage (in_seed (fl_inode f)) in
                match b with Some b => Ok (Some b) | None => Err InvalidData end
              else Err InvalidData)
        | Some (s, f, _, Err e) => Some (s, f, Err e)
        | Some (s, f, _, Panic) => Some (s, f, Panic)
        end
    | Err e => Some (s, f, Err e)
    | Panic => Some (s, f, Panic)
    end.

  (** 40-45 and 51-54: read a block and make it the current one; an error leaves the current one as it is. *)
  Definition dir_advance (fuel : nat) (s : S) (d : directory) : option (S * directory * res unit) :=
    match dir_next_block fuel s (dr_file d) with
    | None => None
    | Some (s, f, Ok (Some b)) => Some (s, Directory f (CbBlock b), Ok tt)
    | Some (s, f, Ok None) => Some (s, Directory f CbEnd, Ok tt)
    | Some (s, f, Err e) => Some (s, Directory f (dr_current d), Err e)
    | Some (s, f, Panic) => Some (s, Directory f (dr_current d), Panic)
    end.

  (** 47-58: the loop, for at most [turns] turns; each block may take [fuel] turns to read. *)
  Fixpoint dir_loop (fuel turns : nat) (s : S) (d : directory) : option (S * directory * res (option bytes)) :=
    match turns with
    | O => None
    | Datatypes.S turns =>
        match dr_current d with
        | CbBlock b =>
            let '(b, r) := dir_block_next b in
            let d := Directory (dr_file d) (CbBlock b) in
            match r with
            | Ok (Some e) => Some (s, d, Ok (Some e))
            | Ok None =>
                match dir_advance fuel s d with
                | None => None
                | Some (s, d, Ok _) => dir_loop fuel turns s d
                | Some (s, d, Err e) => Some (s, d, Err e)
                | Some (s, d, Panic) => Some (s, d, Panic)
                end
            | Err e => Some (s, d, Err e)
            | Panic => Some (s, d, Panic)
            end
        | _ => Some (s, d, Ok None)
        end
    end.

  (** 39-59. *)
  Definition dir_next (fuel : nat) (s : S) (d : directory) : option (S * directory * res (option bytes)) :=
    match dr_current d with
    | CbStart =>
        match dir_advance fuel s d with
        | None => None
        | Some (s, d, Ok _) => dir_loop fuel fuel s d
        | Some (s, d, Err e) => Some (s, d, Err e)
        | Some (s, d, Panic) => Some (s, d, Panic)
        end
    | _ => dir_loop fuel fuel s d
    end.

  (** A sequence of [n] calls; it ends with a panic. *)
  Fixpoint run_dir (fuel n : nat) (s : S) (d : directory) : option (S * directory * list (res (option bytes))) :=
    match n with
    | O => Some (s, d, [])
    | Datatypes.S n =>
        match dir_next fuel s d with
        | None => None
        | Some (s, d, Panic) => Some (s, d, [Panic])
        | Some (s, d, r) =>
            match run_dir fuel n s d with
            | None => None
            | Some (s, d, rs) => Some (s, d, r :: rs)
            end
        end
    end.
End Listing.

(** ** src/ext4/file.rs 11-31 and src/ext4/fs.rs 129-131 *)

(** 11-18, [Ext4File]. *)
Inductive any_file : Type :=
| AnyDirectory (d : directory)
| AnyRegular (f : file)
| AnyUnsupported (t : file_type).

(** 24-30. *)
Definition any_open (f : fs) (i : inode) : res any_file :=
  match in_file_type i with
  | FtRegularFile => let? f := file_open f i in Ok (AnyRegular f)
  | FtDirectory => let? d := dir_open f i in Ok (AnyDirectory d)
  | t => Ok (AnyUnsupported t)
  end.

(** fs.rs 75-81 and 129-131.  [try_clone] of the device is a parameter; the clone is the device of the opened file.  It is
    made first, so that an error in it comes before one in reading the inode. *)
Definition open_file {S} (st : stream S) (try_clone : S -> S * res S) (f : fs) (number : N) : io S (S * any_file) :=
  fun s =>
    let '(s, clone) := try_clone s in
    match clone with
    | Ok clone =>
        let '(s, i) := fs_read_inode st f number s in
        (s, let? i := i in let? a := any_open f i in Ok (clone, a))
    | Err e => (s, Err e)
    | Panic => (s, Panic)
    end.
