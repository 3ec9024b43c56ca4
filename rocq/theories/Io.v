(** Model of src/block_device: byte streams, block devices, the operating-system file,
    the in-memory device and the block reader. *)

From Verif Require Import Base.

(** [std::io::SeekFrom]. *)
Inductive seek_from : Type :=
| SeekStart (o : N)
| SeekEnd (o : Z)
| SeekCurrent (o : Z).

(** The traits [Read + Seek].  A call gives the new state, the new buffer contents
    (same length as the old) and the result. *)
Record stream (S : Type) : Type := Stream {
  st_read : S -> bytes -> S * bytes * res N;
  st_seek : S -> seek_from -> S * res N
}.
Arguments Stream {S}.
Arguments st_read {S}.
Arguments st_seek {S}.

(** src/block_device/block_device.rs 4-12, trait [BlockDevice]. *)
Record blockdev (S : Type) : Type := Blockdev {
  bd_size : S -> res N;
  bd_count : S -> res N;
  bd_read : S -> N -> bytes -> S * bytes * res N;
  bd_clone : S -> res S
}.
Arguments Blockdev {S}.
Arguments bd_size {S}.
Arguments bd_count {S}.
Arguments bd_read {S}.
Arguments bd_clone {S}.

(** Continue after a call on a state with a buffer. *)
Definition sbind {S B A C} (m : S * B * res A) (k : S -> B -> A -> S * B * res C) : S * B * res C :=
  let '(s, b, r) := m in
  match r with
  | Ok a => k s b a
  | Err e => (s, b, Err e)
  | Panic => (s, b, Panic)
  end.

(** [std::io::Read::read_exact], the default implementation ([default_read_exact]), which
    [std::fs::File] and all readers here use: read until the buffer is full; a read of 0 bytes is
    UnexpectedEof; a reader claiming more bytes than fit makes [&mut buf[n..]] panic.
    Interrupted reads are retried by std: see Interrupt.v.  Every successful round consumes at least
    one byte, so [length buf] rounds are enough; the last arm is never reached. *)
Fixpoint read_exact_loop {S} (rd : S -> bytes -> S * bytes * res N) (fuel : nat) (s : S) (buf : bytes)
  : S * bytes * res unit :=
  match buf with
  | [] => (s, [], Ok tt)
  | _ =>
      match fuel with
      | O => (s, buf, Panic)
      | Datatypes.S fuel =>
          sbind (rd s buf) (fun s' buf' n =>
            if n =? 0 then (s', buf', Err UnexpectedEof)
            else if n <=? len buf' then
              let '(s'', rest, r) := read_exact_loop rd fuel s' (skipn (N.to_nat n) buf') in
              (s'', firstn (N.to_nat n) buf' ++ rest, r)
            else (s', buf', Panic))
      end
  end.
Definition read_exact {S} (st : stream S) (s : S) (buf : bytes) : S * bytes * res unit :=
  read_exact_loop (st_read st) (length buf) s buf.

(** ** The operating system's file *)

(** What the operating system decides at a [read] call: fail, or how much to transfer. *)
Inductive io_choice : Type :=
| IoFail (errno : N)
| IoXfer (k : N).

(** A policy sees how many calls were made before, the cursor and the requested length. *)
Definition io_policy := N -> N -> N -> io_choice.

(** An open file description: contents, cursor, number of [read] calls so far, and whether seeking
    beyond the end is refused (block devices) or not (regular files).
    [os_pbsz]/[os_size64] are the answers of the ioctls BLKPBSZGET and BLKGETSIZE64. *)
Record osfile : Type := OsFile {
  os_content : bytes;
  os_pos : N;
  os_clock : N;
  os_fixed : bool;
  os_pbsz : res N;
  os_size64 : res N
}.

Definition os_set (f : osfile) (pos clock : N) : osfile :=
  OsFile (os_content f) pos clock (os_fixed f) (os_pbsz f) (os_size64 f).

(** read(2): transfers at least one byte unless at the end or asked for none. *)
Definition os_read (pol : io_policy) (f : osfile) (buf : bytes) : osfile * bytes * res N :=
  let clock := os_clock f in
  let avail := N.min (len buf) (len (os_content f) - os_pos f) in
  match pol clock (os_pos f) (len buf) with
  | IoFail errno => (os_set f (os_pos f) (clock + 1), buf, Err (OsError errno))
  | IoXfer k =>
      let k := N.min avail (N.max 1 k) in
      (os_set f (os_pos f + k) (clock + 1),
       window (os_content f) (os_pos f) k ++ skipn (N.to_nat k) buf, Ok k)
  end.

(** lseek(2) as called by [std::fs::File::seek]: [SeekFrom::Start] is cast to [i64]; negative targets are
    EINVAL (ErrorKind::InvalidInput); targets beyond [i64::MAX] are EOVERFLOW; block devices refuse
    targets beyond their end with EINVAL. *)
Definition os_seek (f : osfile) (p : seek_from) : osfile * res N :=
  let target :=
    match p with
    | SeekStart o => if o <=? i64_max then Ok (Z.of_N o) else Err InvalidInput
    | SeekEnd o => Ok (Z.of_N (len (os_content f)) + o)%Z
    | SeekCurrent o => Ok (Z.of_N (os_pos f) + o)%Z
    end in
  match target with
  | Ok z =>
      if (z <? 0)%Z then (f, Err InvalidInput)
      else if (Z.of_N i64_max <? z)%Z then (f, Err (OsError 75))
      else if os_fixed f && (len (os_content f) <? Z.to_N z) then (f, Err InvalidInput)
      else (os_set f (Z.to_N z) (os_clock f), Ok (Z.to_N z))
  | Err e => (f, Err e)
  | Panic => (f, Panic)
  end.

Definition os_stream (pol : io_policy) : stream osfile := Stream (os_read pol) os_seek.

(** ** Units *)

(** src/block_device/block_number.rs 11-13, [BlockNumber::byte_pos]. *)
Definition byte_pos (block bs : N) : option N := cmul64 block bs.

(** src/block_device/block_count.rs 25-27, [BlockCount::size_bytes]. *)
Definition size_bytes (count bs : N) : option N := cmul64 count bs.

(** ** src/block_device/internal.rs *)

(** 11-29, [InternalFile::read_block]. *)
Definition internal_read_block (pol : io_policy) (f : osfile) (block bs : N) (buf : bytes)
  : osfile * bytes * res N :=
  if len buf <? bs then (f, buf, Err InvalidInput)
  else
    match byte_pos block bs with
    | None => (f, buf, Err InvalidData)
    | Some o =>
        let '(f, r) := os_seek f (SeekStart o) in
        match r with
        | Ok _ =>
            let '(f, b, r) := read_exact (os_stream pol) f (firstn (N.to_nat bs) buf) in
            (f, b ++ skipn (N.to_nat bs) buf, let? _ := r in Ok bs)
        | Err e => (f, buf, Err e)
        | Panic => (f, buf, Panic)
        end
    end.

(** ** src/block_device/file.rs *)

(** 10-13, [FileBlockDevice].  [File::try_clone] duplicates the descriptor: the clone shares the cursor of
    the original.  The state of one handle is the state of the shared description; C05 treats several
    handles on one description. *)
Record filedev : Type := FileDev { fd_file : osfile; fd_bs : N }.

(** 28-53.  [metadata().size()] is the length of the contents.  The division panics on block size 0. *)
Definition filedev_block (pol : io_policy) : blockdev filedev := {|
  bd_size d := Ok (fd_bs d);
  bd_count d := unwrap (cdiv64 (len (os_content (fd_file d))) (fd_bs d));
  bd_read d n buf :=
    let '(f, b, r) := internal_read_block pol (fd_file d) n (fd_bs d) buf in
    (FileDev f (fd_bs d), b, r);
  bd_clone d := Ok d
|}.

(** 55-65. *)
Definition filedev_stream (pol : io_policy) : stream filedev := {|
  st_read d buf := let '(f, b, r) := os_read pol (fd_file d) buf in (FileDev f (fd_bs d), b, r);
  st_seek d p := let '(f, r) := os_seek (fd_file d) p in (FileDev f (fd_bs d), r)
|}.

(** ** src/block_device/native.rs *)

(** 26-48, [NativeBlockDevice]; block size and size come from the ioctls. *)
Definition native_block (pol : io_policy) : blockdev osfile := {|
  bd_size := os_pbsz;
  bd_count f :=
    let? sz := os_size64 f in
    let? bs := os_pbsz f in
    unwrap (cdiv64 sz bs);
  bd_read f n buf :=
    match os_pbsz f with
    | Ok bs => internal_read_block pol f n bs buf
    | Err e => (f, buf, Err e)
    | Panic => (f, buf, Panic)
    end;
  bd_clone f := Ok f
|}.

(** 50-60. *)
Definition native_stream (pol : io_policy) : stream osfile := os_stream pol.

(** ** src/block_device/in_memory.rs *)

(** 6-10, [InMemoryBlockDevice]. *)
Record memdev : Type := MemDev { m_mem : bytes; m_pos : N; m_bs : N }.

(** 13-19, [InMemoryBlockDevice::new]. *)
Definition mem_new (mem : bytes) (bs : N) : memdev := MemDev mem 0 bs.

(** [buf.copy_from_slice(src)]; [None] is the length-mismatch panic. *)
Definition copy_from_slice (buf src : bytes) : option bytes :=
  if len buf =? len src then Some src else None.

(** 22-52. *)
Definition mem_block : blockdev memdev := {|
  bd_size d := Ok (m_bs d);
  bd_count d := unwrap (cdiv64 (len (m_mem d)) (m_bs d));
  bd_read d n buf :=
    if len buf <? m_bs d then (d, buf, Err InvalidInput)
    else
      match byte_pos n (m_bs d) with
      | None => (d, buf, Err InvalidInput)
      | Some o =>
          match sub (m_mem d) o (m_bs d) with
          | None => (d, buf, Panic)
          | Some src =>
              match copy_from_slice buf src with
              | None => (d, buf, Panic)
              | Some b => (d, b, Ok (m_bs d))
              end
          end
      end;
  bd_clone d := Ok d
|}.

(** [usize::saturating_add_signed]. *)
Definition sat_add_signed (a : N) (d : Z) : N :=
  Z.to_N (Z.min (Z.of_N u64_max) (Z.max 0 (Z.of_N a + d))).

(** 54-78. *)
Definition mem_stream : stream memdev := {|
  st_read d buf :=
    let available := len (m_mem d) - m_pos d in
    let to_read := N.min (len buf) available in
    match sub (m_mem d) (m_pos d) to_read with
    | None => (d, buf, Panic)
    | Some src =>
        (MemDev (m_mem d) (m_pos d + to_read) (m_bs d), src ++ skipn (N.to_nat to_read) buf, Ok to_read)
    end;
  st_seek d p :=
    let pos :=
      match p with
      | SeekStart o => o
      | SeekEnd o => sat_add_signed (len (m_mem d)) o
      | SeekCurrent o => sat_add_signed (m_pos d) o
      end in
    let pos := N.min pos (len (m_mem d)) in
    (MemDev (m_mem d) pos (m_bs d), Ok pos)
|}.

(** ** src/block_device/reader.rs *)

(** 9-13, [BlockDeviceReader]. *)
Record reader (D : Type) : Type := Reader { r_dev : D; r_block : N; r_byte : N }.
Arguments Reader {D}.
Arguments r_dev {D}.
Arguments r_block {D}.
Arguments r_byte {D}.

(** 16-22, [BlockDeviceReader::new]. *)
Definition reader_new {D} (d : D) : reader D := Reader d 0 0.

(** 25-45. *)
Definition reader_block {D} (ops : blockdev D) : blockdev (reader D) := {|
  bd_size r := bd_size ops (r_dev r);
  bd_count r := bd_count ops (r_dev r);
  bd_read r n buf :=
    let '(d, b, x) := bd_read ops (r_dev r) n buf in (Reader d (r_block r) (r_byte r), b, x);
  bd_clone r := let? d := bd_clone ops (r_dev r) in Ok (Reader d (r_block r) (r_byte r))
|}.

(** 48-64, [Read::read].  The subtraction [block_size - self.byte_pos] and the addition to [block_pos]
    panic on overflow. *)
Definition reader_read {D} (ops : blockdev D) (r : reader D) (buf : bytes) : reader D * bytes * res N :=
  match bd_count ops (r_dev r) with
  | Err e => (r, buf, Err e)
  | Panic => (r, buf, Panic)
  | Ok count =>
      if count <=? r_block r then (r, buf, Ok 0)
      else
        match bd_size ops (r_dev r) with
        | Err e => (r, buf, Err e)
        | Panic => (r, buf, Panic)
        | Ok bs =>
            let '(d, block, x) := bd_read ops (r_dev r) (r_block r) (zeros bs) in
            let r := Reader d (r_block r) (r_byte r) in
            match x with
            | Err e => (r, buf, Err e)
            | Panic => (r, buf, Panic)
            | Ok _ =>
                match csub64 bs (r_byte r) with
                | None => (r, buf, Panic)
                | Some room =>
                    let k := N.min (len buf) room in
                    match sub block (r_byte r) k with
                    | None => (r, buf, Panic)
                    | Some src =>
                        let buf := src ++ skipn (N.to_nat k) buf in
                        let byte := r_byte r + k in
                        if bs <=? byte then
                          match cadd64 (r_block r) 1 with
                          | None => (r, buf, Panic)
                          | Some next => (Reader d next 0, buf, Ok k)
                          end
                        else (Reader d (r_block r) byte, buf, Ok k)
                    end
                end
            end
        end
  end.

(** 68-96, [Seek::seek]; [div_rem] panics on block size 0. *)
Definition reader_seek {D} (ops : blockdev D) (r : reader D) (p : seek_from) : reader D * res N :=
  let new_pos :=
    match p with
    | SeekStart o => Ok o
    | SeekEnd o =>
        let? count := bd_count ops (r_dev r) in
        let? bs := bd_size ops (r_dev r) in
        let? size := ok_or (size_bytes count bs) InvalidData in
        ok_or (cadd_signed64 size o) InvalidInput
    | SeekCurrent o =>
        let? bs := bd_size ops (r_dev r) in
        let? b := ok_or (byte_pos (r_block r) bs) InvalidData in
        let? p := ok_or (cadd64 b (r_byte r)) InvalidData in
        ok_or (cadd_signed64 p o) InvalidInput
    end in
  let moved :=
    let? pos := new_pos in
    let? bs := bd_size ops (r_dev r) in
    let? block := unwrap (cdiv64 pos bs) in
    let? byte := unwrap (crem64 pos bs) in
    Ok (pos, block, byte) in
  match moved with
  | Ok (pos, block, byte) => (Reader (r_dev r) block byte, Ok pos)
  | Err e => (r, Err e)
  | Panic => (r, Panic)
  end.

Definition reader_stream {D} (ops : blockdev D) : stream (reader D) :=
  Stream (reader_read ops) (reader_seek ops).
