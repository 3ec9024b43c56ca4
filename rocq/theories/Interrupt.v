(** Model of what src/block_device/internal.rs leaves to the standard library: [read_exact] as it is written there, with
    interrupted system calls.  Io.v has the same functions without interruptions; PropsInterrupt.v relates the two. *)

From Verif Require Import Base Io.

(** [ErrorKind::Interrupted] on Unix is the error number EINTR, which is 4 on Linux. *)
Definition interrupted {A} (r : res A) : bool :=
  match r with Err (OsError e) => e =? 4 | _ => false end.

(** [std::io::default_read_exact], the loop as it is written:
    [while !buf.is_empty() { match this.read(buf) { Ok(0) => break, Ok(n) => buf = &mut buf[n..],
    Err(ref e) if e.is_interrupted() => {} Err(e) => return Err(e) } }], then [UnexpectedEof] unless the buffer is full.
    [None]: still running after [fuel] calls. *)
Fixpoint read_exact_std {S} (rd : S -> bytes -> S * bytes * res N) (fuel : nat) (s : S) (buf : bytes)
  : option (S * bytes * res unit) :=
  match buf with
  | [] => Some (s, [], Ok tt)
  | _ =>
      match fuel with
      | O => None
      | Datatypes.S fuel =>
          let '(s', buf', r) := rd s buf in
          if interrupted r then read_exact_std rd fuel s' buf'
          else
            match r with
            | Ok n =>
                if n =? 0 then Some (s', buf', Err UnexpectedEof)
                else if n <=? len buf' then
                  match read_exact_std rd fuel s' (skipn (N.to_nat n) buf') with
                  | Some (s'', rest, r) => Some (s'', firstn (N.to_nat n) buf' ++ rest, r)
                  | None => None
                  end
                else Some (s', buf', Panic)
            | Err e => Some (s', buf', Err e)
            | Panic => Some (s', buf', Panic)
            end
      end
  end.

(** src/block_device/internal.rs 11-29, [InternalFile::read_block]; lseek(2) is not interrupted. *)
Definition internal_read_block_std (pol : io_policy) (fuel : nat) (f : osfile) (block bs : N) (buf : bytes)
  : option (osfile * bytes * res N) :=
  if len buf <? bs then Some (f, buf, Err InvalidInput)
  else
    match byte_pos block bs with
    | None => Some (f, buf, Err InvalidData)
    | Some o =>
        let '(f, r) := os_seek f (SeekStart o) in
        match r with
        | Ok _ =>
            match read_exact_std (os_read pol) fuel f (firstn (N.to_nat bs) buf) with
            | Some (f, b, r) => Some (f, b ++ skipn (N.to_nat bs) buf, let? _ := r in Ok bs)
            | None => None
            end
        | Err e => Some (f, buf, Err e)
        | Panic => Some (f, buf, Panic)
        end
    end.

(** src/block_device/file.rs 43-49. *)
Definition filedev_read_std (pol : io_policy) (fuel : nat) (d : filedev) (n : N) (buf : bytes) : option (filedev * bytes * res N) :=
  match internal_read_block_std pol fuel (fd_file d) n (fd_bs d) buf with
  | Some (f, b, r) => Some (FileDev f (fd_bs d), b, r)
  | None => None
  end.

(** src/block_device/native.rs 39-43; the ioctl is not retried. *)
Definition native_read_std (pol : io_policy) (fuel : nat) (f : osfile) (n : N) (buf : bytes) : option (osfile * bytes * res N) :=
  match os_pbsz f with
  | Ok bs => internal_read_block_std pol fuel f n bs buf
  | Err e => Some (f, buf, Err e)
  | Panic => Some (f, buf, Panic)
  end.
