(** Model of src/ext/read_all.rs: reading a stream to its end. *)

From Verif Require Import Base Io Interrupt.

(** [std::io::Read::read_to_end], the default implementation ([default_read_to_end]), which all readers here use: offer the
    spare capacity of the vector, append what was read, stop at a read of 0 bytes; interrupted reads are repeated; a reader
    claiming more bytes than fit panics.  How much room is offered, and what is in it, is left to [room], which sees what has
    been read so far and the number of the call; the standard library offers at least 32 bytes, or fewer in a vector that
    was allocated with less, but never none.  [None]: still running after [fuel] calls. *)
Fixpoint read_to_end {S} (st : stream S) (room : bytes -> N -> bytes) (fuel : nat) (s : S) (i : N) (acc : bytes)
  : option (S * bytes * res N) :=
  match fuel with
  | O => None
  | Datatypes.S fuel =>
      let '(s, buf, r) := st_read st s (room acc i) in
      if interrupted r then read_to_end st room fuel s (i + 1) acc
      else
        match r with
        | Ok n =>
            if n =? 0 then Some (s, acc, Ok (len acc))
            else if n <=? len buf then read_to_end st room fuel s (i + 1) (acc ++ firstn (N.to_nat n) buf)
            else Some (s, acc, Panic)
        | Err e => Some (s, acc, Err e)
        | Panic => Some (s, acc, Panic)
        end
  end.

(** read_all.rs 8-13, [ReadAll::read_all]: what was read before an error is dropped. *)
Definition read_all {S} (st : stream S) (room : bytes -> N -> bytes) (fuel : nat) (s : S) : option (S * res bytes) :=
  match read_to_end st room fuel s 0 [] with
  | Some (s, buf, r) => Some (s, let? _ := r in Ok buf)
  | None => None
  end.
