(** Model of src/main.rs and of [MdDevice::open_path]: the program from its arguments to what it prints. *)

From Verif Require Import Base Io Raid Superblock Device Array.

(** [File::open] for each path (src/block_device/native.rs 15-17): an error or an open file. *)
Definition opener : Type := bytes -> res osfile.

(** src/md/device/device.rs 28-33 and 40-87, [open_path] and [from_block_device].  The size is asked for before the
    identifier is made, so that failures up to there use up no identifier; [classify] asks again, and gets the same answer.
    [pol] is the behaviour of the operating system for this file. *)
Definition open_path (pol : io_policy) (open : opener) (counter : N) (path : bytes)
  : N * res (device_id * md_device osfile) :=
  match open path with
  | Err e => (counter, Err e)
  | Panic => (counter, Panic)
  | Ok f =>
      match device_size (native_block pol) f with
      | Err e => (counter, Err e)
      | Panic => (counter, Panic)
      | Ok _ =>
          let '(counter, id) := id_new counter (Some path) in
          match id with
          | Err e => (counter, Err e)
          | Panic => (counter, Panic)
          | Ok id =>
              let '(f, cls) := classify (native_block pol) (native_stream pol) f in
              (counter, let? cls := cls in Ok (id, MdDevice (id_index id) cls f))
          end
      end
  end.

(** src/main.rs 31-35: [map] and [partition_result].  All paths are opened, in order; a panic ends the program. *)
Fixpoint open_paths (pol : bytes -> io_policy) (open : opener) (counter : N) (paths : list bytes)
  : res (list (device_id * md_device osfile) * list (bytes * ekind)) :=
  match paths with
  | [] => Ok ([], [])
  | path :: paths =>
      let '(counter, r) := open_path (pol path) open counter path in
      match r with
      | Panic => Panic
      | Ok d => let? (devices, errors) := open_paths pol open counter paths in Ok (d :: devices, errors)
      | Err e => let? (devices, errors) := open_paths pol open counter paths in Ok (devices, (path, e) :: errors)
      end
  end.

(** What is printed: the diagnosis (with the identifiers, which print as the paths), or a line per failure. *)
Inductive printed : Type :=
| PrDiagnosis (ids : list device_id) (d : diagnosis)
| PrErrors (errors : list (bytes * ekind)).

(** src/main.rs 28-46, [main].  [order], [order'] are the iteration orders of the two hash maps. *)
Definition main_program (pol : bytes -> io_policy) (open : opener)
  (order : list (option N * list (md_device osfile)) -> list (option N * list (md_device osfile)))
  (order' : list (N * md_device osfile) -> list (N * md_device osfile)) (paths : list bytes) : res printed :=
  let? (devices, errors) := open_paths pol open 0 paths in
  match errors with
  | [] => Ok (PrDiagnosis (map fst devices) (diagnose order' (array_open order (map snd devices))))
  | _ => Ok (PrErrors errors)
  end.
