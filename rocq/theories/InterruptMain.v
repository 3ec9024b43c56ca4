(** Model of the program from main.rs on, as in Superblock.v, Device.v and Main.v, but over the standard library's [read_exact]
    with interrupted system calls (Interrupt.v).  [None]: a read is still running after [fuel] calls. *)

From Verif Require Import Base Io Superblock Device Array Main Interrupt.

(** src/md/superblock/version_1/superblock.rs 60-69, [SuperblockVersion1::read]. *)
Definition v1_read_std (pol : io_policy) (fuel : nat) (f : osfile) (minor : N) : option (osfile * res superblock) :=
  match read_exact_std (os_read pol) fuel f (zeros v1_max_size) with
  | None => None
  | Some (f, buf, r) => Some (f, let? _ := r in if v1_valid buf then Ok (v1_superblock buf minor) else Err InvalidData)
  end.

(** src/md/superblock/version_0/superblock.rs 62-76, [SuperblockVersion0::read]. *)
Definition v0_read_std (pol : io_policy) (fuel : nat) (f : osfile) : option (osfile * res superblock) :=
  match read_exact_std (os_read pol) fuel f (zeros v0_size) with
  | None => None
  | Some (f, buf, r) => Some (f, let? _ := r in v0_decode buf)
  end.

(** src/md/device/device.rs 57-66; lseek(2) is not interrupted. *)
Fixpoint probe_v1_std (pol : io_policy) (fuel : nat) (f : osfile) (l : list (N * N)) : option (osfile * res (option superblock)) :=
  match l with
  | [] => Some (f, Ok None)
  | (minor, off) :: l =>
      let '(f, r) := os_seek f (SeekStart off) in
      match r with
      | Err e => Some (f, Err e)
      | Panic => Some (f, Panic)
      | Ok _ =>
          match v1_read_std pol fuel f minor with
          | None => None
          | Some (f, Ok sb) => Some (f, Ok (Some sb))
          | Some (f, Err _) => probe_v1_std pol fuel f l
          | Some (f, Panic) => Some (f, Panic)
          end
      end
  end.

(** src/md/device/device.rs 68-78. *)
Definition probe_v0_std (pol : io_policy) (fuel : nat) (f : osfile) (size : N) : option (osfile * res (option superblock)) :=
  if min_superblock_0_device_size <=? size then
    let '(f, r) := os_seek f (SeekStart (v0_probe size)) in
    match r with
    | Err e => Some (f, Err e)
    | Panic => Some (f, Panic)
    | Ok _ =>
        match v0_read_std pol fuel f with
        | None => None
        | Some (f, Ok sb) => Some (f, Ok (Some sb))
        | Some (f, Err _) => Some (f, Ok None)
        | Some (f, Panic) => Some (f, Panic)
        end
    end
  else Some (f, Ok None).

(** src/md/device/device.rs 40-84, [from_block_device] without the identifier; the ioctls are not interrupted. *)
Definition classify_std (pol : io_policy) (fuel : nat) (f : osfile) : option (osfile * res device_superblock) :=
  match device_size (native_block pol) f with
  | Err e => Some (f, Err e)
  | Panic => Some (f, Panic)
  | Ok size =>
      if size <? min_device_size then Some (f, Ok DsTooSmall)
      else
        match probe_v1_std pol fuel f (v1_probes size) with
        | None => None
        | Some (f, Err e) => Some (f, Err e)
        | Some (f, Panic) => Some (f, Panic)
        | Some (f, Ok (Some sb)) => Some (f, Ok (DsSuperblock sb))
        | Some (f, Ok None) =>
            match probe_v0_std pol fuel f size with
            | None => None
            | Some (f, r) =>
                Some (f, let? o := r in
                         match o with
                         | Some sb => Ok (DsSuperblock sb)
                         | None => Ok DsMissing
                         end)
            end
        end
  end.

(** src/md/device/device.rs 28-33 and 40-87. *)
Definition open_path_std (pol : io_policy) (fuel : nat) (open : opener) (counter : N) (path : bytes)
  : option (N * res (device_id * md_device osfile)) :=
  match open path with
  | Err e => Some (counter, Err e)
  | Panic => Some (counter, Panic)
  | Ok f =>
      match device_size (native_block pol) f with
      | Err e => Some (counter, Err e)
      | Panic => Some (counter, Panic)
      | Ok _ =>
          let '(counter, id) := id_new counter (Some path) in
          match id with
          | Err e => Some (counter, Err e)
          | Panic => Some (counter, Panic)
          | Ok id =>
              match classify_std pol fuel f with
              | None => None
              | Some (f, cls) => Some (counter, let? cls := cls in Ok (id, MdDevice (id_index id) cls f))
              end
          end
      end
  end.

(** src/main.rs 31-35. *)
Fixpoint open_paths_std (pol : bytes -> io_policy) (fuel : nat) (open : opener) (counter : N) (paths : list bytes)
  : option (res (list (device_id * md_device osfile) * list (bytes * ekind))) :=
  match paths with
  | [] => Some (Ok ([], []))
  | path :: paths =>
      match open_path_std (pol path) fuel open counter path with
      | None => None
      | Some (_, Panic) => Some Panic
      | Some (counter, Ok d) =>
          match open_paths_std pol fuel open counter paths with
          | None => None
          | Some r => Some (let? (devices, errors) := r in Ok (d :: devices, errors))
          end
      | Some (counter, Err e) =>
          match open_paths_std pol fuel open counter paths with
          | None => None
          | Some r => Some (let? (devices, errors) := r in Ok (devices, (path, e) :: errors))
          end
      end
  end.

(** src/main.rs 28-46, [main]. *)
Definition main_program_std (pol : bytes -> io_policy) (fuel : nat) (open : opener)
  (order : list (option N * list (md_device osfile)) -> list (option N * list (md_device osfile)))
  (order' : list (N * md_device osfile) -> list (N * md_device osfile)) (paths : list bytes) : option (res printed) :=
  match open_paths_std pol fuel open 0 paths with
  | None => None
  | Some r =>
      Some (let? (devices, errors) := r in
            match errors with
            | [] => Ok (PrDiagnosis (map fst devices) (diagnose order' (array_open order (map snd devices))))
            | _ => Ok (PrErrors errors)
            end)
  end.
