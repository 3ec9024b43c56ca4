(** Model of the RAID address computations and of the RAID-6 sector read. *)

From Verif Require Import Base.

(** ** Units *)

(** src/md/units/sector_number.rs 14-25, [SectorNumber::in_chunk]. *)
Definition in_chunk (sector chunk_size : N) : option (N * N) :=
  let* q := cdiv64 sector chunk_size in
  let* r := crem64 sector chunk_size in
  Some (q, r).

(** src/md/units/chunk_number.rs 9-22, [ChunkNumber::as_data_device_and_stripe_number]. *)
Definition as_data_device_and_stripe_number (chunk data_device_count : N) : option (N * N) :=
  let* r := crem64 chunk data_device_count in
  let* d := try32 r in
  let* q := cdiv64 chunk data_device_count in
  Some (d, q).

(** ** RAID-5 *)

(** src/md/raid5/algorithm.rs 4-17. *)
Inductive raid5_alg : Type :=
| R5LeftAsymmetric | R5RightAsymmetric | R5LeftSymmetric | R5RightSymmetric | R5Parity0 | R5ParityN.

(** src/md/raid5/algorithm.rs 20-30, [Raid5Algorithm::from_layout]. *)
Definition raid5_from_layout (l : N) : option raid5_alg :=
  match l with
  | 0 => Some R5LeftAsymmetric
  | 1 => Some R5RightAsymmetric
  | 2 => Some R5LeftSymmetric
  | 3 => Some R5RightSymmetric
  | 4 => Some R5Parity0
  | 5 => Some R5ParityN
  | _ => None
  end.

(** src/md/raid5/algorithm.rs 43-57, the value of [parity_device_number]
    before [try_into]. *)
Definition raid5_parity (a : raid5_alg) (stripe data_devs n : N) : option N :=
  match a with
  | R5LeftAsymmetric | R5LeftSymmetric =>
      let* r := crem64 stripe n in csub64 data_devs r
  | R5RightAsymmetric | R5RightSymmetric => crem64 stripe n
  | R5Parity0 => Some 0
  | R5ParityN => Some data_devs
  end.

(** src/md/raid5/algorithm.rs 59-80, the second [data_device_number] before [try_into]. *)
Definition raid5_data (a : raid5_alg) (dd p n : N) : option N :=
  match a with
  | R5LeftAsymmetric | R5RightAsymmetric => cadd64 dd (if p <=? dd then 1 else 0)
  | R5LeftSymmetric | R5RightSymmetric =>
      let* x := cadd64 p 1 in let* y := cadd64 x dd in crem64 y n
  | R5Parity0 => cadd64 dd 1
  | R5ParityN => Some dd
  end.

(** src/md/raid5/algorithm.rs 32-89, [Raid5Algorithm::compute_sector]:
    (sector in device, parity device, data device). *)
Definition raid5_compute_sector (a : raid5_alg) (sector chunk n : N) : option (N * N * N) :=
  let* (chunk_number, sector_in_chunk) := in_chunk sector chunk in
  let* data_devs := csub32 n 1 in
  let* (dd0, stripe) := as_data_device_and_stripe_number chunk_number data_devs in
  let* p64 := raid5_parity a stripe data_devs n in
  let* p := try32 p64 in
  let* d64 := raid5_data a dd0 p n in
  let* d := try32 d64 in
  let* m := cmul64 stripe chunk in
  let* sec := cadd64 m sector_in_chunk in
  Some (sec, p, d).

(** ** RAID-6 *)

(** src/md/raid6/algorithm.rs 6-35. *)
Inductive raid6_alg : Type :=
| R6LeftAsymmetric | R6RightAsymmetric | R6LeftSymmetric | R6RightSymmetric
| R6Parity0 | R6ParityN
| R6Rotating0Restart | R6RotatingNRestart | R6RotatingNContinue
| R6LeftAsymmetric6 | R6RightAsymmetric6 | R6LeftSymmetric6 | R6RightSymmetric6 | R6Parity06.

(** src/md/raid6/algorithm.rs 38-56, [Raid6Algorithm::from_layout]. *)
Definition raid6_from_layout (l : N) : option raid6_alg :=
  match l with
  | 0 => Some R6LeftAsymmetric
  | 1 => Some R6RightAsymmetric
  | 2 => Some R6LeftSymmetric
  | 3 => Some R6RightSymmetric
  | 4 => Some R6Parity0
  | 5 => Some R6ParityN
  | 8 => Some R6Rotating0Restart
  | 9 => Some R6RotatingNRestart
  | 10 => Some R6RotatingNContinue
  | 16 => Some R6LeftAsymmetric6
  | 17 => Some R6RightAsymmetric6
  | 18 => Some R6LeftSymmetric6
  | 19 => Some R6RightSymmetric6
  | 20 => Some R6Parity06
  | _ => None
  end.

(** src/md/raid6/algorithm.rs 69-106, [p_device_number] before [try_into]. *)
Definition raid6_p (a : raid6_alg) (stripe data_devs n : N) : option N :=
  match a with
  | R6LeftAsymmetric | R6LeftSymmetric | R6RotatingNContinue =>
      let* x := csub64 n 1 in let* r := crem64 stripe n in csub64 x r
  | R6RightAsymmetric | R6RightSymmetric | R6Rotating0Restart => crem64 stripe n
  | R6Parity0 => Some 0
  | R6ParityN => Some data_devs
  | R6RotatingNRestart =>
      let* x := csub64 n 1 in
      let* s1 := cadd64 stripe 1 in
      let* r := crem64 s1 n in csub64 x r
  | R6LeftAsymmetric6 | R6LeftSymmetric6 =>
      let* n1 := csub64 n 1 in let* r := crem64 stripe n1 in csub64 data_devs r
  | R6RightAsymmetric6 | R6RightSymmetric6 =>
      let* n1 := csub64 n 1 in crem64 stripe n1
  | R6Parity06 => Some 0
  end.

(** src/md/raid6/algorithm.rs 108-132, [q_device_number] before [try_into]. *)
Definition raid6_q (a : raid6_alg) (p data_devs n : N) : option N :=
  match a with
  | R6LeftAsymmetric | R6RightAsymmetric | R6LeftSymmetric | R6RightSymmetric
  | R6Rotating0Restart | R6RotatingNRestart =>
      let* x := cadd64 p 1 in crem64 x n
  | R6Parity0 => Some 1
  | R6ParityN => cadd64 data_devs 1
  | R6RotatingNContinue =>
      let* x := cadd64 p n in let* y := csub64 x 1 in crem64 y n
  | R6LeftAsymmetric6 | R6RightAsymmetric6 | R6LeftSymmetric6 | R6RightSymmetric6
  | R6Parity06 => csub64 n 1
  end.

(** src/md/raid6/algorithm.rs 134-178, the second [data_device_number] before [try_into]. *)
Definition raid6_data (a : raid6_alg) (dd p q n : N) : option N :=
  match a with
  | R6LeftAsymmetric | R6RightAsymmetric | R6Rotating0Restart | R6RotatingNRestart =>
      cadd64 dd (if q =? 0 then 1 else if p <=? dd then 2 else 0)
  | R6LeftSymmetric | R6RightSymmetric =>
      let* x := cadd64 p 2 in let* y := cadd64 x dd in crem64 y n
  | R6Parity0 => cadd64 dd 2
  | R6ParityN => Some dd
  | R6RotatingNContinue =>
      let* x := cadd64 p 1 in let* y := cadd64 x dd in crem64 y n
  | R6LeftAsymmetric6 | R6RightAsymmetric6 => cadd64 dd (if p <=? dd then 1 else 0)
  | R6LeftSymmetric6 | R6RightSymmetric6 =>
      let* x := cadd64 p 1 in let* y := cadd64 x dd in
      let* n1 := csub64 n 1 in crem64 y n1
  | R6Parity06 => cadd64 dd 1
  end.

(** src/md/raid6/algorithm.rs 58-192, [Raid6Algorithm::compute_sector]:
    (sector in device, P device, Q device, data device). *)
Definition raid6_compute_sector (a : raid6_alg) (sector chunk n : N)
  : option (N * N * N * N) :=
  let* (chunk_number, sector_in_chunk) := in_chunk sector chunk in
  let* data_devs := csub32 n 2 in
  let* (dd0, stripe) := as_data_device_and_stripe_number chunk_number data_devs in
  let* p64 := raid6_p a stripe data_devs n in
  let* p := try32 p64 in
  let* q64 := raid6_q a p data_devs n in
  let* q := try32 q64 in
  let* d64 := raid6_data a dd0 p q n in
  let* d := try32 d64 in
  let* m := cmul64 stripe chunk in
  let* sec := cadd64 m sector_in_chunk in
  Some (sec, p, q, d).

(** ** RAID-6 sector read *)

(** The closure argument [read_sector_of_device]: device number, sector number and the
    buffer contents give the result and the new buffer contents.  It is a function of its
    arguments here; state kept by the closure (the cloned devices of
    src/md/array.rs 149-169) is re-created on every call, so none is carried over. *)
Definition sector_reader := N -> N -> bytes -> res N * bytes.

(** src/md/raid6/algorithm.rs 208-218: read the sector of the devices
    [i .. i+k), stopping at the first failure. *)
Fixpoint raid6_read_all (rd : sector_reader) (sec : N) (i : N) (k : nat) : res (list bytes) :=
  match k with
  | O => Ok []
  | S k' =>
      let '(r, buf) := rd i sec (zeros 512) in
      let? got := r in
      if got =? len buf then
        let? rest := raid6_read_all rd sec (i + 1) k' in Ok (buf :: rest)
      else Err InvalidData
  end.

(** src/md/raid6/algorithm.rs 226-236: the buffers other than P and Q. *)
Fixpoint raid6_data_buffers (bufs : list bytes) (i p q : N) : list bytes :=
  match bufs with
  | [] => []
  | b :: t =>
      if (i =? p) || (i =? q) then raid6_data_buffers t (i + 1) p q
      else b :: raid6_data_buffers t (i + 1) p q
  end.

(** src/md/raid6/algorithm.rs 238-241: XOR of byte [i] of the data buffers; indexing panics
    when a buffer is too short. *)
Fixpoint raid6_xor_at (bufs : list bytes) (i : N) (acc : byte) : res byte :=
  match bufs with
  | [] => Ok acc
  | b :: t => let? x := unwrap (nth_N b i) in raid6_xor_at t i (bxor acc x)
  end.

(** src/md/raid6/algorithm.rs 237-245: the parity check loop over bytes [i .. i+k). *)
Fixpoint raid6_check (datas : list bytes) (pbuf : bytes) (i : N) (k : nat) : res unit :=
  match k with
  | O => Ok tt
  | S k' =>
      let? x := raid6_xor_at datas i x00 in
      let? y := unwrap (nth_N pbuf i) in
      if Byte.eqb x y then raid6_check datas pbuf (i + 1) k' else Err InvalidData
  end.

(** src/md/raid6/algorithm.rs 194-247, [Raid6Algorithm::read_sector]. *)
Definition raid6_read_sector (a : raid6_alg) (sector chunk n : N) (rd : sector_reader)
  : res bytes :=
  let? (sec, p, q, d) := ok_or (raid6_compute_sector a sector chunk n) InvalidInput in
  let? bufs := raid6_read_all rd sec 0 (N.to_nat n) in
  let? pbuf := ok_or (nth_N bufs p) InvalidData in
  let datas := raid6_data_buffers bufs 0 p q in
  let? _ := raid6_check datas pbuf 0 512 in
  unwrap (nth_N bufs d).

(** ** Algorithms *)

(** src/md/algorithm.rs 7-11, [MdAlgorithm]. *)
Inductive md_algorithm : Type :=
| AlgUnsupported (level layout : N)
| AlgRaid5 (a : raid5_alg)
| AlgRaid6 (a : raid6_alg).

(** src/md/algorithm.rs 14-21, [MdAlgorithm::from_level_and_layout]. *)
Definition from_level_and_layout (level lay : N) : md_algorithm :=
  match
    match level with
    | 5 => option_map AlgRaid5 (raid5_from_layout lay)
    | 6 => option_map AlgRaid6 (raid6_from_layout lay)
    | _ => None
    end
  with
  | Some a => a
  | None => AlgUnsupported level lay
  end.

(** src/md/algorithm.rs 23-29, [MdAlgorithm::parity_device_count]. *)
Definition parity_device_count (a : md_algorithm) : option N :=
  match a with
  | AlgUnsupported _ _ => None
  | AlgRaid5 _ => Some 1
  | AlgRaid6 _ => Some 2
  end.

(** src/md/algorithm.rs 31-50, [MdAlgorithm::read_sector]. *)
Definition alg_read_sector (a : md_algorithm) (sector chunk n : N) (rd : sector_reader)
  : res bytes :=
  match a with
  | AlgRaid6 a => raid6_read_sector a sector chunk n rd
  | _ => Err Unsupported
  end.
