(** Model of src/md/device and of src/ext/multi_map.rs: array members. *)

From Verif Require Import Base Raid Io Superblock.

(** ** src/md/device/id.rs *)

(** 13, 23-29: [NEXT_INDEX.fetch_add(1)] wraps around; the last value panics. *)
Definition next_index (counter : N) : N * res N :=
  ((counter + 1) mod 2 ^ 64, if counter =? u64_max then Panic else Ok counter).

(** 7-10, [MdDeviceId]; two of them are equal when the index is (32-36). *)
Record device_id : Type := DeviceId { id_index : N; id_reference : option bytes }.

(** 16-21, [MdDeviceId::new]. *)
Definition id_new (counter : N) (ref : option bytes) : N * res device_id :=
  let '(counter, r) := next_index counter in (counter, let? i := r in Ok (DeviceId i ref)).

(** ** src/md/device/superblock.rs *)

(** 3-7. *)
Inductive device_superblock : Type :=
| DsSuperblock (sb : superblock)
| DsTooSmall
| DsMissing.

(** 10-16, [as_option]. *)
Definition as_option (s : device_superblock) : option superblock :=
  match s with DsSuperblock sb => Some sb | _ => None end.

(** ** src/md/device/device.rs *)

(** 12-19. *)
Record md_device (D : Type) : Type := MdDevice {
  md_id : N;
  md_superblock : device_superblock;
  md_dev : D
}.
Arguments MdDevice {D}.
Arguments md_id {D}.
Arguments md_superblock {D}.
Arguments md_dev {D}.

(** 25-26. *)
Definition min_device_size : N := 12288.
Definition min_superblock_0_device_size : N := 65536.

(** [x & !7], [x & !65535] on [u64]. *)
Definition clear_low (x bits : N) : N := N.ldiff x (N.ones bits).

(** 57: minor version and byte offset of the version 1 probes.  [8 << 9] and the subtraction cannot overflow because of
    the size check before. *)
Definition v1_probes (size : N) : list (N * N) :=
  [(2, N.shiftl 8 9); (1, 0); (0, N.shiftl (clear_low (N.shiftr size 9 - 16) 3) 9)].

(** 69: byte offset of the version 0.90 probe. *)
Definition v0_probe (size : N) : N := clear_low size 16 - 65536.

(** 57-66: the loop; [Some] superblock stops it.  Only the seek's errors are propagated. *)
Fixpoint probe_v1 {S} (st : stream S) (s : S) (l : list (N * N)) : S * res (option superblock) :=
  match l with
  | [] => (s, Ok None)
  | (minor, off) :: l =>
      let '(s, r) := st_seek st s (SeekStart off) in
      match r with
      | Err e => (s, Err e)
      | Panic => (s, Panic)
      | Ok _ =>
          let '(s, x) := v1_read st s minor in
          match x with
          | Ok sb => (s, Ok (Some sb))
          | Err _ => probe_v1 st s l
          | Panic => (s, Panic)
          end
      end
  end.

(** 68-78. *)
Definition probe_v0 {S} (st : stream S) (s : S) (size : N) : S * res (option superblock) :=
  if min_superblock_0_device_size <=? size then
    let '(s, r) := st_seek st s (SeekStart (v0_probe size)) in
    match r with
    | Err e => (s, Err e)
    | Panic => (s, Panic)
    | Ok _ =>
        let '(s, x) := v0_read st s in
        match x with
        | Ok sb => (s, Ok (Some sb))
        | Err _ => (s, Ok None)
        | Panic => (s, Panic)
        end
    end
  else (s, Ok None).

(** 40-46: [block_count()?.size_bytes(block_size()?).ok_or(InvalidInput)?]. *)
Definition device_size {S} (bd : blockdev S) (s : S) : res N :=
  let? count := bd_count bd s in
  let? bs := bd_size bd s in
  ok_or (size_bytes count bs) InvalidInput.

(** 40-84, [from_block_device] without the identifier: the classification of the member. *)
Definition classify {S} (bd : blockdev S) (st : stream S) (s : S) : S * res device_superblock :=
  match device_size bd s with
  | Err e => (s, Err e)
  | Panic => (s, Panic)
  | Ok size =>
      if size <? min_device_size then (s, Ok DsTooSmall)
      else
        let '(s, r) := probe_v1 st s (v1_probes size) in
        match r with
        | Err e => (s, Err e)
        | Panic => (s, Panic)
        | Ok (Some sb) => (s, Ok (DsSuperblock sb))
        | Ok None =>
            let '(s, r) := probe_v0 st s size in
            (s, let? o := r in
                match o with
                | Some sb => Ok (DsSuperblock sb)
                | None => Ok DsMissing
                end)
        end
  end.

(** 88-111: the block device of a member is its device. *)
Definition md_block {D} (ops : blockdev D) : blockdev (md_device D) := {|
  bd_size m := bd_size ops (md_dev m);
  bd_count m := bd_count ops (md_dev m);
  bd_read m n buf :=
    let '(d, b, r) := bd_read ops (md_dev m) n buf in (MdDevice (md_id m) (md_superblock m) d, b, r);
  bd_clone m := let? d := bd_clone ops (md_dev m) in Ok (MdDevice (md_id m) (md_superblock m) d)
|}.

(** ** src/ext/multi_map.rs *)

(** 9-22, [from_multi_iter]: a [HashMap<K, Vec<V>>] is an association list with distinct keys, its iteration order is not
    specified (see the users). *)
Fixpoint multi_insert {K V} (dec : forall a b : K, {a = b} + {a <> b}) (m : list (K * list V)) (k : K) (v : V)
  : list (K * list V) :=
  match m with
  | [] => [(k, [v])]
  | (k', vs) :: m => if dec k' k then (k', vs ++ [v]) :: m else (k', vs) :: multi_insert dec m k v
  end.
Definition from_multi_iter {K V} (dec : forall a b : K, {a = b} + {a <> b}) (l : list (K * V)) : list (K * list V) :=
  fold_left (fun m kv => multi_insert dec m (fst kv) (snd kv)) l [].
