(** Model of src/md/{array,definition,format}.rs and of the diagnosis. *)

From Verif Require Import Base Raid Io Superblock Device.

(** ** src/md/format.rs *)

(** 5-11. *)
Record md_format : Type := MdFormat {
  mf_algorithm : md_algorithm;
  mf_device_count : N;
  mf_sectors_per_device : N;
  mf_chunk_size : N
}.

(** 14-21, [from_superblock]. *)
Definition format_of (s : device_superblock) : option md_format :=
  option_map (fun sb => MdFormat (sb_algorithm sb) (sb_device_count sb) (sb_sectors_per_device sb) (sb_chunk_size sb))
             (as_option s).

(** 23-36, [from_superblock_reshape_status]. *)
Definition new_format_of (s : device_superblock) : option md_format :=
  let* sb := as_option s in
  let* status := sb_reshape sb in
  let* count := cadd32 (sb_device_count sb) (rs_delta_devices status) in
  Some (MdFormat (rs_algorithm status) count (sb_sectors_per_device sb) (rs_chunk_size status)).

(** 42-46, [data_device_count]. *)
Definition data_device_count (f : md_format) : option N :=
  let* p := parity_device_count (mf_algorithm f) in csub32 (mf_device_count f) p.

(** 48-52, [data_sector_count]. *)
Definition data_sector_count (f : md_format) : option N :=
  let* d := data_device_count f in cmul64 (mf_sectors_per_device f) d.

(** Derived [PartialEq]/[Eq] of the key types. *)
Definition byte_dec : forall a b : byte, {a = b} + {a <> b} := Byte.byte_eq_dec.
Definition bytes_dec : forall a b : bytes, {a = b} + {a <> b} := list_eq_dec byte_dec.
Definition alg_dec (a b : md_algorithm) : {a = b} + {a <> b}.
Proof. decide equality; try apply N.eq_dec; decide equality. Defined.
Definition uuid_dec (a b : array_uuid) : {a = b} + {a <> b}.
Proof. decide equality; apply bytes_dec. Defined.
Definition reshape_dec (a b : reshape_status) : {a = b} + {a <> b}.
Proof. decide equality; try apply N.eq_dec; apply alg_dec. Defined.
Definition format_dec (a b : md_format) : {a = b} + {a <> b}.
Proof. decide equality; try apply N.eq_dec; apply alg_dec. Defined.
Definition option_dec {A} (d : forall a b : A, {a = b} + {a <> b}) (a b : option A) : {a = b} + {a <> b}.
Proof. decide equality. Defined.

(** ** src/md/array.rs, [MdArray::open] *)

(** 40-55: merge two claims for the same index. *)
Definition merge_role (left right : N) : option N :=
  if is_spare left || is_invalid right || is_faulty left then Some right
  else if is_spare right || is_invalid left || is_faulty right || (left =? right) then Some left
  else None.

(** 38-56: [zip_longest], then collect into [Option<Vec<_>>]. *)
Fixpoint merge_roles (a b : list N) : option (list N) :=
  match a, b with
  | [], _ => Some b
  | _, [] => Some a
  | x :: a, y :: b =>
      let* z := merge_role x y in
      let* t := merge_roles a b in
      Some (z :: t)
  end.

(** [Iterator::reduce] followed by [Option::flatten]. *)
Definition reduce_flatten {A} (f : option A -> option A -> option A) (l : list (option A)) : option A :=
  match l with
  | [] => None
  | x :: t => fold_left f t x
  end.

(** 35-59. *)
Definition merge_opt (acc roles : option (list N)) : option (list N) :=
  let* a := acc in let* r := roles in merge_roles a r.

(** 27-60. *)
Definition array_roles {D} (ds : list (md_device D)) : option (list N) :=
  reduce_flatten merge_opt (map (fun d => option_map sb_roles (as_option (md_superblock d))) ds).

(** 64, 69: [if a == b { a } else { None }]. *)
Definition same_or_none (a b : option md_format) : option md_format :=
  if option_dec format_dec a b then a else None.

(** 61-65. *)
Definition array_format {D} (ds : list (md_device D)) : option md_format :=
  reduce_flatten same_or_none (map (fun d => format_of (md_superblock d)) ds).

(** 66-70. *)
Definition array_new_format {D} (ds : list (md_device D)) : option md_format :=
  reduce_flatten same_or_none (map (fun d => new_format_of (md_superblock d)) ds).

(** 73-85: the key of a member. *)
Definition member_slot (roles : option (list N)) {D} (d : md_device D) : option N :=
  let* sb := as_option (md_superblock d) in
  let* roles := roles in
  let* role := nth_N roles (sb_role_index sb) in
  device_number role.

(** src/md/definition.rs 14-22, [MdArrayDefinition]; the [HashMap] is an association list. *)
Record definition (D : Type) : Type := Definition_ {
  ad_format : option md_format;
  ad_new_format : option md_format;
  ad_devices : list (N * md_device D);
  ad_inactive : list (md_device D)
}.
Arguments Definition_ {D}.
Arguments ad_format {D}.
Arguments ad_new_format {D}.
Arguments ad_devices {D}.
Arguments ad_inactive {D}.

(** 88-93, the two sides of [partition_map]. *)
Definition left_of {D} (e : option N * list (md_device D)) : list (N * md_device D) :=
  match e with
  | (Some k, [d]) => [(k, d)]
  | _ => []
  end.
Definition right_of {D} (e : option N * list (md_device D)) : list (md_device D) :=
  match e with
  | (Some _, [_]) => []
  | (_, ds) => ds
  end.

(** 25-104, [MdArray::open].  [order] is the iteration order of the hash map of line 72, an arbitrary rearrangement. *)
Definition array_open {D} (order : list (option N * list (md_device D)) -> list (option N * list (md_device D)))
  (ds : list (md_device D)) : definition D :=
  let roles := array_roles ds in
  let entries := order (from_multi_iter (option_dec N.eq_dec) (map (fun d => (member_slot roles d, d)) ds)) in
  {| ad_format := array_format ds;
     ad_new_format := array_new_format ds;
     ad_devices := flat_map left_of entries;
     ad_inactive := flat_map right_of entries |}.

(** ** src/md/definition.rs, diagnosis *)

(** 45-47, [all_devices]; [order] is the iteration order of [self.devices]. *)
Definition all_devices {D} (order : list (N * md_device D) -> list (N * md_device D)) (a : definition D)
  : list (md_device D) :=
  map snd (order (ad_devices a)) ++ ad_inactive a.

(** 49-77: the two sets. *)
Definition diag_set {D} (p : md_device D -> bool) (all : list (md_device D)) : option (list N) :=
  let set := nodup N.eq_dec (map md_id (filter p all)) in
  match set with [] => None | _ => Some set end.
Definition is_too_small {D} (d : md_device D) : bool :=
  match md_superblock d with DsTooSmall => true | _ => false end.
Definition is_missing {D} (d : md_device D) : bool :=
  match md_superblock d with DsMissing => true | _ => false end.

(** [filter_map] of lines 80-85 and its copies: key and identifier of each member that states a value. *)
Definition stated {D K} (f : superblock -> option K) (all : list (md_device D)) : list (K * N) :=
  flat_map (fun d => match as_option (md_superblock d) with
                     | Some sb => match f sb with Some k => [(k, md_id d)] | None => [] end
                     | None => []
                     end) all.

(** 79-92 and its copies (94-204, 225-240). *)
Definition diag_map {D K} (dec : forall a b : K, {a = b} + {a <> b}) (f : superblock -> option K)
  (all : list (md_device D)) : option (list (K * list N)) :=
  let map := from_multi_iter dec (stated f all) in
  if 1 <? len map then Some map else None.

(** 206-223. *)
Definition diag_role_index {D} (all : list (md_device D)) : option (list (N * list N)) :=
  let map := filter (fun e => 1 <? len (snd e))
                    (from_multi_iter N.eq_dec (stated (fun sb => Some (sb_role_index sb)) all)) in
  match map with [] => None | _ => Some map end.

(** src/md/diagnosis/diagnosis.rs 10-23. *)
Record diagnosis : Type := Diagnosis {
  dg_too_small : option (list N);
  dg_missing : option (list N);
  dg_uuid : option (list (array_uuid * list N));
  dg_name : option (list (bytes * list N));
  dg_algorithm : option (list (md_algorithm * list N));
  dg_size : option (list (N * list N));
  dg_chunk_size : option (list (N * list N));
  dg_device_count : option (list (N * list N));
  dg_reshape : option (list (option reshape_status * list N));
  dg_event_count : option (list (N * list N));
  dg_role_index : option (list (N * list N));
  dg_roles : option (list (list N * list N))
}.

(** src/md/definition.rs 28-43, [diagnose]. *)
Definition diagnose {D} (order : list (N * md_device D) -> list (N * md_device D)) (a : definition D) : diagnosis :=
  let all := all_devices order a in
  {| dg_too_small := diag_set is_too_small all;
     dg_missing := diag_set is_missing all;
     dg_uuid := diag_map uuid_dec (fun sb => Some (sb_uuid sb)) all;
     dg_name := diag_map bytes_dec sb_name all;
     dg_algorithm := diag_map alg_dec (fun sb => Some (sb_algorithm sb)) all;
     dg_size := diag_map N.eq_dec (fun sb => Some (sb_sectors_per_device sb)) all;
     dg_chunk_size := diag_map N.eq_dec (fun sb => Some (sb_chunk_size sb)) all;
     dg_device_count := diag_map N.eq_dec (fun sb => Some (sb_device_count sb)) all;
     dg_reshape := diag_map (option_dec reshape_dec) (fun sb => Some (sb_reshape sb)) all;
     dg_event_count := diag_map N.eq_dec (fun sb => Some (sb_event_count sb)) all;
     dg_role_index := diag_role_index all;
     dg_roles := diag_map (list_eq_dec N.eq_dec) (fun sb => Some (sb_roles sb)) all |}.

(** ** src/md/array.rs, [BlockDevice for MdArray] *)

(** 122-126, 138-143: the format in use. *)
Definition current_format {D} (a : definition D) : res md_format :=
  ok_or (match ad_new_format a with Some f => Some f | None => ad_format a end) InvalidData.

(** 119-130, [block_count]. *)
Definition array_block_count {D} (a : definition D) : res N :=
  let? f := current_format a in ok_or (data_sector_count f) InvalidData.

(** [HashMap::get]. *)
Fixpoint assoc {V} (m : list (N * V)) (k : N) : option V :=
  match m with
  | [] => None
  | (k', v) :: m => if k' =? k then Some v else assoc m k
  end.

(** 149-169, the closure: reads 512 bytes of a clone of the member.  The clone is dropped afterwards, and what the clone
    does to the cursor it may share with the member is not fed back: no member is read through its cursor here. *)
Definition member_read {D} (ops : blockdev D) (a : definition D) : sector_reader := fun dev sec buf =>
  if len buf <? 512 then (Err InvalidInput, buf)
  else
    match assoc (ad_devices a) dev with
    | None => (Err InvalidInput, buf)
    | Some m =>
        match bd_clone (md_block ops) m with
        | Err e => (Err e, buf)
        | Panic => (Panic, buf)
        | Ok m =>
            match cmul64 sec 512 with
            | None => (Err InvalidInput, buf)
            | Some pos =>
                let '(r, x) := reader_seek (md_block ops) (reader_new m) (SeekStart pos) in
                match x with
                | Err e => (Err e, buf)
                | Panic => (Panic, buf)
                | Ok _ =>
                    let '(_, b, x) := read_exact (reader_stream (md_block ops)) r (firstn 512 buf) in
                    (let? _ := x in Ok 512, b ++ skipn 512 buf)
                end
            end
        end
    end.

(** 132-173, [read_block]; the last [copy_from_slice] panics when the buffer is not 512 bytes long. *)
Definition array_read_block {D} (ops : blockdev D) (a : definition D) (n : N) (buf : bytes) : bytes * res N :=
  if len buf <? 512 then (buf, Err InvalidInput)
  else
    match current_format a with
    | Err e => (buf, Err e)
    | Panic => (buf, Panic)
    | Ok f =>
        match alg_read_sector (mf_algorithm f) n (mf_chunk_size f) (mf_device_count f) (member_read ops a) with
        | Err e => (buf, Err e)
        | Panic => (buf, Panic)
        | Ok block =>
            match copy_from_slice buf block with
            | None => (buf, Panic)
            | Some b => (b, Ok 512)
            end
        end
    end.

(** 115-180. *)
Definition array_block {D} (ops : blockdev D) : blockdev (definition D) := {|
  bd_size _ := Ok 512;
  bd_count := array_block_count;
  bd_read a n buf := let '(b, r) := array_read_block ops a n buf in (a, b, r);
  bd_clone a := Ok a
|}.
