(** Specification of what a set of members says about an array.

    Independent of src/md/array.rs: only statements about the members' superblocks. *)

From Coq Require Import Permutation.
From Verif Require Import Base Raid Io SpecStream Superblock Device Array.

(** ** Formats *)

(** Member [d] states the format [f]. *)
Definition states_format {D} (d : md_device D) (f : md_format) : Prop :=
  exists sb, md_superblock d = DsSuperblock sb /\
    f = MdFormat (sb_algorithm sb) (sb_device_count sb) (sb_sectors_per_device sb) (sb_chunk_size sb).

(** Member [d] states that the array is being changed to the format [f]; the number of devices is changed by
    [rs_delta_devices], as an unsigned number. *)
Definition states_new_format {D} (d : md_device D) (f : md_format) : Prop :=
  exists sb rs, md_superblock d = DsSuperblock sb /\ sb_reshape sb = Some rs /\
    sb_device_count sb + rs_delta_devices rs <= u32_max /\
    f = MdFormat (rs_algorithm rs) (sb_device_count sb + rs_delta_devices rs) (sb_sectors_per_device sb) (rs_chunk_size rs).

(** ** Roles *)

(** Some member's role table has code [r] at index [i]. *)
Definition claimed {D} (ds : list (md_device D)) (i r : N) : Prop :=
  exists d sb, In d ds /\ md_superblock d = DsSuperblock sb /\ nth_error (sb_roles sb) (N.to_nat i) = Some r.

Definition reserved (r : N) : Prop := 0xfeff < r < 0xfffd.
Definition idle (r : N) : Prop := r = 0xffff \/ r = 0xfffe.
(** A definite statement: a position, the journal, or (32-bit roles) a number beyond all codes. *)
Definition definite (r : N) : Prop := ~ reserved r /\ ~ idle r.

(** Two members state different definite roles for one index, and nobody states a reserved one. *)
Definition role_conflict {D} (ds : list (md_device D)) : Prop :=
  exists i r r', r <> r' /\ definite r /\ definite r' /\ claimed ds i r /\ claimed ds i r' /\
    (forall v, reserved v -> ~ claimed ds i v).

(** No index has a reserved code and two different definite ones. *)
Definition orderly {D} (ds : list (md_device D)) : Prop :=
  forall i v r r', reserved v -> definite r -> definite r' ->
    claimed ds i v -> claimed ds i r -> claimed ds i r' -> r = r'.

(** The role table [roles] assigns position [k] to member [d]. *)
Definition assigned {D} (roles : option (list N)) (d : md_device D) (k : N) : Prop :=
  exists sb tbl, md_superblock d = DsSuperblock sb /\ roles = Some tbl /\
    nth_error tbl (N.to_nat (sb_role_index sb)) = Some k /\ k <= 0xfeff.

(** ** Diagnosis *)

(** The value that member [d] states, by accessor [f]. *)
Definition value {D K} (f : superblock -> option K) (d : md_device D) : option K :=
  match md_superblock d with DsSuperblock sb => f sb | _ => None end.

(** [ids] are the identifiers of exactly the members that satisfy [P], each member once. *)
Definition exactly {D} (P : md_device D -> Prop) (ds : list (md_device D)) (ids : list N) : Prop :=
  exists sel rest, Permutation (sel ++ rest) ds /\ ids = map md_id sel /\ Forall P sel /\ Forall (fun d => ~ P d) rest.

(** [entry] is the right entry for the accessor [f]. *)
Definition reports {D K} (f : superblock -> option K) (ds : list (md_device D)) (entry : option (list (K * list N))) : Prop :=
  match entry with
  | None => forall d d' v v', In d ds -> In d' ds -> value f d = Some v -> value f d' = Some v' -> v = v'
  | Some m =>
      (exists d d' v v', In d ds /\ In d' ds /\ value f d = Some v /\ value f d' = Some v' /\ v <> v') /\
      NoDup (map fst m) /\
      (forall v ids, In (v, ids) m -> ids <> [] /\ exactly (fun d => value f d = Some v) ds ids) /\
      (forall d v, In d ds -> value f d = Some v -> exists ids, In (v, ids) m)
  end.

(** [entry] is the set of the identifiers of the members of class [c]. *)
Definition lists {D} (c : device_superblock) (ds : list (md_device D)) (entry : option (list N)) : Prop :=
  match entry with
  | None => forall d, In d ds -> md_superblock d <> c
  | Some ids => ids <> [] /\ NoDup ids /\
      forall i, In i ids <-> exists d, In d ds /\ md_superblock d = c /\ md_id d = i
  end.

(** [entry] maps each index claimed by more than one member to its claimants. *)
Definition reports_index {D} (ds : list (md_device D)) (entry : option (list (N * list N))) : Prop :=
  let claims i d := value (fun sb => Some (sb_role_index sb)) d = Some i in
  match entry with
  | None => forall i ids, exactly (claims i) ds ids -> len ids <= 1
  | Some m =>
      m <> [] /\ NoDup (map fst m) /\
      forall i, (forall ids, In (i, ids) m -> 2 <= len ids /\ exactly (claims i) ds ids) /\
                (forall ids, exactly (claims i) ds ids -> 2 <= len ids -> exists ids', In (i, ids') m)
  end.

(** Every member has a superblock, all agree on everything, and all have different indices. *)
Definition healthy {D} (ds : list (md_device D)) : Prop :=
  (forall d, In d ds -> exists sb, md_superblock d = DsSuperblock sb) /\
  (forall d d' sb sb', In d ds -> In d' ds -> md_superblock d = DsSuperblock sb -> md_superblock d' = DsSuperblock sb' ->
     sb_uuid sb = sb_uuid sb' /\ sb_name sb = sb_name sb' /\ sb_algorithm sb = sb_algorithm sb' /\
     sb_sectors_per_device sb = sb_sectors_per_device sb' /\ sb_chunk_size sb = sb_chunk_size sb' /\
     sb_device_count sb = sb_device_count sb' /\ sb_reshape sb = sb_reshape sb' /\
     sb_event_count sb = sb_event_count sb' /\ sb_roles sb = sb_roles sb') /\
  NoDup (map (value (fun sb => Some (sb_role_index sb))) ds).

(** ** Reading an array *)

(** Member device [m] has the flat content [c]; reads may fail only at the positions in [bad]. *)
Definition member_holds {D} (ops : blockdev D) (m : md_device D) (c : bytes) (bad : N -> Prop) : Prop :=
  exists bs count blk badb inv, block_ok ops bs count blk badb inv /\ inv (md_dev m) /\
    c = flat count blk /\ forall p, bad p <-> badb (p / bs).

(** Slot [i] of the array is filled by a member with content [c]. *)
Definition slot_holds {D} (ops : blockdev D) (a : definition D) (i : N) (c : bytes) (bad : N -> Prop) : Prop :=
  exists m, In (i, m) (ad_devices a) /\ member_holds ops m c bad.

(** The format that reads use: the reshaped one if there is one. *)
Definition in_use {D} (a : definition D) (f : md_format) : Prop :=
  ad_new_format a = Some f \/ ad_new_format a = None /\ ad_format a = Some f.

(** [b] is the 512-byte sector [sec] of [c]. *)
Definition sector_at (c : bytes) (sec : N) (b : bytes) : Prop :=
  sec * 512 + 512 <= len c /\ b = window c (sec * 512) 512.
