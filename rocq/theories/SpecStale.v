(** Specification of members that do not belong together: members that md has dropped, and members of different arrays. *)

From Verif Require Import Base Raid Superblock Device Array SpecArray.

(** Member [d] was dropped from the array: a member that was written later (its event count is greater) says that the
    device with the index of [d] is faulty or a spare, and so has no position. *)
Definition dropped {D} (ds : list (md_device D)) (d : md_device D) : Prop :=
  exists sb d' sb' r, md_superblock d = DsSuperblock sb /\ In d' ds /\ md_superblock d' = DsSuperblock sb' /\
    sb_event_count sb < sb_event_count sb' /\ nth_error (sb_roles sb') (N.to_nat (sb_role_index sb)) = Some r /\ idle r.
(** Member [d] is up to date: nobody was written later. *)
Definition newest {D} (ds : list (md_device D)) (d : md_device D) : Prop :=
  exists sb, md_superblock d = DsSuperblock sb /\
    forall d' sb', In d' ds -> md_superblock d' = DsSuperblock sb' -> sb_event_count sb' <= sb_event_count sb.
(** Member [d] says that it belongs to the array [u]. *)
Definition of_array {D} (u : array_uuid) (d : md_device D) : Prop :=
  exists sb, md_superblock d = DsSuperblock sb /\ sb_uuid sb = u.

(** The members [ids] of the diagnosis's [entry] for the value [v] have [d] among them. *)
Definition listed {K D} (entry : option (list (K * list N))) (v : K) (d : md_device D) : Prop :=
  exists m ids, entry = Some m /\ In (v, ids) m /\ In (md_id d) ids.

(** ** What opening looks at *)

(** Two statuses of a reshape name the same new format; how far the reshape has got may differ. *)
Definition same_target (r r' : option reshape_status) : Prop :=
  match r, r' with
  | Some r, Some r' => rs_algorithm r = rs_algorithm r' /\ rs_delta_devices r = rs_delta_devices r' /\ rs_chunk_size r = rs_chunk_size r'
  | None, None => True
  | _, _ => False
  end.
(** Two superblocks agree in the format, the target of the reshape, the index and the role table.  They may differ in the
    version, the identifier and the name of the array, the data offset, the event count and the progress of the reshape. *)
Definition same_place (sb sb' : superblock) : Prop :=
  sb_algorithm sb = sb_algorithm sb' /\ sb_sectors_per_device sb = sb_sectors_per_device sb' /\ sb_chunk_size sb = sb_chunk_size sb' /\
  sb_device_count sb = sb_device_count sb' /\ same_target (sb_reshape sb) (sb_reshape sb') /\
  sb_role_index sb = sb_role_index sb' /\ sb_roles sb = sb_roles sb'.
(** Two members are on the same device, and their superblocks, if they have any, agree so. *)
Definition same_member {D} (d d' : md_device D) : Prop :=
  md_dev d = md_dev d' /\
  match md_superblock d, md_superblock d' with
  | DsSuperblock sb, DsSuperblock sb' => same_place sb sb'
  | DsSuperblock _, _ | _, DsSuperblock _ => False
  | _, _ => True
  end.
