(** Specification of where md superblocks live on a member and how a member is classified.

    Independent of the model of src/md/device; the decoded value of a superblock image is the one of C20/C21. *)

From Verif Require Import Base Superblock SpecMd Device.

(** The version 1.0 superblock: 4 KiB aligned, at least 8 KiB and less than 12 KiB before the end, which is counted in
    whole 512-byte sectors. *)
Definition v10_offset (size o : N) : Prop :=
  o mod 4096 = 0 /\ o + 8192 <= 512 * (size / 512) < o + 12288.

(** The version 0.90 superblock: 64 KiB aligned, at least 64 KiB and less than 128 KiB before the end. *)
Definition v090_offset (size o : N) : Prop :=
  o mod 65536 = 0 /\ o + 65536 <= size < o + 131072.

Inductive location : Type :=
| LocV1 (minor off : N)
| LocV0 (off : N).

Definition loc_off (l : location) : N := match l with LocV1 _ o => o | LocV0 o => o end.

(** The locations of a member of [size] bytes in the order in which they count: 1.2, 1.1, 1.0, 0.90. *)
Definition locations (size : N) (ls : list location) : Prop :=
  exists o, v10_offset size o /\
    if 65536 <=? size
    then exists o', v090_offset size o' /\ ls = [LocV1 2 4096; LocV1 1 0; LocV1 0 o; LocV0 o']
    else ls = [LocV1 2 4096; LocV1 1 0; LocV1 0 o].

(** The content [c] has the superblock [sb] at location [l]. *)
Definition superblock_at (c : bytes) (l : location) (sb : superblock) : Prop :=
  let img := window c (loc_off l) 4096 in
  match l with
  | LocV1 minor _ => v1_present img /\ sb = v1_superblock img minor
  | LocV0 _ => exists e, v0_present e img /\ sb = v0_superblock (v0_from_view e img)
  end.

Definition vacant (c : bytes) (l : location) : Prop := forall sb, ~ superblock_at c l sb.

(** Some byte of the location cannot be read. *)
Definition unreadable (bad : N -> Prop) (l : location) : Prop :=
  exists q, loc_off l <= q < loc_off l + 4096 /\ bad q.

(** The class of a member whose locations are [ls]; [skip] tells which locations may be passed over. *)
Definition classified (c : bytes) (skip : location -> Prop) (ls : list location) (cls : device_superblock) : Prop :=
  match cls with
  | DsSuperblock sb =>
      exists pre l post, ls = pre ++ l :: post /\ superblock_at c l sb /\ Forall skip pre
  | DsMissing => Forall skip ls
  | DsTooSmall => False
  end.
