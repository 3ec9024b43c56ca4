(** Specification of the members of an md array as md writes them: version 1.0 superblock, data from the first sector on.

    Only bytes; nothing of the model but its vocabulary of bytes, and the layouts of SpecRaid.v. *)

From Verif Require Import Base SpecMd SpecDevice SpecRaid SpecArray PropsExt4Array.

(** An array: layout, number of members, sectors per member, sectors per chunk, and the role table that md keeps the same in
    all superblocks: the position of each device, by its number. *)
Record md_array : Type := MdArr {
  x_layout : layout6;
  x_devices : N;
  x_size : N;
  x_chunk : N;
  x_roles : list N
}.

(** The sizes are sensible; a position fits a role code. *)
Definition array_ok (x : md_array) : Prop :=
  (exists code, layout6_code (x_layout x) = Some code) /\ 3 <= x_devices x <= 0xff00 /\ x_chunk x <> 0 /\ N.divide (x_chunk x) (x_size x).

(** What md has written into the superblock of the member in position [i] of a RAID-6 array that is not being reshaped. *)
Definition written_superblock (x : md_array) (i : N) (sb : bytes) : Prop :=
  v1_present sb /\ has_bit (uint_le sb 8 4) 2 = false /\ uint_le sb 72 4 = 6 /\ layout6_code (x_layout x) = Some (uint_le sb 76 4) /\
  uint_le sb 80 8 = x_size x /\ uint_le sb 88 4 = x_chunk x /\ uint_le sb 92 4 = x_devices x /\ uint_le sb 128 8 = 0 /\
  uint_le sb 220 4 = len (x_roles x) /\ len (x_roles x) <= 1920 /\
  (forall k r, nth_N (x_roles x) k = Some r -> uint_le sb (256 + 2 * k) 2 = r) /\
  nth_N (x_roles x) (uint_le sb 160 4) = Some i.

(** The bytes [c] have the superblock of the member in position [i] of the array [x], at the place [o], and nothing else in them
    is taken for a superblock before.  Nothing is said of the data. *)
Definition labelled_member (x : md_array) (i o : N) (c : bytes) : Prop :=
  12288 <= len c /\ v10_offset (len c) o /\ written_superblock x i (window c o 4096) /\
  ~ v1_present (window c 4096 4096) /\ ~ v1_present (window c 0 4096).

(** And they are those of the member in position [i] of the array [x] that holds [image]; [q] are the contents of the Q
    sectors. *)
Definition written_member (x : md_array) (image : bytes) (q : N -> bytes) (i o : N) (c : bytes) : Prop :=
  labelled_member x i o c /\
  forall t, t < x_size x -> sector_at c t (stored (x_layout x) (x_devices x) (x_chunk x) image q i t).

(** The image fills the array. *)
Definition image_fills (x : md_array) (image : bytes) : Prop := len image = x_size x * (x_devices x - 2) * 512.

(** Each position is filled once. *)
Definition positions_filled (x : md_array) (is : list N) : Prop := NoDup is /\ forall i, In i is <-> i < x_devices x.
(** Some positions are filled, none twice. *)
Definition positions_some (x : md_array) (is : list N) : Prop := is <> [] /\ NoDup is /\ forall i, In i is -> i < x_devices x.
