(** Specification of the md RAID-5/RAID-6 layouts, independent of the model.

    A stripe of an array is a row of slots, one per member: data chunks [D 0], [D 1], ...,
    and the parity chunk(s) [P] and [Q].  The rows below are the ones published in the
    Linux md documentation (md(4), "RAID5 layouts") and in the DDF v1.2 standard, drawn
    out as lists: the asymmetric ("data restart") layouts insert the parity slots into
    the data sequence, the symmetric ("data continuation") layouts rotate the sequence
    parity, D0, D1, ... *)

From Coq Require Import NArith List.
Import ListNotations.
Open Scope N_scope.

Inductive slot : Type := D (i : N) | P | Q.

(** D0, D1, ..., D(m-1). *)
Definition datas (m : N) : list slot := map (fun i => D (N.of_nat i)) (seq 0 (N.to_nat m)).

Definition insert_at (p : N) (xs l : list slot) : list slot :=
  firstn (N.to_nat p) l ++ xs ++ skipn (N.to_nat p) l.

(** Rotate right by [k] places: the head moves to position [k]. *)
Definition rotr (k : N) (l : list slot) : list slot :=
  let j := (length l - N.to_nat k)%nat in skipn j l ++ firstn j l.

(** In "left" layouts parity starts on the last member and moves towards the first;
    in "right" layouts it starts on the first member and moves towards the last. *)
Definition left_pos (n stripe : N) : N := n - 1 - stripe mod n.
Definition right_pos (n stripe : N) : N := stripe mod n.

(** The layouts, by name. *)
Inductive layout5 : Type :=
| LeftAsymmetric | RightAsymmetric | LeftSymmetric | RightSymmetric | ParityFirst | ParityLast.

Definition row5 (l : layout5) (n stripe : N) : list slot :=
  let ds := datas (n - 1) in
  match l with
  | LeftAsymmetric => insert_at (left_pos n stripe) [P] ds
  | RightAsymmetric => insert_at (right_pos n stripe) [P] ds
  | LeftSymmetric => rotr (left_pos n stripe) (P :: ds)
  | RightSymmetric => rotr (right_pos n stripe) (P :: ds)
  | ParityFirst => P :: ds
  | ParityLast => ds ++ [P]
  end.

Inductive layout6 : Type :=
| Md5 (l : layout5)            (* the md layouts with P and Q adjacent *)
| DdfZeroRestart | DdfNRestart | DdfNContinue
| Raid5PlusQ (l : layout5).    (* a RAID-5 row on all but the last member, Q last *)

(** P and Q adjacent, Q behind P; when P is on the last member, Q wraps to the first. *)
Definition insert_pq (n p : N) (ds : list slot) : list slot :=
  if p =? n - 1 then [Q] ++ ds ++ [P] else insert_at p [P; Q] ds.

Definition row6 (l : layout6) (n stripe : N) : list slot :=
  let ds := datas (n - 2) in
  match l with
  | Md5 LeftAsymmetric => insert_pq n (left_pos n stripe) ds
  | Md5 RightAsymmetric => insert_pq n (right_pos n stripe) ds
  | Md5 LeftSymmetric => rotr (left_pos n stripe) (P :: Q :: ds)
  | Md5 RightSymmetric => rotr (right_pos n stripe) (P :: Q :: ds)
  | Md5 ParityFirst => [P; Q] ++ ds
  | Md5 ParityLast => ds ++ [P; Q]
  | DdfZeroRestart => insert_pq n (right_pos n stripe) ds
  | DdfNRestart => insert_pq n (left_pos n (stripe + 1)) ds
  | DdfNContinue => rotr (left_pos n stripe) ([P] ++ ds ++ [Q])
  | Raid5PlusQ l => row5 l (n - 1) stripe ++ [Q]
  end.

(** The layout numbers of the md superblock ([enum] in drivers/md/raid5.h). *)
Definition layout5_code (l : layout5) : N :=
  match l with
  | LeftAsymmetric => 0 | RightAsymmetric => 1 | LeftSymmetric => 2 | RightSymmetric => 3
  | ParityFirst => 4 | ParityLast => 5
  end.

(** RAID-6 layout numbers; number 21 ("parity-n-6") is not a separate layout, it is 5. *)
Definition layout6_code (l : layout6) : option N :=
  match l with
  | Md5 l => Some (layout5_code l)
  | DdfZeroRestart => Some 8
  | DdfNRestart => Some 9
  | DdfNContinue => Some 10
  | Raid5PlusQ ParityLast => None
  | Raid5PlusQ l => Some (16 + layout5_code l)
  end.

(** Array sector [s] is sector [s mod c] of chunk [s / c]; chunk [m] is data chunk
    [m mod dd] of stripe [m / dd], where [dd] is the number of data chunks per stripe. *)
Definition stripe_of (s c dd : N) : N := s / c / dd.
Definition data_index_of (s c dd : N) : N := (s / c) mod dd.
Definition member_sector (s c dd : N) : N := stripe_of s c dd * c + s mod c.
