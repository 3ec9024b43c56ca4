(** Specification of RAID-6 P parity over one row of member sectors, independent of the model. *)

From Coq Require Import NArith List Strings.Byte.
From Verif Require Import SpecRaid.
Import ListNotations.
Open Scope N_scope.

(** Byte [j] of a sector. *)
Definition byte_at (b : list byte) (j : N) : byte := nth (N.to_nat j) b x00.

(** Bytewise exclusive or, bit by bit. *)
Definition xor8 (a b : byte) : byte :=
  let '(a0, (a1, (a2, (a3, (a4, (a5, (a6, a7))))))) := Byte.to_bits a in
  let '(b0, (b1, (b2, (b3, (b4, (b5, (b6, b7))))))) := Byte.to_bits b in
  Byte.of_bits (xorb a0 b0, (xorb a1 b1, (xorb a2 b2, (xorb a3 b3,
               (xorb a4 b4, (xorb a5 b5, (xorb a6 b6, xorb a7 b7))))))).

(** XOR of byte [j] of all data sectors of a row; [blks] lists the member sectors in
    member order. *)
Fixpoint data_xor (row : list slot) (blks : list (list byte)) (j : N) : byte :=
  match row, blks with
  | D _ :: r, b :: bs => xor8 (byte_at b j) (data_xor r bs j)
  | _ :: r, _ :: bs => data_xor r bs j
  | _, _ => x00
  end.

(** The sector in the slot [s] of a row. *)
Fixpoint slot_block (row : list slot) (blks : list (list byte)) (s : slot) : option (list byte) :=
  match row, blks with
  | t :: r, b :: bs =>
      match s, t with
      | P, P | Q, Q => Some b
      | D i, D j => if i =? j then Some b else slot_block r bs s
      | _, _ => slot_block r bs s
      end
  | _, _ => None
  end.

(** The row is P-consistent: on each of the 512 bytes the data sectors XOR to the P sector. *)
Definition p_consistent (row : list slot) (blks : list (list byte)) : Prop :=
  forall pb, slot_block row blks P = Some pb ->
  forall j, j < 512 -> data_xor row blks j = byte_at pb j.
