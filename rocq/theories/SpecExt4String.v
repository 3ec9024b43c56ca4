(** Specification of text: UTF-8 by its definition in the Unicode standard, the order of texts, and the replacement of
    ill-formed parts. *)

From Verif Require Import Base.

(** ** UTF-8 *)

(** The Unicode scalar values. *)
Definition scalar (v : N) : Prop := v < 0xd800 \/ 0xe000 <= v < 0x110000.

(** Six bits of a value in a byte behind the first. *)
Definition six_bits (v : N) : byte := byte_of (0x80 + v mod 64).
Definition encode_char (v : N) : bytes :=
  if v <? 0x80 then [byte_of v]
  else if v <? 0x800 then [byte_of (0xc0 + v / 64); six_bits v]
  else if v <? 0x10000 then [byte_of (0xe0 + v / 4096); six_bits (v / 64); six_bits v]
  else [byte_of (0xf0 + v / 262144); six_bits (v / 4096); six_bits (v / 64); six_bits v].
Definition encode_text (vs : list N) : bytes := flat_map encode_char vs.

Definition is_char (p : bytes) : Prop := exists v, scalar v /\ p = encode_char v.
Definition is_text (s : bytes) : Prop := exists vs, Forall scalar vs /\ s = encode_text vs.

(** Texts are ordered by their first different characters; the start of a text comes before it. *)
Fixpoint text_order (a b : list N) : comparison :=
  match a, b with
  | [], [] => Eq
  | [], _ => Lt
  | _, [] => Gt
  | x :: a, y :: b => match x ?= y with Eq => text_order a b | c => c end
  end.

(** ** Replacement of ill-formed parts, by the rule "substitution of maximal subparts" of the Unicode standard *)

(** [p] can be completed to a character. *)
Definition begins_char (p : bytes) : Prop := exists q, is_char (p ++ q).

Inductive replaced : bytes -> bytes -> Prop :=
| replaced_nil : replaced [] []
| replaced_char p s t : is_char p -> replaced s t -> replaced (p ++ s) (p ++ t)
| replaced_part p s t :
    (forall q r, is_char q -> p ++ s <> q ++ r) -> p <> [] -> begins_char p -> (forall b r, s = b :: r -> ~ begins_char (p ++ [b])) ->
    replaced s t -> replaced (p ++ s) (encode_char 0xfffd ++ t)
| replaced_byte b s t :
    ~ begins_char [b] -> replaced s t -> replaced (b :: s) (encode_char 0xfffd ++ t).
