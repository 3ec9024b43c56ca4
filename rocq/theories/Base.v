(** Common vocabulary of the model: bytes, machine integers, results, slices.

    Nothing in this file models a particular function of md-recover; it fixes
    how Rust notions are rendered (see DESIGN.md, section 1). *)

From Coq Require Export NArith ZArith Lia Bool.
From Coq Require String.
From Coq Require Export List.
From Coq Require Export Strings.Byte.
From Coq Require Export ZifyBool ZifyNat ZifyN.
Export ListNotations.
Notation string := String.string.
Bind Scope string_scope with String.string.
Global Open Scope N_scope.
Global Open Scope list_scope.

Ltac Zify.zify_post_hook ::= Z.div_mod_to_equations.

Global Arguments N.add : simpl never.
Global Arguments N.sub : simpl never.
Global Arguments N.mul : simpl never.
Global Arguments N.div : simpl never.
Global Arguments N.modulo : simpl never.
Global Arguments N.eqb : simpl never.
Global Arguments N.ltb : simpl never.
Global Arguments N.leb : simpl never.
Global Arguments N.to_nat : simpl never.
Global Arguments N.of_nat : simpl never.
Global Arguments N.pow : simpl never.
Global Arguments N.lxor : simpl never.
Global Arguments N.land : simpl never.
Global Arguments N.lor : simpl never.
Global Arguments N.shiftl : simpl never.
Global Arguments N.shiftr : simpl never.
Global Arguments Byte.to_N : simpl never.
Global Arguments Byte.of_N : simpl never.

(** ** Results *)

(** The [std::io::ErrorKind]s that occur in md-recover, plus one constructor for
    whatever the operating system reports.  [ErrorKind::Interrupted] is not
    included: [Read::read_exact] retries it silently (see Interrupt.v). *)
Inductive ekind : Type :=
| InvalidInput
| InvalidData
| UnexpectedEof
| Unsupported
| OsError (errno : N).

(** [io::Result<A>] extended with panics as explicit outcomes. *)
Inductive res (A : Type) : Type :=
| Ok (a : A)
| Err (e : ekind)
| Panic.
Arguments Ok {A} a.
Arguments Err {A} e.
Arguments Panic {A}.

Definition rbind {A B} (m : res A) (k : A -> res B) : res B :=
  match m with
  | Ok a => k a
  | Err e => Err e
  | Panic => Panic
  end.

(** [opt.ok_or(kind)?] *)
Definition ok_or {A} (o : option A) (e : ekind) : res A :=
  match o with Some a => Ok a | None => Err e end.

(** [opt.unwrap()] *)
Definition unwrap {A} (o : option A) : res A :=
  match o with Some a => Ok a | None => Panic end.

Definition obind {A B} (m : option A) (k : A -> option B) : option B :=
  match m with Some a => k a | None => None end.

Notation "'let?' x ':=' m 'in' k" := (rbind m (fun x => k))
  (at level 200, x pattern, m at level 100, k at level 200).
Notation "'let*' x ':=' m 'in' k" := (obind m (fun x => k))
  (at level 200, x pattern, m at level 100, k at level 200).

(** ** Machine integers *)

Definition u8_max : N := 255.
Definition u16_max : N := 65535.
Definition u32_max : N := 4294967295.
Definition u64_max : N := 18446744073709551615.
Definition i64_max : N := 9223372036854775807.

Definition u32_ok (n : N) : Prop := n <= u32_max.
Definition u64_ok (n : N) : Prop := n <= u64_max.

(** [u64::checked_add], [checked_sub], [checked_mul], [checked_div], [checked_rem]. *)
Definition cadd64 (a b : N) : option N := if a + b <=? u64_max then Some (a + b) else None.
Definition csub64 (a b : N) : option N := if b <=? a then Some (a - b) else None.
Definition cmul64 (a b : N) : option N := if a * b <=? u64_max then Some (a * b) else None.
Definition cdiv64 (a b : N) : option N := if b =? 0 then None else Some (a / b).
Definition crem64 (a b : N) : option N := if b =? 0 then None else Some (a mod b).
(** [u32::checked_sub], [u32::checked_add], [u32::try_from(u64).ok()]. *)
Definition csub32 (a b : N) : option N := if b <=? a then Some (a - b) else None.
Definition cadd32 (a b : N) : option N := if a + b <=? u32_max then Some (a + b) else None.
Definition try32 (a : N) : option N := if a <=? u32_max then Some a else None.
(** [u64::checked_add_signed]. *)
Definition cadd_signed64 (a : N) (d : Z) : option N :=
  let s := (Z.of_N a + d)%Z in
  if ((0 <=? s) && (s <=? Z.of_N u64_max))%Z then Some (Z.to_N s) else None.

(** ** Byte strings *)

Notation bytes := (list byte).

Definition len {A} (l : list A) : N := N.of_nat (length l).

Definition bval (b : byte) : N := Byte.to_N b.

(** The byte with value [n mod 256]. *)
Definition byte_of (n : N) : byte :=
  match Byte.of_N (n mod 256) with Some b => b | None => x00 end.

(** [a ^ b] on [u8]. *)
Definition bxor (a b : byte) : byte := byte_of (N.lxor (bval a) (bval b)).

Definition zeros (n : N) : bytes := repeat x00 (N.to_nat n).

(** [&l[off..]], [&l[..n]], [&l[off..][..n]]; [None] is the panic. *)
Definition slice_from {A} (l : list A) (off : N) : option (list A) :=
  if off <=? len l then Some (skipn (N.to_nat off) l) else None.
Definition slice_to {A} (l : list A) (n : N) : option (list A) :=
  if n <=? len l then Some (firstn (N.to_nat n) l) else None.
Definition sub {A} (l : list A) (off n : N) : option (list A) :=
  let* t := slice_from l off in slice_to t n.

(** The bytes at positions [off .. off+n) that exist. *)
Definition window {A} (l : list A) (off n : N) : list A :=
  firstn (N.to_nat n) (skipn (N.to_nat off) l).

(** [slice::get]. *)
Definition nth_N {A} (l : list A) (i : N) : option A :=
  if i <? len l then nth_error l (N.to_nat i) else None.

(** Little- and big-endian unsigned values ([byteorder], [binary_layout]). *)
Fixpoint le (bs : bytes) : N :=
  match bs with
  | [] => 0
  | b :: t => bval b + 256 * le t
  end.
Definition be (bs : bytes) : N := le (rev bs).

Fixpoint to_le (n : nat) (v : N) : bytes :=
  match n with
  | O => []
  | S n' => byte_of v :: to_le n' (v / 256)
  end.
Definition to_be (n : nat) (v : N) : bytes := rev (to_le n v).

(** ** Field layouts ([binary_layout!])

    A layout is the list of its field names and sizes in declaration order;
    [binary_layout!] places each field directly behind the previous one. *)
Definition layout := list (string * N).

Fixpoint field_from (base : N) (lay : layout) (name : string) : option (N * N) :=
  match lay with
  | [] => None
  | (n, w) :: t => if String.eqb n name then Some (base, w) else field_from (base + w) t name
  end.
Definition field (lay : layout) (name : string) : option (N * N) := field_from 0 lay name.

Definition layout_size (lay : layout) : N := fold_left (fun a f => a + snd f) lay 0.

(** The bytes of a named field.  The code only ever reads fields of a storage that
    is at least as long as the layout; see the size lemmas next to each use. *)
Definition fbytes (lay : layout) (name : string) (st : bytes) : bytes :=
  match field lay name with
  | Some (o, w) => window st o w
  | None => []
  end.
Definition fle (lay : layout) (name : string) (st : bytes) : N := le (fbytes lay name st).
Definition fbe (lay : layout) (name : string) (st : bytes) : N := be (fbytes lay name st).
