(** Model of src/ext4/string.rs: names as byte strings. *)

From Verif Require Import Base.

(** 8, [Ext4String]: a byte string is modelled by its bytes; 16-19 (a copy), 25-31 and 34-38 (views) are the identity or
    [len]. *)

(** 11-13: the bytes before the first zero. *)
Fixpoint from_null_terminated (bs : bytes) : bytes :=
  match bs with
  | [] => []
  | b :: t => if bval b =? 0 then [] else b :: from_null_terminated t
  end.

(** ** [String::from_utf8_lossy] of the standard library, used at 21-23

    Modelled after its documentation and source (core/src/str/lossy.rs): the string is cut into UTF-8 encoded characters and
    maximal prefixes of such, and each of the latter becomes U+FFFD, the replacement character. *)
Definition replacement : bytes := [xef; xbf; xbd].

Definition in_range (lo hi v : N) : bool := (lo <=? v) && (v <=? hi).
Definition continuation (b : byte) : bool := in_range 0x80 0xbf (bval b).

(** Length of the encoding that starts with a byte, 0 for a byte that starts none. *)
Definition utf8_width (b : byte) : N :=
  let v := bval b in
  if v <=? 0x7f then 1 else if in_range 0xc2 0xdf v then 2 else if in_range 0xe0 0xef v then 3
  else if in_range 0xf0 0xf4 v then 4 else 0.

(** Second bytes that may follow a first byte of an encoding of three or four bytes. *)
Definition second_of_three (b0 b1 : byte) : bool :=
  let v := bval b0 in
  if v =? 0xe0 then in_range 0xa0 0xbf (bval b1) else if v =? 0xed then in_range 0x80 0x9f (bval b1)
  else in_range 0x80 0xbf (bval b1).
Definition second_of_four (b0 b1 : byte) : bool :=
  let v := bval b0 in
  if v =? 0xf0 then in_range 0x90 0xbf (bval b1) else if v =? 0xf4 then in_range 0x80 0x8f (bval b1)
  else in_range 0x80 0xbf (bval b1).

Fixpoint lossy (bs : bytes) : bytes :=
  match bs with
  | [] => []
  | b0 :: t0 =>
      match utf8_width b0, t0 with
      | 1, _ => b0 :: lossy t0
      | 2, b1 :: t1 => if continuation b1 then b0 :: b1 :: lossy t1 else replacement ++ lossy t0
      | 3, b1 :: t1 =>
          if second_of_three b0 b1 then
            match t1 with
            | b2 :: t2 => if continuation b2 then b0 :: b1 :: b2 :: lossy t2 else replacement ++ lossy t1
            | [] => replacement ++ lossy t1
            end
          else replacement ++ lossy t0
      | 4, b1 :: t1 =>
          if second_of_four b0 b1 then
            match t1 with
            | b2 :: t2 =>
                if continuation b2 then
                  match t2 with
                  | b3 :: t3 => if continuation b3 then b0 :: b1 :: b2 :: b3 :: lossy t3 else replacement ++ lossy t2
                  | [] => replacement ++ lossy t2
                  end
                else replacement ++ lossy t1
            | [] => replacement ++ lossy t1
            end
          else replacement ++ lossy t0
      | _, _ => replacement ++ lossy t0
      end
  end.

(** 21-23 and 88-92. *)
Definition to_str_lossy (s : bytes) : bytes := lossy s.

(** 40-46: [String::from_utf8] succeeds on exactly the strings that the conversion leaves as they are.  Its
    [FromUtf8Error] is modelled as no value. *)
Fixpoint bytes_eqb (a b : bytes) : bool :=
  match a, b with
  | [], [] => true
  | x :: a, y :: b => Byte.eqb x y && bytes_eqb a b
  | _, _ => false
  end.
Definition utf8_valid (s : bytes) : bool := bytes_eqb (lossy s) s.
Definition try_string (s : bytes) : option bytes := if utf8_valid s then Some s else None.

(** 60-64. *)
Definition name_eqb (a b : bytes) : bool := bytes_eqb a b.

(** The order of [str]: that of the bytes, shorter first. *)
Fixpoint bytes_cmp (a b : bytes) : comparison :=
  match a, b with
  | [], [] => Eq
  | [], _ => Lt
  | _, [] => Gt
  | x :: a, y :: b => match bval x ?= bval y with Eq => bytes_cmp a b | c => c end
  end.

(** 68-80; [partial_cmp] is [Some] of it. *)
Definition name_cmp (a b : bytes) : comparison := bytes_cmp (to_str_lossy a) (to_str_lossy b).

(** 82-86: what is fed to the hasher; [str] appends 0xff. *)
Definition name_hash_input (s : bytes) : bytes := to_str_lossy s ++ [xff].
