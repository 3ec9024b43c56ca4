(** Specification of CRC-32C by polynomials over the field of two elements.

    A number stands for the polynomial whose coefficient of x^i is bit i; addition is [N.lxor]. *)

From Verif Require Import Base.

(** Product of polynomials. *)
Fixpoint pmul_pos (a : positive) (b : N) : N :=
  match a with
  | xH => b
  | xO a => 2 * pmul_pos a b
  | xI a => N.lxor b (2 * pmul_pos a b)
  end.
Definition pmul (a b : N) : N := match a with N0 => 0 | Npos a => pmul_pos a b end.

(** Castagnoli's polynomial, from its exponents. *)
Definition castagnoli : N :=
  fold_right (fun e a => N.lxor (2 ^ e) a) 0
    [32; 28; 27; 26; 25; 23; 22; 20; 19; 18; 14; 13; 11; 10; 9; 8; 6; 0].

(** The bits of a byte string in transmission order: byte by byte, least significant bit first. *)
Definition byte_bits (b : byte) : list bool := map (fun i => N.testbit (bval b) i) [0; 1; 2; 3; 4; 5; 6; 7].
Definition bits_of (bs : bytes) : list bool := flat_map byte_bits bs.

(** The polynomial of a bit string: the first bit has the highest exponent. *)
Definition poly_of (l : list bool) : N := fold_left (fun m b => 2 * m + N.b2n b) l 0.

(** The register is kept mirrored: bit i is the coefficient of x^(31-i). *)
Definition mirrored (v w : N) : Prop :=
  w < 2 ^ 32 /\ forall i, i < 32 -> N.testbit w i = N.testbit v (31 - i).

(** [r] is the checksum of the bits [l] from register value [seed]: the remainder of
    l * x^32 + seed * x^|l| modulo the polynomial. *)
Definition is_crc (seed : N) (l : list bool) (r : N) : Prop :=
  r < 2 ^ 32 /\
  exists s w q, mirrored seed s /\ mirrored r w /\
    N.lxor (pmul q castagnoli) w = N.lxor (poly_of l * 2 ^ 32) (s * 2 ^ len l).

(** Two bit strings of one length that agree except in at most [n] consecutive positions, and differ there. *)
Definition burst (n : N) (a b : list bool) : Prop :=
  a <> b /\ exists p x y s, a = p ++ x ++ s /\ b = p ++ y ++ s /\ len x = len y /\ len x <= n.

(** The number of positions in which two bit strings differ. *)
Fixpoint distance (a b : list bool) : N :=
  match a, b with
  | x :: a, y :: b => N.b2n (xorb x y) + distance a b
  | _, _ => 0
  end.

(** Two byte strings of one length that agree except in at most four consecutive bytes, and differ there. *)
Definition byte_burst (a b : bytes) : Prop :=
  a <> b /\ exists p x y s, a = p ++ x ++ s /\ b = p ++ y ++ s /\ len x = len y /\ len x <= 4.
