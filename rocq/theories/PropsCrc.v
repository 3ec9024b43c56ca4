(** C33, C34, C63: the checksum of src/ext4/crc.rs. *)

From Verif Require Import Base BaseFacts Crc SpecCrc CrcFacts CrcPoly.

(** ** C33 *)

Theorem crc32c_append seed a b : seed < 2 ^ 32 ->
  ext4_crc32c seed (a ++ b) = ext4_crc32c (ext4_crc32c seed a) b.
Proof.
  intros H. rewrite (crc32c_bits (ext4_crc32c seed a)) by apply crc32c_bound, H.
  rewrite !crc32c_bits, bits_of_app by exact H. apply crc_bits_app.
Qed.
Print Assumptions crc32c_append.

Example crc32c_append_ex : ext4_crc32c 5 ([x12; x34] ++ [x56]) = 2098354055 /\
  ext4_crc32c 5 [x12; x34] = 3000100458.
Proof. vm_compute. split; reflexivity. Qed.

(** The result is a 32-bit value, and the only value that the polynomial specification allows. *)
Theorem crc32c_is_remainder seed bs r : seed < 2 ^ 32 ->
  is_crc seed (bits_of bs) r <-> r = ext4_crc32c seed bs.
Proof.
  intros H. rewrite crc32c_bits by exact H. split.
  - intros (Hr & s & w & q & Hs & Hw & E). apply mirrored_reverse in Hs as ->.
    destruct (crc_bits_division seed (bits_of bs) H) as [q' E']. rewrite <- E' in E.
    apply remainder_unique in E; [|apply Hw|apply reverse_bound]. apply mirrored_reverse in Hw as ->.
    rewrite <- (reverse_reverse r Hr), E. apply reverse_reverse, crc_bits_bound, H.
  - intros ->. split; [apply crc_bits_bound, H|].
    destruct (crc_bits_division seed (bits_of bs) H) as [q E].
    exists (reverse_bits seed), (reverse_bits (crc_bits seed (bits_of bs))), q.
    split; [apply reverse_mirrored|split; [apply reverse_mirrored|exact E]].
Qed.
Print Assumptions crc32c_is_remainder.

(** The check value published for CRC-32C (iSCSI), that of "123456789", is 0xe3069283 with all bits inverted. *)
Example crc32c_check_value :
  ext4_crc32c crc_initial [x31; x32; x33; x34; x35; x36; x37; x38; x39] = N.lxor 0xe3069283 0xffffffff.
Proof. vm_compute. reflexivity. Qed.

Theorem crc32c_seed_injective seed seed' bs : seed < 2 ^ 32 -> seed' < 2 ^ 32 ->
  ext4_crc32c seed bs = ext4_crc32c seed' bs -> seed = seed'.
Proof. intros H H'. rewrite !crc32c_bits by assumption. now apply crc_bits_inj_seed. Qed.
Print Assumptions crc32c_seed_injective.

Example crc32c_seed_injective_ex :
  ext4_crc32c 5 [x12; x34] = 3000100458 /\ ext4_crc32c 6 [x12; x34] = 2251706099.
Proof. vm_compute. split; reflexivity. Qed.

(** ** C34 *)

(** Two byte strings whose bits agree except within 32 consecutive bits. *)
Theorem crc32c_detects_bursts seed a b : seed < 2 ^ 32 -> burst 32 (bits_of a) (bits_of b) ->
  ext4_crc32c seed a <> ext4_crc32c seed b.
Proof. intros H B. rewrite !crc32c_bits by exact H. apply (crc_bits_burst 32); auto. lia. Qed.
Print Assumptions crc32c_detects_bursts.

Lemma byte_burst_bits a b : byte_burst a b -> burst 32 (bits_of a) (bits_of b).
Proof.
  intros (D & p & x & y & s & -> & -> & L & B). split.
  - intros E. apply D, bits_of_inj, E.
  - exists (bits_of p), (bits_of x), (bits_of y), (bits_of s). rewrite !bits_of_app, !len_bits.
    split; [reflexivity|split; [reflexivity|lia]].
Qed.

Theorem crc32c_detects_byte_bursts seed a b : seed < 2 ^ 32 -> byte_burst a b ->
  ext4_crc32c seed a <> ext4_crc32c seed b.
Proof. intros H B. apply crc32c_detects_bursts, byte_burst_bits; assumption. Qed.
Print Assumptions crc32c_detects_byte_bursts.

(** A burst of 26 bits that touches five bytes is a bit burst although it is not a byte burst. *)
Example crc32c_burst_ex :
  burst 32 (bits_of [x01; x80; x00; x00; x00; x01; x07]) (bits_of [x01; x00; xff; xff; xff; x00; x07]) /\
  byte_burst [x01; x80; x00; x00; x00; x01; x07] [x01; x00; xff; xff; x00; x01; x07].
Proof.
  split.
  - split; [discriminate|].
    exists (firstn 15 (bits_of [x01; x80])), (skipn 15 (bits_of [x01; x80; x00; x00; x00]) ++ [true]),
      (skipn 15 (bits_of [x01; x00; xff; xff; xff]) ++ [false]), (skipn 1 (bits_of [x01; x07])).
    repeat split; vm_compute; congruence.
  - split; [discriminate|]. exists [x01], [x80; x00; x00], [x00; xff; xff], [x00; x01; x07]. repeat split; vm_compute; congruence.
Qed.

(** Thirty-three bits are too many: the polynomial itself is a burst that goes unnoticed. *)
Theorem crc32c_burst_33_missed_refuted :
  ~ (forall seed a b, seed < 2 ^ 32 -> burst 33 (bits_of a) (bits_of b) -> ext4_crc32c seed a <> ext4_crc32c seed b).
Proof.
  intros H. apply (H 0 [x00; x00; x00; x00; x00] [xf1; x76; xec; x05; x01]); [reflexivity| |vm_compute; reflexivity].
  split; [discriminate|].
  exists [], (firstn 33 (bits_of [x00; x00; x00; x00; x00])), (firstn 33 (bits_of [xf1; x76; xec; x05; x01])), (repeat false 7).
  repeat split; vm_compute; congruence.
Qed.
Print Assumptions crc32c_burst_33_missed_refuted.

(** ** C63 *)

(** An odd number of flipped bits is always noticed. *)
Theorem crc32c_detects_odd seed a b : seed < 2 ^ 32 -> len a = len b ->
  N.odd (distance (bits_of a) (bits_of b)) = true -> ext4_crc32c seed a <> ext4_crc32c seed b.
Proof.
  intros H L D E. rewrite !crc32c_bits in E by exact H.
  assert (L' : length (bits_of a) = length (bits_of b)).
  { apply Nat2N.inj. fold (len (bits_of a)) (len (bits_of b)). rewrite !len_bits, L. reflexivity. }
  apply crc_bits_diff in E; [|exact L'].
  pose proof (parity_bits (xor_bits (bits_of a) (bits_of b)) 0) as P.
  rewrite E, weight_xor, D in P by exact L'. discriminate P.
Qed.
Print Assumptions crc32c_detects_odd.

(** Up to three flipped bits anywhere in less than 256 MiB are noticed. *)
Theorem crc32c_detects_three seed a b : seed < 2 ^ 32 -> len a = len b -> a <> b -> 8 * len a <= 2 ^ 31 - 1 ->
  distance (bits_of a) (bits_of b) <= 3 -> ext4_crc32c seed a <> ext4_crc32c seed b.
Proof.
  intros H L N D3 D E. rewrite !crc32c_bits in E by exact H.
  assert (L' : length (bits_of a) = length (bits_of b)).
  { apply Nat2N.inj. fold (len (bits_of a)) (len (bits_of b)). rewrite !len_bits, L. reflexivity. }
  apply crc_bits_diff in E; [|exact L'].
  apply diff_detected in E; [exact E| | |].
  - rewrite weight_xor by exact L'. destruct (N.eq_dec (distance (bits_of a) (bits_of b)) 0) as [Z|Z]; [|lia].
    apply distance_0 in Z; [|exact L']. now apply bits_of_inj in Z.
  - rewrite weight_xor by exact L'. exact D.
  - rewrite len_xor_bits, len_bits by exact L'. exact D3.
Qed.
Print Assumptions crc32c_detects_three.

Example crc32c_flips_ex :
  distance (bits_of [x01; x00; x00; x00; x00; x00; x00]) (bits_of [x00; x00; x00; x00; x00; x00; x80]) = 2 /\
  distance (bits_of [x01; x00; x1f; x00; x00; x00; x00]) (bits_of [x00; x00; x00; x00; x00; x00; x80]) = 7.
Proof. split; reflexivity. Qed.

Lemma bits_of_zeros k : bits_of (repeat x00 k) = repeat false (8 * k).
Proof.
  induction k as [|k IH]; [reflexivity|]. cbn [repeat bits_of flat_map]. fold (bits_of (repeat x00 k)). rewrite IH.
  replace (8 * S k)%nat with (8 + 8 * k)%nat by lia. rewrite repeat_app. reflexivity.
Qed.

Lemma distance_app a b c d : length a = length b -> distance (a ++ c) (b ++ d) = distance a b + distance c d.
Proof.
  revert b. induction a as [|x a IH]; intros [|y b] L; try discriminate; [reflexivity|].
  cbn [app distance]. rewrite IH by (cbn in L; lia). lia.
Qed.

Lemma distance_same a : distance a a = 0.
Proof. induction a as [|x a IH]; [reflexivity|]. cbn [distance]. rewrite IH. now destruct x. Qed.

Lemma two_flips_zero n m : m = (8 * n + 14)%nat -> N.of_nat (m + 1) = mersenne ->
  crc_bits 0 (bits_of ([x01] ++ repeat x00 n ++ [x80])) = 0.
Proof.
  intros Hm E. rewrite !bits_of_app, bits_of_zeros.
  replace (bits_of [x01] ++ repeat false (8 * n) ++ bits_of [x80]) with (true :: repeat false m ++ [true]).
  2:{ subst m. change (bits_of [x01]) with (true :: repeat false 7). change (bits_of [x80]) with (repeat false 7 ++ [true]).
      cbn [app]. f_equal. replace (8 * n + 14)%nat with (7 + (8 * n + 7))%nat by lia.
      rewrite !repeat_app, <- !app_assoc. reflexivity. }
  cbn [crc_bits fold_left]. fold (crc_bits (crc_step 0 true) (repeat false m ++ [true])).
  rewrite crc_bits_app, crc_bits_falses. change (crc_step 0 true) with (crc_bit 1). rewrite <- iter_Sr.
  replace (S m) with (N.to_nat mersenne) by lia. rewrite <- N2Nat.inj_iter, period. reflexivity.
Qed.

(** The bound is sharp: in 2^31 bits, flipping the first and the last goes unnoticed. *)
Theorem crc32c_two_flips_missed_refuted :
  ~ (forall seed a b, seed < 2 ^ 32 -> len a = len b -> a <> b -> 8 * len a <= 2 ^ 31 ->
     distance (bits_of a) (bits_of b) <= 3 -> ext4_crc32c seed a <> ext4_crc32c seed b).
Proof.
  intros H. remember (N.to_nat 268435454) as n eqn:Hn.
  assert (Hl : forall x y : byte, len ([x] ++ repeat x00 n ++ [y]) = 268435456).
  { intros. rewrite !len_app, len_repeat. change (len [x]) with 1. change (len [y]) with 1. lia. }
  apply (H 0 ([x00] ++ repeat x00 n ++ [x00]) ([x01] ++ repeat x00 n ++ [x80])).
  - reflexivity.
  - rewrite !Hl. reflexivity.
  - discriminate.
  - rewrite Hl. discriminate.
  - rewrite !bits_of_app, !distance_app, distance_same by reflexivity. discriminate.
  - rewrite !crc32c_bits by reflexivity. rewrite (two_flips_zero n (8 * n + 14) eq_refl).
    + rewrite !bits_of_app, bits_of_zeros, !crc_bits_app. change (crc_bits 0 (bits_of [x00])) with 0.
      rewrite crc_bits_falses, iter_0. reflexivity.
    + rewrite mersenne_value, Hn. lia.
Qed.
Print Assumptions crc32c_two_flips_missed_refuted.

(** ** The checksum behind the data it covers *)

(** Data followed by its own checksum, little-endian, has checksum 0, and no other four bytes do that. *)
Theorem crc32c_codeword seed bs stored : seed < 2 ^ 32 -> len stored = 4 ->
  ext4_crc32c seed (bs ++ stored) = 0 <-> le stored = ext4_crc32c seed bs.
Proof.
  intros H L. rewrite crc32c_append by exact H. pose proof (crc32c_bound seed bs H) as B.
  set (r := ext4_crc32c seed bs) in *. rewrite crc32c_bits, crc_bits_low by exact B.
  assert (Ll : low_first (bits_of stored) = le stored).
  { clear. induction stored as [|b l IH]; [reflexivity|].
    cbn [bits_of flat_map]. fold (bits_of l).
    assert (A : forall u v, low_first (u ++ v) = low_first u + 2 ^ len u * low_first v).
    { induction u as [|x u IHu]; intros v; [change (len (@nil bool)) with 0; cbn [app low_first]; lia|].
      cbn [app low_first]. rewrite IHu, len_cons, N.add_1_l, N.pow_succ_r by lia. lia. }
    rewrite A, low_first_byte, IH. reflexivity. }
  assert (Lb : le stored < 2 ^ 32).
  { rewrite <- Ll. pose proof (low_first_bound (bits_of stored)) as X. rewrite len_bits, L in X. exact X. }
  rewrite Ll. split.
  - intros E. rewrite <- (iter_0 (length (bits_of stored))) in E.
    apply iter_inj in E; [|apply lxor_bound; assumption|reflexivity]. apply N.lxor_eq in E. now symmetry.
  - intros ->. rewrite N.lxor_nilpotent. apply iter_0.
Qed.
Print Assumptions crc32c_codeword.

Example crc32c_codeword_ex :
  ext4_crc32c crc_initial [x12; x34; x56] = 0xd9163d66 /\ ext4_crc32c crc_initial [x12; x34; x56; x66; x3d; x16; xd9] = 0.
Proof. vm_compute. split; reflexivity. Qed.
