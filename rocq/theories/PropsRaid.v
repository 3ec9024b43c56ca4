(** Properties C06-C17 and C23: RAID address maps and the RAID-6 sector read. *)

From Verif Require Import Base BaseFacts Raid SpecRaid RaidFacts SpecParity ParityFacts.

(** ** RAID-5 *)

Lemma raid5_compute_inv a s c n sec p d :
  u64_ok s -> u32_ok n -> raid5_compute_sector a s c n = Some (sec, p, d) ->
  exists l, a = raid5_of l /\ c <> 0 /\ 2 <= n /\ sec = member_sector s c (n - 1) /\ p < n /\ d < n /\
    nth_N (row5 l n (stripe_of s c (n - 1))) p = Some P /\
    nth_N (row5 l n (stripe_of s c (n - 1))) d = Some (D (data_index_of s c (n - 1))).
Proof.
  intros Hs Hu E. destruct (raid5_of_surj a) as [l ->]. exists l.
  destruct (N.eq_dec c 0) as [->|Hc]; [rewrite raid5_compute_none in E by lia; discriminate|].
  destruct (N.lt_ge_cases n 2) as [Hn|Hn]; [rewrite raid5_compute_none in E by lia; discriminate|].
  destruct (raid5_compute_ok l s c n Hs Hu Hc Hn) as (p' & d' & E' & ?).
  rewrite E in E'. inv E'. intuition.
Qed.

(** C06. *)
Theorem raid5_total_iff : forall a s c n,
  u64_ok s -> u32_ok c -> u32_ok n ->
  (exists r, raid5_compute_sector a s c n = Some r) <-> c <> 0 /\ 2 <= n.
Proof.
  intros a s c n Hs _ Hu. split.
  - intros [[[sec p] d] E]. apply raid5_compute_inv in E as (l & _ & Hc & Hn & _); auto.
  - intros [Hc Hn]. destruct (raid5_of_surj a) as [l ->].
    destruct (raid5_compute_ok l s c n Hs Hu Hc Hn) as (p & d & E & _). eauto.
Qed.
Print Assumptions raid5_total_iff.

Example raid5_total_ex :
  raid5_compute_sector R5LeftSymmetric 18446744073709551615 1 4294967295 <> None /\
  raid5_compute_sector R5LeftSymmetric 7 0 4 = None /\ raid5_compute_sector R5LeftSymmetric 7 8 1 = None.
Proof. vm_compute. repeat split; congruence. Qed.

(** C07. *)
Theorem raid5_distinct_in_range : forall a s c n sec p d,
  u64_ok s -> u32_ok n -> raid5_compute_sector a s c n = Some (sec, p, d) ->
  p < n /\ d < n /\ p <> d.
Proof.
  intros a s c n sec p d Hs Hu E.
  apply raid5_compute_inv in E as (l & _ & _ & _ & _ & Lp & Ld & Rp & Rd); auto.
  repeat split; auto. intros ->. congruence.
Qed.
Print Assumptions raid5_distinct_in_range.

Example raid5_distinct_ex : raid5_compute_sector R5LeftAsymmetric 1000 8 4 = Some (328, 2, 3).
Proof. reflexivity. Qed.

(** C08, injectivity: the (member, member sector) slot determines the array sector. *)
Theorem raid5_injective : forall a c n s s' sec d p p',
  u64_ok s -> u64_ok s' -> u32_ok n ->
  raid5_compute_sector a s c n = Some (sec, p, d) ->
  raid5_compute_sector a s' c n = Some (sec, p', d) ->
  s = s'.
Proof.
  intros a c n s s' sec d p p' Hs Hs' Hu E E'.
  apply raid5_compute_inv in E as (l & -> & Hc & Hn & M & _ & _ & _ & Rd); auto.
  apply raid5_compute_inv in E' as (l' & El & _ & _ & M' & _ & _ & _ & Rd'); auto.
  assert (l = l') as <- by (destruct l, l'; try reflexivity; discriminate).
  rewrite M in M'.
  destruct (member_sector_split s c (n - 1) Hc) as [A B].
  destruct (member_sector_split s' c (n - 1) Hc) as [A' B'].
  rewrite M' in A, B. rewrite A in A'. rewrite B in B'. rewrite A' in Rd.
  rewrite Rd in Rd'. injection Rd' as RI.
  rewrite (sector_recompose s c (n - 1)), (sector_recompose s' c (n - 1)) by lia. congruence.
Qed.
Print Assumptions raid5_injective.

(** C08, all sectors of one stripe agree on the parity member, and none is placed there. *)
Theorem raid5_parity_slot_unused : forall a c n s s' sec sec' d d' p p',
  u64_ok s -> u64_ok s' -> u32_ok n ->
  raid5_compute_sector a s c n = Some (sec, p, d) ->
  raid5_compute_sector a s' c n = Some (sec', p', d') ->
  sec / c = sec' / c ->
  p = p' /\ d' <> p.
Proof.
  intros a c n s s' sec sec' d d' p p' Hs Hs' Hu E E' St.
  apply raid5_compute_inv in E as (l & -> & Hc & Hn & M & _ & _ & Rp & _); auto.
  apply raid5_compute_inv in E' as (l' & El & _ & _ & M' & _ & _ & Rp' & Rd'); auto.
  assert (l = l') as <- by (destruct l, l'; try reflexivity; discriminate).
  subst sec sec'.
  rewrite (proj1 (member_sector_split s c (n - 1) Hc)), (proj1 (member_sector_split s' c (n - 1) Hc)) in St.
  rewrite St in Rp. split; [eapply nodup_nth_N; [apply row5_nodup|eassumption..]|].
  intros ->. congruence.
Qed.
Print Assumptions raid5_parity_slot_unused.

(** C08, surjectivity: every slot of a member that is not the parity slot of its stripe holds
    some array sector (as long as the stripe's sectors have 64-bit numbers at all). *)
Theorem raid5_surjective : forall a c n t d s1 sec1 p d1,
  u64_ok s1 -> u32_ok n ->
  raid5_compute_sector a s1 c n = Some (sec1, p, d1) ->  (* p is the parity member of the stripe *)
  t / c = sec1 / c -> d < n -> d <> p ->
  (t / c + 1) * (n - 1) * c <= u64_max + 1 ->
  exists s, u64_ok s /\ raid5_compute_sector a s c n = Some (t, p, d).
Proof.
  intros a c n t d s1 sec1 p d1 Hs Hu E St Ld Ne Fit.
  apply raid5_compute_inv in E as (l & -> & Hc & Hn & M & _ & _ & Rp & _); auto.
  subst sec1. rewrite (proj1 (member_sector_split s1 c (n - 1) Hc)) in St.
  rewrite <- St in Rp. clear s1 d1 Hs St.
  destruct (nth_N_lt_some (row5 l n (t / c)) d) as [sl Rd]; [rewrite len_row5; lia|].
  destruct (row5_slot _ _ _ _ _ Rd) as [->|(i & -> & Hi)].
  { exfalso. apply Ne. eapply nodup_nth_N; [apply row5_nodup|eassumption..]. }
  pose proof (N.mod_lt t c Hc) as Ho. pose proof (N.div_mod t c Hc) as Et.
  destruct (compose_parts (t / c) i (t mod c) c (n - 1) Hi Ho) as (K & I & O & MS).
  set (s := ((t / c) * (n - 1) + i) * c + t mod c) in *.
  assert (Hs : u64_ok s).
  { unfold u64_ok, s in *. generalize dependent (t / c). generalize dependent (t mod c). intros. nia. }
  destruct (raid5_compute_ok l s c n Hs Hu Hc Hn) as (p' & d' & E & Lp & Ld' & Rp' & Rd').
  rewrite K, I in *. exists s. split; [exact Hs|]. rewrite E. f_equal. f_equal; [f_equal|].
  - rewrite MS. lia.
  - eapply nodup_nth_N; [apply row5_nodup|eassumption..].
  - eapply nodup_nth_N; [apply row5_nodup|eassumption..].
Qed.
Print Assumptions raid5_surjective.

Example raid5_bijection_ex :
  raid5_compute_sector R5RightSymmetric 1000 8 4 = Some (328, 1, 0) /\
  raid5_compute_sector R5RightSymmetric 985 8 4 = Some (329, 1, 2) /\
  raid5_compute_sector R5RightSymmetric 1001 8 4 = Some (329, 1, 0).
Proof. repeat split; reflexivity. Qed.

(** C09: the published layout with code [layout5_code l] is the one computed. *)
Theorem raid5_layout_rows : forall l s c n,
  u64_ok s -> u32_ok n -> c <> 0 -> 2 <= n ->
  exists a p d,
    raid5_from_layout (layout5_code l) = Some a /\
    raid5_compute_sector a s c n = Some (member_sector s c (n - 1), p, d) /\
    nth_N (row5 l n (stripe_of s c (n - 1))) p = Some P /\
    nth_N (row5 l n (stripe_of s c (n - 1))) d = Some (D (data_index_of s c (n - 1))).
Proof.
  intros l s c n Hs Hu Hc Hn.
  destruct (raid5_compute_ok l s c n Hs Hu Hc Hn) as (p & d & E & _ & _ & Rp & Rd).
  exists (raid5_of l), p, d. split; [apply raid5_from_layout_code|auto].
Qed.
Print Assumptions raid5_layout_rows.

(** The rows of the md(4) manual for four members, first two stripes. *)
Example raid5_rows_ex :
  row5 LeftAsymmetric 4 0 = [D 0; D 1; D 2; P] /\ row5 LeftAsymmetric 4 1 = [D 0; D 1; P; D 2] /\
  row5 RightAsymmetric 4 0 = [P; D 0; D 1; D 2] /\ row5 RightAsymmetric 4 1 = [D 0; P; D 1; D 2] /\
  row5 LeftSymmetric 4 0 = [D 0; D 1; D 2; P] /\ row5 LeftSymmetric 4 1 = [D 1; D 2; P; D 0] /\
  row5 RightSymmetric 4 0 = [P; D 0; D 1; D 2] /\ row5 RightSymmetric 4 1 = [D 2; P; D 0; D 1] /\
  row5 ParityFirst 4 1 = [P; D 0; D 1; D 2] /\ row5 ParityLast 4 1 = [D 0; D 1; D 2; P].
Proof. repeat split; reflexivity. Qed.

(** C09: sectors of one chunk are consecutive on one member. *)
Theorem raid5_chunk_contiguous : forall a s c n sec p d,
  u64_ok (s + 1) -> u32_ok n -> raid5_compute_sector a s c n = Some (sec, p, d) ->
  s mod c + 1 < c ->
  raid5_compute_sector a (s + 1) c n = Some (sec + 1, p, d).
Proof.
  intros a s c n sec p d Hs Hu E Hm.
  assert (Hs0 : u64_ok s) by (unfold u64_ok in *; lia).
  apply raid5_compute_inv in E as (l & -> & Hc & Hn & M & _ & _ & Rp & Rd); auto.
  destruct (raid5_compute_ok l (s + 1) c n Hs Hu Hc Hn) as (p' & d' & E & _ & _ & Rp' & Rd').
  assert (Q1 : (s + 1) / c = s / c).
  { symmetry. apply (N.div_unique _ _ _ (s mod c + 1)); [lia|]. pose proof (N.div_mod s c Hc). lia. }
  assert (Q2 : (s + 1) mod c = s mod c + 1).
  { symmetry. apply (N.mod_unique _ _ (s / c)); [lia|]. pose proof (N.div_mod s c Hc). lia. }
  unfold member_sector, stripe_of, data_index_of in *. rewrite Q1, Q2 in *.
  rewrite E. f_equal. f_equal; [f_equal|].
  - subst. lia.
  - eapply nodup_nth_N; [apply row5_nodup|eassumption..].
  - eapply nodup_nth_N; [apply row5_nodup|eassumption..].
Qed.
Print Assumptions raid5_chunk_contiguous.

Example raid5_contiguous_ex :
  raid5_compute_sector R5LeftSymmetric 1001 8 4 = Some (329, 2, 1) /\
  raid5_compute_sector R5LeftSymmetric 1002 8 4 = Some (330, 2, 1).
Proof. split; reflexivity. Qed.

(** ** RAID-6 *)

(** The one geometry and sector at which the stripe number plus one exceeds 64 bits. *)
Definition r6_exception (a : raid6_alg) (s c n : N) : Prop :=
  a = R6RotatingNRestart /\ s = 18446744073709551615 /\ c = 1 /\ n = 3.

Lemma exception_overflow l s c n :
  u64_ok s -> c <> 0 -> 3 <= n ->
  restart_overflow l (stripe_of s c (n - 2)) <-> r6_exception (raid6_of l) s c n.
Proof.
  intros Hs Hc Hn. unfold restart_overflow, r6_exception.
  rewrite stripe_max by (assumption || lia). split.
  - intros (-> & -> & -> & H). repeat split; lia.
  - intros (H & -> & -> & ->). repeat split. destruct l as [[]| | | |[]]; try discriminate; reflexivity.
Qed.

Lemma raid6_compute_inv a s c n sec p q d :
  u64_ok s -> u32_ok n -> raid6_compute_sector a s c n = Some (sec, p, q, d) ->
  exists l, a = raid6_of l /\ layout6_code l <> None /\ c <> 0 /\ 3 <= n /\
    ~ restart_overflow l (stripe_of s c (n - 2)) /\
    sec = member_sector s c (n - 2) /\ p < n /\ q < n /\ d < n /\
    nth_N (row6 l n (stripe_of s c (n - 2))) p = Some P /\
    nth_N (row6 l n (stripe_of s c (n - 2))) q = Some Q /\
    nth_N (row6 l n (stripe_of s c (n - 2))) d = Some (D (data_index_of s c (n - 2))).
Proof.
  intros Hs Hu E. destruct (raid6_of_surj a) as (l & code & Hl & ->). exists l.
  destruct (N.eq_dec c 0) as [->|Hc]; [rewrite raid6_compute_none in E by lia; discriminate|].
  destruct (N.lt_ge_cases n 3) as [Hn|Hn]; [rewrite raid6_compute_none in E by lia; discriminate|].
  assert (Hov : ~ restart_overflow l (stripe_of s c (n - 2))).
  { rewrite exception_overflow by assumption. intros (A & -> & -> & ->).
    rewrite A in E. vm_compute in E. discriminate. }
  destruct (raid6_compute_ok l s c n Hs Hu Hc Hn Hov) as (p' & q' & d' & E' & ?).
  rewrite E in E'. inv E'. repeat match goal with H : _ /\ _ |- _ => destruct H end.
  repeat split; auto; congruence.
Qed.

(** C10. *)
Theorem raid6_total_iff : forall a s c n,
  u64_ok s -> u32_ok c -> u32_ok n ->
  (exists r, raid6_compute_sector a s c n = Some r) <-> c <> 0 /\ 3 <= n /\ ~ r6_exception a s c n.
Proof.
  intros a s c n Hs _ Hu. split.
  - intros [[[[sec p] q] d] E]. apply raid6_compute_inv in E as (l & -> & _ & Hc & Hn & Ov & _); auto.
    rewrite exception_overflow in Ov by assumption. auto.
  - intros (Hc & Hn & Ex). destruct (raid6_of_surj a) as (l & ? & _ & ->).
    rewrite <- exception_overflow in Ex by assumption.
    destruct (raid6_compute_ok l s c n Hs Hu Hc Hn Ex) as (p & q & d & E & _). eauto.
Qed.
Print Assumptions raid6_total_iff.

Example raid6_total_ex :
  raid6_compute_sector R6RotatingNRestart 18446744073709551615 1 3 = None /\
  raid6_compute_sector R6RotatingNRestart 18446744073709551614 1 3 = Some (18446744073709551614, 2, 0, 1) /\
  raid6_compute_sector R6LeftSymmetric 18446744073709551615 1 3 = Some (18446744073709551615, 2, 0, 1).
Proof. vm_compute. auto. Qed.

(** C11. *)
Theorem raid6_distinct_in_range : forall a s c n sec p q d,
  u64_ok s -> u32_ok n -> raid6_compute_sector a s c n = Some (sec, p, q, d) ->
  p < n /\ q < n /\ d < n /\ p <> q /\ p <> d /\ q <> d.
Proof.
  intros a s c n sec p q d Hs Hu E.
  apply raid6_compute_inv in E as (l & _ & _ & _ & _ & _ & _ & Lp & Lq & Ld & Rp & Rq & Rd); auto.
  repeat split; auto; intros ->; congruence.
Qed.
Print Assumptions raid6_distinct_in_range.

Example raid6_distinct_ex : raid6_compute_sector R6LeftAsymmetric 1000 8 5 = Some (328, 3, 4, 2).
Proof. reflexivity. Qed.

Lemma raid6_of_row l l' n k :
  layout6_code l <> None -> layout6_code l' <> None ->
  raid6_of l = raid6_of l' -> row6 l n k = row6 l' n k.
Proof.
  destruct l as [[]| | | |[]], l' as [[]| | | |[]]; cbn [layout6_code raid6_of]; intros;
    first [reflexivity | discriminate | congruence].
Qed.

(** C12, injectivity. *)
Theorem raid6_injective : forall a c n s s' sec d p p' q q',
  u64_ok s -> u64_ok s' -> u32_ok n ->
  raid6_compute_sector a s c n = Some (sec, p, q, d) ->
  raid6_compute_sector a s' c n = Some (sec, p', q', d) ->
  s = s'.
Proof.
  intros a c n s s' sec d p p' q q' Hs Hs' Hu E E'.
  apply raid6_compute_inv in E as (l & -> & Hl & Hc & Hn & _ & M & _ & _ & _ & _ & _ & Rd); auto.
  apply raid6_compute_inv in E' as (l' & El & Hl' & _ & _ & _ & M' & _ & _ & _ & _ & _ & Rd'); auto.
  rewrite <- (raid6_of_row l l' _ _ Hl Hl' El) in Rd'.
  rewrite M in M'.
  destruct (member_sector_split s c (n - 2) Hc) as [A B].
  destruct (member_sector_split s' c (n - 2) Hc) as [A' B'].
  rewrite M' in A, B. rewrite A in A'. rewrite B in B'. rewrite A' in Rd.
  rewrite Rd in Rd'. injection Rd' as RI.
  rewrite (sector_recompose s c (n - 2)), (sector_recompose s' c (n - 2)) by lia. congruence.
Qed.
Print Assumptions raid6_injective.

(** C12, one stripe has one P and one Q member, and no data is placed on them. *)
Theorem raid6_parity_slots_unused : forall a c n s s' sec sec' d d' p p' q q',
  u64_ok s -> u64_ok s' -> u32_ok n ->
  raid6_compute_sector a s c n = Some (sec, p, q, d) ->
  raid6_compute_sector a s' c n = Some (sec', p', q', d') ->
  sec / c = sec' / c ->
  p = p' /\ q = q' /\ d' <> p /\ d' <> q.
Proof.
  intros a c n s s' sec sec' d d' p p' q q' Hs Hs' Hu E E' St.
  apply raid6_compute_inv in E as (l & -> & Hl & Hc & Hn & _ & M & _ & _ & _ & Rp & Rq & Rd); auto.
  apply raid6_compute_inv in E' as (l' & El & Hl' & _ & _ & _ & M' & _ & _ & _ & Rp' & Rq' & Rd'); auto.
  rewrite <- (raid6_of_row l l' _ _ Hl Hl' El) in Rp', Rq', Rd'.
  subst sec sec'.
  rewrite (proj1 (member_sector_split s c (n - 2) Hc)), (proj1 (member_sector_split s' c (n - 2) Hc)) in St.
  rewrite St in Rp, Rq.
  repeat split; try (eapply nodup_nth_N; [|eassumption|eassumption]; apply row6_nodup; lia); intros ->; congruence.
Qed.
Print Assumptions raid6_parity_slots_unused.

(** C12, surjectivity. *)
Theorem raid6_surjective : forall a c n t d s1 sec1 p q d1,
  u64_ok s1 -> u32_ok n ->
  raid6_compute_sector a s1 c n = Some (sec1, p, q, d1) ->
  t / c = sec1 / c -> d < n -> d <> p -> d <> q ->
  (t / c + 1) * (n - 2) * c <= u64_max + 1 ->
  exists s, u64_ok s /\ raid6_compute_sector a s c n = Some (t, p, q, d).
Proof.
  intros a c n t d s1 sec1 p q d1 Hs Hu E St Ld Ne Ne' Fit.
  apply raid6_compute_inv in E as (l & -> & Hl & Hc & Hn & Ov & M & _ & _ & _ & Rp & Rq & _); auto.
  subst sec1. rewrite (proj1 (member_sector_split s1 c (n - 2) Hc)) in St.
  rewrite <- St in Rp, Rq, Ov. clear s1 d1 Hs St.
  destruct (nth_N_lt_some (row6 l n (t / c)) d) as [sl Rd]; [rewrite len_row6; lia|].
  assert (H2 : 2 <= n) by lia. destruct (row6_slot _ _ _ _ _ H2 Rd) as [->|[->|(i & -> & Hi)]].
  { exfalso. apply Ne. eapply nodup_nth_N; [|eassumption|eassumption]; apply row6_nodup; lia. }
  { exfalso. apply Ne'. eapply nodup_nth_N; [|eassumption|eassumption]; apply row6_nodup; lia. }
  pose proof (N.mod_lt t c Hc) as Ho. pose proof (N.div_mod t c Hc) as Et.
  destruct (compose_parts (t / c) i (t mod c) c (n - 2) Hi Ho) as (K & I & O & MS).
  set (s := ((t / c) * (n - 2) + i) * c + t mod c) in *.
  assert (Hs : u64_ok s).
  { unfold u64_ok, s in *. clear Ov Rp Rq Rd. generalize dependent (t / c). generalize dependent (t mod c).
    intros. nia. }
  rewrite <- K in Ov.
  destruct (raid6_compute_ok l s c n Hs Hu Hc Hn Ov) as (p' & q' & d' & E & Lp & Lq & Ld' & Rp' & Rq' & Rd').
  rewrite K, I in *. exists s. split; [exact Hs|]. rewrite E. f_equal. f_equal; [f_equal; [f_equal|]|].
  - rewrite MS. lia.
  - eapply nodup_nth_N; [|eassumption|eassumption]; apply row6_nodup; lia.
  - eapply nodup_nth_N; [|eassumption|eassumption]; apply row6_nodup; lia.
  - eapply nodup_nth_N; [|eassumption|eassumption]; apply row6_nodup; lia.
Qed.
Print Assumptions raid6_surjective.

Example raid6_bijection_ex :
  raid6_compute_sector R6RightSymmetric 1000 8 5 = Some (328, 1, 2, 0) /\
  raid6_compute_sector R6RightSymmetric 985 8 5 = Some (329, 1, 2, 3) /\
  raid6_compute_sector R6RightSymmetric 993 8 5 = Some (329, 1, 2, 4).
Proof. repeat split; reflexivity. Qed.

(** C13. *)
Theorem raid6_layout_rows : forall l code s c n,
  layout6_code l = Some code ->
  u64_ok s -> u32_ok n -> c <> 0 -> 3 <= n ->
  ~ (l = DdfNRestart /\ s = u64_max /\ c = 1 /\ n = 3) ->
  exists a p q d,
    raid6_from_layout code = Some a /\
    raid6_compute_sector a s c n = Some (member_sector s c (n - 2), p, q, d) /\
    nth_N (row6 l n (stripe_of s c (n - 2))) p = Some P /\
    nth_N (row6 l n (stripe_of s c (n - 2))) q = Some Q /\
    nth_N (row6 l n (stripe_of s c (n - 2))) d = Some (D (data_index_of s c (n - 2))).
Proof.
  intros l code s c n Hl Hs Hu Hc Hn Ex.
  assert (Ov : ~ restart_overflow l (stripe_of s c (n - 2))).
  { unfold restart_overflow. rewrite stripe_max by (assumption || lia).
    intros (A & B & C & F). apply Ex. repeat split; auto. lia. }
  destruct (raid6_compute_ok l s c n Hs Hu Hc Hn Ov) as (p & q & d & E & _ & _ & _ & Rp & Rq & Rd).
  exists (raid6_of l), p, q, d. split; [now apply raid6_from_layout_code|auto].
Qed.
Print Assumptions raid6_layout_rows.

(** The rows for five members, as drawn in the kernel sources. *)
Example raid6_rows_ex :
  row6 (Md5 LeftAsymmetric) 5 0 = [Q; D 0; D 1; D 2; P] /\ row6 (Md5 LeftAsymmetric) 5 1 = [D 0; D 1; D 2; P; Q] /\
  row6 (Md5 LeftSymmetric) 5 0 = [Q; D 0; D 1; D 2; P] /\ row6 (Md5 LeftSymmetric) 5 2 = [D 1; D 2; P; Q; D 0] /\
  row6 (Md5 RightAsymmetric) 5 1 = [D 0; P; Q; D 1; D 2] /\ row6 (Md5 RightSymmetric) 5 1 = [D 2; P; Q; D 0; D 1] /\
  row6 DdfZeroRestart 5 0 = [P; Q; D 0; D 1; D 2] /\ row6 DdfNRestart 5 0 = [D 0; D 1; D 2; P; Q] /\
  row6 DdfNContinue 5 0 = [D 0; D 1; D 2; Q; P] /\ row6 DdfNContinue 5 1 = [D 1; D 2; Q; P; D 0] /\
  row6 (Raid5PlusQ LeftSymmetric) 5 1 = [D 1; D 2; P; D 0; Q] /\
  row6 (Raid5PlusQ ParityFirst) 5 1 = [P; D 0; D 1; D 2; Q].
Proof. repeat split; reflexivity. Qed.

(** ** Reading a RAID-6 sector *)

(** C14 and C15 together: success is exactly "every member delivered its sector and the row is
    P-consistent", and the bytes are those of the data slot. *)
Theorem raid6_read_ok_iff : forall l code a s c n rd blk,
  layout6_code l = Some code -> raid6_from_layout code = Some a ->
  u64_ok s -> u32_ok n -> c <> 0 -> 3 <= n -> ~ r6_exception a s c n -> reader_ok rd ->
  raid6_read_sector a s c n rd = Ok blk <->
  exists blks,
    len blks = n /\
    (forall i b, nth_N blks i = Some b ->
       rd i (member_sector s c (n - 2)) (zeros 512) = (Ok 512, b) /\ len b = 512) /\
    p_consistent (row6 l n (stripe_of s c (n - 2))) blks /\
    slot_block (row6 l n (stripe_of s c (n - 2))) blks (D (data_index_of s c (n - 2))) = Some blk.
Proof.
  intros l code a s c n rd blk Hl Ha Hs Hu Hc Hn Ex RO.
  rewrite (raid6_from_layout_code _ _ Hl) in Ha. injection Ha as <-.
  rewrite <- exception_overflow in Ex by assumption.
  split.
  - intros H. destruct (read_sector_ok_inv l s c n rd Hs Hu Hc Hn Ex RO blk H) as (blks & A & B & C & F).
    exists blks. auto.
  - intros (blks & A & B & C & F).
    destruct (read_sector_consistent l s c n rd Hs Hu Hc Hn Ex RO blks A B C) as (b & F' & R).
    rewrite R. rewrite F in F'. inv F'. reflexivity.
Qed.
Print Assumptions raid6_read_ok_iff.

(** Outside the sensible geometry the read is refused. *)
Theorem raid6_read_bad_geometry : forall a s c n rd,
  u64_ok s -> u32_ok n -> c = 0 \/ n < 3 \/ r6_exception a s c n ->
  raid6_read_sector a s c n rd = Err InvalidInput.
Proof.
  intros a s c n rd Hs Hu H. unfold raid6_read_sector.
  destruct H as [H|[H|H]].
  - now rewrite raid6_compute_none by auto.
  - now rewrite raid6_compute_none by auto.
  - destruct H as (-> & -> & -> & ->). change 18446744073709551615 with u64_max.
    now rewrite raid6_compute_corner.
Qed.
Print Assumptions raid6_read_bad_geometry.

(** Members for the examples: row of stripe 0 of a left-symmetric array of 4, [Q; D0; D1; P]. *)
Definition ex_rd (q d0 d1 p : byte) : sector_reader := fun i _ buf =>
  (Ok (len buf), repeat (nth (N.to_nat i) [q; d0; d1; p] x00) (length buf)).

Lemma ex_rd_ok q a b p : reader_ok (ex_rd q a b p).
Proof. intros i s buf. unfold len. cbn [ex_rd snd]. now rewrite repeat_length. Qed.

Example raid6_read_ex :
  raid6_read_sector R6LeftSymmetric 9 8 4 (ex_rd x07 x0f x35 x3a) = Ok (repeat x35 512) /\
  raid6_read_sector R6LeftSymmetric 9 8 4 (ex_rd x07 x0f x35 x3b) = Err InvalidData.
Proof. split; vm_compute; reflexivity. Qed.

(** C14, never a panic of its own: when no member read panics, the result is data or an error. *)
Theorem raid6_read_never_panics : forall a s c n rd,
  u64_ok s -> u32_ok n -> reader_ok rd ->
  (forall i t, fst (rd i t (zeros 512)) <> Panic) ->
  raid6_read_sector a s c n rd <> Panic.
Proof.
  intros a s c n rd Hs Hu RO NP.
  destruct (raid6_compute_sector a s c n) as [[[[sec p] q] d]|] eqn:E.
  2: { unfold raid6_read_sector. rewrite E. discriminate. }
  pose proof E as E0.
  apply raid6_compute_inv in E as (l & -> & _ & Hc & Hn & Ov & M & _); auto.
  destruct (raid6_read_all rd sec 0 (N.to_nat n)) as [blks|e|] eqn:R.
  - assert (RR := R). apply read_all_ok in RR as [L A]; [|exact RO].
    assert (LN : len blks = n) by (unfold len; lia). subst sec.
    destruct (p_consistent_dec (row6 l n (stripe_of s c (n - 2))) blks) as [PC|PC].
    + destruct (read_sector_consistent l s c n rd Hs Hu Hc Hn Ov RO blks LN A PC) as (b & _ & ->). discriminate.
    + rewrite (read_sector_inconsistent l s c n rd Hs Hu Hc Hn Ov RO blks LN A PC). discriminate.
  - unfold raid6_read_sector. rewrite E0. cbn [ok_or rbind]. rewrite R. discriminate.
  - exfalso. clear E0 M. revert R. generalize 0. generalize (N.to_nat n) as k.
    induction k as [|k IH]; intros i R; cbn [raid6_read_all] in R; [discriminate|].
    specialize (NP i sec). destruct (rd i sec (zeros 512)) as [r buf]. cbn [fst] in NP.
    destruct r; cbn [rbind] in R; try discriminate; [|congruence].
    destruct (_ =? _); [|discriminate].
    destruct (raid6_read_all rd sec (i + 1) k) eqn:R'; cbn [rbind] in R; try discriminate.
    eapply IH. exact R'.
Qed.
Print Assumptions raid6_read_never_panics.

Example raid6_read_never_panics_ex : forall q a b p i t,
  fst (ex_rd q a b p i t (zeros 512)) <> Panic.
Proof. discriminate. Qed.

(** C15. *)
Theorem raid6_read_complete : forall l code a s c n rd blks,
  layout6_code l = Some code -> raid6_from_layout code = Some a ->
  u64_ok s -> u32_ok n -> c <> 0 -> 3 <= n -> ~ r6_exception a s c n -> reader_ok rd ->
  len blks = n ->
  (forall i b, nth_N blks i = Some b ->
       rd i (member_sector s c (n - 2)) (zeros 512) = (Ok 512, b) /\ len b = 512) ->
  p_consistent (row6 l n (stripe_of s c (n - 2))) blks ->
  exists blk, raid6_read_sector a s c n rd = Ok blk /\
    slot_block (row6 l n (stripe_of s c (n - 2))) blks (D (data_index_of s c (n - 2))) = Some blk.
Proof.
  intros l code a s c n rd blks Hl Ha Hs Hu Hc Hn Ex RO L A PC.
  rewrite (raid6_from_layout_code _ _ Hl) in Ha. injection Ha as <-.
  rewrite <- exception_overflow in Ex by assumption.
  destruct (read_sector_consistent l s c n rd Hs Hu Hc Hn Ex RO blks L A PC) as (b & F' & R). eauto.
Qed.
Print Assumptions raid6_read_complete.

(** ** Corruption *)

(** Member [v]'s sector is replaced by [x]; all others are as in [blks]. *)
Fixpoint replace_at (l : list bytes) (v : nat) (x : bytes) : list bytes :=
  match l, v with
  | [], _ => []
  | _ :: t, O => x :: t
  | a :: t, S v' => a :: replace_at t v' x
  end.

Lemma length_replace l v x : length (replace_at l v x) = length l.
Proof. revert v. induction l as [|a l IH]; intros [|v]; cbn; auto. Qed.

Lemma nth_replace l v x i :
  nth_N (replace_at l v x) i =
  if i =? N.of_nat v then (if i <? len l then Some x else None) else nth_N l i.
Proof.
  revert v i. induction l as [|a l IH]; intros v i.
  - destruct v; cbn [replace_at]; unfold nth_N; rewrite len_nil; destruct (N.ltb_spec i 0); try lia;
      destruct (i =? _); reflexivity.
  - destruct v as [|v]; cbn [replace_at]; rewrite !nth_N_cons, len_cons.
    + change (N.of_nat 0) with 0. destruct (N.eqb_spec i 0) as [->|]; [|reflexivity].
      destruct (N.ltb_spec 0 (1 + len l)); [reflexivity|lia].
    + rewrite IH. destruct (N.eqb_spec i 0) as [->|].
      * destruct (N.eqb_spec 0 (N.of_nat (S v))); [lia|reflexivity].
      * destruct (N.eqb_spec (i - 1) (N.of_nat v)), (N.eqb_spec i (N.of_nat (S v))); try lia; [|reflexivity].
        destruct (N.ltb_spec (i - 1) (len l)), (N.ltb_spec i (1 + len l)); try lia; reflexivity.
Qed.

Lemma data_xor_replace_other row blks v x j :
  (forall i, nth_N row (N.of_nat v) <> Some (D i)) ->
  data_xor row (replace_at blks v x) j = data_xor row blks j.
Proof.
  revert blks v. induction row as [|s row IH]; intros [|b blks] v H; destruct v as [|v]; try reflexivity.
  - cbn [replace_at data_xor]. destruct s; [|reflexivity|reflexivity].
    exfalso. apply (H i). now rewrite nth_N_cons.
  - cbn [replace_at data_xor]. rewrite IH.
    + reflexivity.
    + intros i E. apply (H i). rewrite nth_N_cons.
      destruct (N.eqb_spec (N.of_nat (S v)) 0); [lia|].
      replace (N.of_nat (S v) - 1) with (N.of_nat v) by lia. exact E.
Qed.

Lemma xor8_cancel_l a b c : xor8 a b = xor8 a c -> b = c.
Proof.
  rewrite !xor8_bxor. intros H.
  assert (E : bxor a (bxor a b) = bxor a (bxor a c)) by congruence.
  rewrite <- !bxor_assoc, bxor_nilpotent, !bxor_0_l in E. exact E.
Qed.

Lemma xor8_cancel_r a b c : xor8 a b = xor8 c b -> a = c.
Proof. rewrite !xor8_bxor, (bxor_comm a), (bxor_comm c), <- !xor8_bxor. apply xor8_cancel_l. Qed.

Lemma data_xor_replace_data row (blks : list bytes) v (x : bytes) j i (old : bytes) :
  nth_N row (N.of_nat v) = Some (D i) -> nth_N blks (N.of_nat v) = Some old ->
  data_xor row (replace_at blks v x) j = data_xor row blks j -> byte_at x j = byte_at old j.
Proof.
  revert blks v. induction row as [|s row IH]; intros blks v Hr Hb E.
  { apply nth_N_some_lt in Hr. rewrite len_nil in Hr. lia. }
  destruct blks as [|b blks].
  { apply nth_N_some_lt in Hb. rewrite len_nil in Hb. lia. }
  rewrite nth_N_cons in Hr. rewrite nth_N_cons in Hb. destruct v as [|v].
  - cbn in Hr, Hb. inv Hr. inv Hb. cbn [replace_at data_xor] in E. now apply xor8_cancel_r in E.
  - destruct (N.eqb_spec (N.of_nat (S v)) 0); [lia|].
    replace (N.of_nat (S v) - 1) with (N.of_nat v) in * by lia.
    apply (IH blks v Hr Hb). cbn [replace_at data_xor] in E.
    destruct s; [now apply xor8_cancel_l in E|exact E|exact E].
Qed.

Lemma bytes_differ_at (x y : bytes) m :
  len x = m -> len y = m -> x <> y -> exists j, j < m /\ byte_at x j <> byte_at y j.
Proof.
  intros Lx Ly Ne. destruct (bytes_agree_dec (byte_at x) (byte_at y) (N.to_nat m)) as [(j & J & H)|H].
  - exists j. split; [lia|exact H].
  - exfalso. apply Ne. apply list_ext_N; [congruence|]. intros j J.
    rewrite !byte_at_nth by lia. now rewrite H by lia.
Qed.

Lemma slot_block_replace row blks v x s :
  nth_N row (N.of_nat v) <> Some s -> slot_block row (replace_at blks v x) s = slot_block row blks s.
Proof.
  revert blks v. induction row as [|t row IH]; intros [|b blks] v H; destruct v as [|v]; try reflexivity.
  - rewrite nth_N_cons in H. change (N.of_nat 0 =? 0) with true in H. cbn iota in H. cbn [replace_at slot_block].
    destruct s as [i| |], t as [i'| |]; try congruence.
    destruct (N.eqb_spec i i'); [congruence|reflexivity].
  - rewrite nth_N_cons in H. destruct (N.eqb_spec (N.of_nat (S v)) 0); [lia|].
    replace (N.of_nat (S v) - 1) with (N.of_nat v) in H by lia.
    cbn [replace_at slot_block]. now rewrite IH.
Qed.

(** Altering one data or P sector destroys P-consistency; altering Q never does. *)
Lemma p_consistent_replace row (blks : list bytes) v (x old : bytes) :
  len row = len blks -> NoDup row -> (exists p, nth_N row p = Some P) ->
  full blks -> len x = 512 -> nth_N blks (N.of_nat v) = Some old -> x <> old ->
  nth_N row (N.of_nat v) <> Some Q ->
  p_consistent row blks -> ~ p_consistent row (replace_at blks v x).
Proof.
  intros L ND (p & Hp) F Lx Hv Ne NQ PC PC'.
  assert (LL : length row = length blks) by (rewrite !length_len; congruence).
  assert (LL' : length row = length (replace_at blks v x)) by (now rewrite length_replace).
  assert (Lo : len old = 512). { unfold full in F. rewrite Forall_forall in F. apply F. eapply nth_N_in; eassumption. }
  destruct (bytes_differ_at x old 512 Lx Lo Ne) as (j & J & Nj).
  destruct (nth_N_lt_some blks p) as [pb Epb]. { apply nth_N_some_lt in Hp. lia. }
  assert (SP : slot_block row blks P = Some pb) by (eapply slot_block_nth; eassumption).
  destruct (nth_N_lt_some row (N.of_nat v)) as [s Es]. { apply nth_N_some_lt in Hv. lia. }
  destruct s as [i| |]; [| |congruence].
  - (* data *)
    assert (SP' : slot_block row (replace_at blks v x) P = Some pb).
    { rewrite slot_block_replace; [exact SP|congruence]. }
    apply Nj. apply (data_xor_replace_data row blks v x j i old Es Hv).
    etransitivity; [exact (PC' _ SP' j J)|symmetry; exact (PC _ SP j J)].
  - (* P *)
    assert (p = N.of_nat v) by (eapply nodup_nth_N; eassumption). subst p.
    assert (pb = old) by congruence. subst pb.
    assert (SP' : slot_block row (replace_at blks v x) P = Some x).
    { eapply slot_block_nth; [eassumption..|]. rewrite nth_replace, N.eqb_refl.
      apply nth_N_some_lt in Hv. destruct (N.ltb_spec (N.of_nat v) (len blks)); [reflexivity|lia]. }
    apply Nj. etransitivity; [symmetry; exact (PC' _ SP' j J)|].
    etransitivity; [|exact (PC _ SP j J)]. apply data_xor_replace_other. congruence.
Qed.

Lemma p_consistent_replace_q row blks v x :
  nth_N row (N.of_nat v) = Some Q ->
  p_consistent row (replace_at blks v x) <-> p_consistent row blks.
Proof.
  intros HQ. unfold p_consistent. rewrite slot_block_replace by congruence.
  split; intros H pb Hp j J; specialize (H pb Hp j J);
    rewrite data_xor_replace_other in * by congruence; exact H.
Qed.

(** C16: [rd'] is [rd] except that member [v] returns [x] for the sector in question. *)
Definition corrupts (rd rd' : sector_reader) (sec v : N) (x : bytes) : Prop :=
  rd' v sec (zeros 512) = (Ok 512, x) /\ len x = 512 /\
  forall i, i <> v -> rd' i sec (zeros 512) = rd i sec (zeros 512).

Theorem raid6_single_corruption_detected : forall l code a s c n rd rd' blk v x old,
  layout6_code l = Some code -> raid6_from_layout code = Some a ->
  u64_ok s -> u32_ok n -> reader_ok rd -> reader_ok rd' ->
  raid6_read_sector a s c n rd = Ok blk ->                  (* the stripe was consistent *)
  v < n -> corrupts rd rd' (member_sector s c (n - 2)) v x ->
  rd v (member_sector s c (n - 2)) (zeros 512) = (Ok 512, old) -> x <> old ->
  nth_N (row6 l n (stripe_of s c (n - 2))) v <> Some Q ->
  raid6_read_sector a s c n rd' = Err InvalidData.
Proof.
  intros l code a s c n rd rd' blk v x old Hl Ha Hs Hu RO RO' H Hv (Cv & Lx & Co) Old Ne NQ.
  rewrite (raid6_from_layout_code _ _ Hl) in Ha. injection Ha as <-.
  destruct (raid6_compute_sector (raid6_of l) s c n) as [[[[sec p] q] d]|] eqn:E.
  2: { unfold raid6_read_sector in H. rewrite E in H. discriminate. }
  apply raid6_compute_inv in E as (l' & El & Hl' & Hc & Hn & Ov & M & _ & _ & _ & Rp & _ & _); auto.
  rewrite <- (raid6_of_row l l') in Rp by congruence.
  assert (Ov' : ~ restart_overflow l (stripe_of s c (n - 2))).
  { rewrite exception_overflow in * by assumption. now rewrite El. }
  destruct (read_sector_ok_inv l s c n rd Hs Hu Hc Hn Ov' RO blk H) as (blks & LN & A & PC & _).
  destruct (nth_N_lt_some blks v) as [b Eb]; [lia|].
  assert (b = old). { destruct (A _ _ Eb) as [R _]. rewrite N.add_0_l in R. congruence. } subst b.
  set (v' := N.to_nat v). assert (Ev : v = N.of_nat v') by lia.
  apply (read_sector_inconsistent l s c n rd' Hs Hu Hc Hn Ov' RO' (replace_at blks v' x)).
  - unfold len. now rewrite length_replace.
  - intros k b Hk. rewrite N.add_0_l. rewrite nth_replace in Hk. destruct (N.eqb_spec k (N.of_nat v')).
    + subst k. match type of Hk with (if ?b then _ else _) = _ => destruct b end; [|discriminate].
      injection Hk as <-. rewrite <- Ev. auto.
    + rewrite Co by congruence. now apply A in Hk.
  - apply (p_consistent_replace _ _ _ _ old).
    + rewrite len_row6; lia.
    + apply row6_nodup. lia.
    + eauto.
    + eapply all_read_full; eassumption.
    + exact Lx.
    + now rewrite <- Ev.
    + exact Ne.
    + now rewrite <- Ev.
    + exact PC.
Qed.
Print Assumptions raid6_single_corruption_detected.

(** C16, second half: replacing the Q sector changes nothing. *)
Theorem raid6_q_ignored : forall l code a s c n rd rd' blk v x,
  layout6_code l = Some code -> raid6_from_layout code = Some a ->
  u64_ok s -> u32_ok n -> reader_ok rd -> reader_ok rd' ->
  raid6_read_sector a s c n rd = Ok blk ->
  corrupts rd rd' (member_sector s c (n - 2)) v x ->
  nth_N (row6 l n (stripe_of s c (n - 2))) v = Some Q ->
  raid6_read_sector a s c n rd' = Ok blk.
Proof.
  intros l code a s c n rd rd' blk v x Hl Ha Hs Hu RO RO' H (Cv & Lx & Co) NQ.
  rewrite (raid6_from_layout_code _ _ Hl) in Ha. injection Ha as <-.
  destruct (raid6_compute_sector (raid6_of l) s c n) as [[[[sec p] q] d]|] eqn:E.
  2: { unfold raid6_read_sector in H. rewrite E in H. discriminate. }
  apply raid6_compute_inv in E as (l' & El & Hl' & Hc & Hn & Ov & M & _ & _ & _ & Rp & _ & _); auto.
  assert (Ov' : ~ restart_overflow l (stripe_of s c (n - 2))).
  { rewrite exception_overflow in * by assumption. now rewrite El. }
  destruct (read_sector_ok_inv l s c n rd Hs Hu Hc Hn Ov' RO blk H) as (blks & LN & A & PC & SB).
  set (v' := N.to_nat v). assert (Ev : v = N.of_nat v') by lia. rewrite Ev in NQ.
  destruct (read_sector_consistent l s c n rd' Hs Hu Hc Hn Ov' RO' (replace_at blks v' x)) as (b & F & R).
  - unfold len. now rewrite length_replace.
  - intros k b Hk. rewrite N.add_0_l. rewrite nth_replace in Hk. destruct (N.eqb_spec k (N.of_nat v')).
    + subst k. match type of Hk with (if ?b then _ else _) = _ => destruct b end; [|discriminate].
      injection Hk as <-. rewrite <- Ev. auto.
    + rewrite Co by congruence. now apply A in Hk.
  - now apply p_consistent_replace_q.
  - rewrite slot_block_replace in F by congruence. rewrite F in SB. injection SB as <-. exact R.
Qed.
Print Assumptions raid6_q_ignored.

Example raid6_corruption_ex :
  corrupts (ex_rd x07 x0f x35 x3a) (ex_rd x07 x0e x35 x3a) (member_sector 9 8 2) 1 (repeat x0e 512) /\
  row6 (Md5 LeftSymmetric) 4 (stripe_of 9 8 2) = [Q; D 0; D 1; P] /\
  raid6_read_sector R6LeftSymmetric 9 8 4 (ex_rd x07 x0e x35 x3a) = Err InvalidData /\
  raid6_read_sector R6LeftSymmetric 9 8 4 (ex_rd xff x0f x35 x3a) = Ok (repeat x35 512).
Proof.
  split; [|vm_compute; auto]. split; [reflexivity|]. split; [reflexivity|].
  intros i Hi. unfold ex_rd. do 2 f_equal.
  replace (N.to_nat i) with (if i =? 0 then 0%nat else S (N.to_nat (i - 1))).
  - destruct (i =? 0) eqn:E; [reflexivity|]. apply N.eqb_neq in E.
    replace (N.to_nat (i - 1)) with (S (N.to_nat (i - 2))) by lia. reflexivity.
  - destruct (N.eqb_spec i 0); lia.
Qed.

(** ** C17: degraded arrays *)

(** A member is missing when reading from it fails. *)
Definition missing (rd : sector_reader) (i : N) : Prop := forall t buf, exists e, fst (rd i t buf) = Err e.

(** The whole of C17 is false: with only the Q member missing, a consistent stripe is unreadable. *)
Theorem raid6_degraded_refuted : exists rd rd0 : sector_reader,
  reader_ok rd /\ reader_ok rd0 /\
  (* the complete array reads *)
  raid6_read_sector R6LeftSymmetric 9 8 4 rd0 = Ok (repeat x35 512) /\
  (* one member, holding neither the data nor P, is missing; the others are the same *)
  missing rd 0 /\ (forall i t buf, i <> 0 -> rd i t buf = rd0 i t buf) /\
  (* yet the read fails *)
  raid6_read_sector R6LeftSymmetric 9 8 4 rd = Err InvalidData.
Proof.
  exists (fun i t buf => if i =? 0 then (Err InvalidData, buf) else ex_rd x07 x0f x35 x3a i t buf).
  exists (ex_rd x07 x0f x35 x3a).
  split; [|split; [apply ex_rd_ok|split; [|split; [|split]]]].
  - intros i s b. destruct (i =? 0); [reflexivity|apply ex_rd_ok].
  - vm_compute. reflexivity.
  - intros t buf. exists InvalidData. reflexivity.
  - intros i t buf H. destruct (N.eqb_spec i 0); [contradiction|reflexivity].
  - vm_compute. reflexivity.
Qed.
Print Assumptions raid6_degraded_refuted.

(** What holds instead: data is returned only while all [n] members can be read, so any missing
    member makes every sector unreadable, always with an error.  The rest of C17
    (reconstruction from P and Q) does not exist in the code. *)
Theorem raid6_degraded_partial : forall a s c n rd v,
  u64_ok s -> u32_ok n -> reader_ok rd ->
  (forall i t, fst (rd i t (zeros 512)) <> Panic) ->
  v < n -> missing rd v ->
  exists e, raid6_read_sector a s c n rd = Err e.
Proof.
  intros a s c n rd v Hs Hu RO NP Hv Mi. unfold raid6_read_sector.
  destruct (raid6_compute_sector a s c n) as [[[[sec p] q] d]|]; cbn [ok_or rbind]; [|eauto].
  destruct (read_all_fail rd sec (N.to_nat n) 0 RO) as [e R].
  - intros j _. apply NP.
  - exists v. split; [lia|]. intros g G. destruct (Mi sec (zeros 512)) as [e E]. congruence.
  - rewrite R. cbn [rbind]. eauto.
Qed.
Print Assumptions raid6_degraded_partial.

(** ** C23: algorithm codes *)

(** Published RAID-6 code numbers: those of [layout6_code]. *)
Theorem algorithm_classified : forall level lay,
  (exists l, level = 5 /\ lay = layout5_code l /\
     from_level_and_layout level lay = AlgRaid5 (raid5_of l)) \/
  (exists l, level = 6 /\ layout6_code l = Some lay /\
     from_level_and_layout level lay = AlgRaid6 (raid6_of l)) \/
  ((forall l, ~ (level = 5 /\ lay = layout5_code l)) /\
   (forall l, ~ (level = 6 /\ layout6_code l = Some lay)) /\
   from_level_and_layout level lay = AlgUnsupported level lay).
Proof.
  intros level lay.
  destruct (N.eq_dec level 5) as [->|N5].
  { destruct (raid5_from_layout lay) as [a|] eqn:E.
    - left. unfold from_level_and_layout. rewrite E. cbn.
      unfold raid5_from_layout in E.
      destruct lay as [|[[[|[]|]|[]|]|[[]|[]|]|]]; inv E;
        [exists LeftAsymmetric|exists ParityLast|exists RightSymmetric|exists ParityFirst
        |exists LeftSymmetric|exists RightAsymmetric]; auto.
    - right. right. split; [|split].
      + intros l [_ ->]. now rewrite raid5_from_layout_code in E.
      + intros l [? _]. discriminate.
      + unfold from_level_and_layout. rewrite E. reflexivity. }
  destruct (N.eq_dec level 6) as [->|N6].
  { destruct (raid6_from_layout lay) as [a|] eqn:E.
    - right. left. unfold from_level_and_layout. rewrite E. cbn.
      unfold raid6_from_layout in E.
      repeat match type of E with
             | match ?x with _ => _ end = Some _ => destruct x; try discriminate
             end; inv E;
        first [exists (Md5 LeftAsymmetric); now auto|exists (Md5 RightAsymmetric); now auto
              |exists (Md5 LeftSymmetric); now auto|exists (Md5 RightSymmetric); now auto
              |exists (Md5 ParityFirst); now auto|exists (Md5 ParityLast); now auto
              |exists DdfZeroRestart; now auto|exists DdfNRestart; now auto|exists DdfNContinue; now auto
              |exists (Raid5PlusQ LeftAsymmetric); now auto|exists (Raid5PlusQ RightAsymmetric); now auto
              |exists (Raid5PlusQ LeftSymmetric); now auto|exists (Raid5PlusQ RightSymmetric); now auto
              |exists (Raid5PlusQ ParityFirst); now auto].
    - right. right. split; [|split].
      + intros l [? _]. discriminate.
      + intros l [_ H]. now rewrite (raid6_from_layout_code _ _ H) in E.
      + unfold from_level_and_layout. rewrite E. reflexivity. }
  right. right. split; [|split].
  - intros l [? _]. contradiction.
  - intros l [? _]. contradiction.
  - unfold from_level_and_layout.
    destruct level as [|[[[]|[[]|[]|]|]|[[]|[]|]|]]; try reflexivity; congruence.
Qed.
Print Assumptions algorithm_classified.

(** C23: different (level, layout) pairs never become the same algorithm. *)
Theorem algorithm_injective : forall level lay level' lay',
  from_level_and_layout level lay = from_level_and_layout level' lay' ->
  level = level' /\ lay = lay'.
Proof.
  intros level lay level' lay' H.
  destruct (algorithm_classified level lay) as [(l & -> & -> & E)|[(l & -> & Hl & E)|(_ & _ & E)]];
  destruct (algorithm_classified level' lay') as [(l' & -> & -> & E')|[(l' & -> & Hl' & E')|(_ & _ & E')]];
  rewrite E, E' in H; try discriminate H; injection H; intros; subst; auto.
  - split; [reflexivity|]. destruct l, l'; try reflexivity; discriminate.
  - split; [reflexivity|].
    destruct l as [[]| | | |[]], l' as [[]| | | |[]]; cbn in *; congruence.
Qed.
Print Assumptions algorithm_injective.

Example algorithm_ex :
  from_level_and_layout 5 2 = AlgRaid5 R5LeftSymmetric /\ from_level_and_layout 6 10 = AlgRaid6 R6RotatingNContinue /\
  from_level_and_layout 6 21 = AlgUnsupported 6 21 /\ from_level_and_layout 10 258 = AlgUnsupported 10 258.
Proof. repeat split; reflexivity. Qed.
