(** Property C124: the nodes of extent trees, and the iterator over the extents of a leaf. *)

From Coq Require Import Strings.String.
From Verif Require Import Base BaseFacts SpecMd SuperblockFacts SpecCrc Crc Ext4Superblock Ext4Inode Ext4Extent SpecExt4File Ext4FileFacts PropsExt4File.

(** ** Specification *)

(** What is expected of a node that its holder has found valid: the entries lie within it. *)
Definition node_valid (seed : option N) (b : bytes) : Prop := tree_valid (from_internal (Node b seed)) = Ok true.

(** The answers to [k] calls of the iterator that has come to [pos]; a call that panics leaves it where it is. *)
Fixpoint calls (n : node) (pos : N) (k : nat) : list (res (option bytes)) :=
  match k with
  | O => []
  | S k => match leaf_iter_next n pos with
           | Ok (pos', r) => Ok r :: calls n pos' k
           | Err e => Err e :: calls n pos k
           | Panic => Panic :: calls n pos k
           end
  end.

(** ** The header *)

(** Leaves are the nodes of depth 0, and the accessors read the fields of the header where Linux keeps them. *)
Theorem node_header_published : forall b seed,
  let t := from_internal (Node b seed) in
  (node_depth b = 0 -> t = Leaf (Node b seed)) /\ (node_depth b <> 0 -> t = Branch (Node b seed)) /\
  tree_entry_count t = uint_le b 2 2 /\ nd_max_entries (tree_node t) = uint_le b 4 2 /\ nd_generation (tree_node t) = uint_le b 8 4.
Proof.
  intros b seed t. unfold t, from_internal. rewrite nd_depth_spec.
  assert (G : nd_entry_count (Node b seed) = uint_le b 2 2 /\ nd_max_entries (Node b seed) = uint_le b 4 2 /\ nd_generation (Node b seed) = uint_le b 8 4).
  { unfold nd_entry_count, nd_max_entries, nd_generation. repeat fle_field. repeat split. }
  destruct (N.eqb_spec (node_depth b) 0) as [E|E]; (split; [easy|]); (split; [easy|]); exact G.
Qed.
Print Assumptions node_header_published.

(** ** The entries *)

Lemma node_valid_fits seed b : node_valid seed b -> 12 <= len b /\ node_fits b.
Proof.
  intros V. unfold node_valid, tree_valid, from_internal in V.
  assert (V' : nd_valid (Node b seed) = Ok true) by (destruct (nd_depth (Node b seed) =? 0); exact V).
  destruct (extent_valid_iff b seed) as (v & E & H). rewrite V' in E. injection E as <-. destruct (proj1 H eq_refl) as (L & _ & F).
  split; [exact L|]. unfold node_fits. destruct seed; lia.
Qed.

(** In a valid node, each of the entries that the header counts is at its place, there are no others, and nothing panics. *)
Theorem node_entries_published : forall b seed pos, node_valid seed b ->
  nd_entry_at (Node b seed) pos = Ok (if pos <? uint_le b 2 2 then Some (window b (12 + 12 * pos) 12) else None).
Proof.
  intros b seed pos V. destruct (node_valid_fits seed b V) as [L F]. change (uint_le b 2 2) with (node_entries b). destruct (N.ltb_spec pos (node_entries b)) as [P|P].
  - now apply nd_entry_at_spec.
  - unfold nd_entry_at. rewrite nd_count_spec. destruct (N.ltb_spec pos (node_entries b)); [lia|reflexivity].
Qed.
Print Assumptions node_entries_published.

(** In one that is too short for the entries that it counts, reading any of them panics; reading others does not. *)
Theorem node_entries_short : forall b seed pos, 12 <= len b < 12 + 12 * uint_le b 2 2 ->
  nd_entry_at (Node b seed) pos = (if pos <? uint_le b 2 2 then Panic else Ok None).
Proof.
  intros b seed pos [L S]. change (uint_le b 2 2) with (node_entries b) in *. destruct (N.ltb_spec pos (node_entries b)) as [P|P].
  - apply nd_entry_at_spec; [exact L|exact P|]. unfold node_fits. lia.
  - unfold nd_entry_at. rewrite nd_count_spec. destruct (N.ltb_spec pos (node_entries b)); [lia|reflexivity].
Qed.
Print Assumptions node_entries_short.

(** ** The iterator *)

(** However often it is called: the extents of the leaf, each once and in order, and from then on nothing. *)
Theorem leaf_iterated : forall b seed k, node_valid seed b ->
  calls (Node b seed) 0 k = map (fun i => Ok (if N.of_nat i <? uint_le b 2 2 then Some (window b (12 + 12 * N.of_nat i) 12) else None)) (seq 0 k).
Proof.
  intros b seed k V.
  assert (G : forall k i, (N.of_nat i <= uint_le b 2 2) -> calls (Node b seed) (N.of_nat i) k =
    map (fun i => Ok (if N.of_nat i <? uint_le b 2 2 then Some (window b (12 + 12 * N.of_nat i) 12) else None)) (seq i k)).
  { clear k. assert (Z : forall k p, uint_le b 2 2 <= p -> calls (Node b seed) p k = repeat (Ok None) k).
    { induction k as [|k IH]; intros p P; [reflexivity|]. cbn [calls repeat]. unfold leaf_iter_next. rewrite node_entries_published by exact V.
      destruct (N.ltb_spec p (uint_le b 2 2)); [lia|]. cbn [rbind]. now rewrite IH. }
    induction k as [|k IH]; intros i P; [reflexivity|]. cbn [calls seq map]. unfold leaf_iter_next. rewrite node_entries_published by exact V.
    destruct (N.ltb_spec (N.of_nat i) (uint_le b 2 2)) as [Q|Q]; cbn [rbind].
    - f_equal. replace (N.of_nat i + 1) with (N.of_nat (S i)) by lia. apply IH. lia.
    - rewrite Z by lia. f_equal. clear IH. assert (Hj : forall k j, (i <= j)%nat -> repeat (Ok None) k =
        map (fun i0 => Ok (if N.of_nat i0 <? uint_le b 2 2 then Some (window b (12 + 12 * N.of_nat i0) 12) else None)) (seq j k)); [|apply Hj; lia].
      clear k Z. induction k as [|k IH]; intros j Hj; [reflexivity|]. cbn [repeat seq map]. destruct (N.ltb_spec (N.of_nat j) (uint_le b 2 2)); [lia|].
      f_equal. apply IH. lia. }
  exact (G k O (N.le_0_l _)).
Qed.
Print Assumptions leaf_iterated.

(** So after as many calls as there are extents all of them have been given, as they are read one by one; *)
Theorem leaf_iterated_all : forall b seed, node_valid seed b ->
  exists es, calls (Node b seed) 0 (N.to_nat (uint_le b 2 2)) = map (fun e => Ok (Some e)) es /\
    len es = uint_le b 2 2 /\ concat es = window b 12 (12 * uint_le b 2 2).
Proof.
  intros b seed V. destruct (node_valid_fits seed b V) as [L F]. unfold node_fits, node_entries in F. set (m := uint_le b 2 2) in *.
  exists (map (fun i => window b (12 + 12 * N.of_nat i) 12) (seq 0 (N.to_nat m))). split; [|split].
  - rewrite leaf_iterated by exact V. rewrite map_map. apply map_ext_in. intros i I. apply in_seq in I. fold m. destruct (N.ltb_spec (N.of_nat i) m); [reflexivity|lia].
  - unfold len. rewrite map_length, seq_length. lia.
  - assert (G : forall k, N.of_nat k <= m -> concat (map (fun i => window b (12 + 12 * N.of_nat i) 12) (seq 0 k)) = window b 12 (12 * N.of_nat k)).
    { induction k as [|k IH]; intros P; [reflexivity|]. rewrite seq_S, map_app, concat_app, IH by lia. cbn [map concat Nat.add]. rewrite app_nil_r.
      replace (12 * N.of_nat (S k)) with (12 * N.of_nat k + 12) by lia. now rewrite window_app_split. }
    rewrite G by lia. now rewrite N2Nat.id.
Qed.
Print Assumptions leaf_iterated_all.

(** and of a leaf that is too short each call panics. *)
Theorem leaf_iterated_short : forall b seed k, 12 <= len b < 12 + 12 * uint_le b 2 2 -> calls (Node b seed) 0 k = repeat Panic k.
Proof.
  intros b seed k H. induction k as [|k IH]; [reflexivity|]. cbn [calls repeat]. unfold leaf_iter_next. rewrite node_entries_short by exact H.
  destruct (N.ltb_spec 0 (uint_le b 2 2)); [|lia]. cbn [rbind]. now rewrite IH.
Qed.
Print Assumptions leaf_iterated_short.

(** ** Examples *)

Definition two_extents : bytes := ex_header 2 4 0 ++ ex_extent 0 3 100 ++ ex_extent 3 5 200 ++ zeros 24.
Example node_ex : node_valid None two_extents /\ node_depth two_extents = 0 /\
  calls (Node two_extents None) 0 4 = [Ok (Some (ex_extent 0 3 100)); Ok (Some (ex_extent 3 5 200)); Ok None; Ok None].
Proof. split; [|split]; vm_compute; reflexivity. Qed.
Example node_short_ex : let b := firstn 30 two_extents in 12 <= len b < 12 + 12 * uint_le b 2 2 /\ ~ node_valid None b.
Proof. cbv zeta. split; [split; vm_compute; easy|]. intros H. vm_compute in H. discriminate H. Qed.
