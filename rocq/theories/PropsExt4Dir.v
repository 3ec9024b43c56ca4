(** Directories: properties C44 to C48. *)

From Coq Require Import Strings.String.
From Verif Require Import Base BaseFacts Io SpecStream IoFacts SpecMd SuperblockFacts Superblock Crc SpecCrc CrcFacts PropsCrc
  Ext4Superblock SpecExt4 PropsExt4Superblock Ext4Inode SpecExt4Inode PropsExt4Inode Ext4Fs SpecExt4Fs Ext4FsFacts
  PropsExt4Fs Ext4Extent Ext4File SpecExt4File Ext4FileFacts PropsExt4File Ext4String Ext4Dir SpecExt4Dir TestData.

Local Opaque read_exact.

(** ** Records *)

Lemma uint_window b o n p w : p + N.of_nat w <= n -> uint_le (window b o n) p w = uint_le b (o + p) w.
Proof. intros H. rewrite !uint_le_window, window_window by exact H. reflexivity. Qed.

Lemma rec_length_window b o n : 8 <= n -> rec_length (window b o n) = uint_le b (o + 4) 2.
Proof. intros H. unfold rec_length. apply uint_window. change (N.of_nat 2) with 2. lia. Qed.
Lemma rec_name_length_window b o n : 8 <= n -> rec_name_length (window b o n) = uint_le b (o + 6) 1.
Proof. intros H. unfold rec_name_length. apply uint_window. change (N.of_nat 1) with 1. lia. Qed.

(** What a record is in terms of the block; its own length field is its length. *)
Lemma record_at_len b limit o e : limit <= len b -> record_at b limit o e ->
  len e = rec_length e /\ 8 + rec_name_length e <= len e /\ o + len e <= limit.
Proof.
  intros L (E & A & B & C). rewrite rec_length_window in * by lia. rewrite rec_name_length_window in * by lia.
  set (r := uint_le b (o + 4) 2) in *.
  assert (LE : len e = r) by (rewrite E; apply len_window_in; lia).
  rewrite LE. rewrite E, rec_length_window, rec_name_length_window by lia. fold r. lia.
Qed.

Lemma skipn_window {A} (l : list A) o n k : k <= n -> skipn (N.to_nat k) (window l o n) = window l (o + k) (n - k).
Proof.
  intros H. unfold window. rewrite skipn_firstn_comm, skipn_skipn'. f_equal; [lia|]. f_equal. lia.
Qed.

Lemma entry_from_buf_spec b limit o : limit <= len b -> o <= limit ->
  (exists e, record_at b limit o e /\
     entry_from_buf (window b o (limit - o)) = (Some e, window b (o + len e) (limit - (o + len e)))) \/
  ((forall e, ~ record_at b limit o e) /\ entry_from_buf (window b o (limit - o)) = (None, window b o (limit - o))).
Proof.
  intros L O. unfold entry_from_buf. change (layout_size entry_layout) with 8. rewrite len_window_in by lia.
  destruct (N.leb_spec 8 (limit - o)) as [H|H].
  2:{ right. split; [|reflexivity]. intros e (_ & A & _). lia. }
  fle_field. rewrite (fle_uint entry_layout "name_length" 6 1) by reflexivity. change (N.to_nat 1) with 1%nat.
  rewrite !uint_window by (cbn; lia).
  set (r := uint_le b (o + 4) 2). set (n := uint_le b (o + 6) 1).
  destruct (N.leb_spec r (limit - o)) as [R|R]; [destruct (N.leb_spec (8 + n) r) as [N1|N1]|]; cbn [andb].
  - left. exists (window b o r). split.
    + unfold record_at. rewrite rec_length_window, rec_name_length_window by lia. fold r n. repeat split; lia.
    + rewrite len_window_in by lia. rewrite window_window, N.add_0_r by lia. f_equal. rewrite skipn_window by lia. f_equal. lia.
  - right. split; [|reflexivity]. intros e (_ & A & B & _). rewrite rec_length_window, rec_name_length_window in B by lia.
    fold r n in B. lia.
  - right. split; [|reflexivity]. intros e (_ & A & _ & B). rewrite rec_length_window in B by lia. fold r in B. lia.
Qed.

Lemma dir_block_next_spec b limit o : limit <= len b -> o <= limit ->
  (exists e, record_at b limit o e /\ dir_block_next (DirBlock b o limit) = (DirBlock b (o + len e) limit, Ok (Some e))) \/
  ((forall e, ~ record_at b limit o e) /\ dir_block_next (DirBlock b o limit) = (DirBlock b o limit, Ok None)).
Proof.
  intros L O. unfold dir_block_next. cbn [db_pos db_len db_storage].
  destruct (N.leb_spec o limit); [|lia]. destruct (N.leb_spec limit (len b)); [|lia]. cbn [andb].
  destruct (entry_from_buf_spec b limit o L O) as [(e & R & ->)|(N & ->)].
  - left. exists e. split; [exact R|]. destruct (record_at_len _ _ _ _ L R) as (_ & _ & A).
    rewrite len_window_in by lia. do 2 f_equal. lia.
  - right. split; [exact N|]. rewrite len_window_in by lia. do 2 f_equal. lia.
Qed.

(** ** Every block is a sequence of records, in one way *)
Lemma records_exist b limit o : limit <= len b -> o <= limit ->
  exists es, records b limit o es /\ 8 * len es <= limit - o /\ o + len (concat es) <= limit /\
    concat es = window b o (len (concat es)).
Proof.
  intros L. remember (N.to_nat (limit - o)) as m eqn:M. revert o M. induction m as [m IH] using (well_founded_induction lt_wf).
  intros o -> O. destruct (entry_from_buf_spec b limit o L O) as [(e & R & _)|(N & _)].
  - destruct (record_at_len _ _ _ _ L R) as (A & B & C).
    destruct (IH (N.to_nat (limit - (o + len e))) ltac:(lia) (o + len e) eq_refl ltac:(lia)) as (es & RS & D & E & F).
    exists (e :: es). split; [now constructor|]. cbn [concat]. rewrite len_cons, len_app. split; [lia|]. split; [lia|].
    rewrite window_app_split, <- F. f_equal. destruct R as (E0 & _ & _ & D0).
    rewrite E0 at 1. f_equal. rewrite E0, len_window_in by lia. reflexivity.
  - exists []. split; [now constructor|]. change (len (concat [])) with 0. rewrite window_0.
    change (len []) with 0. repeat split; lia.
Qed.

Lemma records_unique b limit o es es' : records b limit o es -> records b limit o es' -> es = es'.
Proof.
  intros R. revert es'. induction R as [o N|o e es R RS IH]; intros es' R'; inversion R' as [o' N' |o' e' es2 R2 RS2]; subst.
  - reflexivity.
  - now destruct (N e').
  - now destruct (N' e).
  - assert (e = e') as <-. { destruct R as (-> & _), R2 as (-> & _). reflexivity. } f_equal. now apply IH.
Qed.

Lemma run_block_records b limit o es n : limit <= len b -> o <= limit -> records b limit o es ->
  run_block n (DirBlock b o limit) = firstn n (map (fun e => Ok (Some e)) es ++ repeat (Ok None) n).
Proof.
  intros L. revert o es. induction n as [|n IH]; intros o es O R; [reflexivity|]. cbn [run_block].
  destruct (dir_block_next_spec b limit o L O) as [(e & RE & ->)|(N & ->)].
  - inversion R as [o' N' |o' e' es2 R2 RS2]; subst; [now destruct (N' e)|].
    assert (e = e') as <-. { destruct RE as (-> & _), R2 as (-> & _). reflexivity. }
    destruct (record_at_len _ _ _ _ L RE) as (_ & _ & A).
    rewrite (IH _ es2 A RS2). cbn [map app firstn]. f_equal.
    cbn [repeat]. rewrite repeat_cons, app_assoc. symmetry. rewrite firstn_app.
    rewrite app_length, map_length, repeat_length. replace (n - (length es2 + n))%nat with 0%nat by lia.
    cbn [firstn]. now rewrite app_nil_r.
  - inversion R as [o' N' |o' e' es2 R2 RS2]; subst; [|now destruct (N e')].
    rewrite (IH _ [] O R). cbn [map app]. now rewrite !firstn_all2 by (rewrite repeat_length; lia).
Qed.

(** ** C47: blocks with a checksum *)

Lemma dir_block_new_spec b seed : 12 <= len b -> (forall sd, seed = Some sd -> sd < 2 ^ 32) ->
  (dir_tail_ok seed b /\ dir_block_new b seed = Ok (Some (DirBlock b 0 (dir_limit seed b)))) \/
  (~ dir_tail_ok seed b /\ dir_block_new b seed = Ok None).
Proof.
  intros L SD. destruct seed as [sd|]; [|left; split; reflexivity]. specialize (SD sd eq_refl).
  unfold dir_block_new, dir_tail_ok, dir_limit. change (layout_size entry_tail_layout) with 12. unfold csub64.
  destruct (N.leb_spec 12 (len b)); [|lia]. cbn [unwrap rbind]. set (o := len b - 12).
  assert (SF : slice_from b o = Some (window b o 12)).
  { unfold slice_from. destruct (N.leb_spec o (len b)); [|lia]. f_equal. unfold window.
    rewrite firstn_all2; [reflexivity|]. rewrite skipn_length, length_len. lia. }
  assert (SL : slice_to b o = Some (window b 0 o)).
  { unfold slice_to. destruct (N.leb_spec o (len b)); [|lia]. now rewrite window_firstn. }
  rewrite SF, SL. cbn [unwrap rbind]. repeat fle_field. rewrite !uint_window by (cbn; lia). rewrite N.add_0_r.
  rewrite (crc32c_is_remainder sd (window b 0 o) _ SD).
  destruct (N.eqb_spec (uint_le b o 4) 0) as [E1|E1]; [|right; split; [tauto|reflexivity]].
  destruct (N.eqb_spec (uint_le b (o + 4) 2) 12) as [E2|E2]; [|right; split; [tauto|reflexivity]].
  destruct (N.eqb_spec (uint_le b (o + 6) 1) 0) as [E3|E3]; [|right; split; [tauto|reflexivity]].
  destruct (N.eqb_spec (uint_le b (o + 7) 1) 0xde) as [E4|E4]; [|right; split; [tauto|reflexivity]].
  cbn [negb orb].
  destruct (N.eqb_spec (uint_le b (o + 8) 4) (ext4_crc32c sd (window b 0 o))) as [E5|E5]; [|right; split; [tauto|reflexivity]].
  left. split; [tauto|reflexivity].
Qed.

(** Exactly the blocks with a proper tail and the right checksum are listed. *)
Theorem dir_block_accepted_iff b seed : 12 <= len b -> (forall sd, seed = Some sd -> sd < 2 ^ 32) ->
  ((exists d, dir_block_new b seed = Ok (Some d)) <-> dir_tail_ok seed b) /\
  (dir_block_new b seed = Ok None <-> ~ dir_tail_ok seed b).
Proof.
  intros L SD. destruct (dir_block_new_spec b seed L SD) as [[T ->]|[T ->]].
  - split; split; try tauto; [eauto|discriminate].
  - split; split; try tauto. intros (d & E). discriminate E.
Qed.
Print Assumptions dir_block_accepted_iff.

Lemma dir_tail_fixed b sd : 12 <= len b -> dir_tail_ok (Some sd) b ->
  window b (len b - 12) 8 = [x00; x00; x00; x00; x0c; x00; x00; xde].
Proof.
  intros L (A & B & C & D & _). rewrite !uint_le_window in *. set (o := len b - 12) in *.
  change (N.of_nat 4) with 4 in *. change (N.of_nat 2) with 2 in *. change (N.of_nat 1) with 1 in *.
  assert (X : forall p w v, p + w <= len b -> le (window b p w) = le v -> len v = w -> window b p w = v).
  { intros p w v Hp E LV. apply le_inj; [|exact E]. rewrite len_window_in by exact Hp. now symmetry. }
  change 8 with (4 + (2 + (1 + 1))). rewrite !window_app_split.
  rewrite (X o 4 [x00; x00; x00; x00]), (X (o + 4) 2 [x0c; x00]), (X (o + 4 + 2) 1 [x00]), (X (o + 4 + 2 + 1) 1 [xde]);
    try reflexivity; try lia.
  - replace (o + 4 + 2 + 1) with (o + 7) by lia. rewrite D. reflexivity.
  - replace (o + 4 + 2) with (o + 6) by lia. rewrite C. reflexivity.
  - rewrite B. reflexivity.
  - rewrite A. reflexivity.
Qed.

Lemma dir_tail_split (b : bytes) : 12 <= len b -> b = window b 0 (len b - 12) ++ window b (len b - 12) 8 ++ window b (len b - 12 + 8) 4.
Proof.
  intros L. rewrite <- window_app_split. pose proof (window_app_split b 0 (len b - 12) (8 + 4)) as E.
  rewrite N.add_0_l in E. rewrite <- E. replace (len b - 12 + (8 + 4)) with (len b) by lia. now rewrite window_full.
Qed.

(** The whole block counts: an altered tail is noticed, and so is every small change of the rest and the checksum taken
    together. *)
Theorem dir_corruption_rejected a b sd : sd < 2 ^ 32 -> 12 <= len a -> len b = len a -> 8 * len a <= 2 ^ 31 - 1 ->
  (exists d, dir_block_new a (Some sd) = Ok (Some d)) ->
  let o := len a - 12 in
  window b o 8 <> window a o 8 \/
  small_change (window a 0 o ++ window a (o + 8) 4) (window b 0 o ++ window b (o + 8) 4) ->
  dir_block_new b (Some sd) = Ok None.
Proof.
  intros SD L LB L8 A o C.
  assert (SD' : forall s, Some sd = Some s -> s < 2 ^ 32) by (intros s E; injection E as <-; exact SD).
  apply (dir_block_accepted_iff a (Some sd) L SD') in A.
  apply (dir_block_accepted_iff b (Some sd) ltac:(lia) SD'). intros B.
  pose proof (dir_tail_fixed a sd L A) as FA. pose proof (dir_tail_fixed b sd ltac:(lia) B) as FB.
  rewrite LB in FB. fold o in FA, FB.
  destruct C as [C|C]; [congruence|].
  destruct A as (_ & _ & _ & _ & A). destruct B as (_ & _ & _ & _ & B). rewrite LB in B. fold o in A, B.
  assert (CW : forall c, len c = len a -> is_crc sd (bits_of (window c 0 o)) (uint_le c (o + 8) 4) ->
               ext4_crc32c sd (window c 0 o ++ window c (o + 8) 4) = 0).
  { intros c LC H. apply (crc32c_is_remainder sd _ _ SD) in H. rewrite uint_le_window in H.
    apply crc32c_codeword; [exact SD|apply len_window_in; lia|exact H]. }
  refine (crc_small_change sd _ _ SD _ _ C _).
  - rewrite !len_app, !len_window_in by lia. reflexivity.
  - rewrite len_app, !len_window_in by lia. lia.
  - rewrite (CW a), (CW b); auto.
Qed.
Print Assumptions dir_corruption_rejected.

Lemma app_inj_l {A} (a b c d : list A) : len a = len b -> a ++ c = b ++ d -> a = b /\ c = d.
Proof.
  revert b. induction a as [|x a IH]; intros [|y b] L E; try (unfold len in L; cbn [length] in L; lia); [now split|].
  injection E as -> E. destruct (IH b) as [-> ->]; auto. rewrite !len_cons in L. lia.
Qed.
Lemma length_to_le n v : length (to_le n v) = n.
Proof. revert v. induction n as [|n IH]; intros v; [reflexivity|]. cbn [to_le length]. now rewrite IH. Qed.

(** In particular when four consecutive bytes are altered, wherever they are. *)
Lemma window_burst {A} (p x y s : list A) o n : len x = len y ->
  exists p' x' y' s', window (p ++ x ++ s) o n = p' ++ x' ++ s' /\ window (p ++ y ++ s) o n = p' ++ y' ++ s' /\
    len x' = len y' /\ len x' <= len x.
Proof.
  intros L. assert (L' : length x = length y) by (unfold len in L; lia).
  unfold window. set (k := N.to_nat o). set (m := N.to_nat n). rewrite !skipn_app, !firstn_app, !skipn_length, L'.
  exists (firstn m (skipn k p)), (firstn (m - (length p - k)) (skipn (k - length p) x)),
         (firstn (m - (length p - k)) (skipn (k - length p) y)),
         (firstn (m - (length p - k) - (length y - (k - length p))) (skipn (k - length p - length y) s)).
  split; [reflexivity|]. split; [reflexivity|]. unfold len. rewrite !firstn_length, !skipn_length. lia.
Qed.

Theorem dir_burst_rejected a b sd : sd < 2 ^ 32 -> 12 <= len a -> 8 * len a <= 2 ^ 31 - 1 ->
  (exists d, dir_block_new a (Some sd) = Ok (Some d)) -> byte_burst a b -> dir_block_new b (Some sd) = Ok None.
Proof.
  intros SD L L8 A (D & p & x & y & s & EA & EB & LXY & L4).
  assert (LB : len b = len a) by (rewrite EA, EB, !len_app; lia).
  set (o := len a - 12).
  destruct (list_eq_dec Byte.byte_eq_dec (window b o 8) (window a o 8)) as [W|W].
  2:{ apply (dir_corruption_rejected a b sd); auto. }
  apply (dir_corruption_rejected a b sd); auto. right. fold o.
  assert (NE : window a 0 o ++ window a (o + 8) 4 <> window b 0 o ++ window b (o + 8) 4).
  { intros E. apply app_inj_l in E as [E1 E2]; [|rewrite !len_window_in by lia; reflexivity]. apply D.
    rewrite (dir_tail_split a L), (dir_tail_split b) by lia. rewrite LB. fold o. congruence. }
  apply byte_burst_small. split; [exact NE|].
  destruct (list_eq_dec Byte.byte_eq_dec (window a 0 o) (window b 0 o)) as [P|P].
  - exists (window a 0 o), (window a (o + 8) 4), (window b (o + 8) 4), []. rewrite !app_nil_r.
    split; [reflexivity|]. split; [now rewrite P|]. rewrite !len_window_in by lia. split; [reflexivity|discriminate].
  - assert (S4 : window a (o + 8) 4 = window b (o + 8) 4).
    { assert (PO : len p < o).
      { destruct (N.lt_ge_cases (len p) o) as [G|G]; [exact G|]. exfalso. apply P.
        rewrite EA, EB, !window_app_l by lia. reflexivity. }
      rewrite EA, EB, !app_assoc. rewrite !window_app_r by (rewrite len_app; lia). rewrite !len_app, LXY. reflexivity. }
    rewrite S4. destruct (window_burst p x y s 0 o LXY) as (p' & x' & y' & s' & E1 & E2 & LX & LE).
    rewrite <- EA in E1. rewrite <- EB in E2.
    exists p', x', y', (s' ++ window b (o + 8) 4). rewrite E1, E2, !app_assoc. repeat split; lia.
Qed.
Print Assumptions dir_burst_rejected.

(** ** C44 *)

(** Walking a block gives its records, one behind the other from the start of the block, inside the part for records;
    there are at most as many as there are eight bytes, and then it ends. *)
Theorem dir_block_walk b seed d : 12 <= len b -> (forall sd, seed = Some sd -> sd < 2 ^ 32) ->
  dir_block_new b seed = Ok (Some d) ->
  exists es, records b (dir_limit seed b) 0 es /\ 8 * len es <= dir_limit seed b /\
    concat es = window b 0 (len (concat es)) /\ len (concat es) <= dir_limit seed b /\
    forall n, run_block n d = firstn n (map (fun e => Ok (Some e)) es ++ repeat (Ok None) n).
Proof.
  intros L SD E. destruct (dir_block_new_spec b seed L SD) as [[_ E']|[_ E']]; [|congruence]. rewrite E in E'. injection E' as ->.
  assert (LM : dir_limit seed b <= len b) by (destruct seed; cbn [dir_limit]; lia).
  destruct (records_exist b (dir_limit seed b) 0 LM ltac:(lia)) as (es & R & B & C & D).
  exists es. repeat split; try assumption; try lia. intros n. now apply run_block_records; [|lia|].
Qed.
Print Assumptions dir_block_walk.

(** ** C45 *)

(** What is reported about an entry. *)
Definition reported (e : bytes) : dirent := Dirent (entry_inode e) (entry_name e) (byte_of (inline_type_code (entry_file_type e))).

Lemma len_encode d : len (encode_record d) = 8 + len (de_name (fst d)) + snd d.
Proof. destruct d as [[ino name ty] pad]. cbn [encode_record fst snd de_name]. rewrite !len_app, !len_to_le, len_zeros, len_cons. change (len (@nil byte)) with 0. lia. Qed.

Lemma encoded_fields d rest : dirent_ok d ->
  let e := encode_record d ++ rest in
  uint_le e 0 4 = de_inode (fst d) /\ uint_le e 4 2 = len (encode_record d) /\ uint_le e 6 1 = len (de_name (fst d)) /\
  uint_le e 7 1 = bval (de_type (fst d)).
Proof.
  destruct d as [[ino name ty] pad]. intros (A & B & _ & C). cbv zeta. rewrite len_encode. cbn [encode_record fst snd de_name de_inode de_type].
  rewrite !uint_le_window. change (N.of_nat 4) with 4. change (N.of_nat 2) with 2. change (N.of_nat 1) with 1.
  repeat split.
  - rewrite <- !app_assoc. rewrite window_app_l by (rewrite len_to_le; discriminate).
    rewrite window_firstn, firstn_all2 by (rewrite length_to_le; cbn; lia). apply le_to_le. exact A.
  - rewrite <- !app_assoc. rewrite window_app_r by (rewrite len_to_le; discriminate). rewrite len_to_le.
    rewrite window_app_l by (rewrite len_to_le; discriminate).
    change (4 - N.of_nat 4) with 0. rewrite window_firstn, firstn_all2 by (rewrite length_to_le; cbn; lia). apply le_to_le. exact C.
  - rewrite <- !app_assoc. do 2 (rewrite window_app_r by (rewrite len_to_le; discriminate); rewrite len_to_le).
    rewrite window_app_l by (rewrite len_to_le; discriminate).
    change (6 - N.of_nat 4 - N.of_nat 2) with 0. rewrite window_firstn, firstn_all2 by (rewrite length_to_le; cbn; lia).
    apply le_to_le. cbn. lia.
  - rewrite <- !app_assoc. do 3 (rewrite window_app_r by (rewrite len_to_le; discriminate); rewrite len_to_le).
    cbn [app]. apply N.add_0_r.
Qed.

Lemma null_terminated name rest : ~ In x00 name -> (rest = [] \/ exists r, rest = x00 :: r) ->
  from_null_terminated (name ++ rest) = name.
Proof.
  intros N R. induction name as [|b name IH]; cbn [app from_null_terminated].
  - destruct R as [->|(r & ->)]; reflexivity.
  - destruct (N.eqb_spec (bval b) 0) as [E|E].
    + exfalso. apply N. left. apply bval_inj. now rewrite E.
    + f_equal. apply IH. intros I. apply N. now right.
Qed.

Lemma zeros_shape k : zeros k = [] \/ exists r, zeros k = x00 :: r.
Proof. unfold zeros. destruct (N.to_nat k); [now left|right; eexists; reflexivity]. Qed.

Lemma reported_encoded d : dirent_ok d -> reported (encode_record d) = fst d.
Proof.
  intros O. destruct (encoded_fields d [] O) as (A & B & C & D). rewrite app_nil_r in *.
  unfold reported, entry_inode, entry_file_type. repeat fle_field. rewrite A, D.
  destruct d as [[ino name ty] pad]. destruct O as (_ & _ & N & _). cbn [fst de_inode de_name de_type] in *. f_equal.
  - unfold entry_name. change (layout_size entry_layout) with 8. cbn [encode_record]. rewrite !app_assoc.
    rewrite <- (app_assoc _ name). rewrite skipn_app, skipn_all2 by (rewrite !app_length, !length_to_le; cbn; lia).
    cbn [app]. replace (_ - _)%nat with 0%nat by (rewrite !app_length, !length_to_le; reflexivity). cbn [skipn].
    apply null_terminated; [exact N|apply zeros_shape].
  - replace (inline_type_code (inline_type_of (bval ty))) with (bval ty); [apply byte_of_bval|].
    unfold inline_type_of. repeat (match goal with |- context [N.eqb ?a ?b] => destruct (N.eqb_spec a b); [easy|] end). reflexivity.
Qed.

Lemma encoded_records ds pre tail : Forall dirent_ok ds ->
  let body := concat (map encode_record ds) in
  records (pre ++ body ++ tail) (len pre + len body) (len pre) (map encode_record ds).
Proof.
  intros F. revert pre. induction F as [|d ds O F IH]; intros pre; cbv zeta; cbn [map concat].
  - constructor. intros e (_ & H & _). change (len []) with 0 in H. lia.
  - constructor.
    + destruct (encoded_fields d (concat (map encode_record ds) ++ tail) O) as (_ & B & C & _).
      pose proof (len_encode d) as LE.
      assert (W : forall o w, o + N.of_nat w <= 8 -> uint_le (window (pre ++ (encode_record d ++ concat (map encode_record ds)) ++ tail) (len pre) 8) o w
                  = uint_le (encode_record d ++ concat (map encode_record ds) ++ tail) o w).
      { intros o w Hw. rewrite uint_window by exact Hw. rewrite !uint_le_window, window_app_r by lia.
        f_equal. rewrite <- app_assoc. f_equal. lia. }
      unfold record_at, rec_length, rec_name_length. rewrite !W by (cbn; lia). rewrite B, C, len_app. repeat split; try lia.
      rewrite window_app_r by lia. rewrite N.sub_diag, <- app_assoc, window_app_l, window_full by lia. reflexivity.
    + specialize (IH (pre ++ encode_record d)). cbv zeta in IH. rewrite !len_app, <- !app_assoc in IH. rewrite <- !app_assoc.
      rewrite len_app, N.add_assoc. exact IH.
Qed.

Lemma encode_tail_ok body sd sum : is_crc sd (bits_of body) sum -> dir_tail_ok (Some sd) (body ++ encode_tail sum) /\
  len (body ++ encode_tail sum) = len body + 12.
Proof.
  intros H. assert (B : sum < 2 ^ 32) by apply H.
  assert (LT : len (encode_tail sum) = 12) by (unfold encode_tail; rewrite !len_app, !len_to_le; reflexivity).
  assert (LB : len (body ++ encode_tail sum) = len body + 12) by (rewrite len_app, LT; reflexivity).
  split; [|exact LB]. unfold dir_tail_ok. rewrite LB. replace (len body + 12 - 12) with (len body) by lia.
  assert (U : forall p w, uint_le (body ++ encode_tail sum) (len body + p) w = uint_le (encode_tail sum) p w).
  { intros p w. rewrite !uint_le_window, window_app_r by lia. do 2 f_equal. lia. }
  rewrite <- (N.add_0_r (len body)) at 1. rewrite !U. unfold encode_tail.
  replace (window (body ++ _) 0 (len body)) with body by (rewrite window_app_l, window_full by lia; reflexivity).
  do 4 (split; [reflexivity|]).
  rewrite uint_le_window. rewrite !app_assoc. rewrite window_app_r by (rewrite !len_app, !len_to_le; discriminate).
  rewrite !len_app, !len_to_le. change (8 - _) with 0. rewrite window_firstn, firstn_all2 by (rewrite length_to_le; cbn; lia).
  rewrite le_to_le by exact B. exact H.
Qed.

Theorem dir_block_round_trip ds seed b : Forall dirent_ok ds ->
  let body := concat (map encode_record ds) in
  match seed with
  | None => b = body
  | Some sd => sd < 2 ^ 32 /\ exists sum, is_crc sd (bits_of body) sum /\ b = body ++ encode_tail sum
  end ->
  exists d, dir_block_new b seed = Ok (Some d) /\
    forall n, exists rs, run_block n d = firstn n (map (fun e => Ok (Some e)) rs ++ repeat (Ok None) n) /\
      map reported rs = map fst ds.
Proof.
  intros F body E.
  assert (X : exists tail, b = body ++ tail /\ dir_limit seed b = len body /\
                dir_block_new b seed = Ok (Some (DirBlock b 0 (dir_limit seed b)))).
  { destruct seed as [sd|].
    - destruct E as (SD & sum & H & ->). exists (encode_tail sum). split; [reflexivity|].
      destruct (encode_tail_ok body sd sum H) as [T LB]. split; [cbn [dir_limit]; lia|].
      destruct (dir_block_new_spec (body ++ encode_tail sum) (Some sd)) as [[_ ->]|[N _]];
        [lia|intros s Es; injection Es as <-; exact SD|reflexivity|contradiction].
    - exists []. rewrite app_nil_r. subst b. repeat split. }
  destruct X as (tail & EB & LM & ->). eexists. split; [reflexivity|]. intros n. exists (map encode_record ds). split.
  - rewrite LM. apply run_block_records; [rewrite EB, len_app; lia|lia|].
    rewrite EB. exact (encoded_records ds [] tail F).
  - rewrite map_map. apply map_ext_in. intros d I. apply reported_encoded. rewrite Forall_forall in F. now apply F.
Qed.
Print Assumptions dir_block_round_trip.

(** The root directory of a file system made by mkfs: accepted, and rejected when a name is altered. *)
Example dir_block_ex : exists d, dir_block_new root_directory_block (Some 1485601019) = Ok (Some d) /\
  map (fun r => match r with Ok (Some e) => Some (reported e) | _ => None end) (run_block 5 d) =
    [Some (Dirent 2 [x2e] x02); Some (Dirent 2 [x2e; x2e] x02);
     Some (Dirent 11 [x6c; x6f; x73; x74; x2b; x66; x6f; x75; x6e; x64] x02); None; None] /\
  byte_burst root_directory_block (poke root_directory_block (32, [x4c; x4f])).
Proof.
  eexists. split; [vm_compute; reflexivity|]. split; [vm_compute; reflexivity|]. split; [intros E; vm_compute in E; discriminate|].
  exists (window root_directory_block 0 32), [x6c; x6f], [x4c; x4f], (window root_directory_block 34 4062).
  split; [vm_compute; reflexivity|split; [vm_compute; reflexivity|split; [reflexivity|discriminate]]].
Qed.
Example dir_block_round_trip_ex :
  Forall dirent_ok [(Dirent 2 [x2e] x02, 3); (Dirent 77 [x61; x62; x63; x64] x01, 0); (Dirent 78 [x65] x07, 479)].
Proof.
  repeat (apply Forall_cons; [split; [reflexivity|split; [vm_compute; discriminate|split; [cbn; intuition discriminate|reflexivity]]]|]).
  apply Forall_nil.
Qed.

(** ** C46 *)

(** The reported name is the recorded one exactly if that has no zero byte, and the record ends with it or a zero byte
    follows it. *)
Theorem entry_name_partial e : 8 + rec_name_length e <= len e ->
  entry_name e = rec_name e <->
  ~ In x00 (rec_name e) /\ (len e = 8 + rec_name_length e \/ nth_N e (8 + rec_name_length e) = Some x00).
Proof.
  intros L. unfold entry_name, rec_name. change (layout_size entry_layout) with 8. set (n := rec_name_length e) in *.
  assert (SP : skipn (N.to_nat 8) e = window e 8 n ++ skipn (N.to_nat (8 + n)) e).
  { unfold window. rewrite N2Nat.inj_add, <- skipn_skipn'. symmetry. apply firstn_skipn. }
  rewrite SP. set (name := window e 8 n). split.
  - intros E.
    assert (NZ : forall l, ~ In x00 (from_null_terminated l)).
    { induction l as [|b l IH]; [easy|]. cbn [from_null_terminated]. destruct (N.eqb_spec (bval b) 0) as [Z|Z]; [easy|].
      intros [->|I]; [now apply Z|now apply IH]. }
    split; [rewrite <- E; apply NZ|].
    destruct (N.eq_dec (len e) (8 + n)) as [Q|Q]; [now left|right].
    destruct (nth_N_lt_some e (8 + n) ltac:(lia)) as (x & X). rewrite X. f_equal.
    assert (ST : exists r, skipn (N.to_nat (8 + n)) e = x :: r).
    { rewrite nth_N_spec in X. clear -X. revert X. generalize (N.to_nat (8 + n)) as k. induction e as [|y e IH]; intros [|k] X; try discriminate.
      - injection X as ->. now exists e.
      - cbn [skipn]. now apply IH. }
    destruct ST as (r & ST). rewrite ST in E.
    assert (LN : forall l m, from_null_terminated (l ++ x :: m) = l -> x = x00).
    { induction l as [|b l IH]; intros m EQ; cbn [app from_null_terminated] in EQ.
      - destruct (N.eqb_spec (bval x) 0) as [Z|Z]; [apply bval_inj; now rewrite Z|discriminate].
      - destruct (N.eqb_spec (bval b) 0) as [Z|Z]; [discriminate|]. injection EQ as EQ. now apply (IH m). }
    now apply (LN name r).
  - intros [N R]. apply null_terminated; [exact N|]. destruct R as [R|R].
    + left. apply skipn_all2. unfold len in R. lia.
    + right. rewrite nth_N_spec in R. clear -R. revert R. generalize (N.to_nat (8 + n)) as k.
      induction e as [|y e IH]; intros [|k] X; try discriminate.
      * injection X as ->. now exists e.
      * cbn [skipn]. now apply IH.
Qed.
Print Assumptions entry_name_partial.

Example entry_name_ex : entry_name (to_le 4 12 ++ [x10; x00; x03; x01; x61; x62; x63; x00; x7a; x7a; x7a; x7a]) = [x61; x62; x63].
Proof. reflexivity. Qed.

(** A block as it is left behind when a file is removed: the record of its neighbour, with a name of four bytes, is
    lengthened over it.  The old inode number is taken for a part of the name.  And a record that is not in use, with
    inode number zero, is reported as well. *)
Definition removed_block : bytes :=
  encode_record (Dirent 2 [x2e] x02, 3) ++
  (to_le 4 12 ++ [x1c; x00; x04; x01; x61; x62; x63; x64] ++ to_le 4 0x6665 ++ [x10; x00; x01; x01; x65; x00; x00; x00; x00; x00; x00; x00]) ++
  (to_le 4 0 ++ [xd8; x03; x01; x01; x67] ++ zeros 975).
Theorem entry_name_refuted :
  ~ (forall b d e n, len b = 1024 -> dir_block_new b None = Ok (Some d) -> In (Ok (Some e)) (run_block n d) -> rec_inode e <> 0 ->
       entry_name e = rec_name e) /\
  ~ (forall b d e n, len b = 1024 -> dir_block_new b None = Ok (Some d) -> In (Ok (Some e)) (run_block n d) -> rec_inode e <> 0).
Proof.
  assert (X : exists d e1 e2 e3, dir_block_new removed_block None = Ok (Some d) /\ run_block 4 d = [Ok (Some e1); Ok (Some e2); Ok (Some e3); Ok None] /\
    rec_inode e2 = 12 /\ rec_name e2 = [x61; x62; x63; x64] /\ entry_name e2 = [x61; x62; x63; x64; x65; x66] /\ rec_inode e3 = 0).
  { do 4 eexists. split; [vm_compute; reflexivity|]. split; [vm_compute; reflexivity|]. vm_compute. repeat split. }
  destruct X as (d & e1 & e2 & e3 & D & R & A & B & C & Z).
  split; intros H.
  - specialize (H removed_block d e2 4%nat eq_refl D). rewrite R in H. rewrite B, C in H.
    discriminate H; [now right; left|rewrite A; discriminate].
  - specialize (H removed_block d e3 4%nat eq_refl D). rewrite R in H. apply H; [now right; right; left|exact Z].
Qed.
Print Assumptions entry_name_refuted.
