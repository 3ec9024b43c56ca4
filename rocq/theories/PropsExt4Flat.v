(** What md-recover reads from a file system depends only on the content of the device: property C57, and the part of C05
    on file systems.

    Two streams over the same content are compared call by call, first in general and then for readers over an array, over
    a device in memory, and for handles that share one cursor. *)

From Coq Require Import Strings.String Permutation.
From Verif Require Import Base BaseFacts Io SpecStream IoFacts SpecMd SuperblockFacts Superblock Crc Ext4Superblock Ext4Inode Ext4Fs
  Ext4Extent Ext4File Ext4String Ext4Dir Raid SpecRaid Device Array SpecArray ArrayFacts PropsArrayRead PropsExt4File.

Local Opaque read_exact.

(** ** Two streams that answer alike

    [L]: the states of the two streams correspond, wherever they stand; [R]: and they stand at the same position. *)
Record alike {S1 S2} (st1 : stream S1) (st2 : stream S2) (L R : S1 -> S2 -> Prop) : Prop := Alike {
  al_sub : forall s1 s2, R s1 s2 -> L s1 s2;
  al_seek : forall s1 s2 o, L s1 s2 -> u64_ok o -> exists s1' s2' r1 r2,
    st_seek st1 s1 (SeekStart o) = (s1', r1) /\ st_seek st2 s2 (SeekStart o) = (s2', r2) /\ L s1' s2' /\
    (let? _ := r1 in Ok tt) = (let? _ := r2 in Ok tt) /\ (forall k, r1 = Ok k -> R s1' s2');
  al_read : forall s1 s2 buf, R s1 s2 -> exists s1' s2' b r,
    read_exact st1 s1 buf = (s1', b, r) /\ read_exact st2 s2 buf = (s2', b, r) /\ R s1' s2'
}.

Section Alike.
  Context {S1 S2 : Type} (st1 : stream S1) (st2 : stream S2) (L R : S1 -> S2 -> Prop).
  Hypothesis AL : alike st1 st2 L R.

  Definition same {A} (P Q : S1 -> S2 -> Prop) (m1 : io S1 A) (m2 : io S2 A) : Prop :=
    forall s1 s2, P s1 s2 -> exists s1' s2' r, m1 s1 = (s1', r) /\ m2 s2 = (s2', r) /\ L s1' s2' /\ (forall a, r = Ok a -> Q s1' s2').

  Lemma same_bind {A B} P Q T (m1 : io S1 A) m2 (k1 : A -> io S1 B) k2 :
    same P Q m1 m2 -> (forall a, same Q T (k1 a) (k2 a)) -> same P T (io_bind m1 k1) (io_bind m2 k2).
  Proof.
    intros M K s1 s2 H. destruct (M s1 s2 H) as (s1' & s2' & r & E1 & E2 & HL & HQ). unfold io_bind. rewrite E1, E2.
    destruct r as [a|e|]; [now apply K, (HQ a)|exists s1', s2', (Err e)|exists s1', s2', Panic]; (do 3 (split; [easy|])); discriminate.
  Qed.
  Lemma same_lift_L {A} (r : res A) : same L L (io_lift r) (io_lift r).
  Proof. intros s1 s2 H. exists s1, s2, r. unfold io_lift. auto. Qed.
  Lemma same_lift_R {A} (r : res A) : same R R (io_lift r) (io_lift r).
  Proof. intros s1 s2 H. exists s1, s2, r. unfold io_lift. split; [reflexivity|]. split; [reflexivity|]. split; [now apply (al_sub _ _ _ _ AL)|auto]. Qed.
  Lemma same_weak {A} (m1 : io S1 A) m2 P : same P R m1 m2 -> same P L m1 m2.
  Proof.
    intros M s1 s2 H. destruct (M s1 s2 H) as (s1' & s2' & r & E1 & E2 & HL & HQ). exists s1', s2', r. auto.
  Qed.
  Lemma same_from_R {A} (m1 : io S1 A) m2 Q : same L Q m1 m2 -> same R Q m1 m2.
  Proof. intros M s1 s2 H. apply M. now apply (al_sub _ _ _ _ AL). Qed.
  Lemma same_seek o : u64_ok o -> same L R (io_seek st1 o) (io_seek st2 o).
  Proof.
    intros U s1 s2 H. destruct (al_seek _ _ _ _ AL s1 s2 o H U) as (s1' & s2' & r1 & r2 & E1 & E2 & HL & ER & HR). unfold io_seek. rewrite E1, E2.
    exists s1', s2', (let? _ := r1 in Ok tt). split; [reflexivity|]. split; [now rewrite ER|]. split; [exact HL|].
    intros a E. destruct r1 as [k|e|]; [|discriminate..]. now apply (HR k).
  Qed.
  Lemma same_read n : same R R (io_read_exact st1 n) (io_read_exact st2 n).
  Proof.
    intros s1 s2 H. destruct (al_read _ _ _ _ AL s1 s2 (zeros n) H) as (s1' & s2' & b & r & E1 & E2 & HR). unfold io_read_exact. rewrite E1, E2.
    exists s1', s2', (let? _ := r in Ok b). split; [reflexivity|]. split; [reflexivity|]. split; [now apply (al_sub _ _ _ _ AL)|auto].
  Qed.

  Lemma cmul64_ok a b o : cmul64 a b = Some o -> u64_ok o.
  Proof. unfold cmul64, u64_ok. destruct (N.leb_spec (a * b) u64_max); [|discriminate]. intros E. injection E as <-. assumption. Qed.
  Lemma cadd64_ok a b o : cadd64 a b = Some o -> u64_ok o.
  Proof. unfold cadd64, u64_ok. destruct (N.leb_spec (a + b) u64_max); [|discriminate]. intros E. injection E as <-. assumption. Qed.

  Lemma same_groups size n : same R R (read_groups st1 size n) (read_groups st2 size n).
  Proof.
    induction n as [|n IH]; cbn [read_groups]; [apply same_lift_R|]. eapply same_bind; [apply same_read|]. intros b.
    eapply same_bind; [apply IH|]. intros gs. apply same_lift_R.
  Qed.

  Lemma same_pure {A B} (r : res A) (k1 : A -> io S1 B) k2 :
    (forall a, r = Ok a -> same L L (k1 a) (k2 a)) -> same L L (io_bind (io_lift r) k1) (io_bind (io_lift r) k2).
  Proof.
    intros K s1 s2 H. unfold io_bind, io_lift. destruct r as [a|e|]; [now apply K|exists s1, s2, (Err e)|exists s1, s2, Panic];
      (do 3 (split; [easy|])); discriminate.
  Qed.

  Lemma same_open : same L L (fs_open st1) (fs_open st2).
  Proof.
    unfold fs_open, e4_read. eapply same_bind; [apply same_seek; discriminate|]. intros _.
    eapply same_bind.
    { eapply same_bind; [apply same_read|]. intros b. eapply same_bind; [apply same_lift_R|]. intros ok. destruct ok; apply same_lift_R. }
    intros sb. apply same_from_R. apply same_pure. intros count _. cbv zeta. destruct (_ || _); [apply same_lift_L|].
    apply same_pure. intros bs _. apply same_pure. intros o M. destruct (cmul64 _ bs) as [o'|] eqn:M'; [|discriminate]. injection M as ->.
    eapply same_bind; [apply same_seek; exact (cmul64_ok _ _ _ M')|]. intros _. destruct (_ <? _); [apply same_from_R, same_lift_L|].
    eapply same_bind; [apply same_groups|]. intros gs. apply same_from_R, same_lift_L.
  Qed.

  Lemma same_inode f number : same L L (fs_read_inode st1 f number) (fs_read_inode st2 f number).
  Proof.
    unfold fs_read_inode. destruct (_ || _); [apply same_lift_L|]. do 4 (apply same_pure; intros ? _). apply same_pure. intros o M.
    match type of M with ok_or ?x _ = _ => destruct x as [o'|] eqn:M'; [|discriminate] end. injection M as ->.
    destruct (cmul64 _ _) as [base|]; [|discriminate]. cbn [obind] in M'. apply cadd64_ok in M'.
    eapply same_bind; [apply same_seek; exact M'|]. intros _. eapply same_bind; [apply same_read|]. intros b. apply same_from_R, same_lift_L.
  Qed.

  Lemma same_block f block s1 s2 buf : L s1 s2 -> exists s1' s2' b r,
    fs_read_block st1 f block s1 buf = (s1', b, r) /\ fs_read_block st2 f block s2 buf = (s2', b, r) /\ L s1' s2'.
  Proof.
    intros H. unfold fs_read_block. destruct (fs_block_size f) as [bs|e|]; [|eauto 8..]. destruct (_ <? _); [eauto 8|].
    destruct (cmul64 block bs) as [o|] eqn:M; [|eauto 8]. apply cmul64_ok in M.
    destruct (same_seek o M s1 s2 H) as (s1' & s2' & r & -> & -> & HL & HR). destruct r as [u|e|]; [|eauto 8..].
    destruct (al_read _ _ _ _ AL s1' s2' buf (HR u eq_refl)) as (t1 & t2 & b & r & -> & -> & HR').
    exists t1, t2, b, r. split; [reflexivity|]. split; [reflexivity|]. now apply (al_sub _ _ _ _ AL).
  Qed.

  Definition same_turn (t1 : turn S1) (t2 : turn S2) : Prop :=
    match t1, t2 with
    | Return s1 f b r, Return s2 f' b' r' => L s1 s2 /\ f = f' /\ b = b' /\ r = r'
    | Again s1 f, Again s2 f' => L s1 s2 /\ f = f'
    | _, _ => False
    end.

  Lemma same_file_turn s1 s2 f buf : L s1 s2 -> same_turn (file_turn st1 s1 f buf) (file_turn st2 s2 f buf).
  Proof.
    intros H. unfold file_turn. destruct (fl_stack f) as [|[t pos|extent pos] stack]; [now cbn| |].
    - destruct (_ <? _); [|now cbn]. destruct t as [n|n].
      + unfold branch_turn. destruct (nd_entry_at n pos) as [[index|]|e|]; try now cbn. destruct (negb _); [now cbn|].
        destruct (fs_block_size _) as [bs|e|]; try now cbn.
        destruct (same_block (fl_fs (set_stack f stack)) (ix_leaf index) s1 s2 (zeros bs) H) as (s1' & s2' & b & r & -> & -> & HL).
        destruct r; now cbn.
      + unfold leaf_turn. destruct (nd_entry_at n pos) as [[index|]|e|]; try now cbn. destruct (negb _); now cbn.
    - unfold extent_turn. destruct (_ <? _); [|now cbn]. destruct (_ <=? _); [now cbn|].
      destruct (unwrap _) as [block|e|]; try now cbn.
      destruct (same_block (fl_fs (set_stack f stack)) block s1 s2 buf H) as (s1' & s2' & b & r & -> & -> & HL).
      destruct r; try now cbn. destruct (fs_block_size _) as [bs|e|]; try now cbn. destruct (unwrap _) as [bp|e|]; now cbn.
  Qed.

  (** Results of calls that may still run: the states correspond, everything else is equal. *)
  Definition same_result {A} (x : option (S1 * A)) (y : option (S2 * A)) : Prop :=
    match x, y with
    | Some (s1, a), Some (s2, b) => L s1 s2 /\ a = b
    | None, None => True
    | _, _ => False
    end.
  Definition pull {S A B C} (x : option (S * A * B * C)) : option (S * (A * B * C)) :=
    match x with Some (s, a, b, c) => Some (s, (a, b, c)) | None => None end.
  Definition pull2 {S A B} (x : option (S * A * B)) : option (S * (A * B)) :=
    match x with Some (s, a, b) => Some (s, (a, b)) | None => None end.

  Lemma same_loop fuel s1 s2 f buf : L s1 s2 -> same_result (pull (file_loop st1 fuel s1 f buf)) (pull (file_loop st2 fuel s2 f buf)).
  Proof.
    revert s1 s2 f. induction fuel as [|fuel IH]; intros s1 s2 f H; [exact Logic.I|]. cbn [file_loop].
    pose proof (same_file_turn s1 s2 f buf H) as T.
    destruct (file_turn st1 s1 f buf) as [t1 f1 b1 r1|t1 f1], (file_turn st2 s2 f buf) as [t2 f2 b2 r2|t2 f2]; try destruct T.
    - destruct H1 as (<- & <- & <-). now cbn.
    - subst. now apply IH.
  Qed.
  Lemma same_next_block fuel s1 s2 f buf : L s1 s2 ->
    same_result (pull (read_next_block st1 fuel s1 f buf)) (pull (read_next_block st2 fuel s2 f buf)).
  Proof.
    intros H. unfold read_next_block. destruct (file_block_size f); try now cbn. destruct (_ <? _); [now cbn|]. now apply same_loop.
  Qed.
  Lemma same_run_file fuel bufs s1 s2 f : L s1 s2 ->
    same_result (pull2 (run_file st1 fuel s1 f bufs)) (pull2 (run_file st2 fuel s2 f bufs)).
  Proof.
    revert s1 s2 f. induction bufs as [|buf bufs IH]; intros s1 s2 f H; [now cbn|]. cbn [run_file].
    pose proof (same_next_block fuel s1 s2 f buf H) as T.
    destruct (read_next_block st1 fuel s1 f buf) as [[[[t1 f1] b1] r1]|], (read_next_block st2 fuel s2 f buf) as [[[[t2 f2] b2] r2]|];
      cbn [pull same_result] in T; try tauto. destruct T as [HL T]. injection T as <- <- <-.
    specialize (IH t1 t2 f1 HL).
    destruct r1 as [k|e|]; [| |now cbn];
      (destruct (run_file st1 fuel t1 f1 bufs) as [[[u1 g1] c1]|], (run_file st2 fuel t2 f1 bufs) as [[[u2 g2] c2]|]; cbn [pull2 same_result] in *; try tauto;
       destruct IH as [HL' E]; injection E as <- <-; auto).
  Qed.

  Lemma same_dir_block fuel s1 s2 f : L s1 s2 ->
    same_result (pull2 (dir_next_block st1 fuel s1 f)) (pull2 (dir_next_block st2 fuel s2 f)).
  Proof.
    intros H. unfold dir_next_block. destruct (file_block_size f) as [bs|e|]; try now cbn.
    pose proof (same_next_block fuel s1 s2 f (zeros bs) H) as T.
    destruct (read_next_block st1 fuel s1 f (zeros bs)) as [[[[t1 f1] b1] r1]|], (read_next_block st2 fuel s2 f (zeros bs)) as [[[[t2 f2] b2] r2]|];
      cbn [pull same_result] in T; try tauto. destruct T as [HL T]. injection T as <- <- <-. destruct r1; now cbn.
  Qed.
  Lemma same_advance fuel s1 s2 d : L s1 s2 ->
    same_result (pull2 (dir_advance st1 fuel s1 d)) (pull2 (dir_advance st2 fuel s2 d)).
  Proof.
    intros H. unfold dir_advance. pose proof (same_dir_block fuel s1 s2 (dr_file d) H) as T.
    destruct (dir_next_block st1 fuel s1 _) as [[[t1 f1] r1]|], (dir_next_block st2 fuel s2 _) as [[[t2 f2] r2]|];
      cbn [pull2 same_result] in T; try tauto. destruct T as [HL T]. injection T as <- <-. destruct r1 as [[|]| |]; now cbn.
  Qed.
  Lemma same_dir_loop fuel turns s1 s2 d : L s1 s2 ->
    same_result (pull2 (dir_loop st1 fuel turns s1 d)) (pull2 (dir_loop st2 fuel turns s2 d)).
  Proof.
    revert s1 s2 d. induction turns as [|turns IH]; intros s1 s2 d H; [exact Logic.I|]. cbn [dir_loop].
    destruct (dr_current d) as [|b|]; try now cbn. destruct (dir_block_next b) as [b' r]. destruct r as [[e|]|e|]; try now cbn.
    match goal with |- context [dir_advance st1 fuel s1 ?x] => pose proof (same_advance fuel s1 s2 x H) as T; set (d1 := x) in * end.
    destruct (dir_advance st1 fuel s1 d1) as [[[t1 f1] r1]|], (dir_advance st2 fuel s2 d1) as [[[t2 f2] r2]|];
      cbn [pull2 same_result] in T; try tauto. destruct T as [HL T]. injection T as <- <-. destruct r1; [now apply IH|now cbn..].
  Qed.
  Lemma same_dir_next fuel s1 s2 d : L s1 s2 -> same_result (pull2 (dir_next st1 fuel s1 d)) (pull2 (dir_next st2 fuel s2 d)).
  Proof.
    intros H. unfold dir_next. destruct (dr_current d); try now apply same_dir_loop.
    pose proof (same_advance fuel s1 s2 d H) as T.
    destruct (dir_advance st1 fuel s1 d) as [[[t1 f1] r1]|], (dir_advance st2 fuel s2 d) as [[[t2 f2] r2]|];
      cbn [pull2 same_result] in T; try tauto. destruct T as [HL T]. injection T as <- <-. destruct r1; [now apply same_dir_loop|now cbn..].
  Qed.
  Lemma same_run_dir fuel n s1 s2 d : L s1 s2 -> same_result (pull2 (run_dir st1 fuel n s1 d)) (pull2 (run_dir st2 fuel n s2 d)).
  Proof.
    revert s1 s2 d. induction n as [|n IH]; intros s1 s2 d H; [now cbn|]. cbn [run_dir].
    pose proof (same_dir_next fuel s1 s2 d H) as T.
    destruct (dir_next st1 fuel s1 d) as [[[t1 f1] r1]|], (dir_next st2 fuel s2 d) as [[[t2 f2] r2]|];
      cbn [pull2 same_result] in T; try tauto. destruct T as [HL T]. injection T as <- <-. specialize (IH t1 t2 f1 HL).
    destruct r1 as [k|e|]; [| |now cbn];
      (destruct (run_dir st1 fuel n t1 f1) as [[[u1 g1] c1]|], (run_dir st2 fuel n t2 f1) as [[[u2 g2] c2]|]; cbn [pull2 same_result] in *; try tauto;
       destruct IH as [HL' E]; injection E as <- <-; auto).
  Qed.
End Alike.

(** ** Reading exactly, without failures *)

Local Transparent read_exact.
Section Exact.
  Context {S : Type} (st : stream S) (c : bytes) (bad : N -> Prop) (at_ : S -> N -> Prop).
  Hypothesis OK : stream_ok st c bad at_.
  Hypothesis GOOD : forall p, ~ bad p.

  Lemma read_exact_loop_fixed fuel s p buf : at_ s p -> (length buf <= fuel)%nat ->
    exists s', read_exact_loop (st_read st) fuel s buf =
      (s', window c p (N.min (len buf) (len c - p)) ++ skipn (N.to_nat (N.min (len buf) (len c - p))) buf,
       if len buf <=? len c - p then Ok tt else Err UnexpectedEof) /\ at_ s' (p + N.min (len buf) (len c - p)).
  Proof.
    revert s p buf. induction fuel as [|fuel IH]; intros s p buf A F.
    - destruct buf; [|cbn in F; lia]. exists s. change (len (@nil byte)) with 0. rewrite N.min_0_l, window_0, N.add_0_r, (proj2 (N.leb_le 0 _)) by lia. auto.
    - destruct buf as [|x buf]; [exists s; change (len (@nil byte)) with 0; rewrite N.min_0_l, window_0, N.add_0_r, (proj2 (N.leb_le 0 _)) by lia; auto|].
      set (buf0 := x :: buf) in *. cbn [read_exact_loop]. unfold buf0 at 1. cbv iota.
      destruct (st_read st s buf0) as [[s1 b1] r1] eqn:E.
      destruct (so_read _ _ _ _ OK _ _ _ _ _ _ A E) as (p1 & FR & A1 & B).
      destruct r1 as [k|e|]; [|destruct (GOOD p); now apply (B e)|destruct FR]. cbn [sbind].
      destruct FR as (Lk & -> & -> & Z & NZ). assert (L0 : len buf0 <> 0) by (unfold buf0, len; cbn; lia).
      destruct (N.eqb_spec k 0) as [->|K].
      + destruct (Z eq_refl) as [X|X]; [contradiction|]. replace (len c - p) with 0 by lia. rewrite N.min_0_r, N.add_0_r in *.
        exists s1. split; [|exact A1]. destruct (N.leb_spec (len buf0) 0); [lia|reflexivity].
      + specialize (NZ K). set (n := N.min (len buf0) (len c - p)).
        assert (LW : len (window c p k) = k) by (apply len_window_in; lia).
        rewrite len_app, LW. replace (len (skipn (N.to_nat k) buf0)) with (len buf0 - k) by (unfold len; rewrite skipn_length; lia).
        replace (k + (len buf0 - k)) with (len buf0) by lia. destruct (N.leb_spec k (len buf0)); [|lia].
        assert (LW' : length (window c p k) = N.to_nat k) by (unfold len in LW; lia).
        rewrite skipn_app, (skipn_all2 (window c p k)), LW', Nat.sub_diag by lia. cbn [app skipn].
        rewrite firstn_app, LW', Nat.sub_diag, firstn_O, app_nil_r, firstn_all2 by lia.
        set (rest := skipn (N.to_nat k) buf0). assert (LR : len rest = len buf0 - k) by (unfold rest, len; rewrite skipn_length; unfold len in *; lia).
        destruct (IH s1 (p + k) rest A1) as (s2 & E2 & A2).
        { unfold rest. rewrite skipn_length. lia. }
        rewrite E2. exists s2. replace (N.min (len rest) (len c - (p + k))) with (n - k) in * by lia.
        replace (p + k + (n - k)) with (p + n) in A2 by lia. split; [|exact A2]. f_equal; [f_equal|].
        * rewrite app_assoc, <- window_app_split. replace (k + (n - k)) with n by lia. f_equal. unfold rest.
          rewrite skipn_skipn'. f_equal. lia.
        * rewrite LR. destruct (N.leb_spec (len buf0 - k) (len c - (p + k))), (N.leb_spec (len buf0) (len c - p)); auto; lia.
  Qed.
  Lemma read_exact_fixed s p buf : at_ s p -> let n := N.min (len buf) (len c - p) in
    exists s', read_exact st s buf =
      (s', window c p n ++ skipn (N.to_nat n) buf, if len buf <=? len c - p then Ok tt else Err UnexpectedEof) /\ at_ s' (p + n).
  Proof. intros A. now apply read_exact_loop_fixed. Qed.
End Exact.
Local Opaque read_exact.

(** Two streams over one content, neither of which fails, and which refuse the same seeks (if any). *)
Section Contents.
  Context {S1 S2 : Type} (st1 : stream S1) (st2 : stream S2) (c : bytes).
  Context (bad1 bad2 : N -> Prop) (at1 : S1 -> N -> Prop) (at2 : S2 -> N -> Prop) (answer : N -> res unit).
  Hypothesis OK1 : stream_ok st1 c bad1 at1.
  Hypothesis OK2 : stream_ok st2 c bad2 at2.
  Hypothesis GOOD1 : forall p, ~ bad1 p.
  Hypothesis GOOD2 : forall p, ~ bad2 p.
  Hypothesis SEEK1 : forall s p o s' r, at1 s p -> len c < o -> u64_ok o -> st_seek st1 s (SeekStart o) = (s', r) -> (let? _ := r in Ok tt) = answer o.
  Hypothesis SEEK2 : forall s p o s' r, at2 s p -> len c < o -> u64_ok o -> st_seek st2 s (SeekStart o) = (s', r) -> (let? _ := r in Ok tt) = answer o.

  Definition both (s1 : S1) (s2 : S2) : Prop := (exists p, at1 s1 p) /\ (exists p, at2 s2 p).
  Definition level (s1 : S1) (s2 : S2) : Prop := exists p1 p2, at1 s1 p1 /\ at2 s2 p2 /\ (p1 = p2 \/ len c <= p1 /\ len c <= p2).

  Lemma contents_alike : alike st1 st2 both level.
  Proof.
    constructor.
    - intros s1 s2 (p1 & p2 & A1 & A2 & _). split; eauto.
    - intros s1 s2 o [[p1 A1] [p2 A2]] U. destruct (N.leb_spec o (len c)) as [In|Out].
      + destruct (so_seek _ _ _ _ OK1 _ _ _ A1 In) as (s1' & E1 & A1'), (so_seek _ _ _ _ OK2 _ _ _ A2 In) as (s2' & E2 & A2').
        exists s1', s2', (Ok o), (Ok o). do 2 (split; [assumption|]). split; [split; eauto|]. split; [reflexivity|].
        intros _ _. exists o, o. auto.
      + destruct (st_seek st1 s1 (SeekStart o)) as [s1' r1] eqn:E1, (st_seek st2 s2 (SeekStart o)) as [s2' r2] eqn:E2.
        destruct (so_seek_out _ _ _ _ OK1 _ _ _ _ _ A1 Out U E1) as (q1 & B1 & _ & P1), (so_seek_out _ _ _ _ OK2 _ _ _ _ _ A2 Out U E2) as (q2 & B2 & _ & P2).
        pose proof (SEEK1 _ _ _ _ _ A1 Out U E1) as R1. pose proof (SEEK2 _ _ _ _ _ A2 Out U E2) as R2.
        exists s1', s2', r1, r2. do 2 (split; [reflexivity|]). split; [split; eauto|]. split; [congruence|].
        intros k ->. cbn in R1. destruct r2 as [k2|e|]; [|rewrite <- R1 in R2; discriminate R2..].
        exists q1, q2. do 2 (split; [assumption|]). right. eauto.
    - intros s1 s2 buf (p1 & p2 & A1 & A2 & P).
      destruct (read_exact_fixed st1 c bad1 at1 OK1 GOOD1 s1 p1 buf A1) as (s1' & E1 & A1'), (read_exact_fixed st2 c bad2 at2 OK2 GOOD2 s2 p2 buf A2) as (s2' & E2 & A2').
      rewrite E1, E2. destruct P as [<-|[G1 G2]].
      + do 4 eexists. do 2 (split; [reflexivity|]). exists (p1 + N.min (len buf) (len c - p1)), (p1 + N.min (len buf) (len c - p1)). auto.
      + replace (len c - p1) with 0 in * by lia. replace (len c - p2) with 0 in * by lia. rewrite N.min_0_r in *. rewrite !window_0, !N.add_0_r in *.
        do 4 eexists. do 2 (split; [reflexivity|]). exists p1, p2. auto.
  Qed.
End Contents.

(** ** Sessions: what a client of the library sees

    A client opens the file system and then makes any requests: decode an inode, read a block, open a file and read
    blocks of it into buffers, or list a directory.  [fuel] is how long the client waits for one block. *)
Inductive request : Type :=
| RqInode (number : N)
| RqBlock (number : N) (buf : bytes)
| RqOpen (number : N) (fuel : nat) (bufs : list bytes) (entries : nat).
Inductive outcome : Type :=
| OcInode (r : res inode)
| OcBlock (r : res unit) (buf : bytes)
| OcFile (calls : option (list (bytes * bytes * res N)))
| OcDirectory (entries : option (list (res (option bytes))))
| OcOther (t : file_type)
| OcError (e : ekind)
| OcPanic.

Definition serve {S} (st : stream S) (clone : S -> S * res S) (f : fs) (s : S) (q : request) : S * outcome :=
  match q with
  | RqInode number => let '(s, r) := fs_read_inode st f number s in (s, OcInode r)
  | RqBlock number buf => let '(s, b, r) := fs_read_block st f number s buf in (s, OcBlock r b)
  | RqOpen number fuel bufs entries =>
      let '(s, r) := open_file st clone f number s in
      (s, match r with
          | Ok (own, AnyRegular g) => OcFile (match run_file st fuel own g bufs with Some (_, _, calls) => Some calls | None => None end)
          | Ok (own, AnyDirectory d) => OcDirectory (match run_dir st fuel entries own d with Some (_, _, rs) => Some rs | None => None end)
          | Ok (_, AnyUnsupported t) => OcOther t
          | Err e => OcError e
          | Panic => OcPanic
          end)
  end.
Fixpoint serve_all {S} (st : stream S) (clone : S -> S * res S) (f : fs) (s : S) (qs : list request) : list outcome :=
  match qs with
  | [] => []
  | q :: qs => let '(s, o) := serve st clone f s q in o :: serve_all st clone f s qs
  end.
Definition session {S} (st : stream S) (clone : S -> S * res S) (s : S) (qs : list request) : res (list outcome) :=
  let '(s, r) := fs_open st s in let? f := r in Ok (serve_all st clone f s qs).

Section Sessions.
  Context {S1 S2 : Type} (st1 : stream S1) (st2 : stream S2) (L R : S1 -> S2 -> Prop).
  Hypothesis AL : alike st1 st2 L R.
  Context (clone1 : S1 -> S1 * res S1) (clone2 : S2 -> S2 * res S2).
  Hypothesis CL : forall s1 s2, L s1 s2 -> exists s1' s2' t1 t2, clone1 s1 = (s1', Ok t1) /\ clone2 s2 = (s2', Ok t2) /\ L s1' s2' /\ L t1 t2.

  Lemma serve_alike f s1 s2 q : L s1 s2 -> exists s1' s2' o, serve st1 clone1 f s1 q = (s1', o) /\ serve st2 clone2 f s2 q = (s2', o) /\ L s1' s2'.
  Proof.
    intros H. destruct q as [number|number buf|number fuel bufs entries]; cbn [serve].
    - destruct (same_inode _ _ _ _ AL f number s1 s2 H) as (s1' & s2' & r & -> & -> & HL & _). eauto 8.
    - destruct (same_block _ _ _ _ AL f number s1 s2 buf H) as (s1' & s2' & b & r & -> & -> & HL). eauto 8.
    - unfold open_file. destruct (CL s1 s2 H) as (s1' & s2' & t1 & t2 & -> & -> & H' & T).
      destruct (same_inode _ _ _ _ AL f number s1' s2' H') as (u1 & u2 & r & -> & -> & HL & _).
      destruct r as [i|e|]; cbn [rbind]; [|eauto 8..]. destruct (any_open f i) as [[d|g|t]|e|]; cbn [rbind]; [| |eauto 8..].
      + pose proof (same_run_dir _ _ _ _ AL fuel entries t1 t2 d T) as X.
        destruct (run_dir st1 fuel entries t1 d) as [[[v1 d1] c1]|], (run_dir st2 fuel entries t2 d) as [[[v2 d2] c2]|];
          cbn [pull2 same_result] in X; try tauto; [|eauto 8]. destruct X as [_ X]. injection X as <- <-. eauto 8.
      + pose proof (same_run_file _ _ _ _ AL fuel bufs t1 t2 g T) as X.
        destruct (run_file st1 fuel t1 g bufs) as [[[v1 d1] c1]|], (run_file st2 fuel t2 g bufs) as [[[v2 d2] c2]|];
          cbn [pull2 same_result] in X; try tauto; [|eauto 8]. destruct X as [_ X]. injection X as <- <-. eauto 8.
  Qed.
  Lemma serve_all_alike f qs s1 s2 : L s1 s2 -> serve_all st1 clone1 f s1 qs = serve_all st2 clone2 f s2 qs.
  Proof.
    revert s1 s2. induction qs as [|q qs IH]; intros s1 s2 H; [reflexivity|]. cbn [serve_all].
    destruct (serve_alike f s1 s2 q H) as (s1' & s2' & o & -> & -> & HL). f_equal. now apply IH.
  Qed.
  Lemma session_alike qs s1 s2 : L s1 s2 -> session st1 clone1 s1 qs = session st2 clone2 s2 qs.
  Proof.
    intros H. unfold session. destruct (same_open _ _ _ _ AL s1 s2 H) as (s1' & s2' & r & -> & -> & HL & _).
    destruct r as [f|e|]; [|reflexivity..]. cbn [rbind]. f_equal. now apply serve_all_alike.
  Qed.
End Sessions.

(** ** Handles that share one cursor

    [File::try_clone] gives a handle on the same open file description: what one handle reads moves the cursor of all of
    them.  [serve_shared] runs the calls of any number of file-system, file and directory handles in any order on one
    state; [serve_alone] runs the calls of one handle on a state of its own. *)
Inductive action : Type :=
| AcInode (number : N)
| AcBlock (number : N) (buf : bytes)
| AcRead (fuel : nat) (buf : bytes)
| AcNext (fuel : nat).
Inductive handle : Type := HdFs (f : fs) | HdFile (g : file) | HdDirectory (d : directory).
Inductive seen : Type :=
| SnInode (r : res inode) | SnBlock (r : res unit) (buf : bytes)
| SnRead (x : option (bytes * res N)) | SnNext (x : option (res (option bytes))) | SnMisuse.

(** One action of one handle.  A call that has not returned (or panicked) leaves nothing to use the handle for. *)
Definition act {S} (st : stream S) (s : S) (h : handle) (a : action) : S * handle * seen :=
  match a, h with
  | AcInode number, HdFs f => let '(s, r) := fs_read_inode st f number s in (s, h, SnInode r)
  | AcBlock number buf, HdFs f => let '(s, b, r) := fs_read_block st f number s buf in (s, h, SnBlock r b)
  | AcRead fuel buf, HdFile g =>
      match read_next_block st fuel s g buf with
      | Some (s, g, b, r) => (s, HdFile g, SnRead (Some (b, r)))
      | None => (s, h, SnRead None)
      end
  | AcNext fuel, HdDirectory d =>
      match dir_next st fuel s d with
      | Some (s, d, r) => (s, HdDirectory d, SnNext (Some r))
      | None => (s, h, SnNext None)
      end
  | _, _ => (s, h, SnMisuse)
  end.

Definition update {A} (f : nat -> A) (i : nat) (a : A) : nat -> A := fun j => if Nat.eqb j i then a else f j.

Fixpoint serve_shared {S} (st : stream S) (s : S) (handles : nat -> handle) (acts : list (nat * action)) : list (nat * seen) :=
  match acts with
  | [] => []
  | (i, a) :: acts => let '(s, h, o) := act st s (handles i) a in (i, o) :: serve_shared st s (update handles i h) acts
  end.
Fixpoint serve_alone {S} (st : stream S) (s : S) (h : handle) (acts : list action) : list seen :=
  match acts with
  | [] => []
  | a :: acts => let '(s, h, o) := act st s h a in o :: serve_alone st s h acts
  end.
Definition of_one {A} (i : nat) (l : list (nat * A)) : list A := map snd (filter (fun x => Nat.eqb (fst x) i) l).

Section Shared.
  Context {S1 S2 : Type} (st1 : stream S1) (st2 : stream S2) (L R : S1 -> S2 -> Prop) (legal1 : S1 -> Prop) (legal2 : S2 -> Prop).
  Hypothesis AL : alike st1 st2 L R.
  Hypothesis LE : forall s1 s2, L s1 s2 <-> legal1 s1 /\ legal2 s2.

  Lemma act_alike s1 s2 h a : L s1 s2 -> exists s1' s2' h' o, act st1 s1 h a = (s1', h', o) /\ act st2 s2 h a = (s2', h', o) /\ L s1' s2'.
  Proof.
    intros H. destruct a as [number|number buf|fuel buf|fuel], h as [f|g|d]; cbn [act]; eauto 7.
    - destruct (same_inode _ _ _ _ AL f number s1 s2 H) as (s1' & s2' & r & -> & -> & HL & _). eauto 8.
    - destruct (same_block _ _ _ _ AL f number s1 s2 buf H) as (s1' & s2' & b & r & -> & -> & HL). eauto 8.
    - pose proof (same_next_block _ _ _ _ AL fuel s1 s2 g buf H) as X.
      destruct (read_next_block st1 fuel s1 g buf) as [[[[v1 d1] b1] c1]|], (read_next_block st2 fuel s2 g buf) as [[[[v2 d2] b2] c2]|];
        cbn [pull same_result] in X; try tauto; [|eauto 8]. destruct X as [HL X]. injection X as <- <- <-. eauto 8.
    - pose proof (same_dir_next _ _ _ _ AL fuel s1 s2 d H) as X.
      destruct (dir_next st1 fuel s1 d) as [[[v1 d1] c1]|], (dir_next st2 fuel s2 d) as [[[v2 d2] c2]|];
        cbn [pull2 same_result] in X; try tauto; [|eauto 8]. destruct X as [HL X]. injection X as <- <-. eauto 8.
  Qed.

  Lemma shared_is_alone acts : forall s s0 handles i, legal1 s -> legal2 s0 ->
    of_one i (serve_shared st1 s handles acts) = serve_alone st2 s0 (handles i) (of_one i acts).
  Proof.
    induction acts as [|[j a] acts IH]; intros s s0 handles i V V0; [reflexivity|]. cbn [serve_shared].
    destruct (act_alike s s0 (handles j) a (proj2 (LE _ _) (conj V V0))) as (s1 & s2 & h & o & E1 & E2 & HL). rewrite E1.
    apply LE in HL as [V1 V2]. unfold of_one at 1 2. cbn [filter fst]. destruct (Nat.eqb_spec j i) as [->|Ne].
    - cbn [map snd serve_alone]. rewrite E2. f_equal.
      fold (of_one i (serve_shared st1 s1 (update handles i h) acts)). fold (of_one i acts).
      rewrite (IH s1 s2 _ i V1 V2). unfold update. now rewrite Nat.eqb_refl.
    - fold (of_one i (serve_shared st1 s1 (update handles j h) acts)). fold (of_one i acts).
      rewrite (IH s1 s0 _ i V1 V0). unfold update. replace (Nat.eqb i j) with false by (symmetry; apply Nat.eqb_neq; auto). reflexivity.
  Qed.
End Shared.

(** How the streams answer a seek beyond the content. *)
Lemma reader_seeks {D} (ops : blockdev D) bs count blk bad inv : block_ok ops bs count blk bad inv ->
  forall s p o s' r, reader_at bs inv s p -> len (flat count blk) < o -> u64_ok o ->
  st_seek (reader_stream ops) s (SeekStart o) = (s', r) -> (let? _ := r in Ok tt) = Ok tt.
Proof.
  intros OK s p o s' r A _ U E. destruct (reader_seek_spec _ _ _ _ _ _ OK _ _ (SeekStart o) _ _ A U E) as (p' & F & _).
  unfold flat_seek in F. cbn [seek_target] in F. unfold u64_ok in U.
  replace ((0 <=? Z.of_N o) && (Z.of_N o <=? Z.of_N u64_max))%Z with true in F by lia. destruct F as [-> _]. reflexivity.
Qed.
Lemma mem_seeks mem bs s p o s' r : mem_at mem bs s p -> len mem < o -> u64_ok o ->
  st_seek mem_stream s (SeekStart o) = (s', r) -> (let? _ := r in Ok tt) = Ok tt.
Proof. intros _ _ _ E. cbn in E. injection E as <- <-. reflexivity. Qed.
Definition os_answer (fixed : bool) (o : N) : res unit :=
  if o <=? i64_max then if fixed then Err InvalidInput else Ok tt else Err InvalidInput.
Lemma filedev_seeks pol c fx pb sz bs s p o s' r : fd_bs s = bs /\ os_at c fx pb sz (fd_file s) p -> len c < o -> u64_ok o ->
  st_seek (filedev_stream pol) s (SeekStart o) = (s', r) -> (let? _ := r in Ok tt) = os_answer fx o.
Proof.
  intros (_ & E1 & E2 & _) Out _ E. destruct s as [f b]. cbn [st_seek filedev_stream fd_file] in *. unfold os_seek in E. unfold os_answer.
  destruct (N.leb_spec o i64_max) as [Le|]; [|injection E as <- <-; reflexivity].
  destruct (Z.ltb_spec (Z.of_N o) 0); [lia|]. destruct (Z.ltb_spec (Z.of_N i64_max) (Z.of_N o)); [lia|].
  rewrite N2Z.id, E1, E2 in E. destruct (N.ltb_spec (len c) o); [|lia]. rewrite andb_true_r in E.
  destruct fx; injection E as <- <-; reflexivity.
Qed.

(** ** C05 for file systems

    Whatever the interleaving of the calls of any number of handles on one file description, every handle sees what it
    would see as the only user of the file, from any other cursor, under any other schedule of short reads. *)
Theorem fs_handles_do_not_interfere : forall pol pol' c fx pb sz bs pos pos' clock clock' handles acts i,
  len c <= i64_max ->
  (forall t p k e, pol t p k <> IoFail e) -> (forall t p k e, pol' t p k <> IoFail e) ->
  of_one i (serve_shared (filedev_stream pol) (FileDev (OsFile c pos clock fx pb sz) bs) handles acts) =
  serve_alone (filedev_stream pol') (FileDev (OsFile c pos' clock' fx pb sz) bs) (handles i) (of_one i acts).
Proof.
  intros pol pol' c fx pb sz bs pos pos' clock clock' handles acts i U NF NF'.
  set (at_ := fun d p => fd_bs d = bs /\ os_at c fx pb sz (fd_file d) p).
  assert (AL : alike (filedev_stream pol) (filedev_stream pol') (both at_ at_) (level c at_ at_)).
  { eapply contents_alike; [exact (filedev_stream_ok pol c fx pb sz bs U)|exact (filedev_stream_ok pol' c fx pb sz bs U)| | | |].
    - intros p (t & n & e & E). exact (NF _ _ _ _ E).
    - intros p (t & n & e & E). exact (NF' _ _ _ _ E).
    - intros s p o s' r. apply filedev_seeks.
    - intros s p o s' r. apply filedev_seeks. }
  apply (shared_is_alone _ _ _ _ (fun d => exists p, at_ d p) (fun d => exists p, at_ d p) AL).
  - intros s1 s2. reflexivity.
  - exists pos. repeat split.
  - exists pos'. repeat split.
Qed.
Print Assumptions fs_handles_do_not_interfere.

(** Two handles on one file and one on the file system, in turns, with reads of at most 300 bytes at a time. *)
Example fs_handles_ex : exists f,
  file_open ex_fs ex_file = Ok f /\
  serve_shared (filedev_stream (fun _ _ _ => IoXfer 300)) (FileDev (OsFile ex_image 77 0 false (Ok 512) (Ok 16384)) 512)
    (fun i => match i with O => HdFs ex_fs | _ => HdFile f end)
    [(1%nat, AcRead 20 (zeros 1024)); (0%nat, AcBlock 8 (zeros 1024)); (2%nat, AcRead 20 (zeros 1024)); (1%nat, AcRead 20 (zeros 1024));
     (2%nat, AcRead 20 (zeros 1024)); (2%nat, AcRead 20 (zeros 1024)); (1%nat, AcRead 20 (zeros 1024))] =
    [(1%nat, SnRead (Some (repeat x12 1024, Ok 1024))); (0%nat, SnBlock (Ok tt) (repeat x08 1024)); (2%nat, SnRead (Some (repeat x12 1024, Ok 1024)));
     (1%nat, SnRead (Some (repeat x14 1024, Ok 1024))); (2%nat, SnRead (Some (repeat x14 1024, Ok 1024)));
     (2%nat, SnRead (Some (repeat x08 1024, Ok 1024))); (1%nat, SnRead (Some (repeat x08 1024, Ok 1024)))].
Proof.
  eexists. split; [vm_compute; reflexivity|]. vm_compute. reflexivity.
Qed.
