(** Properties C93 and C94: what reading a file gives depends on nothing but what the file uses. *)

From Coq Require Import Strings.String.
From Verif Require Import Base BaseFacts Io SpecStream IoFacts SpecMd SuperblockFacts Superblock SpecCrc CrcFacts Crc PropsCrc Ext4Superblock SpecExt4 PropsExt4Superblock
  Ext4Inode SpecExt4Inode PropsExt4Inode Ext4Fs SpecExt4Fs Ext4FsFacts PropsExt4Fs Ext4Extent SpecExt4File Ext4File Ext4FileFacts PropsExt4File
  Ext4Dir SpecExt4Dir PropsExt4Dir PropsExt4Listing PropsExt4Flat PropsExt4Array SpecExt4Open PropsExt4Open SpecExt4Walk PropsExt4Walk SpecExt4Frame.

(** ** The steps of a tree *)
Lemma named_app l l' q : named (l ++ l') q <-> named l q \/ named l' q.
Proof.
  unfold named. setoid_rewrite in_app_iff. split; [intros (k & [[H|H]|[H|H]])|intros [(k & [H|H])|(k & [H|H])]]; eauto.
Qed.
Lemma named_cons a l q : named l q -> named (a :: l) q.
Proof. intros (k & [H|H]); exists k; [left|right]; now right. Qed.
Lemma named_skip n l q : named (skipn n l) q -> named l q.
Proof. intros H. rewrite <- (firstn_skipn n l). apply named_app. now right. Qed.

Section Trees.
  Context (c : bytes) (bad : N -> Prop) (c' : bytes) (bad' : N -> Prop) (bs : N).
  Notation agree q := (alike c bad c' bad' (q * bs) bs).

  Lemma walk_frame b l : walk c bs b l -> (forall q, named l q -> agree q) -> walk c' bs b l.
  Proof.
    revert b l. fix IH 3. intros b l [b0 NF|b0 NF D|b0 l0 NF D W] H.
    - now constructor.
    - now apply walk_leaf.
    - apply walk_branch; [assumption..|]. clear NF D. revert W H. generalize (entries_of b0) as es. clear b0 b l. intros es. revert es l0.
      fix IHc 3. intros es l0 [|e es0 l l' OD W C|e es0 l OD C] H.
      + constructor.
      + assert (A : agree (index_child e)) by (apply H; eexists; left; right; left; reflexivity).
        destruct A as (A1 & A2 & A3 & _). apply walk_child; [lia| |].
        * unfold device_block in *. rewrite <- A3. apply IH; [exact W|]. intros q Q. apply H. do 2 apply named_cons. apply named_app. now left.
        * apply IHc; [exact C|]. intros q Q. apply H. do 2 apply named_cons. apply named_app. now right.
      + exfalso. assert (A : agree (index_child e)) by (apply H; eexists; left; right; left; reflexivity).
        destruct A as (A1 & _). lia.
  Qed.

  (** ** Answers for the same steps *)
  (** The same answers to the same buffers, up to the end of the shorter history, or a panic. *)
  Fixpoint matching (x y : list (bytes * bytes * res N)) : Prop :=
    match x, y with
    | (b, b1, r) :: x, (b', b1', r') :: y => b = b' -> len b <= bs -> b1 = b1' /\ r = r' /\ (r = Panic \/ matching x y)
    | _, _ => True
    end.

  Lemma matching_nil x : matching x [].
  Proof. now destruct x as [|[[? ?] ?] ?]. Qed.

  Lemma agree_window q : agree q -> window c (q * bs) bs = window c' (q * bs) bs.
  Proof. intros H. apply H. Qed.
  Lemma agree_good q : agree q -> ~ may_fail c bs bad q bs.
  Proof. intros (L & _ & _ & B) [H|(x & X & Y)]; [lia|]. destruct (B x X); contradiction. Qed.
  Lemma agree_good' q : agree q -> ~ may_fail c' bs bad' q bs.
  Proof. intros (_ & L & _ & B) [H|(x & X & Y)]; [lia|]. destruct (B x X); contradiction. Qed.

  Section Inv.
    Context (d : bytes) (bd : N -> Prop) (size : N).
    Notation follows := (follows d bs bd size).

    Lemma follows_inv_expected n k l t calls : follows (Expect n k :: l) n t calls -> follows l n t calls.
    Proof.
      remember (Expect n k :: l) as l0 eqn:E. intros H. revert E. induction H; intros E; try discriminate E.
      - constructor.
      - constructor; auto.
      - now injection E as -> ->.
      - injection E as -> -> ->. congruence.
    Qed.
    Lemma follows_inv_node q k l n t calls : ~ may_fail d bs bd q bs -> follows (Child q k :: l) n t calls -> follows l n t calls.
    Proof.
      intros G. remember (Child q k :: l) as l0 eqn:E. intros H. revert E. induction H; intros E; try discriminate E.
      - constructor.
      - constructor; auto.
      - now injection E as -> -> ->.
      - injection E as -> -> ->. contradiction.
    Qed.
    Lemma follows_inv_short l n t buf buf' r calls : len buf < bs -> follows l n t ((buf, buf', r) :: calls) ->
      buf' = buf /\ r = Err InvalidInput /\ follows l n t calls.
    Proof.
      intros L. remember ((buf, buf', r) :: calls) as cs eqn:E. intros H. revert E. induction H; intros E; try discriminate E.
      2:{ destruct (IHfollows E) as (-> & -> & X). repeat split. now constructor. }
      2:{ destruct (IHfollows E) as (-> & -> & X). repeat split. now constructor. }
      { injection E as -> <- <- ->. auto. }
      all: injection E as <- _ _ _; lia.
    Qed.
  End Inv.

  Lemma follows_frame size l n t calls : follows c bs bad size l n t calls -> (forall q, named l q -> agree q) ->
    forall calls', follows c' bs bad' size l n t calls' -> matching calls calls'.
  Proof.
    induction 1 as [l n t|l n t buf calls L H IH|n k l t calls H IH|q k l n t calls D H IH|p k l n t buf calls D L H IH
      |q k l n t buf e calls M L H IH|q k l n t buf calls L D T N H IH|q k l n t buf buf' e calls L M T LB H IH|q k l n t buf calls L T H IH
      |l n t buf L|q k l n t buf L D T N|n t buf calls L T H IH|n t buf calls L T H IH]; intros AG calls' H';
      (destruct calls' as [|[[b' b1'] r'] calls']; [apply matching_nil|]).
    - exact Logic.I.
    - cbn [matching]. intros <- _. destruct (follows_inv_short _ _ _ _ _ _ _ _ _ _ L H') as (-> & -> & X). auto.
    - apply IH; [intros q Q; apply AG; now apply named_cons|]. eapply follows_inv_expected; eassumption.
    - assert (A : agree q) by (apply AG; eexists; left; left; reflexivity).
      apply IH; [intros x Q; apply AG; now apply named_cons|]. eapply follows_inv_node; [exact (agree_good' q A)|eassumption].
    - cbn [matching]. intros <- _. inversion H'; subst; try lia; try congruence. split; [reflexivity|]. split; [reflexivity|]. right.
      apply IH; [|assumption]. intros x Q. apply AG. apply named_cons. eapply named_skip; eassumption.
    - exfalso. assert (A : agree q) by (apply AG; eexists; left; left; reflexivity). exact (agree_good q A M).
    - cbn [matching]. intros <- LE. assert (LQ : len buf = bs) by lia. rewrite LQ in *.
      assert (A : agree q) by (apply AG; eexists; right; left; reflexivity).
      revert LQ; inversion H'; subst; intros LQ; try lia.
      + rewrite LQ. split; [now apply agree_window|]. split; [reflexivity|]. right. apply IH; [|assumption].
        intros x Q. apply AG. now apply named_cons.
      + exfalso. rewrite LQ in *. eapply (agree_good' q A); eassumption.
    - cbn [matching]. intros <- LE. assert (LQ : len buf = bs) by lia. rewrite LQ in *.
      exfalso. assert (A : agree q) by (apply AG; eexists; right; left; reflexivity). exact (agree_good q A M).
    - cbn [matching]. intros <- _. inversion H'; subst; try lia. split; [reflexivity|]. split; [reflexivity|]. right.
      apply IH; [|assumption]. intros x Q. apply AG. apply named_cons. eapply named_skip; eassumption.
    - cbn [matching]. intros <- _. inversion H'; subst; try lia. auto.
    - cbn [matching]. intros <- LE. assert (LQ : len buf = bs) by lia. rewrite LQ in *.
      assert (A : agree q) by (apply AG; eexists; right; left; reflexivity).
      revert LQ; inversion H'; subst; intros LQ; try lia.
      + exfalso. rewrite LQ in *. eapply (agree_good' q A); eassumption.
      + rewrite LQ. split; [now apply agree_window|]. auto.
    - cbn [matching]. intros <- _. inversion H'; subst; try lia; try contradiction. auto.
    - cbn [matching]. intros <- _. inversion H'; subst; try lia; try contradiction. auto.
  Qed.

  (** ** Directories: the results for matching histories of reads *)
  Fixpoint compatible (x y : list (res (option bytes))) : Prop :=
    match x, y with
    | r :: x, r' :: y => r = r' /\ (r = Panic \/ compatible x y)
    | _, _ => True
    end.
  Lemma compatible_nil x : compatible x [].
  Proof. now destruct x. Qed.
  Lemma compatible_app x a b : compatible a b -> compatible (x ++ a) (x ++ b).
  Proof. induction x; [auto|]. cbn. auto. Qed.
  Lemma compatible_repeat (x : res (option bytes)) n m : compatible (repeat x n) (repeat x m).
  Proof. revert m. induction n; intros [|m]; cbn; auto. Qed.

  Lemma compatible_part (x y a : list (res (option bytes))) : compatible x ((x ++ y) ++ a) /\ compatible ((x ++ y) ++ a) x.
  Proof. induction x; [split; [exact Logic.I|apply compatible_nil]|]. cbn. tauto. Qed.
  Lemma compatible_parts (x y x' y' : list (res (option bytes))) : x ++ y = x' ++ y' -> compatible x x'.
  Proof. revert x'. induction x as [|r x IH]; intros [|r' x'] E; cbn; auto. injection E as -> E. eauto. Qed.

  Definition of_length (calls : list (bytes * bytes * res N)) : Prop := Forall (fun '(buf, _, _) => buf = zeros bs) calls.

  Lemma listing_frame seed calls rs : bs <> 0 -> listing seed bs calls rs -> of_length calls -> forall calls' rs', matching calls calls' -> of_length calls' ->
    listing seed bs calls' rs' -> compatible rs rs'.
  Proof.
    intros B0 H. induction H as [calls|buf b calls es rs T R H IH|buf b calls es more T R|buf b calls rs T H IH|buf b k calls rs K0 K1 H IH
      |buf b e calls rs H IH|buf b calls n|buf b]; intros Z calls' rs' M Z' H'; [exact Logic.I|..];
      (destruct rs' as [|r' rs'']; [apply compatible_nil|]; set (rs' := r' :: rs'') in *; assert (NE : rs' <> []) by discriminate; clearbody rs'; clear r' rs'';
       destruct calls' as [|[[b' b1'] r'] calls']; [inversion H'; congruence|];
       cbn [matching] in M; pose proof (Forall_inv Z) as Z1; pose proof (Forall_inv Z') as Z1'; cbv beta iota in Z1, Z1';
       destruct M as (<- & <- & M); [congruence|rewrite Z1, len_zeros; lia|];
       apply Forall_inv_tail in Z; apply Forall_inv_tail in Z').
    - destruct M as [M|M]; [discriminate M|].
      inversion H' as [|? ? ? es' rs1 T' R' H1|? ? ? es' more' T' R'| | | | |]; subst; try congruence; try contradiction.
      + rewrite (records_unique _ _ _ _ _ R R'). apply compatible_app. eauto.
      + rewrite (records_unique _ _ _ _ _ R R'), map_app. apply compatible_part.
    - destruct M as [M|M]; [discriminate M|].
      inversion H' as [|? ? ? es' rs1 T' R' H1|? ? ? es' more' T' R'| | | | |]; subst; try congruence; try contradiction.
      + rewrite <- (records_unique _ _ _ _ _ R R'), map_app. apply compatible_part.
      + apply compatible_parts with (map (fun e => Ok (Some e)) more) (map (fun e => Ok (Some e)) more'). rewrite <- !map_app. f_equal.
        exact (records_unique _ _ _ _ _ R R').
    - destruct M as [M|M]; [discriminate M|].
      inversion H'; subst; try congruence; try contradiction. cbn [compatible]. eauto.
    - destruct M as [M|M]; [discriminate M|].
      inversion H'; subst; try congruence; try contradiction. cbn [compatible]. eauto.
    - destruct M as [M|M]; [discriminate M|].
      inversion H'; subst; try congruence; try contradiction. cbn [compatible]. eauto.
    - inversion H'; subst; try congruence; try contradiction. apply compatible_repeat.
    - inversion H'; subst; try congruence; try contradiction. cbn. auto.
  Qed.
End Trees.

(** ** Whole runs *)
Lemma run_file_matching {S S'} (st : stream S) (st' : stream S') bs fuel fuel' : forall bufs s f s1 f1 calls s' f' s1' f1' calls',
  Forall (fun buf => len buf <= bs) bufs ->
  run_file st fuel s f bufs = Some (s1, f1, calls) -> run_file st' fuel' s' f' bufs = Some (s1', f1', calls') -> matching bs calls calls' -> calls = calls'.
Proof.
  induction bufs as [|buf bufs IH]; intros s f s1 f1 calls s' f' s1' f1' calls' LB E E' M; cbn [run_file] in E, E'.
  { congruence. }
  destruct (read_next_block st fuel s f buf) as [[[[s2 f2] buf2] r2]|]; [|discriminate E].
  destruct (read_next_block st' fuel' s' f' buf) as [[[[s2' f2'] buf2'] r2']|]; [|discriminate E'].
  pose proof (Forall_inv LB) as L1. apply Forall_inv_tail in LB. cbv beta in L1.
  assert (X : buf2 = buf2' /\ r2 = r2').
  { assert (exists z, calls = (buf, buf2, r2) :: z) as (z & ->).
    { destruct r2; [destruct (run_file st fuel s2 f2 bufs) as [[[? ?] z]|]; [|discriminate E]; exists z; congruence..|exists []; congruence]. }
    assert (exists z', calls' = (buf, buf2', r2') :: z') as (z' & ->).
    { destruct r2'; [destruct (run_file st' fuel' s2' f2' bufs) as [[[? ?] z']|]; [|discriminate E']; exists z'; congruence..|exists []; congruence]. }
    cbn [matching] in M. destruct (M eq_refl L1) as (-> & -> & _). auto. }
  destruct X as [<- <-]. destruct r2 as [k|e|]; [| |congruence];
    (destruct (run_file st fuel s2 f2 bufs) as [[[s3 f3] z]|] eqn:R; [|discriminate E];
     destruct (run_file st' fuel' s2' f2' bufs) as [[[s3' f3'] z']|] eqn:R'; [|discriminate E'];
     injection E as <- <- <-; injection E' as <- <- <-; cbn [matching] in M; destruct (M eq_refl L1) as (_ & _ & [M'|M']); [discriminate M'|];
     f_equal; eapply IH; eassumption).
Qed.

Lemma run_dir_compatible {S S'} (st : stream S) (st' : stream S') fuel fuel' : forall n s d s1 d1 rs s' d' s1' d1' rs',
  run_dir st fuel n s d = Some (s1, d1, rs) -> run_dir st' fuel' n s' d' = Some (s1', d1', rs') -> compatible rs rs' -> rs = rs'.
Proof.
  induction n as [|n IH]; intros s d s1 d1 rs s' d' s1' d1' rs' E E' M; cbn [run_dir] in E, E'.
  { congruence. }
  destruct (dir_next st fuel s d) as [[[s2 d2] r2]|]; [|discriminate E].
  destruct (dir_next st' fuel' s' d') as [[[s2' d2'] r2']|]; [|discriminate E'].
  assert (exists z, rs = r2 :: z) as (z & ->).
  { destruct r2; [destruct (run_dir st fuel n s2 d2) as [[[? ?] z]|]; [|discriminate E]; exists z; congruence..|exists []; congruence]. }
  assert (exists z', rs' = r2' :: z') as (z' & ->).
  { destruct r2'; [destruct (run_dir st' fuel' n s2' d2') as [[[? ?] z']|]; [|discriminate E']; exists z'; congruence..|exists []; congruence]. }
  cbn [compatible] in M. destruct M as [<- M]. destruct r2 as [k|e|]; [| |congruence];
    (destruct (run_dir st fuel n s2 d2) as [[[s3 d3] y]|] eqn:R; [|discriminate E];
     destruct (run_dir st' fuel' n s2' d2') as [[[s3' d3'] y']|] eqn:R'; [|discriminate E'];
     injection E as <- <- <-; injection E' as <- <- <-; destruct M as [M|M]; [discriminate M|];
     f_equal; eapply IH; eassumption).
Qed.

Section Frame.
  Context {S S' : Type} (st : stream S) (c : bytes) (bad : N -> Prop) (at_ : S -> N -> Prop)
    (st' : stream S') (c' : bytes) (bad' : N -> Prop) (at_' : S' -> N -> Prop).
  Hypothesis OK : stream_ok st c bad at_.
  Hypothesis OK' : stream_ok st' c' bad' at_'.
  Context (clone : S -> S * res S) (clone' : S' -> S' * res S').
  Hypothesis CL : forall s s' r, legal at_ s -> clone s = (s', r) -> legal at_ s' /\ r <> Panic /\ (forall t, r = Ok t -> legal at_ t).
  Hypothesis CL' : forall s s' r, legal at_' s -> clone' s = (s', r) -> legal at_' s' /\ r <> Panic /\ (forall t, r = Ok t -> legal at_' t).

  Lemma footprint_metadata k number : device_supported c k -> device_inode c k number -> same_footprint c bad c' bad' k number -> u64_ok (len c') ->
    device_sb c' = device_sb c /\ device_slot c' number = device_slot c number /\ device_supported c' k /\ device_inode c' k number /\
    metadata_good c bad k number /\ metadata_good c' bad' k number.
  Proof.
    intros SU (RG & GL & IN & X1 & X2) [(S1 & S2 & SB & S3) (T1 & T2 & TB & T3) (L1 & L2 & SL & L3) _] U.
    assert (ESB : device_sb c' = device_sb c) by (symmetry; exact SB).
    assert (OFF : forall j, sb4_desc_offset (device_sb c) j = sb4_desc_offset (device_sb c) 0 + j * sb4_desc_size (device_sb c)).
    { intros j. unfold sb4_desc_offset. lia. }
    assert (ED : device_desc c' number = device_desc c number).
    { unfold device_desc. rewrite ESB, (OFF (inode_group _ _)). set (z := sb4_desc_size (device_sb c)) in *.
      assert (inode_group (device_sb c) number * z + z <= k * z).
      { replace (inode_group (device_sb c) number * z + z) with ((inode_group (device_sb c) number + 1) * z) by lia. apply N.mul_le_mono_r. lia. }
      rewrite <- !(window_window _ (sb4_desc_offset (device_sb c) 0) (k * z)) by assumption. now rewrite TB. }
    assert (EO : device_slot_offset c' number = device_slot_offset c number) by (unfold device_slot_offset; now rewrite ESB, ED).
    assert (ES : device_slot c' number = device_slot c number) by (unfold device_slot; rewrite ESB, EO; now symmetry).
    split; [exact ESB|]. split; [exact ES|]. destruct SU as (L & _ & AC & SP & GC & TBL & AL).
    split; [unfold device_supported; rewrite ESB, (OFF k); split; [lia|]; split; [exact U|]; do 3 (split; [assumption|]); split; [lia|exact AL]|].
    split; [unfold device_inode; rewrite ESB, ES, EO; repeat split; first [assumption|apply RG|lia]|].
    split; unfold metadata_good; rewrite ?ESB, ?EO, (OFF k); intros q [Q|[Q|Q]].
    - now apply S3.
    - now apply T3.
    - now apply L3.
    - now apply S3.
    - now apply T3.
    - now apply L3.
  Qed.

  (** What it means that two attempts to open a file have the same result: both are refused in the same way, or give the
      same kind of file, and then every sequence of reads with buffers of at most a block, or every number of entries, that
      both complete gets the same answers. *)
  Definition same_results (r : res (S * any_file)) (r' : res (S' * any_file)) : Prop :=
    match r, r' with
    | Ok (own, AnyRegular f), Ok (own', AnyRegular f') =>
        forall fuel fuel' bufs x f1 calls x' f1' calls', Forall (fun buf => len buf <= sb4_block_size (device_sb c)) bufs ->
          run_file st fuel own f bufs = Some (x, f1, calls) -> run_file st' fuel' own' f' bufs = Some (x', f1', calls') -> calls = calls'
    | Ok (own, AnyDirectory d), Ok (own', AnyDirectory d') =>
        forall fuel fuel' n x d1 rs x' d1' rs',
          run_dir st fuel n own d = Some (x, d1, rs) -> run_dir st' fuel' n own' d' = Some (x', d1', rs') -> rs = rs'
    | Ok (_, AnyUnsupported t), Ok (_, AnyUnsupported t') => file_type_code t = file_type_code t'
    | Err e, Err e' => e = e'
    | _, _ => False
    end.

  (** C94: what is served for an inode depends on nothing but its type, size, root, three of its flags, its seed for
      checksums and the blocks that its tree names. *)
  Theorem served_alike s s' k k' number number' : legal at_ s -> legal at_' s' ->
    (forall s, legal at_ s -> exists s1 t, clone s = (s1, Ok t)) -> (forall s, legal at_' s -> exists s1 t, clone' s = (s1, Ok t)) ->
    device_supported c k -> device_inode c k number -> metadata_good c bad k number ->
    device_supported c' k' -> device_inode c' k' number' -> metadata_good c' bad' k' number' ->
    same_file c bad number c' bad' number' ->
    exists s1 F s2 r s1' F' s2' r',
      fs_open st s = (s1, Ok F) /\ open_file st clone F number s1 = (s2, r) /\
      fs_open st' s' = (s1', Ok F') /\ open_file st' clone' F' number' s1' = (s2', r') /\ same_results r r'.
  Proof.
    intros A A' CT CT' SU DI MG SU' DI' MG' [BSE KE ZE RE XE IE SE BL]. cbv zeta in BL. unfold same_results.
    destruct SU as (L & U & AC & SP & GC & TB & AL). destruct SU' as (L' & U' & AC' & SP' & GC' & TB' & AL').
    destruct (fs_open_complete st c bad at_ OK s k A L AC SP GC TB U AL) as (s1 & F & FO & A1 & OP); [intros q [Q|Q]; apply MG; auto|].
    destruct (fs_open_complete st' c' bad' at_' OK' s' k' A' L' AC' SP' GC' TB' U' AL') as (s1' & F' & FO' & A1' & OP'); [intros q [Q|Q]; apply MG'; auto|].
    destruct (CT s1 A1) as (sc & own & C). destruct (CT' s1' A1') as (sc' & own' & C').
    destruct (open_file_decides st c bad at_ OK clone CL s s1 F k number sc own A FO GC U DI C) as (s2 & r & E & _ & T & X); [intros q Q; apply MG; auto|].
    destruct (open_file_decides st' c' bad' at_' OK' clone' CL' s' s1' F' k' number' sc' own' A' FO' GC' U' DI' C') as (s2' & r' & E' & _ & T' & X'); [intros q Q; apply MG'; auto|].
    exists s1, F, s2, r, s1', F', s2', r'. do 4 (split; [assumption|]).
    rewrite KE, RE, ZE, XE, IE in X'. set (slot := device_slot c number) in *.
    assert (SB : fs_sb F = device_sb c) by apply (op_sb _ _ _ OP).
    assert (SB' : fs_sb F' = device_sb c') by apply (op_sb _ _ _ OP').
    destruct ((slot_kind slot =? 8) || (slot_kind slot =? 4)).
    2:{ destruct X as (t & -> & X). destruct X' as (t' & -> & X'). congruence. }
    destruct (slot_by_extents slot && negb ((slot_kind slot =? 4) && slot_indexed slot)) eqn:BE.
    2:{ subst r r'. reflexivity. }
    apply andb_true_iff in BE as [BE _]. destruct (BL BE) as (l & W & AG). set (bs := sb4_block_size (device_sb c)) in *.
    pose proof (walk_frame c bad c' bad' bs _ _ W AG) as W'.
    destruct X as (i & IL & RT & SZ & SD & X). destruct X' as (i' & IL' & RT' & SZ' & SD' & X').
    pose proof (inode_seed_unique _ _ _ _ _ SD (SE _ SD')) as SDE.
    assert (FX : forall fuel f bufs x f1 calls, file_open F i = Ok f -> run_file st fuel own f bufs = Some (x, f1, calls) ->
                 follows c bs bad (slot_size slot) l 0 0 calls).
    { intros fuel f bufs x f1 calls FI R. pose proof (file_exact st c bad at_ OK F i OP IL U fuel own f bufs x f1 calls l T FI) as Y.
      rewrite SB, RT, SZ in Y. exact (Y W R). }
    assert (FX' : forall fuel f bufs x f1 calls, file_open F' i' = Ok f -> run_file st' fuel own' f bufs = Some (x, f1, calls) ->
                  follows c' bs bad' (slot_size slot) l 0 0 calls).
    { intros fuel f bufs x f1 calls FI R. pose proof (file_exact st' c' bad' at_' OK' F' i' OP' IL' U' fuel own' f bufs x f1 calls l T' FI) as Y.
      rewrite SB', RT', SZ', BSE in Y. exact (Y W' R). }
    destruct (slot_kind slot =? 8).
    - destruct X as (f & FI & ->). destruct X' as (f' & FI' & ->). intros fuel fuel' bufs x f1 calls x' f1' calls' LB R R'.
      eapply (run_file_matching st st' bs); [exact LB|exact R|exact R'|].
      eapply follows_frame; [eapply FX; eassumption|exact AG|eapply FX'; eassumption].
    - destruct X as (d & DO & ->). destruct X' as (d' & DO' & ->). intros fuel fuel' n x d1 rs x' d1' rs' R R'.
      pose proof (dir_listing_exact st c bad at_ OK F i OP IL U fuel n own d x d1 rs l T DO (seed_bound _ _ _ _ SD)) as Y.
      rewrite SB, RT, SZ in Y. destruct (Y W R) as (calls & FL & Z & LS).
      pose proof (dir_listing_exact st' c' bad' at_' OK' F' i' OP' IL' U' fuel' n own' d' x' d1' rs' l T' DO' (seed_bound _ _ _ _ SD')) as Y'.
      rewrite SB', RT', SZ', <- SDE, BSE in Y'. destruct (Y' W' R') as (calls' & FL' & Z' & LS').
      eapply (run_dir_compatible st st'); [exact R|exact R'|].
      assert (B0 : bs <> 0). { pose proof (bs_ge F) as B. rewrite SB in B. fold bs in B. lia. }
      eapply (listing_frame bad bad' bs); [exact B0|exact LS|exact Z| |exact Z'|exact LS'].
      eapply follows_frame; [exact FL|exact AG|exact FL'].
  Qed.

  Lemma footprint_file k number : device_supported c k -> device_inode c k number -> same_footprint c bad c' bad' k number -> u64_ok (len c') ->
    same_file c bad number c' bad' number.
  Proof.
    intros SU DI SF U'. destruct (footprint_metadata k number SU DI SF U') as (ESB & ES & _).
    constructor; rewrite ?ESB, ?ES; auto. exact (sf_blocks _ _ _ _ _ _ SF).
  Qed.

  (** C93: two devices of any kind that agree on what an inode uses serve it alike, however they differ elsewhere and whatever
      cannot be read there. *)
  Theorem served_elsewhere s s' k number : legal at_ s -> legal at_' s' ->
    (forall s, legal at_ s -> exists s1 t, clone s = (s1, Ok t)) -> (forall s, legal at_' s -> exists s1 t, clone' s = (s1, Ok t)) ->
    u64_ok (len c') -> device_supported c k -> device_inode c k number -> same_footprint c bad c' bad' k number ->
    exists s1 F s2 r s1' F' s2' r',
      fs_open st s = (s1, Ok F) /\ open_file st clone F number s1 = (s2, r) /\
      fs_open st' s' = (s1', Ok F') /\ open_file st' clone' F' number s1' = (s2', r') /\ same_results r r'.
  Proof.
    intros A A' CT CT' U' SU DI SF. destruct (footprint_metadata k number SU DI SF U') as (ESB & ES & SU' & DI' & MG & MG').
    eapply served_alike; try eassumption. eapply footprint_file; eassumption.
  Qed.
End Frame.
Print Assumptions served_alike.
Print Assumptions served_elsewhere.

(** ** Example: the image of PropsExt4Open, and another that is longer and has other bytes in the boot block, in the slots of
    the other inodes, and in the unused block 13 and the directory block 15 *)
Definition other_image : bytes :=
  fold_left poke [(0, repeat xff 1024); (4352, repeat xff 768); (13312, repeat xff 1024); (15360, repeat xff 1024)] open_image ++ repeat xff 3000.
Definition no_bad : N -> Prop := fun _ => False.
Definition ex_steps : list step :=
  [Expect 0 10; Child 10 9; Expect 0 3; Data 12 0; Expect 1 1; Data 14 0; Expect 2 4; Child 11 3; Expect 2 2; Data 8 1; Data 9 0]%nat.

Lemma other_image_len : len other_image = 19384.
Proof. vm_compute. reflexivity. Qed.
Lemma ex_steps_walk : walk open_image 1024 (slot_root (device_slot open_image 5)) ex_steps.
Proof.
  replace (slot_root (device_slot open_image 5)) with (in_blocks_buffer ex_file) by (vm_compute; reflexivity).
  apply walk_branch; [vm_compute; congruence|vm_compute; congruence|].
  replace (entries_of (in_blocks_buffer ex_file)) with [ex_index 0 10; ex_index 2 11] by (vm_compute; reflexivity).
  assert (D : forall q, q < 16 -> (q + 1) * 1024 <= len open_image) by (intros q Q; rewrite open_image_len; lia).
  refine (walk_child open_image 1024 (ex_index 0 10) [ex_index 2 11] [Expect 0 3; Data 12 0; Expect 1 1; Data 14 0]
    [Expect 2 4; Child 11 3; Expect 2 2; Data 8 1; Data 9 0] _ _ _).
  - replace (index_child (ex_index 0 10)) with 10 by (vm_compute; reflexivity). apply D. lia.
  - replace [Expect 0 3; Data 12 0; Expect 1 1; Data 14 0] with (leaf_steps (entries_of (device_block open_image 1024 (index_child (ex_index 0 10)))))
      by (vm_compute; reflexivity).
    apply walk_leaf; vm_compute; congruence.
  - refine (walk_child open_image 1024 (ex_index 2 11) [] [Expect 2 2; Data 8 1; Data 9 0] [] _ _ _).
    + replace (index_child (ex_index 2 11)) with 11 by (vm_compute; reflexivity). apply D. lia.
    + replace [Expect 2 2; Data 8 1; Data 9 0] with (leaf_steps (entries_of (device_block open_image 1024 (index_child (ex_index 2 11)))))
        by (vm_compute; reflexivity).
      apply walk_leaf; vm_compute; congruence.
    + constructor.
Qed.

Lemma alike_here o n : o + n <= 16384 -> window open_image o n = window other_image o n -> alike open_image no_bad other_image no_bad o n.
Proof. intros L E. unfold alike. rewrite open_image_len, other_image_len. repeat split; [lia|lia|exact E|auto..]. Qed.

Lemma other_image_footprint : same_footprint open_image no_bad other_image no_bad 1 5.
Proof.
  constructor.
  - apply alike_here; vm_compute; congruence.
  - apply alike_here; vm_compute; congruence.
  - apply alike_here; vm_compute; congruence.
  - intros bs _. replace bs with 1024 by (vm_compute; reflexivity). exists ex_steps. split; [exact ex_steps_walk|].
    intros q (k & Q). assert (In q [8; 9; 10; 11; 12; 14]) as H.
    { cbn [In ex_steps] in Q. repeat (destruct Q as [Q|Q]); try discriminate Q; try contradiction; injection Q as <- _; cbn; tauto. }
    clear Q k. cbn [In] in H. repeat (destruct H as [<-|H]); try contradiction; apply alike_here; vm_compute; congruence.
Qed.

Example served_elsewhere_ex : same_footprint open_image no_bad other_image no_bad 1 5 /\ device_supported open_image 1 /\ device_inode open_image 1 5 /\
  open_image <> other_image /\ device_slot open_image 6 <> device_slot other_image 6 /\
  forall s1 F s2 own f s1' F' s2' own' f', fs_open mem_stream (mem_new open_image 512) = (s1, Ok F) ->
    open_file mem_stream mem_clone F 5 s1 = (s2, Ok (own, AnyRegular f)) ->
    fs_open mem_stream (mem_new other_image 512) = (s1', Ok F') -> open_file mem_stream mem_clone F' 5 s1' = (s2', Ok (own', AnyRegular f')) ->
    forall fuel bufs x f1 calls x' f1' calls', Forall (fun buf => len buf <= 1024) bufs ->
      run_file mem_stream fuel own f bufs = Some (x, f1, calls) -> run_file mem_stream fuel own' f' bufs = Some (x', f1', calls') -> calls = calls'.
Proof.
  split; [exact other_image_footprint|]. split; [exact open_image_supported|]. split; [apply open_image_inode; cbn; auto|].
  split. { intros E. apply (f_equal len) in E. rewrite open_image_len, other_image_len in E. discriminate E. }
  split. { intros E. apply (f_equal (fun b => window b 0 1)) in E. vm_compute in E. discriminate E. }
  intros s1 F s2 own f s1' F' s2' own' f' FO OF FO' OF' fuel bufs x f1 calls x' f1' calls' LB R R'.
  assert (U : u64_ok (len other_image)) by (rewrite other_image_len; discriminate).
  destruct (served_elsewhere mem_stream open_image no_bad (mem_at open_image 512) mem_stream other_image no_bad (mem_at other_image 512)
    open_image_ok (mem_stream_ok _ _ U) mem_clone mem_clone (mem_clone_ok open_image 512) (mem_clone_ok other_image 512)
    (mem_new open_image 512) (mem_new other_image 512) 1 5 open_image_start) as (t1 & G & t2 & r & t1' & G' & t2' & r' & H1 & H2 & H3 & H4 & H).
  - exists 0. repeat split. rewrite other_image_len. discriminate.
  - apply mem_clone_there.
  - apply mem_clone_there.
  - exact U.
  - exact open_image_supported.
  - apply open_image_inode; cbn; auto.
  - exact other_image_footprint.
  - rewrite FO in H1. injection H1 as <- <-. rewrite OF in H2. injection H2 as <- <-.
    rewrite FO' in H3. injection H3 as <- <-. rewrite OF' in H4. injection H4 as <- <-.
    eapply H; [|exact R|exact R'].
    replace (sb4_block_size (device_sb open_image)) with 1024 by (vm_compute; reflexivity). exact LB.
Qed.
