(** C75, C76: reading a file of any shape, call by call; errors are final for files whose extents are in order. *)

From Coq Require Import Strings.String.
From Verif Require Import Base BaseFacts Io SpecStream IoFacts SpecMd SuperblockFacts Superblock Crc SpecCrc PropsCrc
  Ext4Superblock SpecExt4 PropsExt4Superblock Ext4Inode SpecExt4Inode PropsExt4Inode Ext4Fs SpecExt4Fs Ext4FsFacts
  PropsExt4Fs Ext4Extent Ext4File SpecExt4File Ext4FileFacts PropsExt4File Ext4Dir SpecExt4Dir PropsExt4Dir PropsExt4Listing SpecExt4Walk.

Local Opaque read_exact.

Lemma skipn_length_app {A} (a b : list A) : skipn (length a) (a ++ b) = b.
Proof. rewrite skipn_app, skipn_all, Nat.sub_diag. reflexivity. Qed.

Lemma length_data_steps n : forall q, length (data_steps q n) = n.
Proof. induction n as [|n IH]; intros q; cbn [data_steps length]; [reflexivity|]. now rewrite IH. Qed.

Scheme walk_mut := Induction for walk Sort Prop with children_walk_mut := Induction for children_walk Sort Prop.
Scheme ordered_mut := Induction for ordered Sort Prop with children_ordered_mut := Induction for children_ordered Sort Prop.

(** ** A finite tree has steps *)
Lemma children_walk_exists c bs es :
  (forall e, In e es -> (index_child e + 1) * bs <= len c -> exists l, walk c bs (device_block c bs (index_child e)) l) ->
  exists l, children_walk c bs es l.
Proof.
  induction es as [|e es IH]; intros H; [eexists; constructor|].
  destruct IH as (l' & W'). { intros e' I'. apply H. now right. }
  destruct (N.le_gt_cases ((index_child e + 1) * bs) (len c)) as [D|D].
  - destruct (H e (or_introl eq_refl) D) as (l & W). eexists. now apply walk_child with (l := l) (l' := l').
  - eexists. apply walk_outside; [lia|exact W'].
Qed.

Lemma walk_exists c bs b : Acc (child c bs) b -> exists l, walk c bs b l.
Proof.
  intros A. induction A as [b _ IH]. destruct (N.le_gt_cases (12 + 12 * node_entries b) (len b)) as [FT|FT].
  2:{ exists [Crash]. constructor. unfold node_fits. lia. }
  destruct (N.eq_dec (node_depth b) 0) as [D|D].
  { eexists. now apply walk_leaf. }
  destruct (children_walk_exists c bs (entries_of b)) as (l & W).
  - intros e I D'. apply IH. split; [exact D|]. unfold entries_of in I. apply in_map_iff in I as (i & <- & I).
    apply in_seq in I. exists (N.of_nat i). split; [lia|]. reflexivity.
  - exists l. now apply walk_branch.
Qed.

Section File.
  Context {S : Type} (st : stream S) (c : bytes) (bad : N -> Prop) (at_ : S -> N -> Prop).
  Hypothesis OK : stream_ok st c bad at_.
  Notation legal := (legal at_).
  Context (F : fs) (I : inode).
  Hypothesis OP : opened c (fs_sb F) (fs_groups F).
  Hypothesis IL : len (in_storage I) = 160.
  Hypothesis U : u64_ok (len c).
  Notation bs := (sb4_block_size (fs_sb F)).
  Notation root := (in_blocks_buffer I).
  Notation size := (in_file_size_bytes I).
  Notation file_ok := (file_ok c F I).
  Notation follows := (follows c bs bad size).

  (** The steps that the stack of the reader stands for. *)
  Definition node_steps (b : bytes) (pos : N) (l : list step) : Prop :=
    (~ node_fits b /\ pos = 0 /\ l = [Crash]) \/
    (node_fits b /\ node_depth b = 0 /\ l = leaf_steps (skipn (N.to_nat pos) (entries_of b))) \/
    (node_fits b /\ node_depth b <> 0 /\ children_walk c bs (skipn (N.to_nat pos) (entries_of b)) l).

  Inductive stack_steps : list stack_entry -> list step -> Prop :=
  | ss_nil : stack_steps [] []
  | ss_tree b seed pos rest l l' :
      12 <= len b -> node_steps b pos l -> stack_steps rest l' ->
      stack_steps (STree (from_internal (Node b seed)) pos :: rest) (l ++ l')
  | ss_extent e pos rest l' :
      stack_steps rest l' ->
      stack_steps (SExtent e pos :: rest) (data_steps (extent_start e + pos) (N.to_nat (taken_blocks e - pos)) ++ l').

  Lemma walk_node_steps b l : walk c bs b l -> node_steps b 0 l.
  Proof. intros W. inversion W; subst; [left|right; left|right; right]; auto. Qed.

  Lemma read_fails s q buf s' buf' e : legal s -> bs <= len buf ->
    fs_read_block st F q s buf = (s', buf', Err e) -> may_fail c bs bad q (len buf).
  Proof.
    intros A LB E. destruct (fs_read_block_spec st c bad at_ OK _ _ _ _ _ _ _ A OP E) as (_ & _ & X). cbv beta iota zeta in X.
    unfold may_fail. destruct X as [[X _]|[X|[X|X]]]; [lia| |auto|auto]. left. unfold u64_ok in *. lia.
  Qed.

  Lemma steps_turn s f buf l : legal s -> file_ok f -> bs <= len buf -> stack_steps (fl_stack f) l ->
    match file_turn st s f buf with
    | Again _ f' => exists l', stack_steps (fl_stack f') l' /\
        forall calls, follows l' (fl_block f) (fl_byte f) calls -> follows l (fl_block f) (fl_byte f) calls
    | Return _ f' buf' r =>
        (r = Panic /\ follows l (fl_block f) (fl_byte f) [(buf, buf', Panic)]) \/
        (r <> Panic /\ exists l', stack_steps (fl_stack f') l' /\
           forall calls, follows l' (fl_block f') (fl_byte f') calls -> follows l (fl_block f) (fl_byte f) ((buf, buf', r) :: calls))
    end.
  Proof.
    intros A FO LB SS. destruct FO as [Ffs Fin Fst Fsz Fbl]. destruct f as [ffs fin stack blk byt].
    cbn [fl_fs fl_inode fl_stack fl_block fl_byte] in *. subst ffs fin. unfold file_turn. cbn [fl_stack].
    destruct SS as [|b seed pos rest l l' L NS SS|e pos rest l' SS].
    - cbn [fl_byte fl_block fl_stack]. unfold file_size_bytes. cbn [fl_inode]. right.
      destruct (N.eqb_spec byt size) as [E|E]; (split; [discriminate|]; exists []; split; [constructor|]; intros calls H).
      + now apply follows_end.
      + now apply follows_early_end.
    - assert (C : tree_entry_count (from_internal (Node b seed)) = node_entries b).
      { unfold from_internal, tree_entry_count. rewrite nd_depth_spec. destruct (node_depth b =? 0); cbn [tree_node]; apply nd_count_spec. }
      rewrite C. destruct (N.ltb_spec pos (node_entries b)) as [P|P].
      2:{ cbn [fl_stack set_stack]. exists l'. split; [exact SS|].
          assert (l = []) as ->; [|auto]. destruct NS as [(FT & -> & _)|[(_ & _ & ->)|(_ & _ & NS)]].
          - exfalso. apply FT. unfold node_fits. lia.
          - now rewrite (skipn_entries_end 0 ltac:(discriminate) b pos P).
          - rewrite (skipn_entries_end 0 ltac:(discriminate) b pos P) in NS. now inversion NS. }
      destruct (nd_entry_at_spec b seed pos L P) as [EF EN].
      destruct NS as [(FT & P0 & P1)|[(FT & D & ->)|(FT & D & NS)]].
      + subst pos l. assert (X : file_turn st s (File F I (STree (from_internal (Node b seed)) 0 :: rest) blk byt) buf
                    = Return s (File F I rest blk byt) buf Panic).
        { unfold file_turn. cbn [fl_stack]. rewrite C. apply N.ltb_lt in P. rewrite P. unfold from_internal.
          destruct (nd_depth (Node b seed) =? 0); [unfold leaf_turn|unfold branch_turn]; now rewrite (EN FT). }
        unfold file_turn in X. cbn [fl_stack] in X. rewrite C in X. apply N.ltb_lt in P. rewrite P in X.
        rewrite X. left. split; [reflexivity|]. now apply follows_crash.
      + unfold from_internal at 1. rewrite nd_depth_spec. destruct (N.eqb_spec (node_depth b) 0) as [_|D']; [|contradiction].
        unfold leaf_turn. rewrite (EF FT).
        cbn [fl_block set_stack fl_fs fl_inode fl_stack fl_byte]. rewrite ex_first_spec, (skipn_entries 0 ltac:(discriminate) b pos P).
        cbn [leaf_steps]. set (e := node_entry b pos).
        destruct (N.eqb_spec (extent_first e) blk) as [E|E]; cbn [negb].
        * replace (Leaf (Node b seed)) with (from_internal (Node b seed)) by (unfold from_internal; rewrite nd_depth_spec, D; reflexivity).
          eexists. split.
          { apply ss_extent. apply ss_tree; [exact L| |exact SS]. right. left. split; [exact FT|]. split; [exact D|reflexivity]. }
          intros calls H. cbn [app]. rewrite E. apply follows_expected. rewrite N.add_0_r, N.sub_0_r in H. rewrite <- app_assoc. exact H.
        * right. split; [discriminate|]. exists l'. split; [exact SS|]. intros calls H. cbn [app]. apply follows_gap; [exact E|exact LB|].
          now rewrite skipn_length_app.
      + unfold from_internal at 1. rewrite nd_depth_spec. destruct (N.eqb_spec (node_depth b) 0) as [D'|_]; [contradiction|].
        unfold branch_turn. rewrite (EF FT). cbn [fl_block set_stack fl_fs fl_inode fl_stack fl_byte]. rewrite ix_first_spec.
        rewrite (skipn_entries 0 ltac:(discriminate) b pos P) in NS. set (e := node_entry b pos) in *.
        destruct (N.eqb_spec (index_first e) blk) as [E|E]; cbn [negb].
        2:{ right. split; [discriminate|]. exists l'. split; [exact SS|]. intros calls H.
            inversion NS as [|? ? l1 l2 D1 W1 W2|? ? l2 D1 W2]; subst; cbn [app];
              (apply follows_gap; [exact E|exact LB|]); cbn [skipn]; now rewrite skipn_length_app. }
        rewrite fs_block_size_ok with (c := c), ix_child_spec by exact OP.
        destruct (fs_read_block st F (index_child e) s (zeros bs)) as [[s' block] r] eqn:RB.
        destruct (fs_read_block_spec st c bad at_ OK _ _ _ _ _ _ _ A OP RB) as (Lg & LB' & X). rewrite len_zeros in *.
        destruct r as [u|er|]; [| |destruct X].
        * destruct X as (_ & X & ->). cbn [fl_stack set_stack].
          replace (Branch (Node b seed)) with (from_internal (Node b seed)).
          2:{ unfold from_internal. rewrite nd_depth_spec. destruct (N.eqb_spec (node_depth b) 0); [contradiction|reflexivity]. }
          inversion NS as [|? ? l1 l2 D1 W1 W2|? ? l2 D1 W2]; subst; [|exfalso; lia].
          eexists. split.
          { apply ss_tree; [| |apply ss_tree; [exact L| |exact SS]].
            - unfold device_block. rewrite len_window_in by lia. pose proof (bs_ge F). lia.
            - apply walk_node_steps. exact W1.
            - right. right. split; [exact FT|]. split; [exact D|exact W2]. }
          intros calls H. cbn [app]. apply follows_expected. apply follows_node; [exact D1|]. rewrite <- app_assoc. exact H.
        * assert (MF : may_fail c bs bad (index_child e) bs).
          { pose proof (fun H => read_fails s (index_child e) (zeros bs) s' block er A H RB) as RF. rewrite len_zeros in RF. apply RF. lia. }
          right. split; [discriminate|]. exists l'. split; [exact SS|]. intros calls H. rewrite <- E.
          inversion NS as [|? ? l1 l2 D1 W1 W2|? ? l2 D1 W2]; subst; cbn [app]; apply follows_expected;
            (apply follows_bad_node; [exact MF|exact LB|]); now rewrite skipn_length_app.
    - assert (TB : ex_length e = taken_blocks e) by apply ex_length_spec.
      unfold extent_turn. rewrite TB. destruct (N.ltb_spec pos (taken_blocks e)) as [P|P].
      2:{ replace (taken_blocks e - pos) with 0 by lia. cbn [N.to_nat data_steps app fl_stack set_stack]. exists l'. auto. }
      replace (N.to_nat (taken_blocks e - pos)) with (Datatypes.S (N.to_nat (taken_blocks e - (pos + 1)))) by lia.
      cbn [data_steps app]. set (k := N.to_nat (taken_blocks e - (pos + 1))). 
      unfold file_size_bytes. cbn [fl_inode fl_byte set_stack fl_fs fl_block fl_stack].
      assert (SK : forall q, skipn k (data_steps q k ++ l') = l').
      { intros q. rewrite <- (length_data_steps k q) at 1. apply skipn_length_app. }
      destruct (N.leb_spec size byt) as [E|E].
      { right. split; [discriminate|]. exists l'. split; [exact SS|]. intros calls H. apply follows_beyond; [exact LB|lia|].
        now rewrite SK. }
      rewrite ex_start_spec. pose proof (extent_start_bound e) as SB.
      assert (PB : pos < 32768). { unfold taken_blocks in P. pose proof (N.mod_lt (extent_value e) 32768 ltac:(discriminate)). lia. }
      unfold cadd64. destruct (N.leb_spec (extent_start e + pos) u64_max) as [UU|UU].
      2:{ exfalso. change (2 ^ 48) with 281474976710656 in SB. change u64_max with 18446744073709551615 in UU. lia. }
      cbn [unwrap].
      destruct (fs_read_block st F (extent_start e + pos) s buf) as [[s' buf'] r] eqn:RB.
      destruct (fs_read_block_spec st c bad at_ OK _ _ _ _ _ _ _ A OP RB) as (Lg & LB' & X).
      destruct r as [u|er|]; [| |destruct X].
      2:{ right. split; [discriminate|]. exists l'. split; [exact SS|]. intros calls H. cbn [fl_stack fl_block fl_byte] in H.
          apply follows_bad_data; [exact LB|exact (read_fails _ _ _ _ _ _ A LB RB)|exact E|exact LB'|]. now rewrite SK. }
      rewrite fs_block_size_ok with (c := c) by exact OP. unfold cadd32. destruct X as (_ & X & ->).
      destruct (N.leb_spec (blk + 1) u32_max) as [UB|UB]; cbn [unwrap fl_stack fl_block fl_byte].
      + right. split; [discriminate|]. eexists. split; [apply ss_extent; exact SS|]. intros calls H.
        rewrite N.min_comm. rewrite N.min_comm in H. apply follows_data; [exact LB|exact X|exact E|lia|].
        rewrite <- N.add_assoc. exact H.
      + left. split; [reflexivity|]. apply follows_overflow; [exact LB|exact X|exact E|lia].
  Qed.

  Lemma steps_loop fuel : forall s f buf l s' f' buf' r, legal s -> file_ok f -> bs <= len buf -> stack_steps (fl_stack f) l ->
    file_loop st fuel s f buf = Some (s', f', buf', r) ->
    (r = Panic /\ follows l (fl_block f) (fl_byte f) [(buf, buf', Panic)]) \/
    (r <> Panic /\ exists l', stack_steps (fl_stack f') l' /\
       forall calls, follows l' (fl_block f') (fl_byte f') calls -> follows l (fl_block f) (fl_byte f) ((buf, buf', r) :: calls)).
  Proof.
    induction fuel as [|fuel IH]; [discriminate|]. intros s f buf l s' f' buf' r A FO LB SS E. cbn [file_loop] in E.
    pose proof (steps_turn s f buf l A FO LB SS) as T. pose proof (turn_ok st c bad at_ OK F I OP s f buf A FO LB) as O. cbv zeta in O.
    destruct (file_turn st s f buf) as [s1 f1 buf1 r1|s1 f1] eqn:TE.
    - injection E as <- <- <- <-. exact T.
    - cbn [turn_state] in O. destruct O as (Lg & FO1 & B1 & Y1). destruct T as (l1 & SS1 & T).
      pose proof (IH s1 f1 buf l1 s' f' buf' r Lg FO1 LB SS1 E) as X. rewrite B1, Y1 in X.
      destruct X as [[-> X]|(NP & l' & SS' & X)]; [left|right].
      + split; [reflexivity|]. now apply T.
      + split; [exact NP|]. exists l'. split; [exact SS'|]. intros calls H. apply T. now apply X.
  Qed.

  (** C75: every history of calls on a file is one that its steps allow, before and after errors. *)
  Theorem file_exact fuel s f bufs s' f' calls l : legal s -> file_open F I = Ok f -> walk c bs root l ->
    run_file st fuel s f bufs = Some (s', f', calls) -> follows l 0 0 calls.
  Proof.
    intros A FO W E. destruct (open_ok c F I IL f FO) as [FE FO'].
    assert (SS : stack_steps (fl_stack f) l).
    { rewrite FE. cbn [fl_stack]. rewrite <- (app_nil_r l). apply ss_tree; [|now apply walk_node_steps|constructor].
      rewrite (in_root_len I IL). discriminate. }
    assert (X : forall s f l, legal s -> file_ok f -> stack_steps (fl_stack f) l -> run_file st fuel s f bufs = Some (s', f', calls) ->
                follows l (fl_block f) (fl_byte f) calls).
    2:{ specialize (X s f l A FO' SS E). rewrite FE in X. exact X. }
    clear s f l A FO W E FE FO' SS. revert calls. induction bufs as [|buf bufs IH]; intros calls s f l A FO SS E; cbn [run_file] in E.
    { injection E as <- <- <-. constructor. }
    destruct (read_next_block st fuel s f buf) as [[[[s1 f1] buf1] r1]|] eqn:R; [|discriminate].
    destruct (read_call_ok st c bad at_ OK F I OP _ _ _ _ _ _ _ _ A FO R) as [Lg O].
    unfold read_next_block, file_block_size in R. rewrite (fo_fs _ _ _ _ FO), (fs_block_size_ok c F OP) in R.
    destruct (N.ltb_spec (len buf) bs) as [L|L].
    - injection R as <- <- <- <-.
      destruct (run_file st fuel s f bufs) as [[[s2 f2] calls2]|] eqn:R2; [|discriminate]. injection E as <- <- <-.
      apply follows_short; [exact L|]. now apply (IH calls2 s f l).
    - destruct O as [(_ & _ & _ & O)|(_ & O)]; [lia|].
      destruct (steps_loop fuel s f buf l s1 f1 buf1 r1 A FO L SS R) as [[-> X]|(NP & l' & SS' & X)].
      { injection E as <- <- <-. exact X. }
      assert (FO1 : file_ok f1). { destruct r1; cbn [outcome] in O; [tauto|tauto|congruence]. }
      destruct r1 as [k|e|]; [| |congruence];
        (destruct (run_file st fuel s1 f1 bufs) as [[[s2 f2] calls2]|] eqn:R2; [|discriminate]; injection E as <- <- <-;
         apply X; now apply (IH calls2 s1 f1 l')).
  Qed.
End File.

(** ** Errors are final *)

(** With [n] blocks returned, no step among [l] answers with data: each of the nodes and extents that are still ahead
    starts after block [n]. *)
Inductive later (n : N) : list step -> Prop :=
| later_nil : later n []
| later_cons p k l : n < p -> later n (skipn k l) -> later n (Expect p k :: l).

(** Whichever step among [l] fails, what is left is later. *)
Fixpoint in_order (n : N) (l : list step) : Prop :=
  match l with
  | [] => True
  | Expect p k :: l => later n (skipn k l) /\ (p = n -> in_order n l)
  | Child _ k :: l => later n (skipn k l) /\ in_order n l
  | Data _ k :: l => later n (skipn k l) /\ in_order (n + 1) l
  | Crash :: _ => False
  end.

(** [l] is in order, and starts at [lo] or later. *)
Definition from_on (lo : N) (l : list step) : Prop :=
  (forall n, n < lo -> later n l) /\ (forall n, n <= lo -> in_order n l).

Lemma from_on_le lo lo' l : lo' <= lo -> from_on lo l -> from_on lo' l.
Proof. intros L [A B]. split; intros n H; [apply A|apply B]; lia. Qed.

Lemma data_in_order k : forall q p rest, from_on (p + N.of_nat k) rest -> in_order p (data_steps q k ++ rest).
Proof.
  induction k as [|k IH]; intros q p rest FR; cbn [data_steps app in_order].
  - apply FR. lia.
  - split.
    + rewrite <- (length_data_steps k (q + 1)) at 1. rewrite skipn_length_app. apply FR. lia.
    + apply IH. now replace (p + 1 + N.of_nat k) with (p + N.of_nat (Datatypes.S k)) by lia.
Qed.

Lemma leaf_from_on es : forall lo hi rest, extents_ordered es lo hi -> from_on hi rest -> from_on lo (leaf_steps es ++ rest).
Proof.
  induction es as [|e es IH]; intros lo hi rest EO FR; cbn [extents_ordered leaf_steps] in *.
  - now apply from_on_le with hi.
  - destruct EO as (L & T & EO). pose proof (IH _ _ _ EO FR) as X. cbn [app].
    assert (HI : extent_first e + extent_blocks e <= hi).
    { clear - EO. revert EO. generalize (extent_first e + extent_blocks e). induction es as [|e' es IH]; intros lo EO; cbn [extents_ordered] in EO;
        [exact EO|]. destruct EO as (A & B & EO). apply IH in EO. lia. }
    split; intros n H.
    + constructor; [lia|]. rewrite skipn_length_app. apply FR. lia.
    + cbn [in_order]. rewrite skipn_length_app. split; [apply FR; lia|]. intros E. rewrite <- app_assoc. apply data_in_order.
      rewrite N2Nat.id, <- E. refine (from_on_le _ _ _ _ X). apply N.add_le_mono_l. unfold taken_blocks. rewrite <- ex_length_spec.
      apply ex_length_blocks.
Qed.

Lemma children_ordered_le c bs es lo hi : children_ordered c bs es lo hi -> lo <= hi.
Proof. intros CO. induction CO as [lo hi H|e es lo mid hi A B _ CO IH]; lia. Qed.

Lemma walk_from_on c bs : forall b l, walk c bs b l -> forall lo hi rest, ordered c bs b lo hi -> from_on hi rest ->
  from_on lo (l ++ rest).
Proof.
  intros b l W. refine (walk_mut c bs
    (fun b l _ => forall lo hi rest, ordered c bs b lo hi -> from_on hi rest -> from_on lo (l ++ rest))
    (fun es l _ => forall lo hi rest, children_ordered c bs es lo hi -> from_on hi rest -> from_on lo (l ++ rest))
    _ _ _ _ _ _ b l W); clear b l W.
  - intros b NF lo hi rest O FR. exfalso. inversion O; contradiction.
  - intros b FT D lo hi rest O FR. inversion O as [? ? ? _ _ EO|? ? ? _ D' _]; subst; [|contradiction]. now apply leaf_from_on with hi.
  - intros b l FT D W IH lo hi rest O FR. inversion O as [? ? ? _ D' _|? ? ? _ _ CO]; subst; [contradiction|]. now apply IH with hi.
  - intros lo hi rest CO FR. inversion CO; subst. now apply from_on_le with hi.
  - intros e es l l' D W IH W' IH' lo hi rest CO FR. inversion CO as [|? ? ? mid ? L M O CO']; subst.
    pose proof (IH' _ _ _ CO' FR) as X'. pose proof (IH _ _ _ O X') as X. pose proof (children_ordered_le _ _ _ _ _ CO') as HI.
    cbn [app]. split; intros n H.
    + constructor; [lia|]. cbn [skipn]. rewrite skipn_length_app. apply FR. lia.
    + cbn [in_order skipn]. rewrite skipn_length_app. split; [apply FR; lia|]. intros E. split; [apply FR; lia|].
      rewrite <- app_assoc. apply X. lia.
  - intros e es l D W IH lo hi rest CO FR. inversion CO as [|? ? ? mid ? L M O CO']; subst.
    pose proof (IH _ _ _ CO' FR) as X. pose proof (children_ordered_le _ _ _ _ _ CO') as HI.
    cbn [app]. split; intros n H.
    + constructor; [lia|]. cbn [skipn]. rewrite skipn_length_app. apply FR. lia.
    + cbn [in_order skipn]. rewrite skipn_length_app. split; [apply FR; lia|]. intros E. split; [apply FR; lia|]. apply X. lia.
Qed.

(** A tree in order is finite. *)
Lemma ordered_acc c bs b lo hi : ordered c bs b lo hi -> Acc (child c bs) b.
Proof.
  intros O. refine (ordered_mut c bs (fun b _ _ _ => Acc (child c bs) b)
    (fun es _ _ _ => Forall (fun e => Acc (child c bs) (device_block c bs (index_child e))) es) _ _ _ _ b lo hi O).
  - intros b0 lo0 hi0 FT D E. constructor. intros a [D' _]. contradiction.
  - intros b0 lo0 hi0 FT D CM FA. constructor. intros a (_ & i & Hi & ->). rewrite Forall_forall in FA. apply FA.
    unfold entries_of. apply in_map_iff. exists (N.to_nat i). rewrite N2Nat.id. split; [reflexivity|]. apply in_seq. lia.
  - constructor.
  - intros e es lo0 mid hi0 L M O1 A1 CM FA. now constructor.
Qed.

(** What may follow an error when [t] bytes have been returned: no data, and the end only after all bytes. *)
Definition no_more (size t : N) (calls : list (bytes * bytes * res N)) : Prop :=
  forall buf buf' k, In (buf, buf', Ok k) calls -> k = 0 /\ t = size.

Lemma no_more_cons size t buf buf' r calls : (forall k, r = Ok k -> k = 0 /\ t = size) -> no_more size t calls ->
  no_more size t ((buf, buf', r) :: calls).
Proof. intros H N b b' k [E|E]; [|now apply (N b b')]. injection E as _ _ E. now apply H. Qed.

Lemma follows_later c bs bad size l n t calls : later n l -> follows c bs bad size l n t calls -> no_more size t calls.
Proof.
  intros L F. induction F as [l n t|l n t buf calls SB F IH| | |p k l n t buf calls NE SB F IH| | | | | | |n t buf calls SB E F IH
                             |n t buf calls SB E F IH]; try (inversion L; subst; lia).
  - intros b b' k [].
  - apply no_more_cons; [discriminate|auto].
  - apply no_more_cons; [discriminate|]. inversion L; subst. auto.
  - apply no_more_cons; [intros k E'; injection E' as <-; auto|auto].
  - apply no_more_cons; [discriminate|auto].
Qed.

Lemma no_more_returned size t pre post : no_more size t (pre ++ post) -> returned pre = 0 /\ no_more size t post.
Proof.
  induction pre as [|[[b b'] r] pre IH]; intros N; [split; [reflexivity|exact N]|].
  destruct IH as [R N']. { intros x x' k H. apply (N x x' k). now right. }
  split; [|exact N']. cbn [returned fold_right]. fold (returned pre). rewrite R. destruct r as [k|e|]; try reflexivity.
  destruct (N b b' k (or_introl eq_refl)) as [-> _]. reflexivity.
Qed.

(** An error, and then only what [no_more] allows. *)
Lemma error_then size t buf buf' e calls pre b b' e' post : no_more size t calls ->
  (buf, buf', Err e) :: calls = pre ++ (b, b', Err e') :: post -> no_more size (t + returned pre) post.
Proof.
  intros NM EQ. destruct pre as [|x pre]; injection EQ as E1 E2.
  - subst. cbn [returned fold_right]. now rewrite N.add_0_r.
  - subst. cbn [returned fold_right]. fold (returned pre). apply no_more_returned in NM as [R NM]. rewrite R, N.add_0_r.
    intros x x' k H. apply (NM x x' k). now right.
Qed.

Lemma follows_final c bs bad size l n t calls : follows c bs bad size l n t calls -> in_order n l -> t <= size ->
  forall pre buf buf' e post, calls = pre ++ (buf, buf', Err e) :: post -> bs <= len buf ->
  no_more size (t + returned pre) post.
Proof.
  intros F. induction F as [l n t|l n t buf calls SB F IH|n k l t calls F IH|q k l n t calls D F IH|p k l n t buf calls NE SB F IH
    |q k l n t buf e calls MF SB F IH|q k l n t buf calls SB IN LT B32 F IH|q k l n t buf buf1 e calls SB MF LT L1 F IH
    |q k l n t buf calls SB E F IH|l n t buf SB|q k l n t buf SB IN LT B32|n t buf calls SB E F IH|n t buf calls SB E F IH];
    intros O T pre b b' e' post EQ LB; cbn [in_order] in O.
  - destruct pre; discriminate.
  - destruct pre as [|x pre]; injection EQ as E1 E2.
    + subst. lia.
    + subst. cbn [returned fold_right]. exact (IH O T pre b b' e' post eq_refl LB).
  - apply (IH (proj2 O eq_refl) T pre b b' e' post EQ LB).
  - apply (IH (proj2 O) T pre b b' e' post EQ LB).
  - exact (error_then _ _ _ _ _ _ _ _ _ _ _ (follows_later _ _ _ _ _ _ _ _ (proj1 O) F) EQ).
  - exact (error_then _ _ _ _ _ _ _ _ _ _ _ (follows_later _ _ _ _ _ _ _ _ (proj1 O) F) EQ).
  - destruct pre as [|x pre]; [discriminate EQ|]. injection EQ as E1 E2. subst. cbn [returned fold_right]. fold (returned pre).
    rewrite N.add_assoc. refine (IH (proj2 O) _ pre b b' e' post eq_refl LB). lia.
  - exact (error_then _ _ _ _ _ _ _ _ _ _ _ (follows_later _ _ _ _ _ _ _ _ (proj1 O) F) EQ).
  - exact (error_then _ _ _ _ _ _ _ _ _ _ _ (follows_later _ _ _ _ _ _ _ _ (proj1 O) F) EQ).
  - destruct O.
  - destruct pre as [|x [|y pre]]; discriminate EQ.
  - destruct pre as [|x pre]; [discriminate EQ|]. injection EQ as E1 E2. subst. cbn [returned fold_right]. fold (returned pre).
    exact (IH O T pre b b' e' post eq_refl LB).
  - exact (error_then _ _ _ _ _ _ _ _ _ _ _ (follows_later _ _ _ _ _ _ _ _ (later_nil n) F) EQ).
Qed.

(** ** Whole files *)

Lemma whole_only c bs bad size l n t calls : 1 <= bs -> follows c bs bad size l n t calls -> t = N.min (n * bs) size ->
  n * bs < size + bs -> n <= u32_max -> Forall (fun '(buf, _, _) => len buf = bs) calls ->
  Forall (fun '(_, _, r) => is_ok r) calls -> (exists buf buf', In (buf, buf', Ok 0) calls) ->
  exists qs, run_of c bs l n qs /\ size <= (n + len qs) * bs < size + bs /\ n + len qs <= u32_max /\ (length qs < length calls)%nat.
Proof.
  intros B1 F. induction F as [l n t|l n t buf calls SB F IH|n k l t calls F IH|q k l n t calls D F IH|p k l n t buf calls NE SB F IH
    |q k l n t buf e calls MF SB F IH|q k l n t buf calls SB IN LT B32 F IH|q k l n t buf buf1 e calls SB MF LT L1 F IH
    |q k l n t buf calls SB E F IH|l n t buf SB|q k l n t buf SB IN LT B32|n t buf calls SB E F IH|n t buf calls SB E F IH];
    intros T HI H32 LB AO EX.
  - destruct EX as (b & b' & []).
  - exfalso. exact (Forall_inv AO).
  - destruct (IH T HI H32 LB AO EX) as (qs & R & X). exists qs. split; [now constructor|exact X].
  - destruct (IH T HI H32 LB AO EX) as (qs & R & X). exists qs. split; [now constructor|exact X].
  - exfalso. exact (Forall_inv AO).
  - exfalso. exact (Forall_inv AO).
  - pose proof (Forall_inv_tail AO) as AO'. pose proof (Forall_inv LB) as L1. pose proof (Forall_inv_tail LB) as LB'. cbn in L1. rewrite L1 in *.
    destruct IH as (qs & R & S1 & S2 & S3); auto.
    + rewrite N.mul_add_distr_r, N.mul_1_l. lia.
    + rewrite N.mul_add_distr_r, N.mul_1_l. lia.
    + lia.
    + destruct EX as (b & b' & [E|E]); [|now exists b, b']. injection E as _ _ E. lia.
    + exists (q :: qs). rewrite len_cons. replace (n + (1 + len qs)) with (n + 1 + len qs) by lia.
      split; [|split; [exact S1|split; [exact S2|cbn [length]; lia]]]. apply run_data; [|exact R]. rewrite N.mul_add_distr_r. lia.
  - exfalso. exact (Forall_inv AO).
  - exfalso. exact (Forall_inv AO).
  - exfalso. exact (Forall_inv AO).
  - exfalso. exact (Forall_inv AO).
  - exists []. change (len (@nil N)) with 0. rewrite N.add_0_r. split; [constructor|]. split; [lia|]. split; [exact H32|cbn; lia].
  - exfalso. exact (Forall_inv AO).
Qed.

Lemma whole_if c bs size l n t calls : 1 <= bs -> follows c bs (fun _ => False) size l n t calls ->
  forall qs, run_of c bs l n qs -> t = N.min (n * bs) size -> size <= (n + len qs) * bs < size + bs -> n + len qs <= u32_max ->
  Forall (fun '(buf, _, _) => len buf = bs) calls ->
  calls = file_calls c bs size qs t (map (fun '(buf, _, _) => buf) calls).
Proof.
  intros B1 F.
  assert (NF : forall q, (q + 1) * bs <= len c -> ~ may_fail c bs (fun _ => False) q bs).
  { intros q Q [M|(x & _ & [])]. rewrite N.mul_add_distr_r in Q. lia. }
  assert (LT : forall n m, (n + (1 + m)) * bs < size + bs -> n * bs < size).
  { intros n' m H. pose proof (N.mul_le_mono_r (n' + 1) (n' + (1 + m)) bs ltac:(lia)) as Q. lia. }
  induction F as [l n t|l n t buf calls SB F IH|n k l t calls F IH|q k l n t calls D F IH|p k l n t buf calls NE SB F IH
    |q k l n t buf e calls MF SB F IH|q k l n t buf calls SB IN LT1 B32 F IH|q k l n t buf buf1 e calls SB MF LT1 L1 F IH
    |q k l n t buf calls SB E F IH|l n t buf SB|q k l n t buf SB IN LT1 B32|n t buf calls SB E F IH|n t buf calls SB E F IH];
    intros qs R T SZ H32 LB; cbn [map].
  - reflexivity.
  - pose proof (Forall_inv LB) as LB1. cbn in LB1. lia.
  - inversion R; subst. now apply IH.
  - inversion R; subst. now apply IH.
  - inversion R; subst. congruence.
  - inversion R; subst. exfalso. now apply (NF q).
  - inversion R as [| | |? ? ? ? qs' D R']; subst. rewrite len_cons in *. pose proof (Forall_inv LB) as L1. pose proof (Forall_inv_tail LB) as LB'. cbn in L1. rewrite L1 in *.
    cbn [file_calls]. f_equal. apply IH; auto; rewrite ?N.mul_add_distr_r, ?N.mul_1_l in *; lia.
  - inversion R as [| | |? ? ? ? qs' D R']; subst. pose proof (Forall_inv LB) as LB1. cbn in LB1. rewrite LB1 in *. exfalso. now apply (NF q).
  - inversion R as [| | |? ? ? ? qs' D R']; subst. rewrite len_cons in *. apply proj2, LT in SZ. lia.
  - inversion R.
  - inversion R as [| | |? ? ? ? qs' D R']; subst. rewrite len_cons in *. lia.
  - inversion R; subst. inversion LB; subst. cbn [file_calls]. f_equal. now apply (IH []).
  - inversion R; subst. change (len (@nil N)) with 0 in *. rewrite N.add_0_r in *. lia.
Qed.

Lemma follows_no_bad c bs (bad : N -> Prop) size l n t calls : (forall x, ~ bad x) -> follows c bs bad size l n t calls ->
  follows c bs (fun _ => False) size l n t calls.
Proof.
  intros NB FL. assert (M : forall q k, may_fail c bs bad q k -> may_fail c bs (fun _ => False) q k).
  { intros q k [M|(x & _ & M)]; [now left|]. now apply NB in M. }
  induction FL; constructor; auto; fail.
Qed.

Lemma file_calls_whole c bs size : 1 <= bs -> forall bufs qs t, (length qs < length bufs)%nat ->
  read_whole (file_calls c bs size qs t bufs).
Proof.
  intros B1. induction bufs as [|buf bufs IH]; intros qs t L; [cbn in L; lia|].
  assert (X : forall qs' t', (length qs' < length bufs)%nat \/ (qs' = [] /\ bufs = []) -> forall x, is_ok (snd x) -> 
              (bufs = [] -> exists b b', x = (b, b', Ok 0)) -> read_whole (x :: file_calls c bs size qs' t' bufs)).
  { intros qs' t' [L'|[-> ->]] [[b b'] r] O Z; cbn [snd] in O.
    - destruct (IH qs' t' L') as (A & pre & p & p' & E). split; [now constructor|]. exists ((b, b', r) :: pre), p, p'. now rewrite E.
    - destruct (Z eq_refl) as (? & ? & E). injection E as -> -> ->. split; [now repeat constructor|]. now exists [], x, x0. }
  destruct qs as [|q qs]; cbn [file_calls length] in *.
  - apply X; [|exact Logic.I|eauto]. destruct bufs; [right; auto|left; cbn; lia].
  - apply X; [left; lia|exact Logic.I|]. intros ->. cbn in L. lia.
Qed.

Lemma run_file_bufs {S} (st : stream S) fuel : forall bufs s f s' f' calls, run_file st fuel s f bufs = Some (s', f', calls) ->
  exists rest, bufs = map (fun '(buf, _, _) => buf) calls ++ rest /\
    (Forall (fun '(_, _, r) => is_ok r) calls -> rest = []).
Proof.
  induction bufs as [|buf bufs IH]; intros s f s' f' calls E; cbn [run_file] in E.
  - injection E as <- <- <-. now exists [].
  - destruct (read_next_block st fuel s f buf) as [[[[s1 f1] buf1] r1]|]; [|discriminate]. destruct r1 as [k|e|].
    + destruct (run_file st fuel s1 f1 bufs) as [[[s2 f2] calls2]|] eqn:R; [|discriminate]. injection E as <- <- <-.
      destruct (IH _ _ _ _ _ R) as (rest & -> & X). exists rest. split; [reflexivity|]. intros A. inversion A; auto.
    + destruct (run_file st fuel s1 f1 bufs) as [[[s2 f2] calls2]|] eqn:R; [|discriminate]. injection E as <- <- <-.
      destruct (IH _ _ _ _ _ R) as (rest & -> & X). exists rest. split; [reflexivity|]. intros A. exfalso. exact (Forall_inv A).
    + injection E as <- <- <-. exists bufs. split; [reflexivity|]. intros A. exfalso. exact (Forall_inv A).
Qed.

Section Final.
  Context {S : Type} (st : stream S) (c : bytes) (bad : N -> Prop) (at_ : S -> N -> Prop).
  Hypothesis OK : stream_ok st c bad at_.
  Context (F : fs) (I : inode).
  Hypothesis OP : opened c (fs_sb F) (fs_groups F).
  Hypothesis IL : len (in_storage I) = 160.
  Hypothesis U : u64_ok (len c).
  Notation bs := (sb4_block_size (fs_sb F)).
  Notation root := (in_blocks_buffer I).
  Notation size := (in_file_size_bytes I).

  (** C76: if the extents of a file are in order, then after an error there is no more data, and the end of the file is
      reported only if all bytes had been returned before the error. *)
  Theorem file_error_final fuel s f bufs s' f' hi pre buf buf' e post : legal at_ s -> file_open F I = Ok f ->
    ordered c bs root 0 hi -> run_file st fuel s f bufs = Some (s', f', pre ++ (buf, buf', Err e) :: post) -> bs <= len buf ->
    forall b b' k, In (b, b', Ok k) post -> k = 0 /\ returned pre = size.
  Proof.
    intros A FO O E LB. destruct (walk_exists c bs root (ordered_acc _ _ _ _ _ O)) as (l & W).
    pose proof (file_exact st c bad at_ OK F I OP IL U _ _ _ _ _ _ _ l A FO W E) as FL.
    assert (IO : in_order 0 l).
    { rewrite <- (app_nil_r l). refine (proj2 (walk_from_on c bs root l W 0 hi [] O _) 0 ltac:(lia)).
      split; intros n _; [apply later_nil|exact Logic.I]. }
    exact (follows_final _ _ _ _ _ _ _ _ FL IO ltac:(lia) pre buf buf' e post eq_refl LB).
  Qed.
  (** C78: the results of listing a directory of any shape are those of the blocks that its steps give: the records of each
      block that is in order, an error for each other one and each failure, and nothing behind the end. *)
  Theorem dir_listing_exact fuel n s d s' d' rs l : legal at_ s -> dir_open F I = Ok d ->
    (forall sd, in_seed I = Some sd -> sd < 2 ^ 32) -> walk c bs root l -> run_dir st fuel n s d = Some (s', d', rs) ->
    exists calls, follows c bs bad size l 0 0 calls /\ Forall (fun '(buf, _, _) => buf = zeros bs) calls /\
      listing (in_seed I) bs calls rs.
  Proof.
    intros A DO SD W E.
    assert (X : exists f, file_open F I = Ok f).
    { unfold dir_open in DO. destruct (contains _ _); [discriminate|]. destruct (file_open F I) as [f|e|]; [now exists f|discriminate..]. }
    destruct X as (f & FO).
    destruct (dir_listing_reads st c bad at_ OK F I OP IL SD fuel n s f d s' d' rs A FO DO E) as (k & s1 & f1 & calls & R & LS).
    exists calls. split; [exact (file_exact st c bad at_ OK F I OP IL U _ _ _ _ _ _ _ l A FO W R)|]. split; [|exact LS].
    destruct (run_file_bufs st fuel _ _ _ _ _ _ R) as (rest & EB & _). apply Forall_forall. intros [[b b'] r] IN.
    apply (repeat_spec k (zeros bs) b). rewrite EB. apply in_app_iff. left. apply in_map_iff. now exists (b, b', r).
  Qed.

  (** C77: on a device without defects, reading succeeds up to the end exactly if the tree maps the blocks of the file
      without gap, on the device, and as many as its size needs; and then the answers are these blocks. *)
  Theorem file_whole_iff fuel s f bufs s' f' calls l : (forall x, ~ bad x) -> legal at_ s -> file_open F I = Ok f ->
    walk c bs root l -> run_file st fuel s f bufs = Some (s', f', calls) -> Forall (fun buf => len buf = bs) bufs ->
    (read_whole calls <->
     exists qs, run_of c bs l 0 qs /\ size <= len qs * bs < size + bs /\ len qs <= u32_max /\ (length qs < length bufs)%nat) /\
    (forall qs, run_of c bs l 0 qs -> size <= len qs * bs < size + bs -> len qs <= u32_max ->
       calls = file_calls c bs size qs 0 bufs).
  Proof.
    intros NB A FO W E LB. pose proof (bs_ge F) as B1. assert (B0 : 1 <= bs) by lia.
    pose proof (file_exact st c bad at_ OK F I OP IL U _ _ _ _ _ _ _ l A FO W E) as FL.
    assert (FL' : follows c bs (fun _ => False) size l 0 0 calls).
    { now apply (follows_no_bad c bs bad). }
    destruct (run_file_bufs st fuel _ _ _ _ _ _ E) as (rest & EB & RN).
    assert (LC : Forall (fun '(buf, _, _) => len buf = bs) calls).
    { rewrite EB in LB. apply Forall_app in LB as [LB _]. clear - LB. induction calls as [|[[b b'] r] calls IH]; [constructor|].
      inversion LB; subst. constructor; auto. }
    assert (X : forall qs, run_of c bs l 0 qs -> size <= len qs * bs < size + bs -> len qs <= u32_max ->
                calls = file_calls c bs size qs 0 bufs).
    { intros qs R SZ H32. pose proof (whole_if c bs size l 0 0 calls B0 FL' qs R) as X. rewrite N.mul_0_l, N.add_0_l in X.
      specialize (X ltac:(lia) SZ H32 LC). rewrite X. f_equal. rewrite EB. rewrite RN, app_nil_r; [reflexivity|].
      rewrite X. clear. generalize (map (fun '(buf, _, _) => buf) calls) as bufs. intros bufs. generalize 0. revert qs.
      induction bufs as [|buf bufs IH]; intros qs t; [constructor|]. destruct qs; cbn [file_calls]; constructor; try exact Logic.I; apply IH. }
    split; [|exact X]. split.
    - intros (AO & pre & b & b' & EC). destruct (whole_only c bs bad size l 0 0 calls B0 FL) as (qs & R & S1 & S2 & S3); auto.
      + lia.
      + lia.
      + unfold u32_max. lia.
      + exists b, b'. rewrite EC. apply in_app_iff. right. now left.
      + rewrite N.add_0_l in *. exists qs. split; [exact R|]. split; [exact S1|]. split; [exact S2|].
        rewrite EB, (RN AO), app_nil_r, map_length. exact S3.
    - intros (qs & R & S1 & S2 & S3). rewrite (X qs R S1 S2). now apply file_calls_whole.
  Qed.
End Final.
Print Assumptions file_exact.
Print Assumptions file_error_final.
Print Assumptions file_whole_iff.
Print Assumptions dir_listing_exact.

(** A file with a hole, block 1, and one with an index for the hole: the steps, the answers, and the order. *)
Definition sparse_file : inode := ex_inode (ex_root (ex_header 2 4 0 ++ ex_extent 0 1 12 ++ ex_extent 2 1 14)) 3072.

Example file_exact_ex : exists f s' f', file_open ex_fs sparse_file = Ok f /\ len (in_storage sparse_file) = 160 /\
  walk ex_image 1024 (in_blocks_buffer sparse_file) [Expect 0 3; Data 12 0; Expect 2 1; Data 14 0] /\
  run_file mem_stream 20 (mem_new ex_image 512) f (zeros 512 :: repeat (zeros 1024) 4) =
    Some (s', f', [(zeros 512, zeros 512, Err InvalidInput); (zeros 1024, repeat x12 1024, Ok 1024);
                   (zeros 1024, zeros 1024, Err InvalidData); (zeros 1024, zeros 1024, Err UnexpectedEof);
                   (zeros 1024, zeros 1024, Err UnexpectedEof)]).
Proof.
  eexists. eexists. eexists. split; [vm_compute; reflexivity|]. split; [reflexivity|]. split; [|vm_compute; reflexivity].
  refine (walk_leaf ex_image 1024 (in_blocks_buffer sparse_file) _ _); vm_compute; congruence.
Qed.

Example file_exact_tree_ex : walk ex_image 1024 (in_blocks_buffer ex_file)
  [Expect 0 10; Child 10 9; Expect 0 3; Data 12 0; Expect 1 1; Data 14 0; Expect 2 4; Child 11 3; Expect 2 2; Data 8 1; Data 9 0].
Proof.
  apply walk_branch; [vm_compute; congruence|vm_compute; congruence|].
  replace (entries_of (in_blocks_buffer ex_file)) with [ex_index 0 10; ex_index 2 11] by (vm_compute; reflexivity).
  apply (walk_child ex_image 1024 (ex_index 0 10) [ex_index 2 11] [Expect 0 3; Data 12 0; Expect 1 1; Data 14 0]
           [Expect 2 4; Child 11 3; Expect 2 2; Data 8 1; Data 9 0]).
  - rewrite ex_image_len. vm_compute. congruence.
  - refine (walk_leaf ex_image 1024 (device_block ex_image 1024 10) _ _); vm_compute; congruence.
  - apply (walk_child ex_image 1024 (ex_index 2 11) [] [Expect 2 2; Data 8 1; Data 9 0] []).
    + rewrite ex_image_len. vm_compute. congruence.
    + refine (walk_leaf ex_image 1024 (device_block ex_image 1024 11) _ _); vm_compute; congruence.
    + constructor.
Qed.

Example file_error_final_ex : ordered ex_image 1024 (in_blocks_buffer sparse_file) 0 3 /\
  ordered ex_image 1024 (in_blocks_buffer ex_file) 0 4.
Proof.
  split.
  - apply ordered_leaf; [vm_compute; congruence|vm_compute; congruence|].
    replace (entries_of (in_blocks_buffer sparse_file)) with [ex_extent 0 1 12; ex_extent 2 1 14] by (vm_compute; reflexivity).
    cbn [extents_ordered]. vm_compute. repeat split; congruence.
  - apply ordered_branch; [vm_compute; congruence|vm_compute; congruence|].
    replace (entries_of (in_blocks_buffer ex_file)) with [ex_index 0 10; ex_index 2 11] by (vm_compute; reflexivity).
    apply ordered_child with (mid := 2); [vm_compute; congruence|vm_compute; congruence| |].
    + apply ordered_leaf; [vm_compute; congruence|vm_compute; congruence|].
      replace (entries_of _) with [ex_extent 0 1 12; ex_extent 1 1 14] by (vm_compute; reflexivity).
      cbn [extents_ordered]. vm_compute. repeat split; congruence.
    + apply ordered_child with (mid := 4); [vm_compute; congruence|vm_compute; congruence| |constructor; lia].
      apply ordered_leaf; [vm_compute; congruence|vm_compute; congruence|].
      replace (entries_of _) with [ex_extent 2 2 8] by (vm_compute; reflexivity).
      cbn [extents_ordered]. vm_compute. repeat split; congruence.
Qed.

Example file_whole_iff_ex : run_of ex_image 1024
  [Expect 0 10; Child 10 9; Expect 0 3; Data 12 0; Expect 1 1; Data 14 0; Expect 2 4; Child 11 3; Expect 2 2; Data 8 1; Data 9 0]
  0 [12; 14; 8; 9] /\ ~ (exists qs, run_of ex_image 1024 [Expect 0 3; Data 12 0; Expect 2 1; Data 14 0] 0 qs).
Proof.
  split.
  - repeat (constructor; try (rewrite ex_image_len; vm_compute; congruence); cbn [N.add Pos.add Pos.succ]).
  - intros (qs & R). inversion R as [|? ? ? ? R1| |]; subst. inversion R1 as [| | |? ? ? ? ? ? R2]; subst. inversion R2.
Qed.

(** A directory with a hole, block 1. *)
Definition sparse_dir : inode :=
  Inode (fold_left poke [(0x4, to_le 4 3072); (0x20, to_le 4 0x80000);
                         (0x28, ex_root (ex_header 2 4 0 ++ ex_extent 0 1 8 ++ ex_extent 2 1 9))] (zeros 160)) (Some 5).

Example dir_listing_exact_ex : exists d s' d', dir_open ex_fs sparse_dir = Ok d /\ len (in_storage sparse_dir) = 160 /\
  in_seed sparse_dir = Some 5 /\
  walk (ex_dir_image second_block) 1024 (in_blocks_buffer sparse_dir) [Expect 0 3; Data 8 0; Expect 2 1; Data 9 0] /\
  run_dir mem_stream 20 5 (mem_new (ex_dir_image second_block) 512) d =
    Some (s', d', map (fun e => Ok (Some e)) (map encode_record first_block) ++ [Err InvalidData; Err UnexpectedEof]).
Proof.
  eexists. eexists. eexists. split; [vm_compute; reflexivity|]. split; [reflexivity|]. split; [reflexivity|].
  split; [|vm_compute; reflexivity].
  refine (walk_leaf (ex_dir_image second_block) 1024 (in_blocks_buffer sparse_dir) _ _); vm_compute; congruence.
Qed.
