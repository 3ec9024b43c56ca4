(** Properties C79 to C82: the bytes that are read from a file are those that Linux reads. *)

From Coq Require Import Strings.String.
From Verif Require Import Base BaseFacts Io SpecStream IoFacts SpecMd SuperblockFacts Superblock SpecCrc CrcFacts Crc PropsCrc Ext4Superblock SpecExt4 PropsExt4Superblock
  Ext4Inode SpecExt4Inode PropsExt4Inode Ext4Fs SpecExt4Fs Ext4FsFacts PropsExt4Fs Ext4Extent SpecExt4File Ext4File Ext4FileFacts PropsExt4File
  Ext4Dir SpecExt4Dir PropsExt4Dir PropsExt4Listing PropsExt4Flat PropsExt4Array SpecExt4Open PropsExt4Open SpecExt4Linux PropsExt4Linux
  SpecExt4Walk PropsExt4Walk SpecExt4Content TestData Raid SpecRaid RaidFacts SpecParity ParityFacts PropsRaid Device Array ArrayIo
  SpecArray ArrayFacts PropsArray PropsArrayRead PropsArrayIo Ext4String PropsExt4Recover.

(** ** Looking up *)

Lemma chosen_unique es p e e' : chosen es p e -> chosen es p e' -> e = e'.
Proof.
  intros (b & a & E & H & A) (b' & a' & E' & H' & A'). subst es. revert b' E' H'. induction b as [|x b IH]; intros b' E' H'.
  - destruct b' as [|x' b']; cbn [app] in E'; [congruence|]. injection E' as <- ->.
    assert (X : In e' (b' ++ e' :: a')) by (apply in_or_app; right; now left). rewrite Forall_forall in A. specialize (A e' X). cbv beta in A.
    destruct H' as [H'|H']; [lia|discriminate].
  - destruct b' as [|x' b']; cbn [app] in E'; [|injection E' as -> E'; apply (IH ltac:(destruct H as [H|H]; [now left|discriminate]) b' E')].
    + injection E' as -> <-. assert (X : In e (b ++ e :: a)) by (apply in_or_app; right; now left). rewrite Forall_forall in A'. specialize (A' e X).
      cbv beta in A'. destruct H as [H|H]; [lia|discriminate].
    + destruct H' as [H'|H']; [now left|discriminate].
Qed.

Lemma entries_of_in b i : i < node_entries b -> In (node_entry b i) (entries_of b).
Proof.
  intros H. unfold entries_of. apply in_map_iff. exists (N.to_nat i). split; [now rewrite N2Nat.id|]. apply in_seq. lia.
Qed.

Lemma entries_of_nth b e : In e (entries_of b) -> exists i, i < node_entries b /\ e = node_entry b i.
Proof.
  unfold entries_of. rewrite in_map_iff. intros (i & <- & H). apply in_seq in H. exists (N.of_nat i). split; [lia|reflexivity].
Qed.

Lemma chosen_some b p e : chosen (entries_of b) p e -> node_entries b <> 0.
Proof. intros (x & y & E & _) Z. unfold entries_of in E. rewrite Z in E. destruct x; discriminate. Qed.

Section Lookup.
  Context (c : bytes) (bs : N).

  (** Linux finds one thing only. *)
  Lemma linux_finds_unique b p r r' : linux_finds c bs b p r -> linux_finds c bs b p r' -> r = r'.
  Proof.
    intros H. revert r'. induction H as [b p e D C R|b p e D C R|b p D Z|b p e r D C H IH]; intros r' H'; inversion H'; subst;
      try contradiction; try reflexivity; repeat match goal with
      | X : chosen (entries_of ?z) ?y ?e, Y : chosen (entries_of ?z) ?y ?e' |- _ =>
          lazymatch e with e' => fail | _ => pose proof (chosen_unique _ _ _ _ X Y); subst end
      end; try reflexivity; try contradiction; try (now apply IH).
    all: exfalso; match goal with X : chosen (entries_of ?z) _ _, Y : node_entries ?z = 0 |- _ => exact (chosen_some _ _ _ X Y) end.
  Qed.

  Lemma reachable_down root b : reachable c bs root b -> b = root \/ exists a, child c bs a root /\ reachable c bs a b.
  Proof.
    induction 1 as [|a b R IH C]; [now left|]. right. destruct IH as [->|(x & X & Y)].
    - exists a. split; [exact C|constructor].
    - exists x. split; [exact X|]. now apply reach_child with b.
  Qed.

  Lemma extents_ordered_le es lo hi : extents_ordered es lo hi -> lo <= hi /\ Forall (fun x => lo <= extent_first x) es.
  Proof.
    revert lo. induction es as [|e es IH]; intros lo H; cbn [extents_ordered] in H; [split; [exact H|constructor]|].
    destruct H as (A & B & H). destruct (IH _ H) as [X Y]. split; [lia|]. constructor; [exact A|].
    eapply Forall_impl; [|exact Y]. intros x. cbv beta. lia.
  Qed.

  Lemma extents_ordered_chosen es lo hi e p : extents_ordered es lo hi -> In e es ->
    extent_first e <= p < extent_first e + extent_blocks e -> chosen es p e /\ lo <= p < hi.
  Proof.
    revert lo. induction es as [|x es IH]; intros lo H IN R; [contradiction|]. cbn [extents_ordered] in H. destruct H as (A & B & H).
    destruct IN as [->|IN].
    - destruct (extents_ordered_le _ _ _ H) as [L F]. split; [|lia]. exists [], es. split; [reflexivity|]. split; [now right|].
      eapply Forall_impl; [|exact F]. intros y. cbv beta. unfold extent_first at 2. lia.
    - destruct (IH _ H IN R) as [(b & a & -> & F & G) L]. split; [|lia]. exists (x :: b), a. split; [reflexivity|]. split; [|exact G].
      left. exact (proj1 R).
  Qed.

  Lemma children_ordered_le es lo hi : children_ordered c bs es lo hi -> lo <= hi /\ Forall (fun x => lo <= index_first x) es.
  Proof.
    induction 1 as [lo hi H|e es lo mid hi A B O C [X Y]]; [split; [exact H|constructor]|]. split; [lia|].
    constructor; [exact A|]. eapply Forall_impl; [|exact Y]. intros x. cbv beta. lia.
  Qed.

  (** In a tree in order, Linux finds every extent there is. *)
  Lemma ordered_finds root lo hi : ordered c bs root lo hi -> forall b e p, reachable c bs root b -> node_depth b = 0 -> In e (entries_of b) ->
    extent_first e <= p < extent_first e + extent_blocks e -> linux_finds c bs root p (Some e) /\ lo <= p < hi.
  Proof.
    apply (ordered_mut c bs
      (fun root lo hi _ => forall b e p, reachable c bs root b -> node_depth b = 0 -> In e (entries_of b) ->
         extent_first e <= p < extent_first e + extent_blocks e -> linux_finds c bs root p (Some e) /\ lo <= p < hi)
      (fun es lo hi _ => forall x b e p, In x es -> reachable c bs (device_block c bs (index_child x)) b -> node_depth b = 0 -> In e (entries_of b) ->
         extent_first e <= p < extent_first e + extent_blocks e ->
         chosen es p x /\ linux_finds c bs (device_block c bs (index_child x)) p (Some e) /\ index_first x <= p /\ lo <= p < hi)).
    - clear. intros root lo hi F D O b e p R D' IN X. destruct (reachable_down _ _ R) as [->|(a & (C & _) & _)]; [|contradiction].
      destruct (extents_ordered_chosen _ _ _ _ _ O IN X) as [C L]. split; [|exact L]. now apply finds_extent.
    - clear. intros root lo hi F D O IH b e p R D' IN X. destruct (reachable_down _ _ R) as [->|(a & (_ & i & LI & ->) & RA)]; [contradiction|].
      destruct (IH _ b e p (entries_of_in _ _ LI) RA D' IN X) as (C & FI & _ & L). split; [|exact L]. now apply (finds_below _ _ _ _ (node_entry root i)).
    - clear. intros lo hi H x b e p [].
    - clear. intros e0 es lo mid hi A B O IH C IHc x b e p [->|IX] R D IN X.
      + destruct (IH b e p R D IN X) as [FI L]. destruct (children_ordered_le _ _ _ C) as [L' FA]. split; [|split; [exact FI|lia]].
        exists [], es. split; [reflexivity|]. split; [now right|]. eapply Forall_impl; [|exact FA]. intros y. cbv beta. unfold index_first. lia.
      + destruct (IHc x b e p IX R D IN X) as ((be & af & -> & F & G) & FI & LE & L). split; [|split; [exact FI|lia]].
        exists (e0 :: be), af. split; [reflexivity|]. split; [left; exact LE|exact G].
  Qed.

  Lemma ordered_mapped root hi p q : ordered c bs root 0 hi -> mapped c bs root p q ->
    exists e, linux_finds c bs root p (Some e) /\ q = extent_start e + (p - extent_first e).
  Proof.
    intros O (b & i & R & D & LI & A & B & ->). exists (node_entry b i). split; [|reflexivity].
    exact (proj1 (ordered_finds _ _ _ O b _ p R D (entries_of_in _ _ LI) (conj A B))).
  Qed.

  (** ** What has been delivered *)

  Lemma answers_bytes root size n t calls : 0 < bs -> (t < size -> t = n * bs) -> t <= size -> answers c bs root size n t calls ->
    t + len (delivered calls) <= size /\
    forall o x, nth_N (delivered calls) o = Some x ->
      exists q, mapped c bs root ((t + o) / bs) q /\ nth_N c (q * bs + (t + o) mod bs) = Some x.
  Proof.
    intros B T TS H. induction H as [n t|n t q buf buf' k calls M LB IN EB LT EK H IH|n t buf calls E H IH|n t buf buf' e calls L H IH|n t buf buf' P];
      unfold delivered; cbn [map concat app]; try change (concat (map _ calls)) with (delivered calls).
    - split; [rewrite len_nil; lia|]. intros o x X. rewrite nth_N_spec in X. destruct (N.to_nat o); discriminate.
    - specialize (T LT). subst buf'. rewrite window_window by lia. pose proof (len_window_in c (q * bs) k ltac:(lia)) as W. rewrite N.add_0_r, len_app, W.
      destruct IH as [L IH]; [lia|lia|]. split; [lia|]. intros o x X.
      destruct (N.lt_ge_cases o k) as [K|K].
      + exists q. assert (OB : (t + o) / bs = n /\ (t + o) mod bs = o).
        { rewrite T. split.
          - rewrite N.div_add_l by lia. rewrite N.div_small by lia. lia.
          - rewrite N.add_comm, N.mod_add by lia. apply N.mod_small. lia. }
        destruct OB as [-> ->]. split; [exact M|]. rewrite nth_N_spec, nth_error_app1, <- nth_N_spec, nth_N_window in X; [exact X|exact K|].
        unfold len in *. lia.
      + destruct (IH (o - k) x) as (q' & M' & X').
        * rewrite nth_N_spec, nth_error_app2 in X; [|unfold len in *; lia]. rewrite nth_N_spec, <- X. f_equal. unfold len in *. lia.
        * exists q'. replace (t + o) with (t + k + (o - k)) by lia. auto.
    - destruct IH as [L IH]; [exact T|exact TS|]. exact (conj L IH).
    - destruct IH as [L' IH]; [exact T|exact TS|]. exact (conj L' IH).
    - split; [rewrite len_nil; lia|]. intros o x X. rewrite nth_N_spec in X. cbn in X. destruct (N.to_nat o); discriminate.
  Qed.

  Lemma answers_linux root size hi calls : 0 < bs -> ordered c bs root 0 hi -> answers c bs root size 0 0 calls ->
    len (delivered calls) <= size /\
    forall o x, nth_N (delivered calls) o = Some x -> linux_byte c bs root o x \/ in_unwritten c bs root o.
  Proof.
    intros B O H. destruct (answers_bytes root size 0 0 calls B ltac:(lia) ltac:(lia) H) as [L X]. split; [exact L|].
    intros o x N. destruct (X o x N) as (q & M & NQ). rewrite N.add_0_l in M, NQ. destruct (ordered_mapped _ _ _ _ O M) as (e & FI & ->).
    unfold in_unwritten, extent_written. destruct (N.leb_spec (extent_value e) 32768) as [V|V].
    - left. exists (Some e). split; [exact FI|]. destruct (N.leb_spec (extent_value e) 32768); [exact NQ|lia].
    - right. exists e. split; [exact FI|lia].
  Qed.
End Lookup.

(** ** Files without holes *)

Section Covered.
  Context (c : bytes) (bs : N) (readable : N -> Prop).

  Notation covers e p := (extent_first e <= p < extent_first e + extent_blocks e).

  (** Some extent below [b] has file block [p]. *)
  Definition covered (b : bytes) (p : N) : Prop :=
    exists b' e, reachable c bs b b' /\ node_depth b' = 0 /\ In e (entries_of b') /\ covers e p.

  (** All extents below [b] are short enough, and their blocks are readable. *)
  Definition plain (b : bytes) : Prop :=
    forall b' e, reachable c bs b b' -> node_depth b' = 0 -> In e (entries_of b') ->
      extent_value e < 32768 /\ forall p, covers e p -> readable (extent_start e + (p - extent_first e)).

  Lemma extents_covered es lo hi : extents_ordered es lo hi -> (forall p, lo <= p < hi -> exists e, In e es /\ covers e p) ->
    (forall e, In e es -> extent_value e < 32768 /\ forall p, covers e p -> readable (extent_start e + (p - extent_first e))) ->
    exists l, extents_map 32767 es lo l /\ len l = hi - lo /\ Forall readable l.
  Proof.
    revert lo. induction es as [|e es IH]; intros lo O C V.
    - exists []. split; [reflexivity|]. split; [|constructor]. rewrite len_nil. cbn in O. destruct (N.eq_dec lo hi) as [->|NE]; [lia|].
      destruct (C lo ltac:(lia)) as (e & [] & _).
    - cbn [extents_ordered] in O. destruct O as (A & B & O). destruct (extents_ordered_le _ _ _ O) as [L F]. rewrite Forall_forall in F.
      assert (E : extent_first e = lo).
      { destruct (C lo ltac:(lia)) as (x & [<-|IN] & X); [lia|]. specialize (F x IN). cbv beta in F. lia. }
      destruct (V e (or_introl eq_refl)) as [VB VR].
      assert (EB : extent_blocks e = extent_value e) by (unfold extent_blocks; destruct (N.leb_spec (extent_value e) 32768); lia).
      destruct (IH _ O) as (l & M & LL & R).
      { intros p P. destruct (C p ltac:(lia)) as (x & [<-|IN] & X); [lia|]. eauto. }
      { intros x IN. apply V. now right. }
      eexists. split; [|split].
      + cbn [extents_map]. split; [exact E|]. split; [unfold extent_written; lia|]. split; [lia|]. exists l. split; [reflexivity|]. now rewrite <- E.
      + rewrite len_app, LL. unfold len at 1. rewrite map_length, seq_length. lia.
      + apply Forall_app. split; [|exact R]. apply Forall_forall. intros q Q. apply in_map_iff in Q as (j & <- & Q). apply in_seq in Q.
        specialize (VR (extent_first e + N.of_nat j) ltac:(lia)). now replace (extent_first e + N.of_nat j - extent_first e) with (N.of_nat j) in VR by lia.
  Qed.

  Lemma ordered_range root lo hi p : ordered c bs root lo hi -> covered root p -> lo <= p < hi.
  Proof. intros O (b & e & R & D & IN & X). exact (proj2 (ordered_finds c bs _ _ _ O b e p R D IN X)). Qed.

  Lemma children_range es lo hi x p : children_ordered c bs es lo hi -> In x es -> covered (device_block c bs (index_child x)) p -> lo <= p < hi.
  Proof.
    induction 1 as [|e es lo mid hi A B O C IH]; [intros []|]. pose proof (proj1 (children_ordered_le _ _ _ _ _ C)).
    intros [->|IN] X; [pose proof (ordered_range _ _ _ _ O X); lia|]. specialize (IH IN X). lia.
  Qed.

  Lemma covered_maps root lo hi : ordered c bs root lo hi -> nodes_readable c bs readable root -> plain root ->
    (forall p, lo <= p < hi -> covered root p) -> exists l, maps c bs 32767 readable root lo l /\ len l = hi - lo /\ Forall readable l.
  Proof.
    apply (ordered_mut c bs
      (fun root lo hi _ => nodes_readable c bs readable root -> plain root ->
         (forall p, lo <= p < hi -> covered root p) -> exists l, maps c bs 32767 readable root lo l /\ len l = hi - lo /\ Forall readable l)
      (fun es lo hi _ => (forall x, In x es -> readable (index_child x) /\ nodes_readable c bs readable (device_block c bs (index_child x)) /\
           plain (device_block c bs (index_child x))) ->
         (forall p, lo <= p < hi -> exists x, In x es /\ covered (device_block c bs (index_child x)) p) ->
         exists l, children_map c bs 32767 readable es lo l /\ len l = hi - lo /\ Forall readable l)).
    - clear root lo hi. intros root lo hi F D O NR PL C. destruct (extents_covered _ _ _ O) as (l & M & L).
      + intros p P. destruct (C p P) as (b & e & R & D' & IN & X). destruct (reachable_down _ _ _ _ R) as [->|(a & (Z & _) & _)]; [eauto|contradiction].
      + intros e IN. apply (PL root e); [constructor|exact D|exact IN].
      + exists l. split; [now apply maps_leaf|exact L].
    - clear root lo hi. intros root lo hi F D O IH NR PL C. destruct IH as (l & M & L).
      + intros x IN. assert (CH : child c bs (device_block c bs (index_child x)) root).
        { destruct (entries_of_nth _ _ IN) as (i & LI & ->). split; [exact D|]. eauto. }
        assert (UP : forall b, reachable c bs (device_block c bs (index_child x)) b -> reachable c bs root b).
        { induction 1 as [|a b R IH C']; [now apply (reach_child _ _ _ _ root); [constructor|]|now apply (reach_child _ _ _ _ b)]. }
        split; [apply (NR root); [constructor|exact D|exact IN]|]. split.
        * intros b e R. apply NR. now apply UP.
        * intros b e R. apply PL. now apply UP.
      + intros p P. destruct (C p P) as (b & e & R & D' & IN & X). destruct (reachable_down _ _ _ _ R) as [->|(a & (_ & i & LI & ->) & RA)]; [contradiction|].
        exists (node_entry root i). split; [now apply entries_of_in|]. exists b, e. auto.
      + exists l. split; [now apply maps_branch|exact L].
    - clear. intros lo hi H _ C. exists []. split; [constructor|]. rewrite len_nil. split; [|constructor].
      destruct (N.eq_dec lo hi) as [->|NE]; [lia|]. destruct (C lo ltac:(lia)) as (e & [] & _).
    - clear root lo hi. intros e es lo mid hi A B O IH CO IHc H C. pose proof (proj1 (children_ordered_le _ _ _ _ _ CO)) as MH.
      destruct (H e (or_introl eq_refl)) as (RE & NR & PL).
      assert (E : index_first e = lo).
      { destruct (C lo ltac:(lia)) as (x & [<-|IN] & X); [pose proof (ordered_range _ _ _ _ O X); lia|].
        pose proof (children_range _ _ _ _ _ CO IN X). lia. }
      destruct IH as (l & M & L & F); [exact NR|exact PL| |].
      { intros p P. destruct (C p ltac:(lia)) as (x & [<-|IN] & X); [exact X|]. pose proof (children_range _ _ _ _ _ CO IN X). lia. }
      destruct IHc as (l' & M' & L' & F').
      { intros x IN. apply H. now right. }
      { intros p P. destruct (C p ltac:(lia)) as (x & [<-|IN] & X); [|eauto]. pose proof (ordered_range _ _ _ _ O X). lia. }
      exists (l ++ l'). rewrite len_app, L, L'. split; [|split; [lia|now apply Forall_app]].
      constructor; [exact E|exact RE|now rewrite E in M|]. rewrite L. replace (lo + (mid - index_first e)) with mid by lia. exact M'.
  Qed.

  Lemma finds_covers root p e : linux_finds c bs root p (Some e) ->
    exists b, reachable c bs root b /\ node_depth b = 0 /\ In e (entries_of b) /\ covers e p.
  Proof.
    intros H. remember (Some e) as r eqn:E. induction H as [b p x D C R|b p x D C R|b p D Z|b p x r D C H IH]; try discriminate.
    - injection E as ->. exists b. split; [constructor|]. split; [exact D|]. split; [|exact R]. destruct C as (u & v & -> & _). apply in_or_app. right. now left.
    - destruct (IH E) as (b' & RB & X). exists b'. split; [|exact X].
      assert (IN : In x (entries_of b)) by (destruct C as (u & v & -> & _); apply in_or_app; right; now left).
      destruct (entries_of_nth _ _ IN) as (i & LI & ->). clear - D LI RB. induction RB as [|a b0 R IH C].
      + apply (reach_child _ _ _ _ b); [constructor|]. split; [exact D|]. eauto.
      + now apply (reach_child _ _ _ _ b0).
  Qed.

  Lemma ordered_nonempty root lo hi : ordered c bs root lo hi -> forall b e, reachable c bs root b -> node_depth b = 0 -> In e (entries_of b) -> 0 < extent_blocks e.
  Proof.
    apply (ordered_mut c bs
      (fun root lo hi _ => forall b e, reachable c bs root b -> node_depth b = 0 -> In e (entries_of b) -> 0 < extent_blocks e)
      (fun es lo hi _ => forall x b e, In x es -> reachable c bs (device_block c bs (index_child x)) b -> node_depth b = 0 -> In e (entries_of b) ->
         0 < extent_blocks e)).
    - clear. intros root lo hi F D O b e R _ IN. destruct (reachable_down _ _ _ _ R) as [->|(a & (Z & _) & _)]; [|contradiction].
      clear - O IN. revert lo O. induction (entries_of root) as [|x es IH]; intros lo O; [contradiction|]. cbn [extents_ordered] in O.
      destruct O as (A & B & O), IN as [<-|IN]; [exact B|]. exact (IH IN _ O).
    - clear. intros root lo hi F D O IH b e R D' IN. destruct (reachable_down _ _ _ _ R) as [->|(a & (_ & i & LI & ->) & RA)]; [contradiction|].
      exact (IH _ b e (entries_of_in _ _ LI) RA D' IN).
    - intros lo' hi' _ x b e [].
    - clear. intros e0 es lo mid hi A B O IH C IHc x b e [->|IX]; [apply IH|now apply IHc].
  Qed.

  (** Where Linux finds every block of a tree in order, there is nothing else, and there are no holes. *)
  Lemma linux_maps root hi : ordered c bs root 0 hi -> nodes_readable c bs readable root ->
    (forall p, p < hi -> exists e, linux_finds c bs root p (Some e) /\ extent_value e < 32768 /\ readable (extent_start e + (p - extent_first e))) ->
    exists l, maps c bs 32767 readable root 0 l /\ len l = hi /\ Forall readable l.
  Proof.
    intros O NR H. destruct (covered_maps root 0 hi O NR) as (l & M & L & F).
    - intros b e R D IN. assert (X : forall p, covers e p -> extent_value e < 32768 /\ readable (extent_start e + (p - extent_first e))).
      { intros p P. destruct (ordered_finds _ _ _ _ _ O b e p R D IN P) as [FI LP]. destruct (H p ltac:(lia)) as (e' & FI' & Y).
        pose proof (linux_finds_unique _ _ _ _ _ _ FI FI') as E. injection E as <-. exact Y. }
      split; [|intros p P; now apply X]. apply (X (extent_first e)). split; [lia|].
      pose proof (ordered_nonempty _ _ _ O b e R D IN). lia.
    - intros p P. destruct (H p ltac:(lia)) as (e & FI & _). destruct (finds_covers _ _ _ FI) as (b & X). exists b, e. exact X.
    - exists l. rewrite L. split; [exact M|]. split; [lia|exact F].
  Qed.
End Covered.

(** ** C79 and C80: files *)

Section Content.
  Context {S : Type} (st : stream S) (c : bytes) (bad : N -> Prop) (at_ : S -> N -> Prop).
  Hypothesis OK : stream_ok st c bad at_.
  Context (F : fs) (I : inode).
  Hypothesis OP : opened c (fs_sb F) (fs_groups F).
  Hypothesis IL : len (in_storage I) = 160.
  Notation bs := (sb4_block_size (fs_sb F)).
  Notation root := (in_blocks_buffer I).
  Notation size := (in_file_size_bytes I).

  (** C79: of a file whose tree is in order, no byte is ever returned that Linux would not return at that place, unless it
      lies in an unwritten extent. *)
  Theorem file_linux fuel s f bufs s' f' calls hi : legal at_ s -> file_open F I = Ok f -> ordered c bs root 0 hi ->
    run_file st fuel s f bufs = Some (s', f', calls) ->
    len (delivered calls) <= size /\
    forall o x, nth_N (delivered calls) o = Some x -> linux_byte c bs root o x \/ in_unwritten c bs root o.
  Proof.
    intros A FO O E. apply (answers_linux c bs root size hi calls (block_size_pos _) O).
    exact (file_sound st c bad at_ OK F I OP IL _ _ _ _ _ _ _ A FO E).
  Qed.

  (** C80: a file all of whose blocks Linux finds, written and readable, and in extents of less than 32768 blocks, is read
      completely, and as Linux reads it. *)
  Theorem file_linux_complete s f bufs hi : legal at_ s -> file_open F I = Ok f -> u64_ok (len c) -> ordered c bs root 0 hi ->
    size <= hi * bs < size + bs -> hi <= u32_max -> nodes_readable c bs (block_good c bad bs) root ->
    (forall p, p < hi -> exists e, linux_finds c bs root p (Some e) /\ extent_value e < 32768 /\
       block_good c bad bs (extent_start e + (p - extent_first e))) ->
    hi <= len bufs -> Forall (fun buf => len buf = bs) bufs ->
    exists fuel s' f' calls, run_file st fuel s f bufs = Some (s', f', calls) /\ Forall (fun '(_, _, r) => is_ok r) calls /\
      len (delivered calls) = size /\ forall o x, nth_N (delivered calls) o = Some x -> linux_byte c bs root o x.
  Proof.
    intros A FO U O SZ HI NR FI LB LBs. destruct (linux_maps c bs (block_good c bad bs) root hi O NR FI) as (l & M & LL & R).
    destruct (file_complete_partial st c bad at_ OK F I OP IL s f l bufs A FO U) as (fuel & s' & f' & E).
    - exact M.
    - exact R.
    - lia.
    - rewrite LL. exact SZ.
    - exact LBs.
    - destruct (file_calls_deliver c bs size l bufs) as [DE LE].
      { unfold len in *. lia. }
      { rewrite LL. lia. }
      { eapply Forall_impl; [|exact R]. intros q (Q & _). exact Q. }
      exists fuel, s', f', (file_calls c bs size l 0 bufs). split; [exact E|]. split.
      { clear. generalize 0 as t. revert l. induction bufs as [|buf bufs IH]; intros l t; [constructor|].
        destruct l as [|q l]; cbn [file_calls]; constructor; try exact Logic.I; apply IH. }
      split; [now rewrite DE|]. intros o x X.
      destruct (file_linux _ _ _ _ _ _ _ hi A FO O E) as [_ B]. destruct (B o x X) as [Y|(e & FE & W)]; [exact Y|]. exfalso.
      apply nth_N_some_lt in X. rewrite DE, LE in X. destruct (FI (o / bs)) as (e' & FE' & V & _).
      { apply N.div_lt_upper_bound; [pose proof (block_size_pos (fs_sb F)); lia|]. lia. }
      pose proof (linux_finds_unique _ _ _ _ _ _ FE FE') as EE. injection EE as <-. apply W. unfold extent_written. lia.
  Qed.
End Content.

(** ** C81: from the device to the content of the file *)

(** In the usual geometry, the slot that is read is the one that Linux means. *)
Lemma linux_slot c number a : linux_usual (device_sb c) -> linux_inode_at c number a ->
  window c a (linux_inode_size (device_sb c)) = device_slot c number.
Proof.
  intros U L. rewrite (linux_inode_at_unique _ _ _ _ (lu_plain _ U) L (linux_inode_offset c number U)).
  unfold device_slot, device_slot_offset, device_desc. fold (device_sb c). f_equal. unfold linux_inode_size.
  destruct (N.eqb_spec (uint_le (device_sb c) 0x4c 4) 0) as [Z|]; [|reflexivity]. destruct (lu_revision _ U); [contradiction|congruence].
Qed.

Section DeviceContent.
  Context {S : Type} (st : stream S) (c : bytes) (bad : N -> Prop) (at_ : S -> N -> Prop).
  Hypothesis OK : stream_ok st c bad at_.
  Notation legal := (legal at_).
  Context (clone : S -> S * res S).
  Hypothesis CL : forall s s' r, legal s -> clone s = (s', r) -> legal s' /\ r <> Panic /\ (forall t, r = Ok t -> legal t).

  (** C81: on a file system of the usual geometry, what is read from a regular file opened by its number is what Linux reads
      from the file of that number, but for unwritten extents. *)
  Theorem device_linux s s1 F number a s2 own f fuel bufs s' f' calls hi : legal s -> fs_open st s = (s1, Ok F) ->
    linux_usual (device_sb c) -> linux_inode_at c number a ->
    let slot := window c a (linux_inode_size (device_sb c)) in
    let bs := sb4_block_size (device_sb c) in
    ordered c bs (slot_root slot) 0 hi ->
    open_file st clone F number s1 = (s2, Ok (own, AnyRegular f)) -> run_file st fuel own f bufs = Some (s', f', calls) ->
    slot_kind slot = 8 /\ len (delivered calls) <= slot_size slot /\
    forall o x, nth_N (delivered calls) o = Some x -> linux_file_byte c number o x \/ in_unwritten c bs (slot_root slot) o.
  Proof.
    intros A FO U L slot bs O E R. pose proof (linux_slot c number a U L) as SL.
    destruct (open_file_sound st c bad at_ OK clone CL s s1 F number s2 own _ A FO E) as (_ & _ & _ & K & _ & AN).
    cbv zeta in AN. rewrite <- SL in K, AN. fold slot in K, AN. fold bs in AN. split; [exact K|]. specialize (AN _ _ _ _ _ R).
    destruct (answers_linux c bs _ _ hi calls (block_size_pos _) O AN) as [LE B]. split; [exact LE|].
    intros o x X. destruct (B o x X) as [Y|Y]; [left|now right]. exists a. split; [exact L|]. split; [|exact Y].
    apply nth_N_some_lt in X. fold slot. lia.
  Qed.

  (** C81, completeness: a file all of whose blocks Linux finds, written and readable, can be opened by its number and read
      to its end. *)
  Theorem device_linux_complete s k number a bufs hi : legal s -> (forall s, legal s -> exists s' t, clone s = (s', Ok t)) ->
    device_supported c k -> device_inode c k number -> metadata_good c bad k number -> linux_usual (device_sb c) -> linux_inode_at c number a ->
    let slot := window c a (linux_inode_size (device_sb c)) in
    let bs := sb4_block_size (device_sb c) in
    slot_kind slot = 8 -> slot_by_extents slot = true -> ordered c bs (slot_root slot) 0 hi ->
    slot_size slot <= hi * bs < slot_size slot + bs -> hi <= u32_max -> nodes_readable c bs (block_good c bad bs) (slot_root slot) ->
    (forall p, p < hi -> exists e, linux_finds c bs (slot_root slot) p (Some e) /\ extent_value e < 32768 /\
       block_good c bad bs (extent_start e + (p - extent_first e))) ->
    hi <= len bufs -> Forall (fun buf => len buf = bs) bufs ->
    exists s1 F s2 own f fuel s' f' calls,
      fs_open st s = (s1, Ok F) /\ open_file st clone F number s1 = (s2, Ok (own, AnyRegular f)) /\
      run_file st fuel own f bufs = Some (s', f', calls) /\ Forall (fun '(_, _, r) => is_ok r) calls /\
      len (delivered calls) = slot_size slot /\ forall o x, nth_N (delivered calls) o = Some x -> linux_file_byte c number o x.
  Proof.
    intros A CL' SU DI MG U L slot bs K BE O SZ HI NR FI LB LBs. pose proof (linux_slot c number a U L) as SL. fold slot in SL.
    destruct (linux_maps c bs (block_good c bad bs) (slot_root slot) hi O NR FI) as (l & M & LL & R).
    destruct (read_file_partial st c bad at_ OK clone CL s k number l bufs A CL' SU DI MG) as (s1 & F & s2 & own & f & fuel & s' & f' & calls & FO & OF & RF & _ & LD & RS);
      rewrite <- ?SL; fold bs; auto.
    { lia. }
    { rewrite LL. exact SZ. }
    { unfold len in *. lia. }
    exists s1, F, s2, own, f, fuel, s', f', calls. split; [exact FO|]. split; [exact OF|]. split; [exact RF|]. rewrite <- SL in LD. split.
    { eapply Forall_impl; [|exact RS]. intros [[b b'] r]. cbv beta iota. now intros (n & ->). }
    split; [exact LD|]. intros o x X.
    destruct (device_linux s s1 F number a s2 own f fuel bufs s' f' calls hi A FO U L O OF RF) as (_ & _ & B).
    destruct (B o x X) as [Y|(e & FE & W)]; [exact Y|]. exfalso. fold slot bs in FE.
    apply nth_N_some_lt in X. rewrite LD in X. destruct (FI (o / bs)) as (e' & FE' & V & _).
    { apply N.div_lt_upper_bound; [pose proof (block_size_pos (device_sb c)); unfold bs; lia|]. lia. }
    pose proof (linux_finds_unique _ _ _ _ _ _ FE FE') as EE. injection EE as <-. apply W. unfold extent_written. lia.
  Qed.
End DeviceContent.

(** ** C82: from the members of an array to the content of the file *)

Section ArrayContent.
  Context {D : Type} (ops : blockdev D) (join : D -> D -> D) (J : joins join) (C : contents) (f : md_format) (l : layout6) (image : bytes).
  Hypothesis G : geometry_ok f l.
  Hypothesis U : u64_ok (len image).
  Hypothesis I : contents_image C (fun _ => 0) f l image.

  Let st := reader_stream (array_block_io ops join).
  Let clone := reader_clone (array_block_io ops join).
  Let holds := fun a : definition D => slots_hold ops a C /\ in_use a f.

  (** C82: what is read from a file through an array is what Linux reads from that file in the [image] that md has stored
      on the members, but for unwritten extents; whatever cannot be read, and whatever the members do. *)
  Theorem recover_linux_partial d s1 F number a s2 own g fuel bufs s' g' calls hi : holds d -> fs_open st (reader_new d) = (s1, Ok F) ->
    linux_usual (device_sb image) -> linux_inode_at image number a ->
    let slot := window image a (linux_inode_size (device_sb image)) in
    let bs := sb4_block_size (device_sb image) in
    ordered image bs (slot_root slot) 0 hi ->
    open_file st clone F number s1 = (s2, Ok (own, AnyRegular g)) -> run_file st fuel own g bufs = Some (s', g', calls) ->
    slot_kind slot = 8 /\ len (delivered calls) <= slot_size slot /\
    forall o x, nth_N (delivered calls) o = Some x -> linux_file_byte image number o x \/ in_unwritten image bs (slot_root slot) o.
  Proof.
    intros H. exact (device_linux st image (array_bad C f) (reader_at 512 holds) (recover_stream_ok ops join J C f l image G U I) clone
      (recover_clone ops join J C f l image G U I) (reader_new d) s1 F number a s2 own g fuel bufs s' g' calls hi (recover_start ops join J C f l image G U I d H)).
  Qed.

  (** Completeness: it is read to its end, if Linux finds all of its blocks, written and readable. *)
  Theorem recover_linux_complete_partial d k number a bufs hi : holds d ->
    device_supported image k -> device_inode image k number -> metadata_good image (array_bad C f) k number ->
    linux_usual (device_sb image) -> linux_inode_at image number a ->
    let slot := window image a (linux_inode_size (device_sb image)) in
    let bs := sb4_block_size (device_sb image) in
    slot_kind slot = 8 -> slot_by_extents slot = true -> ordered image bs (slot_root slot) 0 hi ->
    slot_size slot <= hi * bs < slot_size slot + bs -> hi <= u32_max ->
    nodes_readable image bs (block_good image (array_bad C f) bs) (slot_root slot) ->
    (forall p, p < hi -> exists e, linux_finds image bs (slot_root slot) p (Some e) /\ extent_value e < 32768 /\
       block_good image (array_bad C f) bs (extent_start e + (p - extent_first e))) ->
    hi <= len bufs -> Forall (fun buf => len buf = bs) bufs ->
    exists s1 F s2 own g fuel s' g' calls,
      fs_open st (reader_new d) = (s1, Ok F) /\ open_file st clone F number s1 = (s2, Ok (own, AnyRegular g)) /\
      run_file st fuel own g bufs = Some (s', g', calls) /\ Forall (fun '(_, _, r) => is_ok r) calls /\
      len (delivered calls) = slot_size slot /\ forall o x, nth_N (delivered calls) o = Some x -> linux_file_byte image number o x.
  Proof.
    intros H. exact (device_linux_complete st image (array_bad C f) (reader_at 512 holds) (recover_stream_ok ops join J C f l image G U I) clone
      (recover_clone ops join J C f l image G U I) (reader_new d) k number a bufs hi (recover_start ops join J C f l image G U I d H)
      (recover_clone_there ops join J C f l image G U I)).
  Qed.
End ArrayContent.
Print Assumptions file_linux.
Print Assumptions file_linux_complete.
Print Assumptions device_linux.
Print Assumptions device_linux_complete.
Print Assumptions recover_linux_partial.
Print Assumptions recover_linux_complete_partial.

(** ** Examples: a file with a hole, an unwritten one, and one of two levels without holes *)

Lemma sparse_chosen p : chosen (entries_of (in_blocks_buffer sparse_file)) p (if p <? 2 then ex_extent 0 1 12 else ex_extent 2 1 14).
Proof.
  replace (entries_of (in_blocks_buffer sparse_file)) with [ex_extent 0 1 12; ex_extent 2 1 14] by (vm_compute; reflexivity).
  assert (E0 : uint_le (ex_extent 0 1 12) 0 4 = 0) by reflexivity. assert (E2 : uint_le (ex_extent 2 1 14) 0 4 = 2) by reflexivity.
  destruct (N.ltb_spec p 2) as [L|L].
  - exists [], [ex_extent 2 1 14]. split; [reflexivity|]. split; [now right|]. constructor; [now rewrite E2|constructor].
  - exists [ex_extent 0 1 12], []. split; [reflexivity|]. split; [left; now rewrite E2|constructor].
Qed.

Example file_linux_ex : exists f s' f' calls, file_open ex_fs sparse_file = Ok f /\ ordered ex_image 1024 (in_blocks_buffer sparse_file) 0 3 /\
  run_file mem_stream 10 (mem_new ex_image 512) f (repeat (zeros 1024) 3) = Some (s', f', calls) /\ delivered calls = repeat x12 1024 /\
  linux_byte ex_image 1024 (in_blocks_buffer sparse_file) 5 x12 /\ linux_byte ex_image 1024 (in_blocks_buffer sparse_file) 1500 x00.
Proof.
  eexists. eexists. eexists. eexists. split; [vm_compute; reflexivity|]. split; [apply file_error_final_ex|]. split; [vm_compute; reflexivity|].
  split; [vm_compute; reflexivity|]. split.
  - exists (Some (ex_extent 0 1 12)). split; [|vm_compute; reflexivity]. apply finds_extent; [vm_compute; reflexivity|exact (sparse_chosen 0)|].
    vm_compute. split; congruence.
  - exists None. split; [|reflexivity]. apply (finds_hole _ _ _ _ (ex_extent 0 1 12)); [vm_compute; reflexivity|exact (sparse_chosen 1)|].
    vm_compute. intros [_ H]. discriminate.
Qed.

(** Of an unwritten extent, Linux reads zeros, while the content of the device is delivered. *)
Example file_linux_unwritten_ex : exists f s' f' calls, file_open ex_fs unwritten_file = Ok f /\ ordered ex_image 1024 (in_blocks_buffer unwritten_file) 0 1 /\
  run_file mem_stream 10 (mem_new ex_image 512) f [zeros 1024] = Some (s', f', calls) /\ delivered calls = repeat x12 1024 /\
  in_unwritten ex_image 1024 (in_blocks_buffer unwritten_file) 5 /\
  forall x, linux_byte ex_image 1024 (in_blocks_buffer unwritten_file) 5 x -> x = x00.
Proof.
  assert (E : entries_of (in_blocks_buffer unwritten_file) = [ex_extent 0 32769 12]) by (vm_compute; reflexivity).
  assert (FI : linux_finds ex_image 1024 (in_blocks_buffer unwritten_file) 0 (Some (ex_extent 0 32769 12))).
  { apply finds_extent; [vm_compute; reflexivity| |vm_compute; split; congruence]. rewrite E. exists [], []. repeat split; [now right|constructor]. }
  eexists. eexists. eexists. eexists. split; [vm_compute; reflexivity|]. split.
  { apply ordered_leaf; [vm_compute; congruence|vm_compute; congruence|]. rewrite E. vm_compute. repeat split; congruence. }
  split; [vm_compute; reflexivity|]. split; [vm_compute; reflexivity|]. split.
  - exists (ex_extent 0 32769 12). split; [exact FI|]. vm_compute. intros H. now apply H.
  - intros x (r & FR & X). change (5 / 1024) with 0 in FR. rewrite (linux_finds_unique _ _ _ _ _ _ FR FI) in X. exact X.
Qed.

Lemma ex_children b : reachable open_image 1024 (in_blocks_buffer ex_file) b ->
  b = in_blocks_buffer ex_file \/ b = device_block open_image 1024 10 \/ b = device_block open_image 1024 11.
Proof.
  induction 1 as [|a b R IH (D & i & LI & ->)]; [now left|]. right. destruct IH as [->|[->| ->]]; [|exfalso; apply D; vm_compute; reflexivity..].
  assert (N2 : node_entries (in_blocks_buffer ex_file) = 2) by (vm_compute; reflexivity). rewrite N2 in LI.
  assert (I2 : i = 0 \/ i = 1) by lia. destruct I2 as [->| ->]; [left|right]; vm_compute; reflexivity.
Qed.

Lemma open_ordered : ordered open_image 1024 (in_blocks_buffer ex_file) 0 4.
Proof.
  apply ordered_branch; [vm_compute; congruence|vm_compute; congruence|].
  replace (entries_of (in_blocks_buffer ex_file)) with [ex_index 0 10; ex_index 2 11] by (vm_compute; reflexivity).
  apply ordered_child with (mid := 2); [vm_compute; congruence|vm_compute; congruence| |].
  + apply ordered_leaf; [vm_compute; congruence|vm_compute; congruence|].
    replace (entries_of _) with [ex_extent 0 1 12; ex_extent 1 1 14] by (vm_compute; reflexivity).
    cbn [extents_ordered]. vm_compute. repeat split; congruence.
  + apply ordered_child with (mid := 4); [vm_compute; congruence|vm_compute; congruence| |constructor; lia].
    apply ordered_leaf; [vm_compute; congruence|vm_compute; congruence|].
    replace (entries_of _) with [ex_extent 2 2 8] by (vm_compute; reflexivity).
    cbn [extents_ordered]. vm_compute. repeat split; congruence.
Qed.

Lemma open_nodes (P : N -> Prop) : P 10 -> P 11 -> nodes_readable open_image 1024 P (in_blocks_buffer ex_file).
Proof.
  intros P10 P11 b e R D IN. destruct (ex_children b R) as [->|[->| ->]]; [|exfalso; apply D; vm_compute; reflexivity..].
  replace (entries_of (in_blocks_buffer ex_file)) with [ex_index 0 10; ex_index 2 11] in IN by (vm_compute; reflexivity).
  destruct IN as [<-|[<-|[]]]; [exact P10|exact P11].
Qed.

Lemma open_finds (P : N -> Prop) p : P 12 -> P 14 -> P 8 -> P 9 -> p < 4 ->
  exists e, linux_finds open_image 1024 (in_blocks_buffer ex_file) p (Some e) /\ extent_value e < 32768 /\ P (extent_start e + (p - extent_first e)).
Proof.
  intros P12 P14 P8 P9 L.
  assert (R : forall i, i < 2 -> reachable open_image 1024 (in_blocks_buffer ex_file) (device_block open_image 1024 (10 + i))).
  { intros i I2. apply (reach_child _ _ _ _ (in_blocks_buffer ex_file)); [constructor|]. split; [vm_compute; congruence|]. exists i.
    split; [exact I2|]. assert (X : i = 0 \/ i = 1) by lia. destruct X as [->| ->]; vm_compute; reflexivity. }
  assert (H : forall i e, i < 2 -> In e (entries_of (device_block open_image 1024 (10 + i))) -> extent_first e <= p < extent_first e + extent_blocks e ->
    extent_value e < 32768 -> P (extent_start e + (p - extent_first e)) ->
    exists e, linux_finds open_image 1024 (in_blocks_buffer ex_file) p (Some e) /\ extent_value e < 32768 /\ P (extent_start e + (p - extent_first e))).
  { intros i e I2 IN X V Q. exists e. split; [|auto]. refine (proj1 (ordered_finds _ _ _ _ _ open_ordered _ e p (R i I2) _ IN X)).
    assert (Y : i = 0 \/ i = 1) by lia. destruct Y as [->| ->]; vm_compute; reflexivity. }
  assert (L10 : entries_of (device_block open_image 1024 10) = [ex_extent 0 1 12; ex_extent 1 1 14]) by (vm_compute; reflexivity).
  assert (L11 : entries_of (device_block open_image 1024 11) = [ex_extent 2 2 8]) by (vm_compute; reflexivity).
  assert (CS : p = 0 \/ p = 1 \/ p = 2 \/ p = 3) by lia. destruct CS as [->|[->|[->| ->]]].
  - apply (H 0 (ex_extent 0 1 12)); [reflexivity|change (10 + 0) with 10; rewrite L10; now left|vm_compute; split; congruence|reflexivity|exact P12].
  - apply (H 0 (ex_extent 1 1 14)); [reflexivity|change (10 + 0) with 10; rewrite L10; right; now left|vm_compute; split; congruence|reflexivity|exact P14].
  - apply (H 1 (ex_extent 2 2 8)); [reflexivity|change (10 + 1) with 11; rewrite L11; now left|vm_compute; split; congruence|reflexivity|exact P8].
  - apply (H 1 (ex_extent 2 2 8)); [reflexivity|change (10 + 1) with 11; rewrite L11; now left|vm_compute; split; congruence|reflexivity|exact P9].
Qed.

Example file_linux_complete_ex : exists f fuel s' f' calls, file_open ex_fs ex_file = Ok f /\
  run_file mem_stream fuel (mem_new open_image 512) f (repeat (zeros 1024) 5) = Some (s', f', calls) /\ len (delivered calls) = 3500 /\
  forall o x, nth_N (delivered calls) o = Some x -> linux_byte open_image 1024 (in_blocks_buffer ex_file) o x.
Proof.
  assert (FO : exists f, file_open ex_fs ex_file = Ok f) by (eexists; vm_compute; reflexivity). destruct FO as (f & FO).
  assert (O : opened open_image (fs_sb ex_fs) (fs_groups ex_fs)).
  { eapply (opened_by_computation open_image); [exact open_image_u64|]. vm_compute. reflexivity. }
  assert (IL : len (in_storage ex_file) = 160) by (vm_compute; reflexivity).
  pose proof (file_linux_complete mem_stream open_image (fun _ => False) (mem_at open_image 512) open_image_ok ex_fs ex_file O IL
    (mem_new open_image 512) f (repeat (zeros 1024) 5) 4 open_image_start FO open_image_u64) as R.
  assert (BS : sb4_block_size (fs_sb ex_fs) = 1024) by (vm_compute; reflexivity). rewrite BS in R.
  assert (SZ : in_file_size_bytes ex_file = 3500) by (vm_compute; reflexivity). rewrite SZ in R.
  destruct R as (fuel & s' & f' & calls & R1 & _ & R2 & R3).
  - exact open_ordered.
  - split; [discriminate|reflexivity].
  - discriminate.
  - apply open_nodes; apply on_image; reflexivity.
  - intros p P. apply open_finds; try exact P; apply on_image; reflexivity.
  - discriminate.
  - apply Forall_forall. intros b Hb. apply repeat_spec in Hb as ->. apply len_zeros.
  - exists f, fuel, s', f', calls. auto.
Qed.

Lemma open_usual : linux_usual (device_sb open_image).
Proof.
  rewrite open_image_sb. constructor; try (vm_compute; reflexivity).
  - exists 16. vm_compute. split; reflexivity.
  - vm_compute. discriminate.
  - exists 4. vm_compute. split; reflexivity.
  - left. vm_compute. discriminate.
  - exists 1. repeat split; try (vm_compute; congruence). right. vm_compute. reflexivity.
Qed.

Lemma linux_inode_place c number : linux_usual (device_sb c) -> linux_inode_at c number (device_slot_offset c number).
Proof. exact (linux_inode_offset c number). Qed.

Lemma open_inode_at : linux_inode_at open_image 5 4096.
Proof.
  replace 4096 with (device_slot_offset open_image 5) by (vm_compute; reflexivity). exact (linux_inode_place open_image 5 open_usual).
Qed.

Lemma open_slot : window open_image 4096 (linux_inode_size (device_sb open_image)) = device_slot open_image 5.
Proof. exact (linux_slot open_image 5 4096 open_usual open_inode_at). Qed.

(** The same through four members, with parts that cannot be read. *)
Example recover_linux_complete_ex : exists s1 F s2 own g fuel s' g' calls,
  let st := reader_stream (array_block_io (filedev_block torn_policy) shared) in
  fs_open st (reader_new torn_array) = (s1, Ok F) /\
  open_file st (reader_clone (array_block_io (filedev_block torn_policy) shared)) F 5 s1 = (s2, Ok (own, AnyRegular g)) /\
  run_file st fuel own g (repeat (zeros 1024) 5) = Some (s', g', calls) /\ len (delivered calls) = 3500 /\
  forall o x, nth_N (delivered calls) o = Some x -> linux_file_byte open_image 5 o x.
Proof.
  pose proof open_image_supported as SU. pose proof (open_image_inode 5 ltac:(cbn; auto)) as DI.
  assert (IU : in_use torn_array torn_format) by (right; split; reflexivity).
  assert (Jn : joins (@shared filedev)) by (intros d d'; now right).
  pose proof (recover_linux_complete_partial (filedev_block torn_policy) shared Jn (torn_contents torn_policy) torn_format (Md5 LeftSymmetric) open_image torn_geometry
    open_image_u64 (torn_image _) torn_array 1 5 4096 (repeat (zeros 1024) 5) 4 (conj (torn_holds _) IU) SU DI) as R.
  cbv zeta in R. rewrite open_slot in R.
  assert (BS : sb4_block_size (device_sb open_image) = 1024) by (vm_compute; reflexivity). rewrite BS in R.
  assert (SZ : slot_size (device_slot open_image 5) = 3500) by (vm_compute; reflexivity). rewrite SZ in R.
  assert (RT : slot_root (device_slot open_image 5) = in_blocks_buffer ex_file) by (vm_compute; reflexivity). rewrite RT in R.
  destruct R as (s1 & F & s2 & own & f & fuel & s' & f' & calls & R1 & R2 & R3 & _ & R4 & R5).
  - intros q Q B. apply torn_bad in B.
    assert (D0 : sb4_desc_offset (device_sb open_image) 1 <= 6144) by (vm_compute; discriminate).
    assert (S0 : device_slot_offset open_image 5 + sb4_inode_size (device_sb open_image) <= 6144) by (vm_compute; discriminate).
    lia.
  - exact open_usual.
  - exact open_inode_at.
  - vm_compute. reflexivity.
  - vm_compute. reflexivity.
  - exact open_ordered.
  - split; [discriminate|reflexivity].
  - discriminate.
  - apply open_nodes; apply torn_on_image; vm_compute; congruence.
  - intros p P. apply open_finds; try exact P; apply torn_on_image; vm_compute; congruence.
  - discriminate.
  - apply Forall_forall. intros b Hb. apply repeat_spec in Hb as ->. apply len_zeros.
  - exists s1, F, s2, own, f, fuel, s', f', calls. auto.
Qed.
