(** Property C116: files and directories that are used by turns, on devices that they share. *)

From Verif Require Import Base BaseFacts Raid SpecRaid RaidFacts SpecParity Io SpecStream IoFacts Superblock Device Array ArrayIo SpecMd SuperblockFacts
  SpecArray ArrayFacts PropsArray PropsArrayRead PropsArrayIo Crc SpecCrc PropsCrc
  Ext4Superblock SpecExt4 PropsExt4Superblock Ext4Inode SpecExt4Inode PropsExt4Inode Ext4Fs SpecExt4Fs Ext4FsFacts
  PropsExt4Fs Ext4Extent Ext4File SpecExt4File Ext4FileFacts PropsExt4File Ext4Dir SpecExt4Dir PropsExt4Dir PropsExt4Listing SpecExt4Walk PropsExt4Walk
  SpecExt4Content PropsExt4Content PropsExt4Flat PropsExt4Array PropsExt4Recover SpecExt4Open PropsExt4Open.

Local Opaque read_exact.

(** ** Calls with the device in any state before each *)

Section Any.
  Context {S : Type} (st : stream S) (c : bytes) (bad : N -> Prop) (at_ : S -> N -> Prop).
  Hypothesis OK : stream_ok st c bad at_.
  Notation legal := (legal at_).

  (** [asked Q f calls]: calls on the file [f], each of them in some legal state of the device and with a buffer in [Q];
      a panic is the last. *)
  Inductive asked (Q : bytes -> Prop) : file -> list (bytes * bytes * res N) -> Prop :=
  | asked_nothing f : asked Q f []
  | asked_call fuel s f buf s' f' buf' r calls :
      legal s -> Q buf -> read_next_block st fuel s f buf = Some (s', f', buf', r) -> r <> Panic -> asked Q f' calls ->
      asked Q f ((buf, buf', r) :: calls)
  | asked_panic fuel s f buf s' f' buf' :
      legal s -> Q buf -> read_next_block st fuel s f buf = Some (s', f', buf', Panic) -> asked Q f [(buf, buf', Panic)].

  Lemma asked_given Q f calls : asked Q f calls -> Forall (fun '(buf, _, _) => Q buf) calls.
  Proof. induction 1; auto. Qed.

  (** The same for a directory. *)
  Inductive listed : directory -> list (res (option bytes)) -> Prop :=
  | listed_nothing d : listed d []
  | listed_call fuel s d s' d' r rs : legal s -> dir_next st fuel s d = Some (s', d', r) -> r <> Panic -> listed d' rs -> listed d (r :: rs)
  | listed_panic fuel s d s' d' : legal s -> dir_next st fuel s d = Some (s', d', Panic) -> listed d [Panic].

  Context (F : fs) (I : inode).
  Hypothesis OP : opened c (fs_sb F) (fs_groups F).
  Hypothesis IL : len (in_storage I) = 160.
  Hypothesis U : u64_ok (len c).
  Notation seed := (in_seed I).
  Hypothesis SD : forall sd, seed = Some sd -> sd < 2 ^ 32.
  Notation bs := (sb4_block_size (fs_sb F)).
  Notation root := (in_blocks_buffer I).
  Notation size := (in_file_size_bytes I).
  Notation file_ok := (file_ok c F I).
  Notation lst := (listing seed bs).
  Notation state_ok := (state_ok c F I).
  Notation comes := (comes F I).
  Notation block_result := (block_result F I).

  Lemma asked_sound_from Q f calls : file_ok f -> asked Q f calls -> answers c bs root size (fl_block f) (fl_byte f) calls.
  Proof.
    intros FK H. induction H as [f|fuel s f buf s' f' buf' r calls A QB E NP H IH|fuel s f buf s' f' buf' A QB E]; [constructor| |];
      destruct (read_call_ok st c bad at_ OK F I OP _ _ _ _ _ _ _ _ A FK E) as [Lg O].
    - destruct O as [(-> & -> & -> & L)|[L O]]; [apply answers_error; auto|]. unfold Ext4FileFacts.outcome in O. destruct r as [k|e|]; [| |congruence].
      + destruct O as [FK1 O]. specialize (IH FK1). destruct O as [(-> & B & T & -> & Z & _)|(q & M & IN & -> & LT & -> & B & T)]; rewrite B, T in IH.
        * now apply answers_end.
        * eapply answers_block; eauto.
      + destruct O as (FK1 & B & T & LB). specialize (IH FK1). rewrite B, T in IH. now apply answers_error.
    - destruct O as [(O & _)|[L O]]; [discriminate O|]. now apply answers_panic.
  Qed.

  (** The answers are those that the tree and the contents allow: C51 with the device in any state before each call. *)
  Theorem asked_sound Q f calls : file_open F I = Ok f -> asked Q f calls -> answers c bs root size 0 0 calls.
  Proof. intros FO H. destruct (open_ok c F I IL f FO) as [FE FK]. pose proof (asked_sound_from Q f calls FK H) as X. rewrite FE in X. exact X. Qed.

  (** C75 with the device in any state before each call. *)
  Theorem asked_exact Q f calls l : file_open F I = Ok f -> walk c bs root l -> asked Q f calls -> follows c bs bad size l 0 0 calls.
  Proof.
    intros FO W H. destruct (open_ok c F I IL f FO) as [FE FK].
    assert (SS : stack_steps c F (fl_stack f) l).
    { rewrite FE. cbn [fl_stack]. rewrite <- (app_nil_r l). apply ss_tree; [|now apply walk_node_steps|constructor].
      rewrite (in_root_len I IL). discriminate. }
    assert (X : forall l, stack_steps c F (fl_stack f) l -> follows c bs bad size l (fl_block f) (fl_byte f) calls).
    2:{ specialize (X l SS). rewrite FE in X. exact X. }
    clear l FO W FE SS. induction H as [f|fuel s f buf s' f' buf' r calls A QB E NP H IH|fuel s f buf s' f' buf' A QB E]; intros l SS; [constructor| |];
      destruct (read_call_ok st c bad at_ OK F I OP _ _ _ _ _ _ _ _ A FK E) as [Lg O];
      unfold read_next_block, file_block_size in E; rewrite (fo_fs _ _ _ _ FK), (fs_block_size_ok c F OP) in E;
      destruct (N.ltb_spec (len buf) bs) as [L|L].
    - injection E as <- <- <- <-. apply follows_short; [exact L|]. now apply IH.
    - destruct O as [(_ & _ & _ & O)|(_ & O)]; [lia|].
      destruct (steps_loop st c bad at_ OK F I OP IL U fuel s f buf l s' f' buf' r A FK L SS E) as [[-> X]|(_ & l' & SS' & X)]; [congruence|].
      apply X. apply IH; [|exact SS']. unfold Ext4FileFacts.outcome in O. destruct r; [apply O|apply O|congruence].
    - discriminate E.
    - destruct (steps_loop st c bad at_ OK F I OP IL U fuel s f buf l s' f' buf' Panic A FK L SS E) as [[_ X]|(NP & _)]; [exact X|congruence].
  Qed.

  (** ** Directories *)
  Notation zasked := (asked (fun b => b = zeros bs)).
  Lemma next_block_any fuel s f s' f' r : legal s -> file_ok f -> dir_next_block st fuel s f = Some (s', f', r) ->
    legal s' /\
    ((r = Panic /\ exists b, zasked f [(zeros bs, b, Panic)]) \/
     (file_ok f' /\ exists b k, block_result b k r /\
        forall calls, zasked f' calls -> zasked f ((zeros bs, b, k) :: calls))).
  Proof.
    intros A FO E. unfold dir_next_block, file_block_size in E. rewrite (fo_fs _ _ _ _ FO), (fs_block_size_ok c F OP) in E.
    destruct (read_next_block st fuel s f (zeros bs)) as [[[[s1 f1] b] k]|] eqn:R; [|discriminate].
    destruct (read_call_ok st c bad at_ OK F I OP _ _ _ _ _ _ _ _ A FO R) as [Lg [(-> & -> & -> & L)|[L O]]].
    { rewrite len_zeros in L. lia. }
    pose proof (bs_ge F) as BG.
    assert (H : k <> Panic -> forall calls, zasked f1 calls -> zasked f ((zeros bs, b, k) :: calls)).
    { intros NP calls H. exact (asked_call _ _ _ _ _ _ _ _ _ _ A eq_refl R NP H). }
    unfold Ext4FileFacts.outcome in O. destruct k as [k|e|].
    - destruct O as [FO1 O]. rewrite (fo_inode _ _ _ _ FO1) in E.
      assert (LB : len b = bs).
      { destruct O as [(-> & _ & _ & -> & _)|(q & M & IN & -> & _)]; [apply len_zeros|]. rewrite len_zeros in *. apply len_window_in. lia. }
      injection E as <- <- <-. split; [exact Lg|]. right. split; [exact FO1|]. exists b, (Ok k). split; [|apply H; discriminate].
      destruct (N.eqb_spec k 0) as [->|K0]; [reflexivity|]. destruct (N.eqb_spec k bs) as [->|K1].
      + destruct (dir_block_new_spec b seed ltac:(lia) SD) as [[T ->]|[T ->]]; cbn [rbind PropsExt4Listing.block_result].
        * auto.
        * right. split; [reflexivity|]. eauto 8.
      + cbn [PropsExt4Listing.block_result]. right. split; [reflexivity|]. eauto 8.
    - injection E as <- <- <-. destruct O as (FO1 & B & T & LB). split; [exact Lg|]. right. split; [exact FO1|].
      exists b, (Err e). split; [now left|]. apply H. discriminate.
    - injection E as <- <- <-. split; [exact Lg|]. left. split; [reflexivity|]. exists b. exact (asked_panic _ _ _ _ _ _ _ _ A eq_refl R).
  Qed.

  (** A call from [d], with [p] pending, that gives [r] and leaves [d']. *)
  Definition step_any (d : directory) (p : pending) (d' : directory) (r : res (option bytes)) : Prop :=
    (r = Panic /\ exists calls, zasked (dr_file d) calls /\ comes p calls [Panic]) \/
    exists p', state_ok d' p' /\
      forall calls rs, zasked (dr_file d') calls -> comes p' calls rs ->
        exists calls0, zasked (dr_file d) calls0 /\ comes p calls0 (r :: rs).

  (** Reading a block when the listing is at its start, or behind the records of a block. *)
  Lemma advance_any fuel s d p s' d' r : legal s -> state_ok d p -> p = PStart \/ p = PBlock [] ->
    dir_advance st fuel s d = Some (s', d', r) ->
    legal s' /\
    match r with
    | Ok _ => exists p', state_ok d' p' /\ p' <> PStart /\
        forall calls rs, zasked (dr_file d') calls -> comes p' calls rs ->
          exists calls0, zasked (dr_file d) calls0 /\ comes p calls0 rs
    | Err e => step_any d p d' (Err e)
    | Panic => step_any d p d' Panic
    end.
  Proof.
    intros A [FO SO] P E. unfold dir_advance in E.
    destruct (dir_next_block st fuel s (dr_file d)) as [[[s1 f1] r1]|] eqn:R; [|discriminate].
    destruct (next_block_any _ _ _ _ _ _ A FO R) as [Lg O].
    assert (CP : forall calls rs, lst calls rs -> comes p calls rs).
    { intros calls rs H. destruct P as [->| ->]; [exact H|]. left. exists rs. split; [reflexivity|exact H]. }
    assert (PC : forall calls rs, comes p calls rs -> lst calls rs).
    { intros calls rs H. destruct P as [->| ->]; [exact H|]. destruct H as [(rs' & -> & H)|(es & more & E1 & ->)]; [exact H|].
      symmetry in E1. apply app_eq_nil in E1 as [-> _]. apply listing_stop. }
    destruct O as [(-> & b & AN)|(FO1 & b & k & BR & AN)].
    { injection E as <- <- <-. split; [exact Lg|]. left. split; [reflexivity|]. eexists. split; [exact AN|]. apply CP, listing_panic. }
    destruct r1 as [[d1|]|e|]; cbn [block_result] in BR; [| | |contradiction].
    - destruct BR as (-> & T & -> & LB). injection E as <- <- <-. split; [exact Lg|].
      destruct (records_exist b (dir_limit seed b) 0 (limit_len I IL SD b) ltac:(lia)) as (es & RS & _).
      exists (PBlock es). split; [|split; [discriminate|]].
      + split; [exact FO1|]. exists b, 0. cbn [dr_current]. repeat split; [lia|exact RS].
      + intros calls rs H1 H2. exists ((zeros bs, b, Ok bs) :: calls). split; [now apply AN|]. apply CP.
        destruct H2 as [(rs' & -> & H2)|(es1 & more & -> & ->)]; [now apply listing_block|]. eapply listing_part; eauto.
    - subst k. injection E as <- <- <-. split; [exact Lg|]. exists PEnd. split; [|split; [discriminate|]].
      + split; [exact FO1|reflexivity].
      + intros calls rs H1 (n & ->). exists ((zeros bs, b, Ok 0) :: calls). split; [now apply AN|]. apply CP, listing_end.
    - injection E as <- <- <-. split; [exact Lg|]. right. exists p. split.
      + split; [exact FO1|]. cbn [dr_current]. destruct P as [->| ->]; exact SO.
      + cbn [dr_file]. intros calls rs H1 H2. exists ((zeros bs, b, k) :: calls). split; [now apply AN|]. apply CP. apply PC in H2.
        destruct BR as [->|(-> & n & -> & N0 & [N1|(-> & N1)])].
        * now apply listing_error.
        * now apply listing_short.
        * now apply listing_bad.
  Qed.

  Lemma dir_loop_any fuel turns s d p s' d' r : legal s -> state_ok d p -> p <> PStart ->
    dir_loop st fuel turns s d = Some (s', d', r) -> legal s' /\ step_any d p d' r.
  Proof.
    revert s d p. induction turns as [|turns IH]; intros s d p A SO NP E; [discriminate|]. cbn [dir_loop] in E.
    destruct p as [|rest|]; [congruence| |].
    - destruct SO as [FO (b & o & C & OL & RS)]. rewrite C in E.
      destruct (dir_block_next_spec b _ o (limit_len I IL SD b) OL) as [(e & RE & X)|(N & X)]; rewrite X in E.
      + injection E as <- <- <-. split; [exact A|]. right.
        inversion RS as [o' N' |o' e' es2 R2 RS2]; subst; [now destruct (N' e)|].
        assert (e = e') as <-. { destruct RE as (-> & _), R2 as (-> & _). reflexivity. }
        exists (PBlock es2). split.
        * split; [exact FO|]. exists b, (o + len e). cbn [dr_current]. split; [reflexivity|]. split; [|exact RS2].
          now apply (record_at_len b _ o e (limit_len I IL SD b) RE).
        * cbn [dr_file]. intros calls rs H1 H2. exists calls. split; [exact H1|].
          destruct H2 as [(rs' & -> & H2)|(es & more & -> & ->)].
          -- left. exists rs'. split; [reflexivity|exact H2].
          -- right. exists (e :: es), more. split; reflexivity.
      + inversion RS as [o' N' |o' e' es2 R2 RS2]; subst; [|now destruct (N e')].
        set (d1 := Directory (dr_file d) (CbBlock (DirBlock b o (dir_limit seed b)))) in *.
        assert (SO1 : state_ok d1 (PBlock [])).
        { split; [exact FO|]. exists b, o. auto. }
        destruct (dir_advance st fuel s d1) as [[[s2 d2] r2]|] eqn:AD; [|discriminate].
        destruct (advance_any _ _ _ _ _ _ _ A SO1 (or_intror eq_refl) AD) as [Lg O]. change (dr_file d1) with (dr_file d) in O.
        destruct r2 as [u|e|].
        * destruct O as (p' & SO2 & NP' & H). destruct (IH s2 d2 p' Lg SO2 NP' E) as [Lg' ST]. split; [exact Lg'|].
          destruct ST as [(-> & calls & H1 & H2)|(p2 & SO3 & H3)].
          -- left. split; [reflexivity|]. destruct (H _ _ H1 H2) as (calls0 & H4 & H5). eauto.
          -- right. exists p2. split; [exact SO3|]. intros calls rs H1 H2. destruct (H3 _ _ H1 H2) as (calls0 & H4 & H5).
             destruct (H _ _ H4 H5) as (calls1 & H6 & H7). eauto.
        * injection E as <- <- <-. split; [exact Lg|]. exact O.
        * injection E as <- <- <-. split; [exact Lg|]. exact O.
    - destruct SO as [FO C]. rewrite C in E. injection E as <- <- <-. split; [exact A|]. right. exists PEnd. split; [now split|].
      intros calls rs H1 (n & ->). exists calls. split; [exact H1|]. exists (Datatypes.S n). reflexivity.
  Qed.

  Lemma dir_next_any fuel s d p s' d' r : legal s -> state_ok d p -> dir_next st fuel s d = Some (s', d', r) ->
    legal s' /\ step_any d p d' r.
  Proof.
    intros A SO E. unfold dir_next in E. destruct p as [|rest|].
    - pose proof SO as [FO C]. rewrite C in E.
      destruct (dir_advance st fuel s d) as [[[s2 d2] r2]|] eqn:AD; [|discriminate].
      destruct (advance_any _ _ _ _ _ _ _ A SO (or_introl eq_refl) AD) as [Lg O].
      destruct r2 as [u|e|].
      + destruct O as (p' & SO2 & NP' & H). destruct (dir_loop_any _ _ _ _ _ _ _ _ Lg SO2 NP' E) as [Lg' ST]. split; [exact Lg'|].
        destruct ST as [(-> & calls & H1 & H2)|(p2 & SO3 & H3)].
        * left. split; [reflexivity|]. destruct (H _ _ H1 H2) as (calls0 & H4 & H5). eauto.
        * right. exists p2. split; [exact SO3|]. intros calls rs H1 H2. destruct (H3 _ _ H1 H2) as (calls0 & H4 & H5).
          destruct (H _ _ H4 H5) as (calls1 & H6 & H7). eauto.
      + injection E as <- <- <-. now split.
      + injection E as <- <- <-. now split.
    - pose proof SO as [FO (b & o & C & _)]. rewrite C in E. eapply dir_loop_any; eauto. discriminate.
    - pose proof SO as [FO C]. rewrite C in E. eapply dir_loop_any; eauto. discriminate.
  Qed.


  (** C78 with the device in any state before each call. *)
  Theorem listed_reads f d rs : file_open F I = Ok f -> dir_open F I = Ok d -> listed d rs ->
    exists calls, zasked f calls /\ listing seed bs calls rs.
  Proof.
    intros FE DO H. unfold dir_open in DO. destruct (contains _ _); [discriminate|].
    rewrite FE in DO. injection DO as <-. destruct (open_ok c F I IL f FE) as [FV FO].
    assert (SO : state_ok (Directory f CbStart) PStart) by (split; [exact FO|reflexivity]).
    enough (X : forall d rs, listed d rs -> forall p, state_ok d p -> exists calls, zasked (dr_file d) calls /\ comes p calls rs).
    { exact (X _ _ H _ SO). }
    clear rs H SO f FE FV FO. intros d rs H. induction H as [d|fuel s d s' d' r rs A E NP H IH|fuel s d s' d' A E]; intros p SO.
    - exists []. split; [constructor|]. destruct p; [apply listing_stop|right; exists [], rest; auto|now exists O].
    - destruct (dir_next_any _ _ _ _ _ _ _ A SO E) as [Lg [(-> & _)|(p' & SO' & X)]]; [congruence|].
      destruct (IH p' SO') as (calls & H1 & H2). exact (X calls rs H1 H2).
    - destruct (dir_next_any _ _ _ _ _ _ _ A SO E) as [Lg [(_ & calls & H1 & H2)|(p' & SO' & X)]]; [eauto|].
      apply (X [] []); [constructor|]. destruct p'; [apply listing_stop|right; exists [], rest; auto|now exists O].
  Qed.
End Any.

(** ** Sessions in which handles are opened and used by turns

    A handle has a part [P] of its own (such as the position of a [BlockDeviceReader]) and all of them share a world [W]
    (such as the members of an array, held by [Rc], or an open file description); [part] and [rest] take the state of a
    handle apart and [join] puts it together.  A session starts with the file system; every file or directory opened in it
    is a further handle.  A call that panics or does not return is the last. *)
Inductive deed : Type := DoOpen (number : N) | Do (a : action).
Inductive saw : Type := SwOpen (r : res any_file) | Sw (o : seen).
Definition fatal {A} (r : res A) : bool := match r with Panic => true | _ => false end.
Definition over (o : saw) : bool :=
  match o with
  | SwOpen r => fatal r
  | Sw (SnInode r) => fatal r
  | Sw (SnBlock r _) => fatal r
  | Sw (SnRead x) => match x with Some (_, r) => fatal r | None => true end
  | Sw (SnNext x) => match x with Some r => fatal r | None => true end
  | Sw SnMisuse => false
  end.
Fixpoint put {A} (i : nat) (a : A) (l : list A) : list A :=
  match l, i with
  | [], _ => []
  | _ :: l, O => a :: l
  | x :: l, S i => x :: put i a l
  end.

Section Turns.
  Context {S P W : Type} (st : stream S) (clone : S -> S * res S) (join : P -> W -> S) (part : S -> P) (rest : S -> W).

  Definition new_handle (r : res (S * any_file)) : list (P * handle) :=
    match r with
    | Ok (t, AnyRegular g) => [(part t, HdFile g)]
    | Ok (t, AnyDirectory d) => [(part t, HdDirectory d)]
    | _ => []
    end.
  Definition turn (w : W) (hs : list (P * handle)) (i : nat) (a : deed) : W * list (P * handle) * saw :=
    match nth_error hs i with
    | None => (w, hs, Sw SnMisuse)
    | Some (p, h) =>
        match a, h with
        | DoOpen number, HdFs f =>
            let '(s, r) := open_file st clone f number (join p w) in
            (rest s, put i (part s, h) hs ++ new_handle r, SwOpen (let? x := r in Ok (snd x)))
        | DoOpen _, _ => (w, hs, Sw SnMisuse)
        | Do a, _ => let '(s, h, o) := act st (join p w) h a in (rest s, put i (part s, h) hs, Sw o)
        end
    end.
  Fixpoint turns (w : W) (hs : list (P * handle)) (acts : list (nat * deed)) : list (nat * (deed * saw)) :=
    match acts with
    | [] => []
    | (i, a) :: acts =>
        let '(w, hs, o) := turn w hs i a in
        (i, (a, o)) :: if over o then [] else turns w hs acts
    end.
  (** A session on a device in state [s]. *)
  Definition open_and_turn (s : S) (acts : list (nat * deed)) : res (list (nat * (deed * saw))) :=
    let '(s, r) := fs_open st s in let? f := r in Ok (turns (rest s) [(part s, HdFs f)] acts).
End Turns.

(** What a log says of one handle: the calls of a file, the results of a listing. *)
Definition reads (l : list (deed * saw)) : list (bytes * bytes * res N) :=
  flat_map (fun x => match x with (Do (AcRead _ buf), Sw (SnRead (Some (buf', r)))) => [(buf, buf', r)] | _ => [] end) l.
Definition nexts (l : list (deed * saw)) : list (res (option bytes)) :=
  flat_map (fun x => match x with (Do (AcNext _), Sw (SnNext (Some r))) => [r] | _ => [] end) l.
(** The files and directories that were opened, in order: inode number and what was opened. *)
Definition openings (l : list (nat * (deed * saw))) : list (N * any_file) :=
  flat_map (fun x => match x with
                     | (_, (DoOpen number, SwOpen (Ok (AnyRegular g)))) => [(number, AnyRegular g)]
                     | (_, (DoOpen number, SwOpen (Ok (AnyDirectory d)))) => [(number, AnyDirectory d)]
                     | _ => []
                     end) l.

(** What the handle of a file or directory says, by the contents of the device alone: C51, C75, C48 and C78. *)
Definition file_says (c : bytes) (bad : N -> Prop) (bs : N) (slot : bytes) (calls : list (bytes * bytes * res N)) : Prop :=
  answers c bs (slot_root slot) (slot_size slot) 0 0 calls /\
  (forall l, walk c bs (slot_root slot) l -> follows c bs bad (slot_size slot) l 0 0 calls).
Definition handle_says (c : bytes) (bad : N -> Prop) (number : N) (a : any_file) (l : list (deed * saw)) : Prop :=
  let slot := device_slot c number in
  let bs := sb4_block_size (device_sb c) in
  1 <= number <= sb4_inodes (device_sb c) /\ device_slot_offset c number + sb4_inode_size (device_sb c) <= len c /\
  slot_by_extents slot = true /\
  match a with
  | AnyRegular _ => slot_kind slot = 8 /\ file_says c bad bs slot (reads l)
  | AnyDirectory _ => slot_kind slot = 4 /\ slot_indexed slot = false /\
      exists seed calls, inode_seed (device_sb c) number slot seed /\ file_says c bad bs slot calls /\
        Forall (fun '(buf, _, _) => buf = zeros bs) calls /\ listing seed bs calls (nexts l)
  | AnyUnsupported _ => False
  end.

(** What reading an inode or a block through the file system says: C40 and C65. *)
Definition fs_says (c : bytes) (bad : N -> Prop) (x : deed * saw) : Prop :=
  let sb := device_sb c in
  match x with
  | (Do (AcInode number), Sw (SnInode r)) =>
      let o := device_slot_offset c number in
      exists k, sb4_group_count sb k /\
      ((1 <= number <= sb4_inodes sb /\ inode_group sb number < k /\ r = inode_new sb number (device_slot c number)) \/
       exists e, r = Err e /\ (~ (1 <= number <= sb4_inodes sb) \/ k <= inode_group sb number \/
         len c < o + sb4_inode_size sb \/ ~ u64_ok o \/ exists q, o <= q < o + sb4_inode_size sb /\ bad q))
  | (Do (AcBlock number buf), Sw (SnBlock r buf')) =>
      let o := number * sb4_block_size sb in
      len buf' = len buf /\
      match r with
      | Ok _ => sb4_block_size sb <= len buf /\ o + len buf <= len c /\ buf' = window c o (len buf)
      | Err e => (len buf < sb4_block_size sb /\ e = InvalidInput) \/ ~ u64_ok o \/ len c < o + len buf \/
                 exists q, o <= q < o + len buf /\ bad q
      | Panic => False
      end
  | _ => True
  end.

Section Sharing.
  Context {S P W : Type} (st : stream S) (c : bytes) (bad : N -> Prop) (at_ : S -> N -> Prop).
  Hypothesis OK : stream_ok st c bad at_.
  Hypothesis U : u64_ok (len c).
  Notation legal := (legal at_).
  Context (clone : S -> S * res S).
  Hypothesis CL : forall s s' r, legal s -> clone s = (s', r) -> legal s' /\ r <> Panic /\ (forall t, r = Ok t -> legal t).
  Context (join : P -> W -> S) (part : S -> P) (rest : S -> W) (LP : P -> Prop) (LW : W -> Prop).
  Hypothesis HJ : forall p w, LP p -> LW w -> legal (join p w).
  Hypothesis HS : forall s, legal s -> LP (part s) /\ LW (rest s).
  Notation turn := (turn st clone join part rest).
  Notation turns := (turns st clone join part rest).

  (** The state of a handle. *)
  Definition hok (h : handle) : Prop :=
    match h with
    | HdFs f => opened c (fs_sb f) (fs_groups f)
    | HdFile g => exists F I, opened c (fs_sb F) (fs_groups F) /\ len (in_storage I) = 160 /\ file_ok c F I g
    | HdDirectory d => exists F I p, opened c (fs_sb F) (fs_groups F) /\ len (in_storage I) = 160 /\
        (forall sd, in_seed I = Some sd -> sd < 2 ^ 32) /\ state_ok c F I d p
    end.

  Lemma act_legal s h a s' h' o : legal s -> hok h -> act st s h a = (s', h', o) -> legal s' /\ (over (Sw o) = false -> hok h').
  Proof.
    intros A H E. destruct a as [n|n buf|fuel buf|fuel], h as [f|g|d]; cbn [act] in E;
      try (injection E as <- <- <-; now split).
    - destruct (fs_read_inode st f n s) as [s1 r] eqn:R. injection E as <- <- <-. split; [|auto].
      exact (proj1 (fs_read_inode_spec st c bad at_ OK _ _ _ _ _ A H R)).
    - destruct (fs_read_block st f n s buf) as [[s1 b] r] eqn:R. injection E as <- <- <-. split; [|auto].
      exact (proj1 (fs_read_block_spec st c bad at_ OK _ _ _ _ _ _ _ A H R)).
    - destruct (read_next_block st fuel s g buf) as [[[[s1 g1] b] r]|] eqn:R; [|injection E as <- <- <-; now split].
      injection E as <- <- <-. destruct H as (F & I & OP & IL & FK).
      destruct (read_call_ok st c bad at_ OK F I OP _ _ _ _ _ _ _ _ A FK R) as [Lg O]. split; [exact Lg|]. intros NP.
      exists F, I. split; [exact OP|]. split; [exact IL|]. destruct O as [(_ & -> & _ & _)|[_ O]]; [exact FK|].
      unfold Ext4FileFacts.outcome in O. destruct r; [apply O|apply O|discriminate NP].
    - destruct (dir_next st fuel s d) as [[[s1 d1] r]|] eqn:R; [|injection E as <- <- <-; now split].
      injection E as <- <- <-. destruct H as (F & I & p & OP & IL & SD & SO).
      destruct (dir_next_any st c bad at_ OK F I OP IL SD _ _ _ _ _ _ _ A SO R) as [Lg O]. split; [exact Lg|]. intros NP.
      destruct O as [(-> & _)|(p' & SO' & _)]; [discriminate NP|]. exists F, I, p'. auto.
  Qed.

  Lemma open_facts s f number s' r : legal s -> opened c (fs_sb f) (fs_groups f) -> open_file st clone f number s = (s', r) ->
    legal s' /\ forall t a, r = Ok (t, a) ->
      legal t /\ 1 <= number <= sb4_inodes (device_sb c) /\ device_slot_offset c number + sb4_inode_size (device_sb c) <= len c /\
      exists I, inode_new (device_sb c) number (device_slot c number) = Ok I /\ any_open f I = Ok a.
  Proof.
    intros A OP E. unfold open_file in E. destruct (clone s) as [s1 r1] eqn:C. destruct (CL _ _ _ A C) as (A1 & _ & T).
    destruct r1 as [t|e|]; [|injection E as <- <-; now split..]. specialize (T t eq_refl).
    destruct (fs_read_inode st f number s1) as [s2 r2] eqn:R. apply pair_equal_spec in E as [<- E].
    pose proof (proj1 (fs_read_inode_spec st c bad at_ OK _ _ _ _ _ A1 OP R)) as A2. split; [exact A2|].
    intros t' a ->. destruct r2 as [i|e|]; [|discriminate..]. cbn [rbind] in E.
    assert (SB : fs_sb f = device_sb c) by apply (op_sb _ _ _ OP).
    destruct (fs_read_inode_sound st c bad at_ OK _ _ _ _ _ A1 OP R) as (_ & RG & _ & IN & _).
    destruct (fs_read_inode_spec st c bad at_ OK _ _ _ _ _ A1 OP R) as (_ & X). cbv zeta in X, IN.
    destruct X as [(_ & _ & _ & _ & N)|(e & X & _)]; [|discriminate]. symmetry in N. rewrite SB in RG, IN, N.
    fold (device_desc c number) in IN, N. fold (device_slot_offset c number) in IN, N. fold (device_slot c number) in N.
    destruct (any_open f i) as [a'|e|] eqn:AO; [|discriminate..]. cbn [rbind] in E. injection E as -> ->. eauto 8.
  Qed.

  Notation fine := (Forall (fun x : P * handle => LP (fst x) /\ hok (snd x))).

  Lemma put_length {A} i (a : A) l : length (put i a l) = length l.
  Proof. revert i. induction l as [|x l IH]; intros [|i]; cbn; auto. Qed.
  Lemma put_fine i x l : fine l -> LP (fst x) /\ hok (snd x) -> fine (put i x l).
  Proof. intros H X. revert i. induction H as [|y l Y H IH]; intros [|i]; cbn; auto. Qed.
  Lemma put_same {A} i (a b : A) l : nth_error l i = Some b -> nth_error (put i a l) i = Some a.
  Proof. revert i. induction l as [|x l IH]; intros [|i]; cbn; auto; discriminate. Qed.
  Lemma put_other {A} i j (a : A) l : i <> j -> nth_error (put i a l) j = nth_error l j.
  Proof. revert i j. induction l as [|x l IH]; intros [|i] [|j] N; cbn; auto. congruence. Qed.

  (** One turn. *)
  Lemma turn_fine w hs i a w' hs' o : LW w -> fine hs -> turn w hs i a = (w', hs', o) -> LW w' /\ (over o = false -> fine hs').
  Proof.
    intros Lw H E. unfold PropsExt4Shared.turn in E. destruct (nth_error hs i) as [[p h]|] eqn:N; [|injection E as <- <- <-; now split].
    destruct (proj1 (Forall_forall _ _) H (p, h) (nth_error_In _ _ N)) as [Lp Hh]. cbn [fst snd] in Lp, Hh. pose proof (HJ _ _ Lp Lw) as A.
    assert (G : forall b, (let '(s, h, o) := act st (join p w) h b in (rest s, put i (part s, h) hs, Sw o)) = (w', hs', o) ->
                LW w' /\ (over o = false -> fine hs')).
    { intros b X. destruct (act st (join p w) h b) as [[s1 h1] o1] eqn:Q. injection X as <- <- <-.
      destruct (act_legal _ _ _ _ _ _ A Hh Q) as [A1 H1]. destruct (HS _ A1) as [X1 X2]. split; [exact X2|].
      intros V. apply put_fine; [exact H|]. split; [exact X1|]. exact (H1 V). }
    destruct a as [number|b]; [|exact (G b E)]. destruct h as [f|g|d]; [|injection E as <- <- <-; now split..].
    destruct (open_file st clone f number (join p w)) as [s1 r] eqn:Q. injection E as <- <- <-.
    destruct (open_facts _ _ _ _ _ A Hh Q) as [A1 X]. destruct (HS _ A1) as [X1 X2]. split; [exact X2|]. intros _.
    apply Forall_app. split; [apply put_fine; [exact H|]; now split|].
    destruct r as [[t a]|e|]; [|constructor..]. destruct (X t a eq_refl) as (T & _ & _ & I & IN & AO).
    destruct (slot_fields _ _ _ _ IN) as (_ & _ & _ & _ & _ & SE & IL). destruct (HS _ T) as [T1 _].
    unfold any_open in AO. destruct a as [d|g|]; cbn [new_handle]; [| |constructor]; (constructor; [|constructor]); split; try exact T1; cbn [snd hok].
    - destruct (in_file_type I); try discriminate; [destruct (file_open f I); discriminate|].
      destruct (dir_open f I) as [d'|e|] eqn:DO; [|discriminate..]. injection AO as <-. unfold dir_open in DO.
      destruct (contains _ _); [discriminate|]. destruct (file_open f I) as [g|e|] eqn:FO; [|discriminate..]. injection DO as <-.
      exists f, I, PStart. split; [exact Hh|]. split; [exact IL|]. split; [exact (seed_bound _ _ _ _ SE)|].
      split; [exact (proj2 (open_ok c f I IL g FO))|reflexivity].
    - destruct (in_file_type I); try discriminate; [|destruct (dir_open f I); discriminate].
      destruct (file_open f I) as [g'|e|] eqn:FO; [|discriminate..]. injection AO as <-.
      exists f, I. split; [exact Hh|]. split; [exact IL|]. exact (proj2 (open_ok c f I IL g' FO)).
  Qed.

  (** The other handles are left as they are. *)
  Lemma turn_other w hs i a w' hs' o j x : turn w hs i a = (w', hs', o) -> i <> j -> nth_error hs j = Some x -> nth_error hs' j = Some x.
  Proof.
    intros E N X. unfold PropsExt4Shared.turn in E. destruct (nth_error hs i) as [[p h]|]; [|injection E as <- <- <-; exact X].
    assert (G : forall y (l : list (P * handle)), nth_error (put i y hs ++ l) j = Some x).
    { intros y l. rewrite nth_error_app1; [now rewrite put_other|]. rewrite put_length. apply nth_error_Some. congruence. }
    destruct a as [number|b].
    - destruct h as [f|g|d]; [|injection E as <- <- <-; exact X..].
      destruct (open_file st clone f number (join p w)) as [s1 r]. injection E as <- <- <-. apply G.
    - destruct (act st (join p w) h b) as [[s1 h1] o1]. injection E as <- <- <-. rewrite <- (app_nil_r (put _ _ _)). apply G.
  Qed.

  Lemma of_one_cons {A} j i (x : A) l : of_one j ((i, x) :: l) = if Nat.eqb i j then x :: of_one j l else of_one j l.
  Proof. unfold of_one. cbn [filter fst]. destruct (Nat.eqb i j); reflexivity. Qed.

  Lemma turns_asked acts : forall w hs j p g, LW w -> fine hs -> nth_error hs j = Some (p, HdFile g) ->
    asked st at_ (fun _ => True) g (reads (of_one j (turns w hs acts))).
  Proof.
    induction acts as [|[i a] acts IH]; intros w hs j p g Lw H N; [constructor|]. cbn [PropsExt4Shared.turns].
    destruct (turn w hs i a) as [[w' hs'] o] eqn:E. destruct (turn_fine _ _ _ _ _ _ _ Lw H E) as [Lw' H']. rewrite of_one_cons.
    destruct (Nat.eqb_spec i j) as [->|Ne].
    2:{ destruct (over o) eqn:V; [constructor|]. apply (IH w' hs' j p g Lw' (H' eq_refl)). eapply turn_other; eauto. }
    destruct (proj1 (Forall_forall _ _) H (p, HdFile g) (nth_error_In _ _ N)) as [Lp _]. cbn [fst] in Lp. pose proof (HJ _ _ Lp Lw) as A.
    unfold PropsExt4Shared.turn in E. rewrite N in E.
    assert (K : forall l' : list (deed * saw), (hs' = hs \/ exists p', hs' = put j (p', HdFile g) hs) -> over o = false ->
              asked st at_ (fun _ => True) g (reads (of_one j (turns w' hs' acts)))).
    { intros _ X V. destruct X as [->|(p' & ->)].
      - exact (IH w' hs j p g Lw' H N).
      - apply (IH w' _ j p' g Lw' (H' V)). eapply put_same. exact N. }
    destruct a as [number|[n|n buf|fuel buf|fuel]]; cbn [act] in E.
    - injection E as <- <- <-. cbn. apply K; [exact []|now left|reflexivity].
    - injection E as <- <- <-. cbn. apply K; [exact []|right; eexists; reflexivity|reflexivity].
    - injection E as <- <- <-. cbn. apply K; [exact []|right; eexists; reflexivity|reflexivity].
    - destruct (read_next_block st fuel (join p w) g buf) as [[[[s1 g1] b] r]|] eqn:R.
      + injection E as <- <- <-. cbn [reads flat_map app]. fold reads.
        destruct (over (Sw (SnRead (Some (b, r))))) eqn:V.
        * destruct r; try discriminate V. exact (asked_panic _ _ _ _ _ _ _ _ _ _ A Logic.I R).
        * apply (asked_call _ _ _ _ _ _ _ _ _ _ _ _ A Logic.I R); [intros ->; discriminate V|].
          apply (IH _ _ j (part s1) g1 Lw' (H' eq_refl)). eapply put_same. exact N.
      + injection E as <- <- <-. constructor.
    - injection E as <- <- <-. cbn. apply K; [exact []|right; eexists; reflexivity|reflexivity].
  Qed.

  Lemma turns_listed acts : forall w hs j p d, LW w -> fine hs -> nth_error hs j = Some (p, HdDirectory d) ->
    listed st at_ d (nexts (of_one j (turns w hs acts))).
  Proof.
    induction acts as [|[i a] acts IH]; intros w hs j p d Lw H N; [constructor|]. cbn [PropsExt4Shared.turns].
    destruct (turn w hs i a) as [[w' hs'] o] eqn:E. destruct (turn_fine _ _ _ _ _ _ _ Lw H E) as [Lw' H']. rewrite of_one_cons.
    destruct (Nat.eqb_spec i j) as [->|Ne].
    2:{ destruct (over o) eqn:V; [constructor|]. apply (IH w' hs' j p d Lw' (H' eq_refl)). eapply turn_other; eauto. }
    destruct (proj1 (Forall_forall _ _) H (p, HdDirectory d) (nth_error_In _ _ N)) as [Lp _]. cbn [fst] in Lp. pose proof (HJ _ _ Lp Lw) as A.
    unfold PropsExt4Shared.turn in E. rewrite N in E.
    assert (K : (hs' = hs \/ exists p', hs' = put j (p', HdDirectory d) hs) -> over o = false ->
              listed st at_ d (nexts (of_one j (turns w' hs' acts)))).
    { intros X V. destruct X as [->|(p' & ->)].
      - exact (IH w' hs j p d Lw' H N).
      - apply (IH w' _ j p' d Lw' (H' V)). eapply put_same. exact N. }
    destruct a as [number|[n|n buf|fuel buf|fuel]]; cbn [act] in E.
    - injection E as <- <- <-. cbn. apply K; [now left|reflexivity].
    - injection E as <- <- <-. cbn. apply K; [right; eexists; reflexivity|reflexivity].
    - injection E as <- <- <-. cbn. apply K; [right; eexists; reflexivity|reflexivity].
    - injection E as <- <- <-. cbn. apply K; [right; eexists; reflexivity|reflexivity].
    - destruct (dir_next st fuel (join p w) d) as [[[s1 d1] r]|] eqn:R.
      + injection E as <- <- <-. cbn [nexts flat_map app]. fold nexts.
        destruct (over (Sw (SnNext (Some r)))) eqn:V.
        * destruct r; try discriminate V. exact (listed_panic _ _ _ _ _ _ _ A R).
        * apply (listed_call _ _ _ _ _ _ _ _ _ A R); [intros ->; discriminate V|].
          apply (IH _ _ j (part s1) d1 Lw' (H' eq_refl)). eapply put_same. exact N.
      + injection E as <- <- <-. constructor.
  Qed.

  (** A handle that is opened. *)
  Lemma opening_says s f number s' t a l : legal s -> opened c (fs_sb f) (fs_groups f) -> open_file st clone f number s = (s', Ok (t, a)) ->
    match a with
    | AnyRegular g => asked st at_ (fun _ => True) g (reads l)
    | AnyDirectory d => listed st at_ d (nexts l)
    | AnyUnsupported _ => False
    end -> handle_says c bad number a l.
  Proof.
    intros A OP E H. destruct (open_facts _ _ _ _ _ A OP E) as [_ X]. destruct (X t a eq_refl) as (T & RG & IN & I & N & AO).
    assert (SB : fs_sb f = device_sb c) by apply (op_sb _ _ _ OP).
    destruct (slot_fields _ _ _ _ N) as (K & SZ & RT & HI & HE & SE & IL).
    unfold handle_says, file_says. cbv zeta. split; [exact RG|]. split; [exact IN|].
    rewrite <- SB. rewrite <- K, <- RT, <- SZ, <- HE, <- HI. unfold any_open in AO. destruct a as [d|g|]; [| |contradiction].
    - destruct (in_file_type I); try discriminate; [destruct (file_open f I); discriminate|].
      destruct (dir_open f I) as [d'|e|] eqn:DO; [|discriminate..]. injection AO as ->. pose proof DO as DO'. unfold dir_open in DO'.
      destruct (contains (in_flags I) flag_hash_indexed) eqn:HX; [discriminate|]. destruct (file_open f I) as [g|e|] eqn:FO; [|discriminate..].
      pose proof FO as FO'. unfold file_open, tree_from_inode in FO'. destruct (_ && _) eqn:BE; [|discriminate].
      split; [reflexivity|]. split; [reflexivity|]. split; [reflexivity|].
      destruct (listed_reads st c bad at_ OK f I OP IL (seed_bound _ _ _ _ SE) g d (nexts l) FO DO H) as (calls & H1 & H2).
      exists (in_seed I), calls. split; [now rewrite SB|]. split; [|split; [exact (asked_given _ _ _ _ _ H1)|exact H2]].
      split; [exact (asked_sound st c bad at_ OK f I OP IL _ g calls FO H1)|].
      intros y Y. exact (asked_exact st c bad at_ OK f I OP IL U _ g calls y FO Y H1).
    - destruct (in_file_type I); try discriminate; [|destruct (dir_open f I); discriminate].
      destruct (file_open f I) as [g'|e|] eqn:FO; [|discriminate..]. injection AO as ->.
      pose proof FO as FO'. unfold file_open, tree_from_inode in FO'. destruct (_ && _) eqn:BE; [|discriminate].
      split; [reflexivity|]. split; [reflexivity|].
      split; [exact (asked_sound st c bad at_ OK f I OP IL _ g (reads l) FO H)|].
      intros y Y. exact (asked_exact st c bad at_ OK f I OP IL U _ g (reads l) y FO Y H).
  Qed.

  Lemma turns_openings acts : forall w hs k number a, LW w -> fine hs ->
    nth_error (openings (turns w hs acts)) k = Some (number, a) ->
    handle_says c bad number a (of_one (length hs + k) (turns w hs acts)).
  Proof.
    induction acts as [|[i a] acts IH]; intros w hs k number b Lw H N; [destruct k; discriminate|]. cbn [PropsExt4Shared.turns] in *.
    destruct (turn w hs i a) as [[w' hs'] o] eqn:E. destruct (turn_fine _ _ _ _ _ _ _ Lw H E) as [Lw' H'].
    assert (SK : forall l m, reads l = reads m -> nexts l = nexts m -> handle_says c bad number b m -> handle_says c bad number b l).
    { intros l m R1 R2. unfold handle_says. rewrite R1, R2. auto. }
    assert (G : length hs' = length hs -> openings [(i, (a, o))] = [] -> (i < length hs)%nat \/ o = Sw SnMisuse -> 
                handle_says c bad number b (of_one (length hs + k) ((i, (a, o)) :: (if over o then [] else turns w' hs' acts)))).
    { intros LH OG IE. change ((i, (a, o)) :: ?l) with ([(i, (a, o))] ++ l) in N. unfold openings in N, OG. rewrite flat_map_app, OG in N. cbn [app] in N.
      destruct (over o) eqn:V; [destruct k; discriminate N|]. specialize (IH w' hs' k number b Lw' (H' eq_refl) N). rewrite LH in IH.
      rewrite of_one_cons. destruct (Nat.eqb_spec i (length hs + k)) as [->|]; [|exact IH].
      destruct IE as [IE| ->]; [lia|]. eapply SK; [| |exact IH]; cbn; destruct a as [|[]]; reflexivity. }
    unfold PropsExt4Shared.turn in E. destruct (nth_error hs i) as [[p h]|] eqn:NI.
    2:{ injection E as <- <- <-. apply G; auto. destruct a; reflexivity. }
    assert (IL : (i < length hs)%nat) by (apply nth_error_Some; congruence).
    destruct (proj1 (Forall_forall _ _) H (p, h) (nth_error_In _ _ NI)) as [Lp Hh]. cbn [fst snd] in Lp, Hh. pose proof (HJ _ _ Lp Lw) as A.
    destruct a as [n|x].
    2:{ destruct (act st (join p w) h x) as [[s1 h1] o1]. injection E as <- <- <-. apply G; auto. apply put_length. }
    destruct h as [f|g|d]; [|injection E as <- <- <-; apply G; auto..].
    destruct (open_file st clone f n (join p w)) as [s1 r] eqn:R. injection E as <- <- <-.
    assert (ND : forall k, Nat.eqb i (length hs + k) = false) by (intros m; apply Nat.eqb_neq; lia).
    destruct r as [[t z]|e|]; cbn [rbind snd] in *.
    - assert (Z : forall y, new_handle part (Ok (t, z)) = [(part t, y)] ->
                match y with HdFile g => z = AnyRegular g | HdDirectory d => z = AnyDirectory d | HdFs _ => False end ->
                openings [(i, (DoOpen n, SwOpen (Ok z)))] = [(n, z)] ->
                handle_says c bad number b (of_one (length hs + k)
                  ((i, (DoOpen n, SwOpen (Ok z))) :: (if over (SwOpen (Ok z)) then [] else
                    turns (rest s1) (put i (part s1, HdFs f) hs ++ new_handle part (Ok (t, z))) acts)))).
      { intros y Y YZ OG. cbn [over fatal] in *. rewrite Y in *. clear G.
        change ((i, (DoOpen n, SwOpen (Ok z))) :: ?l) with ([(i, (DoOpen n, SwOpen (Ok z)))] ++ l) in N.
        unfold openings in N, OG. rewrite flat_map_app, OG in N. cbn [app] in N. rewrite of_one_cons, ND. destruct k as [|k].
        - injection N as -> ->. rewrite Nat.add_0_r. apply (opening_says _ _ _ _ _ _ _ A Hh R).
          assert (Q : nth_error (put i (part s1, HdFs f) hs ++ [(part t, y)]) (length hs) = Some (part t, y)).
          { rewrite nth_error_app2; rewrite put_length; [now rewrite Nat.sub_diag|lia]. }
          destruct y as [|g|d]; [contradiction|subst b..].
          + exact (turns_asked acts _ _ _ _ _ Lw' (H' eq_refl) Q).
          + exact (turns_listed acts _ _ _ _ _ Lw' (H' eq_refl) Q).
        - specialize (IH _ _ k number b Lw' (H' eq_refl) N). rewrite app_length, put_length in IH. cbn [length] in IH.
          replace (length hs + Datatypes.S k)%nat with (length hs + 1 + k)%nat by lia. exact IH. }
      destruct z as [d|g|ty].
      + apply (Z (HdDirectory d)); reflexivity.
      + apply (Z (HdFile g)); reflexivity.
      + apply G; auto. cbn [new_handle]. now rewrite app_nil_r, put_length.
    - apply G; auto. cbn [new_handle]. now rewrite app_nil_r, put_length.
    - destruct k; discriminate N.
  Qed.

  (** C116. *)
  Theorem shared_handles s acts log : legal s -> open_and_turn st clone join part rest s acts = Ok log ->
    (forall k number a, nth_error (openings log) k = Some (number, a) -> handle_says c bad number a (of_one (1 + k) log)) /\
    Forall (fs_says c bad) (of_one 0 log).
  Proof.
    intros A E. unfold open_and_turn in E. destruct (fs_open st s) as [s1 r] eqn:FO. destruct r as [f|e|]; [|discriminate..]. injection E as <-.
    destruct (fs_open_sound st c bad at_ OK _ _ _ A FO) as [A1 OP]. destruct (HS _ A1) as [Lp Lw].
    assert (H : fine [(part s1, HdFs f)]) by (constructor; [now split|constructor]). split.
    - intros k number a N. exact (turns_openings acts _ _ k number a Lw H N).
    - assert (X : forall w hs p, LW w -> fine hs -> nth_error hs 0 = Some (p, HdFs f) -> Forall (fs_says c bad) (of_one 0 (turns w hs acts))).
      2:{ exact (X _ _ _ Lw H eq_refl). }
      clear A FO A1 Lp Lw H s s1. induction acts as [|[i a] acts IH]; intros w hs p Lw H N; [constructor|]. cbn [PropsExt4Shared.turns].
      destruct (turn w hs i a) as [[w' hs'] o] eqn:E. destruct (turn_fine _ _ _ _ _ _ _ Lw H E) as [Lw' H']. rewrite of_one_cons.
      destruct (proj1 (Forall_forall _ _) H (p, HdFs f) (nth_error_In _ _ N)) as [Lp _]. cbn [fst] in Lp. pose proof (HJ _ _ Lp Lw) as A.
      assert (R : forall p', nth_error hs' 0 = Some (p', HdFs f) -> Forall (fs_says c bad) (of_one 0 (if over o then [] else turns w' hs' acts))).
      { intros p' N'. destruct (over o); [constructor|]. exact (IH _ _ p' Lw' (H' eq_refl) N'). }
      destruct (Nat.eqb_spec i 0) as [->|Ne]; [|apply (R p); eapply turn_other; eauto].
      unfold PropsExt4Shared.turn in E. rewrite N in E. assert (HN : forall x l, nth_error (put 0 x hs ++ l) 0 = Some x).
      { intros x l. destruct hs; [discriminate N|reflexivity]. }
      assert (SB : fs_sb f = device_sb c) by apply (op_sb _ _ _ OP).
      constructor.
      + destruct a as [n|[n|n buf|fuel buf|fuel]]; cbn [act] in E.
        * destruct (open_file st clone f n (join p w)) as [s1 r]. injection E as <- <- <-. exact Logic.I.
        * destruct (fs_read_inode st f n (join p w)) as [s1 r] eqn:RI. injection E as <- <- <-. cbn [fs_says].
          destruct (fs_read_inode_spec st c bad at_ OK _ _ _ _ _ A OP RI) as [_ Y]. cbv zeta in Y. rewrite SB in Y.
          unfold device_slot, device_slot_offset, device_desc.
          pose proof (op_count _ _ _ OP) as GC. rewrite SB in GC. exists (len (fs_groups f)). split; [exact GC|].
          destruct Y as [(Y1 & Y2 & _ & _ & Y3)|(e & Y1 & Y2)]; [now left|right]. exists e. split; [exact Y1|].
          destruct Y2 as [(Y2 & _)|[(_ & Y2 & _)|(_ & _ & Y2)]]; auto.
        * destruct (fs_read_block st f n (join p w) buf) as [[s1 b] r] eqn:RB. injection E as <- <- <-. cbn [fs_says].
          destruct (fs_read_block_spec st c bad at_ OK _ _ _ _ _ _ _ A OP RB) as (_ & Y1 & Y2). rewrite SB in Y2. auto.
        * injection E as <- <- <-. exact Logic.I.
        * injection E as <- <- <-. exact Logic.I.
      + destruct a as [n|b].
        * destruct (open_file st clone f n (join p w)) as [s1 r]. injection E as <- <- <-. exact (R _ (HN _ _)).
        * destruct (act st (join p w) (HdFs f) b) as [[s1 h1] o1] eqn:Q. injection E as <- <- <-.
          assert (h1 = HdFs f) as ->.
          { destruct b; cbn [act] in Q; [destruct (fs_read_inode _ _ _ _)|destruct (fs_read_block _ _ _ _ _) as [[? ?] ?]| |]; congruence. }
          apply (R (part s1)). destruct hs; [discriminate N|reflexivity].
  Qed.
End Sharing.
Print Assumptions asked_sound.
Print Assumptions asked_exact.
Print Assumptions listed_reads.
Print Assumptions shared_handles.

(** ** Readers of one array

    Every handle has a [BlockDeviceReader] of its own; the array, and with it its members, is shared by all of them. *)
Definition reader_join {D} (p : N * N) (d : D) : reader D := Reader d (fst p) (snd p).
Definition reader_part {D} (r : reader D) : N * N := (r_block r, r_byte r).
Lemma reader_join_part {D} (r : reader D) : reader_join (reader_part r) (r_dev r) = r.
Proof. now destruct r. Qed.

Section Arrays.
  Context {D : Type} (ops : blockdev D) (join : D -> D -> D) (J : joins join) (C : contents) (f : md_format) (l : layout6) (image : bytes).
  Hypothesis G : geometry_ok f l.
  Hypothesis U : u64_ok (len image).
  Hypothesis I : contents_image C (fun _ => 0) f l image.

  Let st := reader_stream (array_block_io ops join).
  Let clone := reader_clone (array_block_io ops join).

  (** From the members: whatever the order in which handles are opened and used, and whatever the members' devices do between
      two reads, parts of them being unreadable, each handle answers by the image alone, and the data of a file are those
      that Linux reads. *)
  Theorem shared_array a acts log : slots_hold ops a C -> in_use a f ->
    open_and_turn st clone reader_join reader_part r_dev (reader_new a) acts = Ok log ->
    (forall k number o, nth_error (openings log) k = Some (number, o) -> handle_says image (array_bad C f) number o (of_one (1 + k) log)) /\
    Forall (fs_says image (array_bad C f)) (of_one 0 log) /\
    (forall k number g hi, nth_error (openings log) k = Some (number, AnyRegular g) ->
       let bs := sb4_block_size (device_sb image) in
       let slot := device_slot image number in
       ordered image bs (slot_root slot) 0 hi ->
       len (delivered (reads (of_one (1 + k) log))) <= slot_size slot /\
       forall p x, nth_N (delivered (reads (of_one (1 + k) log))) p = Some x ->
         linux_byte image bs (slot_root slot) p x \/ in_unwritten image bs (slot_root slot) p).
  Proof.
    intros SH IU E.
    destruct (shared_handles st image (array_bad C f) (reader_at 512 (fun a => slots_hold ops a C /\ in_use a f))
      (recover_stream_ok ops join J C f l image G U I) U clone (recover_clone ops join J C f l image G U I) reader_join reader_part r_dev
      (fun p => snd p < 512 /\ u64_ok (fst p * 512 + snd p)) (fun a => slots_hold ops a C /\ in_use a f)
      ltac:(intros [b y] w [Y V] Lw; exists (b * 512 + y); split; [exact Lw|split; [exact Y|split; [reflexivity|exact V]]])
      ltac:(intros [d b y] (p & X1 & X2 & -> & X3); split; [exact (conj X2 X3)|exact X1])
      (reader_new a) acts log (recover_start ops join J C f l image G U I a (conj SH IU)) E) as [H1 H2].
    split; [exact H1|]. split; [exact H2|]. intros k number g hi N bs slot O. destruct (H1 k number _ N) as (_ & _ & _ & _ & H & _).
    assert (BP : 0 < bs) by (apply N.neq_0_lt_0, N.pow_nonzero; discriminate).
    exact (answers_linux image bs (slot_root slot) (slot_size slot) hi _ BP O H).
  Qed.
End Arrays.
Print Assumptions shared_array.

(** ** Handles on one open file description

    The cursor is that of all of them; a clone may be refused. *)
Theorem shared_description pol c fx pb sz bs pos clock clone acts log : len c <= i64_max ->
  (forall d : filedev, clone d = (d, Ok d) \/ exists e, clone d = (d, Err e)) ->
  open_and_turn (filedev_stream pol) clone (fun _ d => d) (fun _ => tt) (fun d => d) (FileDev (OsFile c pos clock fx pb sz) bs) acts = Ok log ->
  (forall k number o, nth_error (openings log) k = Some (number, o) -> handle_says c (pol_bad pol) number o (of_one (1 + k) log)) /\
  Forall (fs_says c (pol_bad pol)) (of_one 0 log).
Proof.
  intros L CL E.
  assert (U : u64_ok (len c)) by (unfold u64_ok; unfold i64_max in L; unfold u64_max; lia).
  apply (shared_handles (filedev_stream pol) c (pol_bad pol) (fun d p => fd_bs d = bs /\ os_at c fx pb sz (fd_file d) p)
    (filedev_stream_ok pol c fx pb sz bs L) U clone) with (part := fun _ => tt) (LP := fun _ : unit => True)
    (LW := fun d => exists p, fd_bs d = bs /\ os_at c fx pb sz (fd_file d) p) (join := fun _ d => d) (rest := fun d => d) (acts := acts)
    (s := FileDev (OsFile c pos clock fx pb sz) bs); auto.
  - intros s s' r A X. destruct (CL s) as [Y|(e & Y)]; rewrite Y in X; injection X as <- <-; (split; [exact A|]); (split; [discriminate|]); intros t T; [|discriminate].
    injection T as <-. exact A.
  - exists pos. repeat split.
Qed.
Print Assumptions shared_description.

(** ** Examples

    A file is opened twice and a directory once, and all of them are read by turns, with a block that cannot be read in
    between; first on the array of PropsExt4Recover, one sector of whose members cannot be read. *)
Definition turns_acts : list (nat * deed) :=
  [(0, DoOpen 5); (1, Do (AcRead 20 (zeros 1024))); (0, DoOpen 6); (0, DoOpen 5); (2, Do (AcNext 20)); (3, Do (AcRead 20 (zeros 1024)));
   (0, Do (AcBlock 6 (zeros 1024))); (1, Do (AcRead 20 (zeros 1024))); (2, Do (AcNext 20)); (3, Do (AcRead 20 (zeros 1024))); (0, DoOpen 8)]%nat.
Lemma turns_begin {S P W} (st : stream S) clone (join : P -> W -> S) part rest s s1 F number s2 own g acts :
  join (part s1) (rest s1) = s1 -> fs_open st s = (s1, Ok F) -> open_file st clone F number s1 = (s2, Ok (own, AnyRegular g)) ->
  exists log more, open_and_turn st clone join part rest s ((0%nat, DoOpen number) :: acts) = Ok log /\ openings log = (number, AnyRegular g) :: more.
Proof.
  intros J E O. unfold open_and_turn. rewrite E. cbn [rbind turns turn nth_error]. rewrite J, O. cbn [rbind snd over fatal put app new_handle].
  eexists. eexists. split; [reflexivity|]. cbn [openings flat_map app]. reflexivity.
Qed.

Example shared_array_ex : exists log g more,
  open_and_turn (reader_stream (array_block_io (filedev_block torn_policy) shared)) (reader_clone (array_block_io (filedev_block torn_policy) shared))
    reader_join reader_part r_dev (reader_new torn_array) turns_acts = Ok log /\
  openings log = (5, AnyRegular g) :: more /\
  Forall (fs_says open_image (array_bad (torn_contents torn_policy) torn_format)) (of_one 0 log) /\
  answers open_image 1024 (slot_root (device_slot open_image 5)) 3500 0 0 (reads (of_one 1 log)).
Proof.
  destruct recover_linux_complete_ex as (s1 & F & s2 & own & g & _ & _ & _ & _ & R1 & R2 & _).
  destruct (turns_begin _ _ reader_join reader_part r_dev _ s1 F 5 s2 own g (tl turns_acts) (reader_join_part s1) R1 R2) as (log & more & E & Os).
  change ((0%nat, DoOpen 5) :: tl turns_acts) with turns_acts in E. exists log, g, more. split; [exact E|]. split; [exact Os|].
  assert (IU : in_use torn_array torn_format) by (right; split; reflexivity).
  assert (Jn : joins (@shared filedev)) by (intros d d'; now right).
  destruct (shared_array (filedev_block torn_policy) shared Jn (torn_contents torn_policy) torn_format (Md5 LeftSymmetric) open_image torn_geometry
    open_image_u64 (torn_image _) torn_array turns_acts log (torn_holds _) IU E) as (H1 & H2 & _).
  split; [exact H2|].
  assert (BS : sb4_block_size (device_sb open_image) = 1024) by (vm_compute; reflexivity).
  assert (SZ : slot_size (device_slot open_image 5) = 3500) by (vm_compute; reflexivity).
  destruct (H1 0%nat 5 (AnyRegular g)) as (_ & _ & _ & _ & H & _); [rewrite Os; reflexivity|]. rewrite BS, SZ in H. exact H.
Qed.

(** One open file description, whose reads give at most 300 bytes and fail in blocks 6 and 7, and of which at any time a
    clone may be had. *)
Example shared_description_ex : exists log,
  open_and_turn (filedev_stream (fun _ p _ => if (6144 <=? p) && (p <? 8192) then IoFail 5 else IoXfer 300)) (fun d => (d, Ok d)) (fun _ d => d) (fun _ => tt)
    (fun d => d) (FileDev (OsFile open_image 77 0 false (Ok 512) (Ok 16384)) 512) turns_acts = Ok log /\
  reads (of_one 1 log) = reads (of_one 3 log) /\ delivered (reads (of_one 3 log)) = repeat x12 1024 ++ repeat x14 1024 /\
  nexts (of_one 2 log) = firstn 2 (map (fun e => Ok (Some e)) (map encode_record plain_block)).
Proof. eexists. split; [vm_compute; reflexivity|]. split; [vm_compute; reflexivity|]. split; vm_compute; reflexivity. Qed.
