(** Listing directories: property C48. *)

From Coq Require Import Strings.String.
From Verif Require Import Base BaseFacts Io SpecStream IoFacts SpecMd SuperblockFacts Superblock Crc SpecCrc CrcFacts PropsCrc
  Ext4Superblock SpecExt4 PropsExt4Superblock Ext4Inode SpecExt4Inode PropsExt4Inode Ext4Fs SpecExt4Fs Ext4FsFacts
  PropsExt4Fs Ext4Extent Ext4File SpecExt4File Ext4FileFacts PropsExt4File Ext4String Ext4Dir SpecExt4Dir PropsExt4Dir.

Local Opaque read_exact.

(** The buffers of the calls are those that were given. *)
Lemma run_file_given {S} (st : stream S) fuel : forall bufs s f s' f' calls, run_file st fuel s f bufs = Some (s', f', calls) ->
  exists rest, bufs = map (fun '(buf, _, _) => buf) calls ++ rest.
Proof.
  induction bufs as [|buf bufs IH]; intros s f s' f' calls E; cbn [run_file] in E.
  - injection E as <- <- <-. now exists [].
  - destruct (read_next_block st fuel s f buf) as [[[[s1 f1] buf1] r1]|]; [|discriminate].
    destruct r1 as [k|e|]; [| |injection E as <- <- <-; now exists bufs];
      (destruct (run_file st fuel s1 f1 bufs) as [[[s2 f2] calls2]|] eqn:R; [|discriminate]; injection E as <- <- <-;
       destruct (IH _ _ _ _ _ R) as (rest & ->); now exists rest).
Qed.

Section Listing.
  Context {S : Type} (st : stream S) (c : bytes) (bad : N -> Prop) (at_ : S -> N -> Prop).
  Hypothesis OK : stream_ok st c bad at_.
  Notation legal := (legal at_).
  Context (F : fs) (I : inode).
  Hypothesis OP : opened c (fs_sb F) (fs_groups F).
  Hypothesis IL : len (in_storage I) = 160.
  Notation seed := (in_seed I).
  Hypothesis SD : forall sd, seed = Some sd -> sd < 2 ^ 32.
  Notation bs := (sb4_block_size (fs_sb F)).
  Notation root := (in_blocks_buffer I).
  Notation size := (in_file_size_bytes I).
  Notation file_ok := (file_ok c F I).
  (** [history fuel s f calls]: calls with a new buffer each, on the file [f]. *)
  Definition history (fuel : nat) (s : S) (f : file) (calls : list (bytes * bytes * res N)) : Prop :=
    exists k s' f', run_file st fuel s f (repeat (zeros bs) k) = Some (s', f', calls).
  Notation lst := (listing seed bs).

  (** ** One block *)

  (** What becomes of a block that has been read. *)
  Definition block_result (b : bytes) (k : res N) (r : res (option dir_block)) : Prop :=
    match r with
    | Ok (Some d) => k = Ok bs /\ dir_tail_ok seed b /\ d = DirBlock b 0 (dir_limit seed b) /\ len b = bs
    | Ok None => k = Ok 0
    | Err e => k = Err e \/ e = InvalidData /\ exists n, k = Ok n /\ n <> 0 /\ (n <> bs \/ n = bs /\ ~ dir_tail_ok seed b)
    | Panic => False
    end.

  Lemma next_block_ok fuel s f s' f' r : legal s -> file_ok f -> dir_next_block st fuel s f = Some (s', f', r) ->
    legal s' /\
    ((r = Panic /\ exists b, history fuel s f [(zeros bs, b, Panic)]) \/
     (file_ok f' /\ exists b k, block_result b k r /\
        forall calls, history fuel s' f' calls -> history fuel s f ((zeros bs, b, k) :: calls))).
  Proof.
    intros A FO E. unfold dir_next_block, file_block_size in E. rewrite (fo_fs _ _ _ _ FO), (fs_block_size_ok c F OP) in E.
    destruct (read_next_block st fuel s f (zeros bs)) as [[[[s1 f1] b] k]|] eqn:R; [|discriminate].
    destruct (read_call_ok st c bad at_ OK F I OP _ _ _ _ _ _ _ _ A FO R) as [Lg [(-> & -> & -> & L)|[L O]]].
    { rewrite len_zeros in L. lia. }
    pose proof (bs_ge F) as BG.
    assert (H : k <> Panic -> forall calls, history fuel s1 f1 calls -> history fuel s f ((zeros bs, b, k) :: calls)).
    { intros NP calls (m & s2 & f2 & R2). exists (Datatypes.S m), s2, f2. cbn [repeat run_file]. rewrite R, R2.
      destruct k; [reflexivity|reflexivity|congruence]. }
    unfold outcome in O. destruct k as [k|e|].
    - destruct O as [FO1 O]. rewrite (fo_inode _ _ _ _ FO1) in E.
      assert (LB : len b = bs).
      { destruct O as [(-> & _ & _ & -> & _)|(q & M & IN & -> & _)]; [apply len_zeros|]. rewrite len_zeros in *. apply len_window_in. lia. }
      injection E as <- <- <-. split; [exact Lg|]. right. split; [exact FO1|]. exists b, (Ok k). split; [|apply H; discriminate].
      destruct (N.eqb_spec k 0) as [->|K0]; [reflexivity|]. destruct (N.eqb_spec k bs) as [->|K1].
      + destruct (dir_block_new_spec b seed ltac:(lia) SD) as [[T ->]|[T ->]]; cbn [rbind block_result].
        * auto.
        * right. split; [reflexivity|]. eauto 8.
      + cbn [block_result]. right. split; [reflexivity|]. eauto 8.
    - injection E as <- <- <-. destruct O as (FO1 & B & T & LB). split; [exact Lg|]. right. split; [exact FO1|].
      exists b, (Err e). split; [now left|]. apply H. discriminate.
    - injection E as <- <- <-. split; [exact Lg|]. left. split; [reflexivity|]. exists b. exists 1%nat, s1, f1. cbn [repeat run_file].
      now rewrite R.
  Qed.

  (** ** The state of a listing, and what may come of it *)
  Inductive pending : Type := PStart | PBlock (rest : list bytes) | PEnd.

  Definition state_ok (d : directory) (p : pending) : Prop :=
    file_ok (dr_file d) /\
    match p with
    | PStart => dr_current d = CbStart
    | PEnd => dr_current d = CbEnd
    | PBlock rest => exists b o, dr_current d = CbBlock (DirBlock b o (dir_limit seed b)) /\ o <= dir_limit seed b /\
                       records b (dir_limit seed b) o rest
    end.

  Definition comes (p : pending) (calls : list (bytes * bytes * res N)) (rs : list (res (option bytes))) : Prop :=
    match p with
    | PStart => lst calls rs
    | PBlock rest => (exists rs', rs = map (fun e => Ok (Some e)) rest ++ rs' /\ lst calls rs') \/
                     (exists es more, rest = es ++ more /\ rs = map (fun e => Ok (Some e)) es)
    | PEnd => exists n, rs = repeat (Ok None) n
    end.

  (** A call from [d], with [p] pending, that gives [r] and leaves [d']. *)
  Definition step (fuel : nat) (s : S) (d : directory) (p : pending) (s' : S) (d' : directory) (r : res (option bytes)) : Prop :=
    (r = Panic /\ exists calls, history fuel s (dr_file d) calls /\ comes p calls [Panic]) \/
    exists p', state_ok d' p' /\
      forall calls rs, history fuel s' (dr_file d') calls -> comes p' calls rs ->
        exists calls0, history fuel s (dr_file d) calls0 /\ comes p calls0 (r :: rs).

  Lemma limit_len b : dir_limit seed b <= len b.
  Proof. unfold dir_limit. destruct seed; lia. Qed.

  (** Reading a block when the listing is at its start, or behind the records of a block. *)
  Lemma advance_ok fuel s d p s' d' r : legal s -> state_ok d p -> p = PStart \/ p = PBlock [] ->
    dir_advance st fuel s d = Some (s', d', r) ->
    legal s' /\
    match r with
    | Ok _ => exists p', state_ok d' p' /\ p' <> PStart /\
        forall calls rs, history fuel s' (dr_file d') calls -> comes p' calls rs ->
          exists calls0, history fuel s (dr_file d) calls0 /\ comes p calls0 rs
    | Err e => step fuel s d p s' d' (Err e)
    | Panic => step fuel s d p s' d' Panic
    end.
  Proof.
    intros A [FO SO] P E. unfold dir_advance in E.
    destruct (dir_next_block st fuel s (dr_file d)) as [[[s1 f1] r1]|] eqn:R; [|discriminate].
    destruct (next_block_ok _ _ _ _ _ _ A FO R) as [Lg O].
    assert (CP : forall calls rs, lst calls rs -> comes p calls rs).
    { intros calls rs H. destruct P as [->| ->]; [exact H|]. left. exists rs. split; [reflexivity|exact H]. }
    assert (PC : forall calls rs, comes p calls rs -> lst calls rs).
    { intros calls rs H. destruct P as [->| ->]; [exact H|]. destruct H as [(rs' & -> & H)|(es & more & E1 & ->)]; [exact H|].
      symmetry in E1. apply app_eq_nil in E1 as [-> _]. apply listing_stop. }
    destruct O as [(-> & b & AN)|(FO1 & b & k & BR & AN)].
    { injection E as <- <- <-. split; [exact Lg|]. left. split; [reflexivity|]. eexists. split; [exact AN|]. apply CP, listing_panic. }
    destruct r1 as [[d1|]|e|]; cbn [block_result] in BR; [| | |contradiction].
    - destruct BR as (-> & T & -> & LB). injection E as <- <- <-. split; [exact Lg|].
      destruct (records_exist b (dir_limit seed b) 0 (limit_len b) ltac:(lia)) as (es & RS & _).
      exists (PBlock es). split; [|split; [discriminate|]].
      + split; [exact FO1|]. exists b, 0. cbn [dr_current]. repeat split; [lia|exact RS].
      + intros calls rs H1 H2. exists ((zeros bs, b, Ok bs) :: calls). split; [now apply AN|]. apply CP.
        destruct H2 as [(rs' & -> & H2)|(es1 & more & -> & ->)]; [now apply listing_block|]. eapply listing_part; eauto.
    - subst k. injection E as <- <- <-. split; [exact Lg|]. exists PEnd. split; [|split; [discriminate|]].
      + split; [exact FO1|reflexivity].
      + intros calls rs H1 (n & ->). exists ((zeros bs, b, Ok 0) :: calls). split; [now apply AN|]. apply CP, listing_end.
    - injection E as <- <- <-. split; [exact Lg|]. right. exists p. split.
      + split; [exact FO1|]. cbn [dr_current]. destruct P as [->| ->]; exact SO.
      + cbn [dr_file]. intros calls rs H1 H2. exists ((zeros bs, b, k) :: calls). split; [now apply AN|]. apply CP. apply PC in H2.
        destruct BR as [->|(-> & n & -> & N0 & [N1|(-> & N1)])].
        * now apply listing_error.
        * now apply listing_short.
        * now apply listing_bad.
  Qed.

  Lemma dir_loop_ok fuel turns s d p s' d' r : legal s -> state_ok d p -> p <> PStart ->
    dir_loop st fuel turns s d = Some (s', d', r) -> legal s' /\ step fuel s d p s' d' r.
  Proof.
    revert s d p. induction turns as [|turns IH]; intros s d p A SO NP E; [discriminate|]. cbn [dir_loop] in E.
    destruct p as [|rest|]; [congruence| |].
    - destruct SO as [FO (b & o & C & OL & RS)]. rewrite C in E.
      destruct (dir_block_next_spec b _ o (limit_len b) OL) as [(e & RE & X)|(N & X)]; rewrite X in E.
      + injection E as <- <- <-. split; [exact A|]. right.
        inversion RS as [o' N' |o' e' es2 R2 RS2]; subst; [now destruct (N' e)|].
        assert (e = e') as <-. { destruct RE as (-> & _), R2 as (-> & _). reflexivity. }
        exists (PBlock es2). split.
        * split; [exact FO|]. exists b, (o + len e). cbn [dr_current]. split; [reflexivity|]. split; [|exact RS2].
          now apply (record_at_len b _ o e (limit_len b) RE).
        * cbn [dr_file]. intros calls rs H1 H2. exists calls. split; [exact H1|].
          destruct H2 as [(rs' & -> & H2)|(es & more & -> & ->)].
          -- left. exists rs'. split; [reflexivity|exact H2].
          -- right. exists (e :: es), more. split; reflexivity.
      + inversion RS as [o' N' |o' e' es2 R2 RS2]; subst; [|now destruct (N e')].
        set (d1 := Directory (dr_file d) (CbBlock (DirBlock b o (dir_limit seed b)))) in *.
        assert (SO1 : state_ok d1 (PBlock [])).
        { split; [exact FO|]. exists b, o. auto. }
        destruct (dir_advance st fuel s d1) as [[[s2 d2] r2]|] eqn:AD; [|discriminate].
        destruct (advance_ok _ _ _ _ _ _ _ A SO1 (or_intror eq_refl) AD) as [Lg O]. change (dr_file d1) with (dr_file d) in O.
        destruct r2 as [u|e|].
        * destruct O as (p' & SO2 & NP' & H). destruct (IH s2 d2 p' Lg SO2 NP' E) as [Lg' ST]. split; [exact Lg'|].
          destruct ST as [(-> & calls & H1 & H2)|(p2 & SO3 & H3)].
          -- left. split; [reflexivity|]. destruct (H _ _ H1 H2) as (calls0 & H4 & H5). eauto.
          -- right. exists p2. split; [exact SO3|]. intros calls rs H1 H2. destruct (H3 _ _ H1 H2) as (calls0 & H4 & H5).
             destruct (H _ _ H4 H5) as (calls1 & H6 & H7). eauto.
        * injection E as <- <- <-. split; [exact Lg|]. exact O.
        * injection E as <- <- <-. split; [exact Lg|]. exact O.
    - destruct SO as [FO C]. rewrite C in E. injection E as <- <- <-. split; [exact A|]. right. exists PEnd. split; [now split|].
      intros calls rs H1 (n & ->). exists calls. split; [exact H1|]. exists (Datatypes.S n). reflexivity.
  Qed.

  Lemma dir_next_ok fuel s d p s' d' r : legal s -> state_ok d p -> dir_next st fuel s d = Some (s', d', r) ->
    legal s' /\ step fuel s d p s' d' r.
  Proof.
    intros A SO E. unfold dir_next in E. destruct p as [|rest|].
    - pose proof SO as [FO C]. rewrite C in E.
      destruct (dir_advance st fuel s d) as [[[s2 d2] r2]|] eqn:AD; [|discriminate].
      destruct (advance_ok _ _ _ _ _ _ _ A SO (or_introl eq_refl) AD) as [Lg O].
      destruct r2 as [u|e|].
      + destruct O as (p' & SO2 & NP' & H). destruct (dir_loop_ok _ _ _ _ _ _ _ _ Lg SO2 NP' E) as [Lg' ST]. split; [exact Lg'|].
        destruct ST as [(-> & calls & H1 & H2)|(p2 & SO3 & H3)].
        * left. split; [reflexivity|]. destruct (H _ _ H1 H2) as (calls0 & H4 & H5). eauto.
        * right. exists p2. split; [exact SO3|]. intros calls rs H1 H2. destruct (H3 _ _ H1 H2) as (calls0 & H4 & H5).
          destruct (H _ _ H4 H5) as (calls1 & H6 & H7). eauto.
      + injection E as <- <- <-. now split.
      + injection E as <- <- <-. now split.
    - pose proof SO as [FO (b & o & C & _)]. rewrite C in E. eapply dir_loop_ok; eauto. discriminate.
    - pose proof SO as [FO C]. rewrite C in E. eapply dir_loop_ok; eauto. discriminate.
  Qed.

  (** The results of a listing are those of reading its file. *)
  Lemma dir_listing_reads fuel n s f d s' d' rs : legal s -> file_open F I = Ok f -> dir_open F I = Ok d ->
    run_dir st fuel n s d = Some (s', d', rs) ->
    exists k s1 f1 calls, run_file st fuel s f (repeat (zeros bs) k) = Some (s1, f1, calls) /\ listing seed bs calls rs.
  Proof.
    intros A FE DO E. unfold dir_open in DO. destruct (contains _ _); [discriminate|].
    rewrite FE in DO. injection DO as <-. destruct (open_ok c F I IL f FE) as [FV FO].
    assert (X : forall n s d p s' d' rs, legal s -> state_ok d p -> run_dir st fuel n s d = Some (s', d', rs) ->
                exists calls, history fuel s (dr_file d) calls /\ comes p calls rs).
    { clear n s A s' d' rs E; induction n as [|n IH]; intros s d p s' d' rs A SO E; cbn [run_dir] in E.
      - injection E as <- <- <-. exists []. split; [now exists O, s, (dr_file d)|].
        destruct p; [apply listing_stop|right; exists [], rest; auto|now exists O].
      - destruct (dir_next st fuel s d) as [[[s1 d1] r1]|] eqn:N; [|discriminate].
        destruct (dir_next_ok _ _ _ _ _ _ _ A SO N) as [Lg [(-> & calls & H1 & H2)|(p' & SO' & H)]].
        + injection E as <- <- <-. eauto.
        + assert (Y : (r1 = Panic /\ rs = [Panic]) \/ exists s2 d2 rs2, run_dir st fuel n s1 d1 = Some (s2, d2, rs2) /\ rs = r1 :: rs2).
          { destruct r1 as [x|e|]; [right|right|left; injection E as _ _ <-; auto];
              (destruct (run_dir st fuel n s1 d1) as [[[s2 d2] rs2]|]; [|discriminate]; injection E as _ _ <-; eauto 6). }
          destruct Y as [[-> ->]|(s2 & d2 & rs2 & R2 & ->)].
          * apply (H [] []); [now exists O, s1, (dr_file d1)|]. destruct p'; [apply listing_stop|right; exists [], rest; auto|now exists O].
          * destruct (IH _ _ _ _ _ _ Lg SO' R2) as (calls & H1 & H2). now apply (H calls rs2). }
    assert (SO : state_ok (Directory f CbStart) PStart) by (split; [exact FO|reflexivity]).
    destruct (X n s _ PStart s' d' rs A SO E) as (calls & H1 & H2).
    cbn [dr_file] in H1. destruct H1 as (k & s1 & f1 & R). exists k, s1, f1, calls. split; [exact R|exact H2].
  Qed.

  (** C48: in every history of calls, whatever the tree and whatever read errors there are, the results are those of the
      blocks of the file in order: the records of each block that is in order, an error for each other one, and nothing
      behind the end of the file. *)
  Theorem dir_listing_sound fuel n s d s' d' rs : legal s -> dir_open F I = Ok d -> run_dir st fuel n s d = Some (s', d', rs) ->
    exists calls, answers c bs root size 0 0 calls /\ Forall (fun '(buf, _, _) => buf = zeros bs) calls /\ listing seed bs calls rs.
  Proof.
    intros A DO E. unfold dir_open in DO. destruct (contains _ _) eqn:HI; [discriminate|].
    destruct (file_open F I) as [f|e|] eqn:FE; [|discriminate..]. injection DO as <-.
    destruct (dir_listing_reads fuel n s f (Directory f CbStart) s' d' rs A FE) as (k & s1 & f1 & calls & R & LS); [|exact E|].
    { unfold dir_open. rewrite HI, FE. reflexivity. }
    exists calls. split; [exact (file_sound st c bad at_ OK F I OP IL _ _ _ _ _ _ _ A FE R)|]. split; [|exact LS].
    destruct (run_file_given st fuel _ _ _ _ _ _ R) as (rest & EB). apply Forall_forall. intros [[b b'] r] IN.
    apply (repeat_spec k (zeros bs) b). rewrite EB. apply in_app_iff. left. apply in_map_iff. now exists (b, b', r).
  Qed.

  (** ** Completeness *)
  Lemma call_mono fuel fuel' s f buf res : (fuel <= fuel')%nat -> read_next_block st fuel s f buf = Some res ->
    read_next_block st fuel' s f buf = Some res.
  Proof.
    unfold read_next_block. intros L E. destruct (file_block_size f) as [b|e|]; auto. destruct (len buf <? b); auto.
    eapply loop_mono; eauto.
  Qed.

  Lemma run_file_mono fuel fuel' s f bufs res : (fuel <= fuel')%nat -> run_file st fuel s f bufs = Some res ->
    run_file st fuel' s f bufs = Some res.
  Proof.
    intros L. revert s f res. induction bufs as [|buf bufs IH]; intros s f res E; [exact E|]. cbn [run_file] in *.
    destruct (read_next_block st fuel s f buf) as [[[[s1 f1] b1] r1]|] eqn:R; [|discriminate].
    rewrite (call_mono _ _ _ _ _ _ L R).
    destruct r1 as [k|e|]; [| |exact E];
      (destruct (run_file st fuel s1 f1 bufs) as [[[s2 f2] calls2]|] eqn:R2; [|discriminate]; rewrite (IH _ _ _ R2); exact E).
  Qed.

  (** The blocks [l] of the file are still to be read, and then comes its end. *)
  Definition unread (fuel : nat) (s : S) (f : file) (l : list N) : Prop :=
    legal s /\ file_ok f /\ exists s' f',
      run_file st fuel s f (repeat (zeros bs) (length l + 1)) =
      Some (s', f', map (fun q => (zeros bs, device_block c bs q, Ok bs)) l ++ [(zeros bs, zeros bs, Ok 0)]).

  Lemma unread_end fuel s f : unread fuel s f [] -> exists s' f', dir_next_block st fuel s f = Some (s', f', Ok None).
  Proof.
    intros (A & FO & s' & f' & E). cbn [length map app repeat Nat.add run_file] in E. unfold dir_next_block, file_block_size.
    rewrite (fo_fs _ _ _ _ FO), (fs_block_size_ok c F OP).
    destruct (read_next_block st fuel s f (zeros bs)) as [[[[s1 f1] b1] r1]|] eqn:R; [|discriminate].
    destruct r1 as [k|e|]; [|discriminate E..]. injection E as _ _ -> ->. eauto.
  Qed.

  Lemma unread_next fuel s f q l : unread fuel s f (q :: l) -> dir_tail_ok seed (device_block c bs q) -> (q + 1) * bs <= len c ->
    exists s' f', unread fuel s' f' l /\
      dir_next_block st fuel s f =
        Some (s', f', Ok (Some (DirBlock (device_block c bs q) 0 (dir_limit seed (device_block c bs q))))).
  Proof.
    intros (A & FO & s' & f' & E) T IN. cbn [length map app repeat Nat.add run_file] in E. unfold dir_next_block, file_block_size.
    rewrite (fo_fs _ _ _ _ FO), (fs_block_size_ok c F OP).
    destruct (read_next_block st fuel s f (zeros bs)) as [[[[s1 f1] b1] r1]|] eqn:R; [|discriminate].
    assert (X : r1 = Ok bs /\ b1 = device_block c bs q /\ exists s2 f2,
              run_file st fuel s1 f1 (repeat (zeros bs) (length l + 1)) =
              Some (s2, f2, map (fun q => (zeros bs, device_block c bs q, Ok bs)) l ++ [(zeros bs, zeros bs, Ok 0)])).
    { destruct r1 as [k|e|]; [| |discriminate E];
        (destruct (run_file st fuel s1 f1 _) as [[[s2 f2] calls2]|]; [|discriminate E]); [|discriminate E].
      injection E as _ _ -> -> ->. eauto. }
    destruct X as (-> & -> & s2 & f2 & R2).
    destruct (read_call_ok st c bad at_ OK F I OP _ _ _ _ _ _ _ _ A FO R) as [Lg [(Q & _)|[L O]]]; [discriminate Q|].
    cbn [outcome] in O. destruct O as [FO1 _]. exists s1, f1. split; [split; [exact Lg|split; [exact FO1|eauto]]|].
    pose proof (bs_ge F) as BG. rewrite (fo_inode _ _ _ _ FO1).
    destruct (N.eqb_spec bs 0) as [Z|Z]; [lia|]. rewrite N.eqb_refl.
    assert (LB : len (device_block c bs q) = bs) by (apply len_window_in; lia).
    destruct (dir_block_new_spec (device_block c bs q) seed ltac:(lia) SD) as [[_ ->]|[NT _]]; [reflexivity|contradiction].
  Qed.

  Notation block_ok := (fun q es => dir_tail_ok seed (device_block c bs q) /\ (q + 1) * bs <= len c /\
    records (device_block c bs q) (dir_limit seed (device_block c bs q)) 0 es).

  (** The records [rest] of a block, and then those of the blocks [l]. *)
  Definition listing_at (fuel : nat) (s : S) (d : directory) (rest : list bytes) (l : list N) (ess : list (list bytes)) : Prop :=
    unread fuel s (dr_file d) l /\ Forall2 block_ok l ess /\
    exists b o, dr_current d = CbBlock (DirBlock b o (dir_limit seed b)) /\ o <= dir_limit seed b /\
      records b (dir_limit seed b) o rest.

  Lemma loop_complete fuel turns s d rest l ess : listing_at fuel s d rest l ess -> (length l + 2 <= turns)%nat ->
    exists s' d', dir_loop st fuel turns s d =
        Some (s', d', Ok (match rest ++ concat ess with [] => None | e :: _ => Some e end)) /\
      match rest ++ concat ess with
      | [] => dr_current d' = CbEnd
      | _ :: more => exists rest' l' ess', listing_at fuel s' d' rest' l' ess' /\ rest' ++ concat ess' = more /\ (length l' <= length l)%nat
      end.
  Proof.
    revert s d rest l ess. induction turns as [|turns IH]; intros s d rest l ess (UR & F2 & b & o & C & OL & RS) TL; [lia|].
    cbn [dir_loop]. rewrite C.
    destruct (dir_block_next_spec b _ o (limit_len b) OL) as [(e & RE & ->)|(N & ->)].
    - inversion RS as [o' N' |o' e' es2 R2 RS2]; subst; [now destruct (N' e)|].
      assert (e = e') as <-. { destruct RE as (-> & _), R2 as (-> & _). reflexivity. }
      cbn [app]. eexists. eexists. split; [reflexivity|]. exists es2, l, ess. split; [|split; [reflexivity|lia]].
      split; [exact UR|]. split; [exact F2|]. exists b, (o + len e). split; [reflexivity|]. split; [|exact RS2].
      now apply (record_at_len b _ o e (limit_len b) RE).
    - inversion RS as [o' N' |o' e' es2 R2 RS2]; subst; [|now destruct (N e')].
      unfold dir_advance. cbn [dr_file dr_current app]. inversion F2 as [|q es l' ess' (T & IN & RE) F2' E1 E2]; subst.
      + destruct (unread_end _ _ _ UR) as (s1 & f1 & ->). destruct turns as [|turns]; [cbn in TL; lia|].
        cbn [dir_loop dr_current concat]. eexists. eexists. split; reflexivity.
      + destruct (unread_next _ _ _ _ _ UR T IN) as (s1 & f1 & UR' & ->).
        destruct (IH s1 (Directory f1 (CbBlock (DirBlock (device_block c bs q) 0 (dir_limit seed (device_block c bs q))))) es l' ess') as (s2 & d2 & E & R).
        { split; [exact UR'|]. split; [exact F2'|]. eexists. eexists. split; [reflexivity|]. split; [lia|exact RE]. }
        { cbn [length] in TL. lia. }
        exists s2, d2. cbn [concat]. split; [exact E|]. destruct (es ++ concat ess') as [|e more]; [exact R|].
        destruct R as (r1 & l1 & e1 & A & B & LL). exists r1, l1, e1. cbn [length]. split; [exact A|split; [exact B|lia]].
  Qed.

  Lemma firstn_repeat {A} (x : A) n m : (n <= m)%nat -> firstn n (repeat x m) = repeat x n.
  Proof. revert m. induction n as [|n IH]; intros [|m] L; try reflexivity; [lia|]. cbn. f_equal. apply IH. lia. Qed.

  Lemma firstn_tail {A} (l : list A) x n : firstn n (l ++ repeat x (Datatypes.S n)) = firstn n (l ++ repeat x n).
  Proof.
    rewrite !firstn_app. f_equal. now rewrite !firstn_repeat by lia.
  Qed.

  Lemma run_end fuel n s d : (1 <= fuel)%nat -> dr_current d = CbEnd -> run_dir st fuel n s d = Some (s, d, repeat (Ok None) n).
  Proof.
    intros L C. induction n as [|n IH]; [reflexivity|]. cbn [run_dir]. unfold dir_next. rewrite C.
    destruct fuel as [|fuel]; [lia|]. cbn [dir_loop]. rewrite C, IH. reflexivity.
  Qed.

  Lemma run_complete fuel n : forall s d rest l ess, listing_at fuel s d rest l ess -> (length l + 2 <= fuel)%nat ->
    exists s' d', run_dir st fuel n s d = Some (s', d', firstn n (map (fun e => Ok (Some e)) (rest ++ concat ess) ++ repeat (Ok None) n)).
  Proof.
    induction n as [|n IH]; intros s d rest l ess LA L; [eexists; eexists; reflexivity|]. cbn [run_dir].
    unfold dir_next. pose proof LA as (_ & _ & b & o & C & _). rewrite C.
    destruct (loop_complete fuel fuel s d rest l ess LA L) as (s1 & d1 & -> & R).
    destruct (rest ++ concat ess) as [|e more].
    - rewrite (run_end fuel n s1 d1 ltac:(lia) R). eexists. eexists. cbn [map app]. rewrite firstn_all2 by (rewrite repeat_length; lia). reflexivity.
    - destruct R as (r1 & l1 & e1 & LA1 & <- & LL).
      destruct (IH s1 d1 r1 l1 e1 LA1 ltac:(lia)) as (s2 & d2 & ->). eexists. eexists. do 2 f_equal.
      cbn [map app firstn]. f_equal. rewrite firstn_tail. reflexivity.
  Qed.

  (** C48: a directory whose tree maps all of its blocks, with each block in order, is listed completely. *)
  Theorem dir_listing_complete_partial s d l ess n : legal s -> dir_open F I = Ok d -> u64_ok (len c) ->
    maps c bs 32767 (readable c bad F) root 0 l -> Forall (readable c bad F) l -> len l <= u32_max -> size = len l * bs ->
    Forall2 (fun q es => dir_tail_ok seed (device_block c bs q) /\
               records (device_block c bs q) (dir_limit seed (device_block c bs q)) 0 es) l ess ->
    exists fuel s' d', run_dir st fuel n s d =
      Some (s', d', firstn n (map (fun e => Ok (Some e)) (concat ess) ++ repeat (Ok None) n)).
  Proof.
    intros A DO U M RD LL SZ F2. unfold dir_open in DO. destruct (contains _ _); [discriminate|].
    destruct (file_open F I) as [f|e|] eqn:FE; [|discriminate..]. injection DO as <-.
    pose proof (bs_ge F) as BG.
    destruct (file_complete_partial st c bad at_ OK F I OP IL s f l (repeat (zeros bs) (length l + 1)) A FE U M RD LL) as (fuel0 & s0 & f0 & E).
    { lia. }
    { apply Forall_forall. intros x Hx. apply repeat_spec in Hx as ->. apply len_zeros. }
    destruct (open_ok c F I IL f FE) as [FV FO].
    set (fuel := (fuel0 + length l + 3)%nat). exists fuel.
    assert (CL : forall l t, size = t + len l * bs -> file_calls c bs size l t (repeat (zeros bs) (length l + 1)) =
              map (fun q => (zeros bs, device_block c bs q, Ok bs)) l ++ [(zeros bs, zeros bs, Ok 0)]).
    { clear - BG. induction l as [|q l IH]; intros t H; [reflexivity|]. cbn [length Nat.add repeat file_calls map app].
      rewrite len_cons in H. replace (N.min bs (size - t)) with bs by lia. f_equal. apply IH. lia. }
    rewrite (CL l 0 ltac:(lia)) in E. apply (run_file_mono fuel0 fuel) in E; [|unfold fuel; lia].
    assert (UR : unread fuel s f l) by (split; [exact A|split; [exact FO|eauto]]).
    assert (F3 : Forall2 block_ok l ess).
    { clear - F2 RD. induction F2 as [|q es l ess [T R] F2 IH]; [constructor|]. inversion RD as [|q' l' [R1 R2] RD']; subst.
      constructor; [auto|now apply IH]. }
    destruct n as [|n]; [eexists; eexists; reflexivity|]. cbn [run_dir]. unfold dir_next, dir_advance. cbn [dr_current dr_file].
    inversion F3 as [|q es l' ess' (T & IN & RE) F3' E1 E2]; subst.
    - destruct (unread_end _ _ _ UR) as (s1 & f1 & ->). destruct fuel as [|fu] eqn:FU; [unfold fuel in FU; lia|].
      cbn [dir_loop dr_current]. rewrite (run_end _ n) by (reflexivity || lia). eexists. eexists. cbn [concat map app].
      rewrite firstn_all2 by (rewrite repeat_length; lia). reflexivity.
    - destruct (unread_next _ _ _ _ _ UR T IN) as (s1 & f1 & UR' & ->).
      set (d1 := Directory f1 _).
      assert (LA : listing_at fuel s1 d1 es l' ess').
      { split; [exact UR'|]. split; [exact F3'|]. eexists. eexists. split; [reflexivity|]. split; [lia|exact RE]. }
      assert (LF : (length l' + 2 <= fuel)%nat) by (unfold fuel; cbn [length]; lia).
      destruct (run_complete fuel (Datatypes.S n) s1 d1 es l' ess' LA LF) as (s2 & d2 & R).
      cbn [run_dir] in R. unfold dir_next in R. change (dr_current d1) with (CbBlock (DirBlock (device_block c bs q) 0 (dir_limit seed (device_block c bs q)))) in R.
      rewrite R. cbn [concat]. eexists. eexists. reflexivity.
  Qed.
End Listing.
Print Assumptions dir_listing_sound.
Print Assumptions dir_listing_complete_partial.

(** ** Examples: a directory with checksums of two blocks, and one whose second block has a record of length zero *)
Definition ex_dir_block (ds : list (dirent * N)) : bytes :=
  let b := concat (map encode_record ds) in
  let b := b ++ zeros (1012 - len b) in b ++ encode_tail (ext4_crc32c 5 b).
Definition first_block : list (dirent * N) := [(Dirent 2 [x2e] x02, 3); (Dirent 2 [x2e; x2e] x02, 2); (Dirent 12 [x61; x62] x01, 978)].
Definition second_block : list (dirent * N) := [(Dirent 13 [x63] x01, 3); (Dirent 14 [x64; x65; x66] x07, 989)].
Definition torn_block : list (dirent * N) := [(Dirent 13 [x63] x01, 3)].
Definition ex_dir_image (second : list (dirent * N)) : bytes :=
  poke (poke ex_image (8192, ex_dir_block first_block)) (9216, ex_dir_block second).
Definition ex_dir : inode :=
  Inode (fold_left poke [(0x4, to_le 4 2048); (0x20, to_le 4 0x80000); (0x28, ex_root (ex_header 1 4 0 ++ ex_extent 0 2 8))] (zeros 160))
    (Some 5).

Lemma dir_images_opened : forall second, second = second_block \/ second = torn_block ->
  len (ex_dir_image second) = 16384 /\ opened (ex_dir_image second) (fs_sb ex_fs) (fs_groups ex_fs).
Proof.
  intros second H. assert (L : len (ex_dir_image second) = 16384) by (destruct H as [->| ->]; vm_compute; reflexivity).
  split; [exact L|]. destruct H as [->| ->].
  - eapply (opened_by_computation (ex_dir_image second_block)); [rewrite L; discriminate|]. vm_compute. reflexivity.
  - eapply (opened_by_computation (ex_dir_image torn_block)); [rewrite L; discriminate|]. vm_compute. reflexivity.
Qed.

Lemma dir_images_map second : len (ex_dir_image second) = 16384 ->
  maps (ex_dir_image second) (sb4_block_size (fs_sb ex_fs)) 32767 (readable (ex_dir_image second) (fun _ => False) ex_fs)
    (in_blocks_buffer ex_dir) 0 [8; 9] /\
  Forall (readable (ex_dir_image second) (fun _ => False) ex_fs) [8; 9] /\ legal (mem_at (ex_dir_image second) 512) (mem_new (ex_dir_image second) 512).
Proof.
  intros L. split; [|split].
  - apply maps_leaf; [vm_compute; congruence|vm_compute; congruence|].
    replace (entries_of (in_blocks_buffer ex_dir)) with [ex_extent 0 2 8] by (vm_compute; reflexivity).
    cbn [extents_map]. split; [reflexivity|]. split; [vm_compute; congruence|]. split; [vm_compute; congruence|].
    exists []. split; reflexivity.
  - repeat constructor; auto; rewrite L; vm_compute; discriminate.
  - exists 0. repeat split. rewrite L. discriminate.
Qed.

Lemma ex_dir_block_ok ds : Forall dirent_ok ds -> len (concat (map encode_record ds)) = 1012 ->
  dir_tail_ok (Some 5) (ex_dir_block ds) /\
  records (ex_dir_block ds) (dir_limit (Some 5) (ex_dir_block ds)) 0 (map encode_record ds).
Proof.
  intros F L. unfold ex_dir_block. rewrite L. change (1012 - 1012) with 0. change (zeros 0) with (@nil byte).
  rewrite app_nil_r. set (b := concat (map encode_record ds)) in *.
  assert (IC : is_crc 5 (bits_of b) (ext4_crc32c 5 b)) by (apply crc32c_is_remainder; reflexivity).
  destruct (encode_tail_ok b 5 _ IC) as [T LB]. split; [exact T|].
  replace (dir_limit (Some 5) (b ++ encode_tail (ext4_crc32c 5 b))) with (0 + len b) by (cbn [dir_limit]; lia).
  exact (encoded_records ds [] (encode_tail (ext4_crc32c 5 b)) F).
Qed.

Lemma first_block_ok : Forall dirent_ok first_block.
Proof. unfold first_block. repeat (constructor; [repeat split; try (vm_compute; congruence); cbn [In]; intuition discriminate|]). constructor. Qed.
Lemma second_block_ok : Forall dirent_ok second_block.
Proof. unfold second_block. repeat (constructor; [repeat split; try (vm_compute; congruence); cbn [In]; intuition discriminate|]). constructor. Qed.

Example dir_listing_complete_ex : exists d fuel s' d', dir_open ex_fs ex_dir = Ok d /\
  run_dir mem_stream fuel 7 (mem_new (ex_dir_image second_block) 512) d =
    Some (s', d', map (fun e => Ok (Some e)) (map encode_record (first_block ++ second_block)) ++ [Ok None; Ok None]).
Proof.
  destruct (dir_images_opened second_block (or_introl eq_refl)) as [L OP].
  destruct (dir_images_map second_block L) as (M & R & LG).
  assert (DO : exists d, dir_open ex_fs ex_dir = Ok d) by (eexists; vm_compute; reflexivity). destruct DO as (d & DO).
  assert (U : u64_ok (len (ex_dir_image second_block))) by (rewrite L; discriminate).
  destruct (dir_listing_complete_partial mem_stream _ _ _ (mem_stream_ok (ex_dir_image second_block) 512 U) ex_fs ex_dir OP
              eq_refl ltac:(intros sd E; injection E as <-; reflexivity)
              (mem_new (ex_dir_image second_block) 512) d [8; 9]
              [map encode_record first_block; map encode_record second_block] 7 LG DO U M R ltac:(discriminate) eq_refl)
    as (fuel & s' & d' & E).
  - assert (B8 : device_block (ex_dir_image second_block) (sb4_block_size (fs_sb ex_fs)) 8 = ex_dir_block first_block) by (vm_compute; reflexivity).
    assert (B9 : device_block (ex_dir_image second_block) (sb4_block_size (fs_sb ex_fs)) 9 = ex_dir_block second_block) by (vm_compute; reflexivity).
    change (in_seed ex_dir) with (Some 5).
    constructor; [rewrite B8; apply ex_dir_block_ok; [exact first_block_ok|vm_compute; reflexivity]|].
    constructor; [rewrite B9; apply ex_dir_block_ok; [exact second_block_ok|vm_compute; reflexivity]|constructor].
  - exists d, fuel, s', d'. split; [exact DO|]. rewrite E. reflexivity.
Qed.

(** C48, against swallowed errors: a record that cannot be one silently ends its block, and the listing goes on, and
    ends, without an error although a part of the block has not been listed. *)
Theorem dir_listing_swallows_refuted :
  ~ (forall c F I d l fuel s' d' es, opened c (fs_sb F) (fs_groups F) -> len (in_storage I) = 160 ->
       (forall sd, in_seed I = Some sd -> sd < 2 ^ 32) -> u64_ok (len c) -> dir_open F I = Ok d ->
       let bs := sb4_block_size (fs_sb F) in
       maps c bs 32767 (readable c (fun _ => False) F) (in_blocks_buffer I) 0 l -> Forall (readable c (fun _ => False) F) l ->
       in_file_size_bytes I = len l * bs -> Forall (fun q => dir_tail_ok (in_seed I) (device_block c bs q)) l ->
       run_dir mem_stream fuel (length es + 1) (mem_new c 512) d = Some (s', d', map (fun e => Ok (Some e)) es ++ [Ok None]) ->
       concat es = concat (map (fun q => window (device_block c bs q) 0 (dir_limit (in_seed I) (device_block c bs q))) l)).
Proof.
  intros H. destruct (dir_images_opened torn_block (or_intror eq_refl)) as [L OP].
  destruct (dir_images_map torn_block L) as (M & R & LG).
  assert (X : exists d s' d', dir_open ex_fs ex_dir = Ok d /\
     run_dir mem_stream 10 5 (mem_new (ex_dir_image torn_block) 512) d =
       Some (s', d', map (fun e => Ok (Some e)) (map encode_record (first_block ++ torn_block)) ++ [Ok None])).
  { eexists. eexists. eexists. split; [vm_compute; reflexivity|]. vm_compute. reflexivity. }
  destruct X as (d & s' & d' & DO & E).
  assert (T : Forall (fun q => dir_tail_ok (in_seed ex_dir) (device_block (ex_dir_image torn_block) (sb4_block_size (fs_sb ex_fs)) q)) [8; 9]).
  { change (in_seed ex_dir) with (Some 5).
    assert (B : forall q, q = 8 \/ q = 9 -> exists body, device_block (ex_dir_image torn_block) (sb4_block_size (fs_sb ex_fs)) q =
       body ++ encode_tail (ext4_crc32c 5 body)).
    { intros q [->| ->]; [exists (concat (map encode_record first_block))|
        exists (concat (map encode_record torn_block) ++ zeros 1000)]; vm_compute; reflexivity. }
    constructor; [|constructor; [|constructor]]; [destruct (B 8) as (body & ->)|destruct (B 9) as (body & ->)]; auto;
      apply encode_tail_ok, crc32c_is_remainder; reflexivity. }
  assert (SZ : in_file_size_bytes ex_dir = len [8; 9] * sb4_block_size (fs_sb ex_fs)) by (vm_compute; reflexivity).
  assert (U : u64_ok (len (ex_dir_image torn_block))) by (rewrite L; discriminate).
  assert (SD : forall sd, in_seed ex_dir = Some sd -> sd < 2 ^ 32) by (intros sd Q; injection Q as <-; reflexivity).
  pose proof (H (ex_dir_image torn_block) ex_fs ex_dir d [8; 9] 10%nat s' d' (map encode_record (first_block ++ torn_block)) OP eq_refl
    SD U DO M R SZ T E) as Q. apply (f_equal len) in Q. vm_compute in Q. discriminate.
Qed.
Print Assumptions dir_listing_swallows_refuted.
