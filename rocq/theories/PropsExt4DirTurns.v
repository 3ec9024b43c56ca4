(** Property C115: how many turns listing a directory takes, how many entries there are, and what the calls settle on. *)

From Verif Require Import Base BaseFacts Io SpecStream IoFacts SpecMd SuperblockFacts Superblock Crc SpecCrc PropsCrc
  Ext4Superblock SpecExt4 PropsExt4Superblock Ext4Inode SpecExt4Inode PropsExt4Inode Ext4Fs SpecExt4Fs Ext4FsFacts
  PropsExt4Fs Ext4Extent Ext4File SpecExt4File Ext4FileFacts PropsExt4File Ext4Dir SpecExt4Dir PropsExt4Dir PropsExt4Listing SpecExt4Walk PropsExt4Walk
  PropsExt4Turns.

Local Opaque read_exact.

(** The entries among the results of calls. *)
Fixpoint entries_in (rs : list (res (option bytes))) : nat :=
  match rs with
  | [] => 0
  | Ok (Some _) :: rs => Datatypes.S (entries_in rs)
  | _ :: rs => entries_in rs
  end.

(** The results have settled: there is nothing more, or the blocks have come to an end before the file; or it was a panic. *)
Definition settled (rs : list (res (option bytes))) : Prop :=
  rs = [Panic] \/ exists k, rs = repeat (Ok None) k \/ rs = repeat (Err UnexpectedEof) k.

Section DirTurns.
  Context {S : Type} (st : stream S) (c : bytes) (bad : N -> Prop) (at_ : S -> N -> Prop).
  Hypothesis OK : stream_ok st c bad at_.
  Notation legal := (legal at_).
  Context (F : fs) (I : inode).
  Hypothesis OP : opened c (fs_sb F) (fs_groups F).
  Hypothesis IL : len (in_storage I) = 160.
  Notation seed := (in_seed I).
  Hypothesis SD : forall sd, seed = Some sd -> sd < 2 ^ 32.
  Notation bs := (sb4_block_size (fs_sb F)).
  Notation root := (in_blocks_buffer I).
  Notation file_ok := (file_ok c F I).
  Notation stack_steps := (stack_steps c F).
  Notation paid := (paid I).
  Notation short := (short I).
  Notation w := (N.to_nat (bs / 8)).

  Lemma call_ahead m s f l : legal s -> file_ok f -> stack_steps (fl_stack f) l -> (ahead f l <= m)%nat ->
    exists s' f' b r, read_next_block st (Datatypes.S m) s f (zeros bs) = Some (s', f', b, r) /\ legal s' /\
      (r = Panic \/ len b = bs /\ file_ok f' /\ exists l', stack_steps (fl_stack f') l' /\ (ahead f' l' <= ahead f l)%nat /\ paid r f l f' l').
  Proof.
    intros A FK SS Lm. destruct (loop_ahead st c bad at_ OK F I OP IL _ s f (zeros bs) l (le_n _) A FK ltac:(rewrite len_zeros; lia) SS)
      as (k & s' & f' & b & r & E & Lk & R).
    assert (E' : read_next_block st (Datatypes.S m) s f (zeros bs) = Some (s', f', b, r)).
    { unfold read_next_block, file_block_size. rewrite (fo_fs _ _ _ _ FK), (fs_block_size_ok c F OP), len_zeros.
      destruct (N.ltb_spec bs bs); [lia|]. apply (loop_mono st k); [lia|exact E]. }
    assert (K : (1 <= k)%nat) by (destruct k; [discriminate E|lia]).
    destruct (read_call_ok st c bad at_ OK F I OP _ _ _ _ _ _ _ _ A FK E') as [Lg O].
    exists s', f', b, r. split; [exact E'|]. split; [exact Lg|].
    destruct R as [R|(l' & S' & R & P)]; [now left|]. destruct O as [(_ & _ & _ & O)|[_ O]]; [rewrite len_zeros in O; lia|].
    unfold outcome in O. rewrite len_zeros in O. destruct (panics r) as [R0|NP]; [now left|right].
    destruct (call_keeps st c bad at_ OK F I OP _ _ _ _ _ _ _ _ A FK E') as [_ FK1]. split.
    - destruct r as [n|e|]; [|apply O|congruence]. destruct O as [_ [(_ & _ & _ & -> & _)|(q & _ & L & -> & _)]]; [apply len_zeros|now apply len_window_in].
    - split; [exact (FK1 NP)|]. exists l'. split; [exact S'|]. split; [lia|exact P].
  Qed.

  (** The steps [l] are ahead of the directory [d]; a block that is being listed is one of the file. *)
  Definition going (d : directory) (l : list step) : Prop :=
    file_ok (dr_file d) /\ stack_steps (fl_stack (dr_file d)) l /\
    match dr_current d with CbBlock b => db_pos b <= db_len b /\ db_len b <= len (db_storage b) /\ len (db_storage b) = bs | _ => True end.

  (** Entries that there may still be. *)
  Definition room (d : directory) (l : list step) : nat :=
    datas l * w + match dr_current d with CbBlock b => N.to_nat ((db_len b - db_pos b) / 8) | _ => 0 end.
  (** Calls that may still be answered with something else. *)
  Definition budget (d : directory) (l : list step) : nat := ahead (dr_file d) l + room d l.

  (** States that are not left any more. *)
  Definition stuck (d : directory) : Prop :=
    file_ok (dr_file d) /\ short (dr_file d) /\
    match dr_current d with CbStart => True | CbBlock b => dir_block_next b = (b, Ok None) | CbEnd => False end.

  Lemma w_pos : (1 <= w)%nat.
  Proof.
    pose proof (bs_ge F) as BG. assert (1 <= bs / 8) by (apply N.div_le_lower_bound; lia). lia.
  Qed.

  Lemma advance_ahead m s d l : legal s -> going d l -> (ahead (dr_file d) l <= m)%nat ->
    exists s' d' r, dir_advance st (Datatypes.S m) s d = Some (s', d', r) /\
      (r = Panic \/ legal s' /\ exists l', going d' l' /\ (ahead (dr_file d') l' <= ahead (dr_file d) l)%nat /\ (datas l' <= datas l)%nat /\
        match r with
        | Ok _ => dr_current d' = CbEnd \/ (datas l' < datas l)%nat /\ exists b, dr_current d' = CbBlock b
        | Err e => dr_current d' = dr_current d /\
                   (e = UnexpectedEof /\ short (dr_file d') \/ (ahead (dr_file d') l' < ahead (dr_file d) l)%nat \/ (datas l' < datas l)%nat)
        | Panic => True
        end).
  Proof.
    intros A (FK & SS & B) Lm. destruct (call_ahead m s (dr_file d) l A FK SS Lm) as (s' & f' & b & r & E & Lg & R).
    unfold dir_advance, dir_next_block, file_block_size. rewrite (fo_fs _ _ _ _ FK), (fs_block_size_ok c F OP), E.
    destruct R as [->|(LB & FK' & l' & S' & La & P1 & P2)]; [do 3 eexists; split; [reflexivity|now left]|].
    assert (G : forall cur, match cur with CbBlock b => db_pos b <= db_len b /\ db_len b <= len (db_storage b) /\ len (db_storage b) = bs | _ => True end ->
              going (Directory f' cur) l') by (intros cur Hc; split; [exact FK'|]; split; [exact S'|exact Hc]).
    destruct r as [n|e|].
    - destruct (N.eqb_spec n 0) as [N0|N0].
      + do 3 eexists. split; [reflexivity|]. right. split; [exact Lg|]. exists l'. split; [now apply G|]. cbn [dr_file dr_current]. auto.
      + destruct P2 as [P2|P2]; [contradiction|]. destruct (N.eqb_spec n bs) as [N1|N1].
        * rewrite (fo_inode _ _ _ _ FK'). pose proof (bs_ge F) as BG.
          destruct (dir_block_new_spec b seed ltac:(lia) SD) as [[T ->]|[T ->]]; cbn [rbind].
          -- do 3 eexists. split; [reflexivity|]. right. split; [exact Lg|]. exists l'. split.
             { apply G. cbn [db_pos db_len db_storage]. split; [lia|]. split; [unfold dir_limit; destruct seed; lia|exact LB]. }
             cbn [dr_file dr_current]. split; [exact La|]. split; [exact P1|]. right. split; [exact P2|eauto].
          -- do 3 eexists. split; [reflexivity|]. right. split; [exact Lg|]. exists l'. split; [now apply G|]. cbn [dr_file dr_current]. auto 6.
        * do 3 eexists. split; [reflexivity|]. right. split; [exact Lg|]. exists l'. split; [now apply G|]. cbn [dr_file dr_current]. auto 6.
    - do 3 eexists. split; [reflexivity|]. right. split; [exact Lg|]. exists l'. split; [now apply G|]. cbn [dr_file dr_current]. tauto.
    - do 3 eexists. split; [reflexivity|]. now left.
  Qed.

  (** What a call does. *)
  Definition call_pays (d : directory) (l : list step) (d' : directory) (l' : list step) (r : res (option bytes)) : Prop :=
    going d' l' /\ (ahead (dr_file d') l' <= ahead (dr_file d) l /\ datas l' <= datas l)%nat /\ (room d' l' + entries_in [r] <= room d l)%nat /\
    ((budget d' l' < budget d l)%nat \/ r = Ok None /\ dr_current d' = CbEnd \/ r = Err UnexpectedEof /\ stuck d').

  Lemma loop_pays m turns : forall s d l, legal s -> going d l -> (ahead (dr_file d) l <= m)%nat ->
    dr_current d = CbEnd /\ (1 <= turns)%nat \/ (exists b, dr_current d = CbBlock b) /\ (datas l + 2 <= turns)%nat ->
    exists s' d' r, dir_loop st (Datatypes.S m) turns s d = Some (s', d', r) /\ (r = Panic \/ legal s' /\ exists l', call_pays d l d' l' r).
  Proof.
    induction turns as [|turns IH]; intros s d l A G Lm T; [exfalso; lia|]. cbn [dir_loop].
    destruct T as [[C _]|[[b C] T]]; rewrite C.
    { do 3 eexists. split; [reflexivity|]. right. split; [exact A|]. exists l. split; [exact G|]. split; [lia|]. split; [cbn; lia|]. auto. }
    destruct G as (FK & SS & B). rewrite C in B. destruct b as [b o lim]. cbn [db_pos db_len db_storage] in B. destruct B as (B1 & B2 & B3).
    destruct (dir_block_next_spec b lim o B2 B1) as [(e & RE & X)|(NR & X)]; rewrite X.
    - destruct (record_at_len b lim o e B2 RE) as (_ & L8 & LL). do 3 eexists. split; [reflexivity|]. right. split; [exact A|]. exists l.
      assert (Q : (N.to_nat ((lim - (o + len e)) / 8) + 1 <= N.to_nat ((lim - o) / 8))%nat).
      { assert ((lim - (o + len e)) / 8 + 1 <= (lim - o) / 8); [|lia]. apply N.div_le_lower_bound; [discriminate|].
        pose proof (N.mul_div_le (lim - (o + len e)) 8 ltac:(discriminate)). lia. }
      unfold call_pays, budget, room, going. rewrite C. cbn [dr_file dr_current db_pos db_len db_storage entries_in].
      split; [split; [exact FK|]; split; [exact SS|]; lia|]. split; [lia|]. split; [lia|]. left. lia.
    - set (d1 := Directory (dr_file d) (CbBlock (DirBlock b o lim))).
      assert (G1 : going d1 l) by (split; [exact FK|]; split; [exact SS|]; cbn [d1 dr_current db_pos db_len db_storage]; lia).
      destruct (advance_ahead m s d1 l A G1 Lm) as (s2 & d2 & r2 & -> & R). change (dr_file d1) with (dr_file d) in R.
      assert (RM : room d l = room d1 l) by (unfold room; rewrite C; reflexivity).
      destruct R as [->|(Lg & l2 & G2 & La & Ll & R)]; [do 3 eexists; split; [reflexivity|now left]|]. pose proof w_pos as WP.
      destruct r2 as [u|e|]; [| |do 3 eexists; split; [reflexivity|now left]].
      + assert (Q : (room d2 l2 <= room d1 l)%nat).
        { unfold room. destruct R as [->|[R [b2 E2]]]; [nia|]. rewrite E2. destruct G2 as (_ & _ & Y). rewrite E2 in Y.
          assert ((db_len b2 - db_pos b2) / 8 <= bs / 8) by (apply N.div_le_mono; [discriminate|lia]).
          assert (N.to_nat ((db_len b2 - db_pos b2) / 8) <= w)%nat by lia. nia. }
        destruct (IH s2 d2 l2 Lg G2 ltac:(lia)) as (s' & d' & r & E & Z).
        { destruct R as [->|[R [b2 E2]]]; [left; split; [reflexivity|lia]|right; split; [eauto|lia]]. }
        exists s', d', r. split; [exact E|]. destruct Z as [->|(Lg' & l' & G' & Z1 & Z2 & Z3)]; [now left|right].
        split; [exact Lg'|]. exists l'. split; [exact G'|]. split; [lia|]. split; [lia|].
        destruct Z3 as [Z3|Z3]; [left|now right]. unfold budget in *. lia.
      + do 3 eexists. split; [reflexivity|]. right. split; [exact Lg|]. exists l2. destruct R as [CE R]. split; [exact G2|]. split; [lia|].
        assert (RE : (room d2 l2 + (datas l - datas l2) <= room d1 l)%nat) by (unfold room; rewrite CE; nia).
        split; [cbn [entries_in]; lia|]. destruct R as [(-> & R)|R].
        * right. right. split; [reflexivity|]. split; [apply G2|]. split; [exact R|]. rewrite CE. cbn [d1 dr_current]. exact X.
        * left. unfold budget. lia.
  Qed.

  Lemma next_pays m s d l : legal s -> going d l -> (ahead (dr_file d) l <= m)%nat -> (datas l + 2 <= Datatypes.S m)%nat ->
    exists s' d' r, dir_next st (Datatypes.S m) s d = Some (s', d', r) /\ (r = Panic \/ legal s' /\ exists l', call_pays d l d' l' r).
  Proof.
    intros A G Lm L2. unfold dir_next. destruct (dr_current d) as [|b|] eqn:C.
    - destruct (advance_ahead m s d l A G Lm) as (s2 & d2 & r2 & -> & R). pose proof w_pos as WP.
      destruct R as [->|(Lg & l2 & G2 & La & Ll & R)]; [do 3 eexists; split; [reflexivity|now left]|].
      destruct r2 as [u|e|]; [| |do 3 eexists; split; [reflexivity|now left]].
      + assert (Q : (room d2 l2 <= room d l)%nat).
        { unfold room. rewrite C. destruct R as [->|[R [b2 E2]]]; [nia|]. rewrite E2. destruct G2 as (_ & _ & Y). rewrite E2 in Y.
          assert ((db_len b2 - db_pos b2) / 8 <= bs / 8) by (apply N.div_le_mono; [discriminate|lia]).
          assert (N.to_nat ((db_len b2 - db_pos b2) / 8) <= w)%nat by lia. nia. }
        destruct (loop_pays m (Datatypes.S m) s2 d2 l2 Lg G2 ltac:(lia)) as (s' & d' & r & E & Z).
        { destruct R as [->|[R [b2 E2]]]; [left; split; [reflexivity|lia]|right; split; [eauto|lia]]. }
        exists s', d', r. split; [exact E|]. destruct Z as [->|(Lg' & l' & G' & Z1 & Z2 & Z3)]; [now left|right].
        split; [exact Lg'|]. exists l'. split; [exact G'|]. split; [lia|]. split; [lia|].
        destruct Z3 as [Z3|Z3]; [left|now right]. unfold budget in *. lia.
      + do 3 eexists. split; [reflexivity|]. right. split; [exact Lg|]. exists l2. destruct R as [CE R]. split; [exact G2|]. split; [lia|].
        assert (RE : (room d2 l2 + (datas l - datas l2) <= room d l)%nat) by (unfold room; rewrite CE; nia).
        split; [cbn [entries_in]; lia|]. destruct R as [(-> & R)|R].
        * right. right. split; [reflexivity|]. split; [apply G2|]. split; [exact R|]. rewrite CE, C. exact Logic.I.
        * left. unfold budget. lia.
    - apply loop_pays; auto. right. split; [eauto|lia].
    - apply loop_pays; auto. left. split; [exact C|lia].
  Qed.

  (** The settled states answer the same for ever. *)
  Lemma run_ended fuel n s d : dr_current d = CbEnd -> run_dir st (Datatypes.S fuel) n s d = Some (s, d, repeat (Ok None) n).
  Proof. intros C. apply (run_end st I IL); [lia|exact C]. Qed.

  Lemma advance_stuck fuel s d : file_ok (dr_file d) -> short (dr_file d) -> dir_advance st (Datatypes.S fuel) s d = Some (s, d, Err UnexpectedEof).
  Proof.
    intros FK [E N]. unfold dir_advance, dir_next_block, read_next_block, file_block_size.
    rewrite (fo_fs _ _ _ _ FK), (fs_block_size_ok c F OP), len_zeros. destruct (N.ltb_spec bs bs); [lia|]. cbn [file_loop]. unfold file_turn.
    rewrite E. unfold file_size_bytes. rewrite (fo_inode _ _ _ _ FK). destruct (N.eqb_spec (fl_byte (dr_file d)) (in_file_size_bytes I)); [contradiction|].
    destruct d as [f cur]. reflexivity.
  Qed.

  Lemma run_stuck fuel n s d : stuck d -> run_dir st (Datatypes.S fuel) n s d = Some (s, d, repeat (Err UnexpectedEof) n).
  Proof.
    intros (FK & SH & C). induction n as [|n IH]; [reflexivity|]. cbn [run_dir repeat].
    assert (E : dir_next st (Datatypes.S fuel) s d = Some (s, d, Err UnexpectedEof)).
    { pose proof (advance_stuck fuel s d FK SH) as AS. unfold dir_next. destruct d as [f cur]. cbn [dr_current] in *.
      destruct cur as [|b|]; [now rewrite AS| |contradiction]. cbn [dir_loop dr_current]. rewrite C. cbn [dr_file]. now rewrite AS. }
    now rewrite E, IH.
  Qed.

  Lemma entries_repeat n r : entries_in [r] = 0%nat -> entries_in (repeat r n) = 0%nat.
  Proof. intros E. induction n as [|n IH]; [reflexivity|]. destruct r as [[x|]|e|]; cbn in *; [discriminate E|exact IH..]. Qed.
  Lemma entries_cons r rs : entries_in (r :: rs) = (entries_in [r] + entries_in rs)%nat.
  Proof. destruct r as [[x|]|e|]; reflexivity. Qed.

  (** C115: every call of a listing returns, after no more turns than twice the steps of the directory's file, and two; there are
      no more entries than fit its blocks, and at most so many answers, and one for each step and node, before all further ones
      are the same: that there is nothing more, or that the blocks have come to an end before the file. *)
  Theorem listing_turns s d l n : legal s -> dir_open F I = Ok d -> walk c bs root l ->
    exists s' d' front back, run_dir st (2 * length l + 2) n s d = Some (s', d', front ++ back) /\ settled back /\
      (entries_in (front ++ back) <= datas l * w)%nat /\ (length front <= datas l * w + 2 * length l + 1)%nat.
  Proof.
    intros A DO W. unfold dir_open in DO. destruct (contains _ _); [discriminate DO|].
    destruct (file_open F I) as [f|e|] eqn:FO; [|discriminate DO..]. injection DO as <-.
    destruct (file_start c F I IL f l FO W) as (FK & SS & M).
    replace (2 * length l + 2)%nat with (Datatypes.S (2 * length l + 1)) by lia. set (m := (2 * length l + 1)%nat) in *.
    set (d := Directory f CbStart).
    assert (G : going d l) by (split; [exact FK|]; split; [exact SS|exact Logic.I]).
    assert (BD : budget d l = (datas l * w + 2 * length l + 1)%nat) by (unfold budget, room, d; cbn [dr_file dr_current]; lia).
    assert (RM : room d l = (datas l * w)%nat) by (unfold room, d; cbn [dr_current]; lia). rewrite <- BD, <- RM.
    assert (Lm : (ahead (dr_file d) l <= m)%nat) by (cbn [d dr_file]; lia). assert (L2 : (datas l + 2 <= Datatypes.S m)%nat) by (pose proof (datas_length l); lia).
    clearbody d m. clear BD RM M SS FK FO W f. revert s d l A G Lm L2.
    induction n as [|n IH]; intros s d l A G Lm L2.
    { exists s, d, [], []. split; [reflexivity|]. split; [right; exists 0%nat; now left|]. cbn. lia. }
    cbn [run_dir]. destruct (next_pays m s d l A G Lm L2) as (s1 & d1 & r & E & R). rewrite E.
    destruct R as [->|(Lg & l1 & G1 & La & RM & B)].
    { exists s1, d1, [], [Panic]. split; [reflexivity|]. split; [now left|]. cbn. lia. }
    destruct (panics r) as [->|NP].
    { exists s1, d1, [], [Panic]. split; [reflexivity|]. split; [now left|]. cbn. lia. }
    assert (RD : forall s2 d2 rs, run_dir st (Datatypes.S m) n s1 d1 = Some (s2, d2, rs) ->
      match r with
      | Panic => Some (s1, d1, [Panic])
      | _ => match run_dir st (Datatypes.S m) n s1 d1 with Some (s2, d2, rs) => Some (s2, d2, r :: rs) | None => None end
      end = Some (s2, d2, r :: rs)).
    { intros s2 d2 rs E2. rewrite E2. destruct r; [reflexivity|reflexivity|congruence]. }
    destruct B as [B|[(-> & C)|(-> & K)]].
    - assert (LL : (datas l1 + 2 <= Datatypes.S m)%nat) by lia.
      destruct (IH s1 d1 l1 Lg G1 ltac:(lia) LL) as (s2 & d2 & front & back & E2 & ST & Z1 & Z2).
      exists s2, d2, (r :: front), back. cbn [app]. split; [destruct r; [now rewrite E2..|congruence]|]. split; [exact ST|].
      split; [rewrite entries_cons; lia|cbn [length]; lia].
    - pose proof (run_ended m n s1 d1 C) as E2. exists s1, d1, [], (repeat (Ok None) (Datatypes.S n)). cbn [app repeat]. rewrite E2.
      split; [reflexivity|]. split; [right; exists (Datatypes.S n); now left|]. split; [|cbn; lia].
      change (entries_in (repeat (Ok None) (Datatypes.S n)) <= room d l)%nat. rewrite entries_repeat by reflexivity. lia.
    - pose proof (run_stuck m n s1 d1 K) as E2. exists s1, d1, [], (repeat (Err UnexpectedEof) (Datatypes.S n)). cbn [app repeat]. rewrite E2.
      split; [reflexivity|]. split; [right; exists (Datatypes.S n); now right|]. split; [|cbn; lia].
      change (entries_in (repeat (Err UnexpectedEof) (Datatypes.S n)) <= room d l)%nat. rewrite entries_repeat by reflexivity. lia.
  Qed.
End DirTurns.
Print Assumptions listing_turns.

(** ** Examples: the directory of two blocks, with three steps; and one whose second block is beyond the end of the device *)
Definition lost_dir : inode :=
  Inode (fold_left poke [(0x4, to_le 4 2048); (0x20, to_le 4 0x80000); (0x28, ex_root (ex_header 2 4 0 ++ ex_extent 0 1 8 ++ ex_extent 1 1 16))] (zeros 160))
    (Some 5).
Definition lost_image : bytes := ex_dir_image second_block.

Lemma lost_image_opened : len lost_image = 16384 /\ opened lost_image (fs_sb ex_fs) (fs_groups ex_fs).
Proof. exact (dir_images_opened second_block (or_introl eq_refl)). Qed.

Lemma ex_dir_walks :
  walk lost_image (sb4_block_size (fs_sb ex_fs)) (in_blocks_buffer ex_dir) [Expect 0 2; Data 8 1; Data 9 0] /\
  walk lost_image (sb4_block_size (fs_sb ex_fs)) (in_blocks_buffer lost_dir) [Expect 0 3; Data 8 0; Expect 1 1; Data 16 0].
Proof.
  split.
  - refine (walk_leaf lost_image _ (in_blocks_buffer ex_dir) _ _); vm_compute; congruence.
  - refine (walk_leaf lost_image _ (in_blocks_buffer lost_dir) _ _); vm_compute; congruence.
Qed.

(** What the calls give, as far as it is of interest here. *)
Definition kinds (r : option (memdev * directory * list (res (option bytes)))) : option (list (res bool)) :=
  match r with
  | Some (_, _, rs) => Some (map (fun r => match r with Ok (Some _) => Ok true | Ok None => Ok false | Err e => Err e | Panic => Panic end) rs)
  | None => None
  end.
Definition kinds_of (i : inode) (turns n : nat) : option (list (res bool)) :=
  match dir_open ex_fs i with Ok d => kinds (run_dir mem_stream turns n (mem_new lost_image 512) d) | _ => None end.

Example listing_turns_ex : exists d, dir_open ex_fs ex_dir = Ok d /\ exists s' d' front back,
  run_dir mem_stream 8 9 (mem_new lost_image 512) d = Some (s', d', front ++ back) /\ settled back /\
  (entries_in (front ++ back) <= 256)%nat /\ (length front <= 263)%nat /\
  kinds_of ex_dir 8 9 = Some (repeat (Ok true) 5 ++ repeat (Ok false) 4) /\ kinds_of lost_dir 10 9 = Some (repeat (Ok true) 3 ++ repeat (Err UnexpectedEof) 6).
Proof.
  destruct lost_image_opened as [L OP]. destruct ex_dir_walks as [W _].
  destruct (dir_open ex_fs ex_dir) as [d|e|] eqn:DO; [|vm_compute in DO; discriminate DO..]. exists d. split; [reflexivity|].
  assert (U : u64_ok (len lost_image)) by (rewrite L; discriminate).
  assert (LG : legal (mem_at lost_image 512) (mem_new lost_image 512)) by (exists 0; repeat split; rewrite L; discriminate).
  destruct (listing_turns mem_stream _ _ _ (mem_stream_ok lost_image 512 U) ex_fs ex_dir OP eq_refl ltac:(intros sd E; injection E as <-; reflexivity)
              (mem_new lost_image 512) d _ 9 LG DO W) as (s' & d' & front & back & E & ST & B1 & B2).
  exists s', d', front, back. split; [exact E|]. split; [exact ST|]. split; [exact B1|]. split; [exact B2|]. split; vm_compute; reflexivity.
Qed.

(** C115, against coming to an end: the calls may settle on an error, so that a caller that goes on after errors until there is
    nothing more goes on for ever. *)
Lemma run_dir_more {S} (st : stream S) fuel k n : forall s d s1 d1 rs, run_dir st fuel n s d = Some (s1, d1, rs) -> ~ In Panic rs ->
  run_dir st fuel (n + k) s d = match run_dir st fuel k s1 d1 with Some (s2, d2, rs2) => Some (s2, d2, rs ++ rs2) | None => None end.
Proof.
  induction n as [|n IH]; intros s d s1 d1 rs E NP; cbn [run_dir Nat.add] in *.
  - injection E as <- <- <-. destruct (run_dir st fuel k s d) as [[[? ?] ?]|]; reflexivity.
  - destruct (dir_next st fuel s d) as [[[s0 d0] r]|]; [|discriminate E].
    destruct r as [x|e|]; [| |injection E as <- <- <-; destruct NP; now left];
      (destruct (run_dir st fuel n s0 d0) as [[[s2 d2] rs2]|] eqn:R; [|discriminate E]; injection E as <- <- <-;
       rewrite (IH _ _ _ _ _ R) by (intros H; apply NP; now right); destruct (run_dir st fuel k s2 d2) as [[[? ?] ?]|]; reflexivity).
Qed.
Lemma run_dir_same {S} (st : stream S) fuel s d e : dir_next st fuel s d = Some (s, d, Err e) ->
  forall n, run_dir st fuel n s d = Some (s, d, repeat (Err e) n).
Proof. intros E n. induction n as [|n IH]; [reflexivity|]. cbn [run_dir repeat]. now rewrite E, IH. Qed.
Lemma kinds_none (x : memdev) d rs ks : kinds (Some (x, d, rs)) = Some ks -> In (Ok None) rs -> In (Ok false) ks.
Proof. cbn [kinds]. intros E H. injection E as <-. apply in_map_iff. exists (Ok None). now split. Qed.
Lemma kinds_panic (x : memdev) d rs ks : kinds (Some (x, d, rs)) = Some ks -> In Panic rs -> In Panic ks.
Proof. cbn [kinds]. intros E H. injection E as <-. apply in_map_iff. exists Panic. now split. Qed.

Definition lost_five : option (memdev * directory * list (res (option bytes))) :=
  match dir_open ex_fs lost_dir with Ok d => run_dir mem_stream 10 5 (mem_new lost_image 512) d | _ => None end.
Definition same_again (r : option (memdev * directory * list (res (option bytes)))) : Prop :=
  match r with Some (s, d, _) => dir_next mem_stream 10 s d = Some (s, d, Err UnexpectedEof) | None => False end.

Theorem listing_end_refuted :
  ~ (forall c F I d l, opened c (fs_sb F) (fs_groups F) -> len (in_storage I) = 160 -> (forall sd, in_seed I = Some sd -> sd < 2 ^ 32) ->
       u64_ok (len c) -> dir_open F I = Ok d -> walk c (sb4_block_size (fs_sb F)) (in_blocks_buffer I) l ->
       exists n s' d' rs, run_dir mem_stream (2 * length l + 2) n (mem_new c 512) d = Some (s', d', rs) /\ In (Ok None) rs).
Proof.
  intros H. destruct lost_image_opened as [L OP]. destruct ex_dir_walks as [_ W].
  assert (K : forall n, (n <= 5)%nat -> exists ks, kinds_of lost_dir 10 n = Some ks /\ ~ In (Ok false) ks /\ ~ In Panic ks).
  { intros n Ln. exists (firstn n ([Ok true; Ok true; Ok true; Err UnexpectedEof; Err UnexpectedEof])).
    do 6 (destruct n as [|n]; [split; [vm_compute; reflexivity|split; cbn; intuition discriminate]|]). lia. }
  assert (A : same_again lost_five) by (vm_compute; reflexivity). unfold lost_five in A.
  unfold kinds_of in K.
  destruct (dir_open ex_fs lost_dir) as [d|e|] eqn:DO; [|vm_compute in DO; discriminate DO..].
  destruct (H lost_image ex_fs lost_dir d _ OP eq_refl ltac:(intros sd E; injection E as <-; reflexivity) ltac:(rewrite L; discriminate) DO W)
    as (n & s' & d' & rs & E & IN). clear H. change (2 * length _ + 2)%nat with 10%nat in E.
  destruct (le_gt_dec n 5) as [Ln|Ln].
  - destruct (K n Ln) as (ks & EK & NF & _). rewrite E in EK. apply NF. exact (kinds_none _ _ _ _ EK IN).
  - destruct (K 5%nat (le_n _)) as (ks & EK & NF & NP).
    destruct (run_dir mem_stream 10 5 (mem_new lost_image 512) d) as [[[s5 d5] rs5]|] eqn:R; [|contradiction]. cbn [same_again] in A.
    replace n with (5 + (n - 5))%nat in E by lia. rewrite (run_dir_more _ _ _ _ _ _ _ _ _ R) in E by (intros P; apply NP; exact (kinds_panic _ _ _ _ EK P)).
    rewrite (run_dir_same _ _ _ _ _ A) in E. injection E; intros; subst rs. apply in_app_or in IN as [IN|IN].
    + apply NF. exact (kinds_none _ _ _ _ EK IN).
    + apply repeat_spec in IN. discriminate IN.
Qed.
Print Assumptions listing_end_refuted.
