(** Property C108: how many turns reading a file takes. *)

From Verif Require Import Base BaseFacts Io SpecStream IoFacts SpecMd SuperblockFacts Superblock Crc SpecCrc PropsCrc
  Ext4Superblock SpecExt4 PropsExt4Superblock Ext4Inode SpecExt4Inode PropsExt4Inode Ext4Fs SpecExt4Fs Ext4FsFacts
  PropsExt4Fs Ext4Extent Ext4File SpecExt4File Ext4FileFacts PropsExt4File Ext4Dir SpecExt4Dir PropsExt4Dir PropsExt4Listing SpecExt4Walk PropsExt4Walk.

Local Opaque read_exact.

(** [spends st s f bufs n]: the calls with the buffers [bufs] return, within [n] turns of the loop in all; each turn reads the
    device at most once.  Nothing is asked for after a panic. *)
Inductive spends {S} (st : stream S) : S -> file -> list bytes -> nat -> Prop :=
| spends_nothing s f : spends st s f [] 0
| spends_call s f buf bufs k n s' f' buf' r :
    read_next_block st k s f buf = Some (s', f', buf', r) -> (r <> Panic -> spends st s' f' bufs n) -> spends st s f (buf :: bufs) (k + n).

(** The blocks among the steps. *)
Fixpoint datas (l : list step) : nat :=
  match l with
  | [] => 0
  | Data _ _ :: l => Datatypes.S (datas l)
  | _ :: l => datas l
  end.
Lemma datas_app l l' : datas (l ++ l') = (datas l + datas l')%nat.
Proof. induction l as [|x l IH]; [reflexivity|]. destruct x; cbn; now rewrite IH. Qed.
Lemma datas_data_steps n : forall q, datas (data_steps q n) = n.
Proof. induction n as [|n IH]; intros q; [reflexivity|]. cbn. now rewrite IH. Qed.
Lemma datas_length l : (datas l <= length l)%nat.
Proof. induction l as [|x l IH]; [reflexivity|]. destruct x; cbn; lia. Qed.

Section Turns.
  Context {S : Type} (st : stream S) (c : bytes) (bad : N -> Prop) (at_ : S -> N -> Prop).
  Hypothesis OK : stream_ok st c bad at_.
  Notation legal := (legal at_).
  Context (F : fs) (I : inode).
  Hypothesis OP : opened c (fs_sb F) (fs_groups F).
  Hypothesis IL : len (in_storage I) = 160.
  Notation bs := (sb4_block_size (fs_sb F)).
  Notation root := (in_blocks_buffer I).
  Notation size := (in_file_size_bytes I).
  Notation file_ok := (file_ok c F I).
  Notation stack_steps := (stack_steps c F).

  Definition ahead (f : file) (l : list step) : nat := 2 * length l + length (fl_stack f).

  Ltac count := unfold set_stack; cbn [app length fl_stack datas]; repeat first [rewrite app_length | rewrite length_data_steps | rewrite datas_app | rewrite datas_data_steps | progress cbn [app length datas]];
    rewrite ?N.sub_0_r; lia.

  (** Nothing is left of the tree, and the file is longer. *)
  Definition short (f : file) : Prop := fl_stack f = [] /\ fl_byte f <> size.

  (** What has been paid with when a call returns: a step of the file for a block, and something for an error, unless it is that
      the blocks have come to an end before the file. *)
  Definition paid (r : res N) (f : file) (l : list step) (f' : file) (l' : list step) : Prop :=
    (datas l' <= datas l)%nat /\
    match r with
    | Ok n => n = 0 \/ (datas l' < datas l)%nat
    | Err e => e = UnexpectedEof /\ short f' \/ (ahead f' l' < ahead f l)%nat
    | Panic => True
    end.

  Ltac counts := unfold paid; cbv beta iota; repeat match goal with |- _ /\ _ => split end;
    first [exact Logic.I | now left | count | right; unfold ahead; count | unfold ahead; count].

  (** Each turn that does not return leaves less to do, and no turn more. *)
  Lemma turn_ahead s f buf l : legal s -> file_ok f -> bs <= len buf -> stack_steps (fl_stack f) l ->
    match file_turn st s f buf with
    | Again _ f' => exists l', stack_steps (fl_stack f') l' /\ (ahead f' l' < ahead f l)%nat /\ (datas l' <= datas l)%nat
    | Return _ f' _ r => r = Panic \/ exists l', stack_steps (fl_stack f') l' /\ (ahead f' l' <= ahead f l)%nat /\ paid r f l f' l'
    end.
  Proof.
    intros A FO LB SS. destruct FO as [Ffs Fin Fst Fsz Fbl]. destruct f as [ffs fin stack blk byt]. unfold ahead.
    cbn [fl_fs fl_inode fl_stack fl_block fl_byte] in *. subst ffs fin. unfold file_turn. cbn [fl_stack].
    destruct SS as [|b seed pos rest l l' L NS SS|e pos rest l' SS].
    - right. exists []. split; [constructor|]. unfold file_size_bytes. cbn [fl_byte fl_inode].
      destruct (N.eqb_spec byt size) as [E|E]; [counts|]. split; [cbn; lia|]. split; [cbn; lia|]. left. now split.
    - assert (C : tree_entry_count (from_internal (Node b seed)) = node_entries b).
      { unfold from_internal, tree_entry_count. rewrite nd_depth_spec. destruct (node_depth b =? 0); cbn [tree_node]; apply nd_count_spec. }
      rewrite C. destruct (N.ltb_spec pos (node_entries b)) as [P|P].
      2:{ cbn [fl_stack set_stack]. exists l'. split; [exact SS|]. counts. }
      destruct (nd_entry_at_spec b seed pos L P) as [EF EN].
      destruct NS as [(FT & P0 & P1)|[(FT & D & ->)|(FT & D & NS)]].
      + assert (X : file_turn st s (File F I (STree (from_internal (Node b seed)) 0 :: rest) blk byt) buf
                    = Return s (File F I rest blk byt) buf Panic).
        { subst pos l. unfold file_turn. cbn [fl_stack]. rewrite C. apply N.ltb_lt in P. rewrite P. unfold from_internal.
          destruct (nd_depth (Node b seed) =? 0); [unfold leaf_turn|unfold branch_turn]; now rewrite (EN FT). }
        subst pos l. unfold file_turn in X. cbn [fl_stack] in X. rewrite C in X. apply N.ltb_lt in P. rewrite P in X.
        rewrite X. left. reflexivity.
      + unfold from_internal at 1. rewrite nd_depth_spec. destruct (N.eqb_spec (node_depth b) 0) as [_|D']; [|contradiction].
        unfold leaf_turn. rewrite (EF FT).
        cbn [fl_block set_stack fl_fs fl_inode fl_stack fl_byte]. rewrite ex_first_spec, (skipn_entries 0 ltac:(discriminate) b pos P).
        cbn [leaf_steps]. set (e := node_entry b pos).
        destruct (N.eqb_spec (extent_first e) blk) as [E|E]; cbn [negb].
        * replace (Leaf (Node b seed)) with (from_internal (Node b seed)) by (unfold from_internal; rewrite nd_depth_spec, D; reflexivity).
          eexists. split.
          { apply ss_extent. apply ss_tree; [exact L| |exact SS]. right. left. split; [exact FT|]. split; [exact D|reflexivity]. }
          counts.
        * right. exists l'. split; [exact SS|]. counts.
      + unfold from_internal at 1. rewrite nd_depth_spec. destruct (N.eqb_spec (node_depth b) 0) as [D'|_]; [contradiction|].
        unfold branch_turn. rewrite (EF FT). cbn [fl_block set_stack fl_fs fl_inode fl_stack fl_byte]. rewrite ix_first_spec.
        rewrite (skipn_entries 0 ltac:(discriminate) b pos P) in NS. set (e := node_entry b pos) in *.
        destruct (N.eqb_spec (index_first e) blk) as [E|E]; cbn [negb].
        2:{ right. exists l'. split; [exact SS|]. counts. }
        rewrite fs_block_size_ok with (c := c), ix_child_spec by exact OP.
        destruct (fs_read_block st F (index_child e) s (zeros bs)) as [[s' block] r] eqn:RB.
        destruct (fs_read_block_spec st c bad at_ OK _ _ _ _ _ _ _ A OP RB) as (Lg & LB' & X). rewrite len_zeros in *.
        destruct r as [u|er|]; [| |destruct X].
        * destruct X as (_ & X & ->). cbn [fl_stack set_stack].
          replace (Branch (Node b seed)) with (from_internal (Node b seed)).
          2:{ unfold from_internal. rewrite nd_depth_spec. destruct (N.eqb_spec (node_depth b) 0); [contradiction|reflexivity]. }
          inversion NS as [|? ? l1 l2 D1 W1 W2|? ? l2 D1 W2]; subst; [|exfalso; lia].
          eexists. split.
          { apply ss_tree; [| |apply ss_tree; [exact L| |exact SS]].
            - unfold device_block. rewrite len_window_in by lia. pose proof (bs_ge F). lia.
            - apply walk_node_steps. exact W1.
            - right. right. split; [exact FT|]. split; [exact D|exact W2]. }
          counts.
        * right. exists l'. split; [exact SS|]. counts.
    - assert (TB : ex_length e = taken_blocks e) by apply ex_length_spec.
      unfold extent_turn. rewrite TB. destruct (N.ltb_spec pos (taken_blocks e)) as [P|P].
      2:{ cbn [fl_stack set_stack]. exists l'. split; [exact SS|]. counts. }
      replace (N.to_nat (taken_blocks e - pos)) with (Datatypes.S (N.to_nat (taken_blocks e - (pos + 1)))) by lia.
      cbn [data_steps app]. set (k := N.to_nat (taken_blocks e - (pos + 1))).
      unfold file_size_bytes. cbn [fl_inode fl_byte set_stack fl_fs fl_block fl_stack].
      assert (X0 : forall e0, exists l'0, stack_steps rest l'0 /\ (2 * length l'0 + length rest <=
        2 * length (Data (extent_start e + pos) k :: data_steps (extent_start e + pos + 1) k ++ l') + length (SExtent e pos :: rest))%nat /\
        paid (Err e0) (File F I (SExtent e pos :: rest) blk byt) (Data (extent_start e + pos) k :: data_steps (extent_start e + pos + 1) k ++ l') (File F I rest blk byt) l'0).
      { intros e0. exists l'. split; [exact SS|]. counts. }
      destruct (N.leb_spec size byt) as [E|E]; [right; apply X0|].
      destruct (unwrap (cadd64 (ex_first_fs_block e) pos)) as [q|e0|]; [|right; apply X0|left; reflexivity].
      destruct (fs_read_block st F q s buf) as [[s' buf'] r] eqn:RB.
      destruct r as [u|er|]; [|right; apply X0|left; reflexivity].
      rewrite fs_block_size_ok with (c := c) by exact OP.
      destruct (unwrap (cadd32 blk 1)) as [q1|e0|]; [|right; apply X0|left; reflexivity].
      right. eexists. split; [apply ss_extent; exact SS|]. subst k. counts.
  Qed.

  (** One call: it returns within as many turns as there is ahead, and one; each turn but the last has been paid for. *)
  Lemma loop_ahead n : forall s f buf l, (ahead f l <= n)%nat -> legal s -> file_ok f -> bs <= len buf -> stack_steps (fl_stack f) l ->
    exists k s' f' buf' r, file_loop st k s f buf = Some (s', f', buf', r) /\ (k <= Datatypes.S (ahead f l))%nat /\
      (r = Panic \/ exists l', stack_steps (fl_stack f') l' /\ (k + ahead f' l' <= Datatypes.S (ahead f l))%nat /\ paid r f l f' l').
  Proof.
    induction n as [n IH] using lt_wf_ind. intros s f buf l Ln A FO LB SS.
    pose proof (turn_ahead s f buf l A FO LB SS) as T. pose proof (turn_ok st c bad at_ OK F I OP s f buf A FO LB) as O. cbv zeta in O.
    destruct (file_turn st s f buf) as [s1 f1 buf1 r1|s1 f1] eqn:TE.
    - exists 1%nat, s1, f1, buf1, r1. cbn [file_loop]. rewrite TE. split; [reflexivity|]. split; [lia|].
      destruct T as [T|(l' & S' & T & P)]; [now left|right]. exists l'. split; [exact S'|]. split; [lia|exact P].
    - cbn [turn_state] in O. destruct O as (Lg & FO1 & B1 & Y1). destruct T as (l1 & SS1 & T & T').
      destruct (IH (ahead f1 l1) ltac:(lia) s1 f1 buf l1 (le_n _) Lg FO1 LB SS1) as (k & s' & f' & buf' & r & E & Lk & R).
      exists (Datatypes.S k), s', f', buf', r. cbn [file_loop]. rewrite TE. split; [exact E|]. split; [lia|].
      destruct R as [R|(l' & S' & R & P1 & P2)]; [now left|right]. exists l'. split; [exact S'|]. split; [lia|]. split; [lia|].
      destruct r; [destruct P2; [now left|right; lia]|destruct P2; [now left|right; lia]|exact Logic.I].
  Qed.

  Lemma call_keeps fuel s f buf s' f' buf' r : legal s -> file_ok f -> read_next_block st fuel s f buf = Some (s', f', buf', r) ->
    legal s' /\ (r <> Panic -> file_ok f').
  Proof.
    intros A FK E. destruct (read_call_ok st c bad at_ OK F I OP _ _ _ _ _ _ _ _ A FK E) as [Lg O]. split; [exact Lg|]. intros NP.
    destruct O as [(_ & -> & _)|(_ & O)]; [exact FK|]. unfold outcome in O. destruct r as [x|e|]; [exact (proj1 O)|exact (proj1 O)|contradiction].
  Qed.
  Lemma panics {A} (r : res A) : r = Panic \/ r <> Panic.
  Proof. destruct r; [right; discriminate|right; discriminate|now left]. Qed.

  Lemma file_start f l : file_open F I = Ok f -> walk c bs root l -> file_ok f /\ stack_steps (fl_stack f) l /\ ahead f l = (2 * length l + 1)%nat.
  Proof.
    intros FO W. destruct (open_ok c F I IL f FO) as [FE FO']. split; [exact FO'|]. rewrite FE. unfold ahead. cbn [fl_stack length]. split; [|lia].
    rewrite <- (app_nil_r l). apply ss_tree; [|now apply walk_node_steps|constructor]. rewrite (in_root_len I IL). discriminate.
  Qed.

  (** C108: all calls together take at most twice as many turns as the file has steps, and one, and one for each call, whatever
      fails and in whatever buffers. *)
  Theorem file_turns s f l bufs : legal s -> file_open F I = Ok f -> walk c bs root l ->
    exists n, spends st s f bufs n /\ (n <= 2 * length l + 1 + length bufs)%nat.
  Proof.
    intros A FO W. destruct (file_start f l FO W) as (FK & SS & M). rewrite <- M. clear M W FO. revert s f l A FK SS.
    induction bufs as [|buf bufs IH]; intros s f l A FK SS; [exists 0%nat; split; [constructor|lia]|].
    destruct (N.le_gt_cases bs (len buf)) as [LB|LB].
    - destruct (loop_ahead _ s f buf l (le_n _) A FK LB SS) as (k & s' & f' & buf' & r & E & Lk & R).
      assert (E' : read_next_block st k s f buf = Some (s', f', buf', r)).
      { unfold read_next_block, file_block_size. rewrite (fo_fs _ _ _ _ FK), (fs_block_size_ok c F OP). destruct (N.ltb_spec (len buf) bs); [lia|exact E]. }
      destruct R as [->|(l' & S' & R & _)].
      + exists (k + 0)%nat. split; [now apply (spends_call st s f buf bufs k 0 s' f' buf' Panic)|]. cbn [length]. lia.
      + destruct (call_keeps _ _ _ _ _ _ _ _ A FK E') as [Lg FK1]. destruct (panics r) as [->|NP].
        * exists (k + 0)%nat. split; [now apply (spends_call st s f buf bufs k 0 s' f' buf' Panic)|]. cbn [length]. lia.
        * pose proof (FK1 NP) as FK'. destruct (IH s' f' l' Lg FK' S') as (n & Sn & Ln). exists (k + n)%nat. split; [|cbn [length]; lia].
          apply (spends_call st s f buf bufs k n s' f' buf' r E'). intros _. exact Sn.
    - assert (E' : read_next_block st 0 s f buf = Some (s, f, buf, Err InvalidInput)).
      { unfold read_next_block, file_block_size. rewrite (fo_fs _ _ _ _ FK), (fs_block_size_ok c F OP). destruct (N.ltb_spec (len buf) bs); [reflexivity|lia]. }
      destruct (IH s f l A FK SS) as (n & Sn & Ln). exists (0 + n)%nat. split; [|cbn [length]; lia].
      apply (spends_call st s f buf bufs 0 n s f buf (Err InvalidInput) E'). intros _. exact Sn.
  Qed.

  (** No call takes more than that, so this many turns for each are enough for [run_file]. *)
  Theorem file_turns_each s f l bufs : legal s -> file_open F I = Ok f -> walk c bs root l ->
    exists s' f' calls, run_file st (2 * length l + 2) s f bufs = Some (s', f', calls).
  Proof.
    intros A FO W. destruct (file_start f l FO W) as (FK & SS & M). replace (2 * length l + 2)%nat with (Datatypes.S (2 * length l + 1)) by lia.
    set (m := (2 * length l + 1)%nat) in *. assert (Lm : (ahead f l <= m)%nat) by lia. clearbody m. clear M W FO. revert s f l A FK SS Lm.
    induction bufs as [|buf bufs IH]; intros s f l A FK SS Lm; [do 3 eexists; reflexivity|]. cbn [run_file].
    destruct (N.le_gt_cases bs (len buf)) as [LB|LB].
    - destruct (loop_ahead _ s f buf l (le_n _) A FK LB SS) as (k & s' & f' & buf' & r & E & Lk & R).
      assert (E' : read_next_block st (Datatypes.S m) s f buf = Some (s', f', buf', r)).
      { unfold read_next_block, file_block_size. rewrite (fo_fs _ _ _ _ FK), (fs_block_size_ok c F OP). destruct (N.ltb_spec (len buf) bs); [lia|].
        apply (loop_mono st k); [lia|exact E]. }
      rewrite E'. destruct (call_keeps _ _ _ _ _ _ _ _ A FK E') as [Lg FK1].
      assert (K : (1 <= k)%nat) by (destruct k; [discriminate E|lia]).
      assert (D : r = Panic \/ (file_ok f' /\ exists l', stack_steps (fl_stack f') l' /\ (ahead f' l' <= m)%nat)).
      { destruct R as [R|(l' & S' & R & _)]; [now left|]. destruct (panics r) as [R0|NP]; [now left|right]. split; [exact (FK1 NP)|].
        exists l'. split; [exact S'|lia]. }
      destruct D as [->|(FK' & l' & S' & L')]; [do 3 eexists; reflexivity|].
      destruct (IH s' f' l' Lg FK' S' L') as (s2 & f2 & calls & ->). destruct r; do 3 eexists; reflexivity.
    - assert (E' : read_next_block st (Datatypes.S m) s f buf = Some (s, f, buf, Err InvalidInput)).
      { unfold read_next_block, file_block_size. rewrite (fo_fs _ _ _ _ FK), (fs_block_size_ok c F OP). destruct (N.ltb_spec (len buf) bs); [reflexivity|lia]. }
      rewrite E'. destruct (IH s f l A FK SS Lm) as (s2 & f2 & calls & ->). do 3 eexists. reflexivity.
  Qed.
End Turns.
Print Assumptions file_turns.
Print Assumptions file_turns_each.

(** Calls with a given number of turns for each. *)
Fixpoint run_within {S} (st : stream S) (s : S) (f : file) (calls : list (nat * bytes)) : option (list (res N)) :=
  match calls with
  | [] => Some []
  | (k, buf) :: calls =>
      match read_next_block st k s f buf with
      | Some (s, f, _, r) => match run_within st s f calls with Some rs => Some (r :: rs) | None => None end
      | None => None
      end
  end.
Lemma run_within_spends {S} (st : stream S) calls : forall s f rs, run_within st s f calls = Some rs ->
  spends st s f (map snd calls) (fold_right (fun x n => (fst x + n)%nat) 0%nat calls).
Proof.
  induction calls as [|[k buf] calls IH]; intros s f rs E; [constructor|]. cbn [run_within] in E. cbn [map snd fst fold_right].
  destruct (read_next_block st k s f buf) as [[[[s1 f1] b1] r1]|] eqn:R; [|discriminate E].
  destruct (run_within st s1 f1 calls) as [rs1|] eqn:R1; [|discriminate E]. apply (spends_call _ _ _ _ _ _ _ _ _ _ _ R). intros _. exact (IH _ _ _ R1).
Qed.

(** The file of four blocks below two leaves has 11 steps; its blocks and its end are read in 3, 3, 5, 1 and 4 turns, and not in less. *)
Example file_turns_ex :
  let buf := zeros 1024 in
  let run := fun ks => match file_open ex_fs ex_file with Ok f => run_within mem_stream (mem_new ex_image 512) f (map (fun k => (k, buf)) ks) | _ => None end in
  run [3; 3; 5; 1; 4]%nat = Some [Ok 1024; Ok 1024; Ok 1024; Ok 428; Ok 0] /\
  run [2]%nat = None /\ run [3; 2]%nat = None /\ run [3; 3; 4]%nat = None /\ run [3; 3; 5; 0]%nat = None /\ run [3; 3; 5; 1; 3]%nat = None /\
  exists f l, file_open ex_fs ex_file = Ok f /\ walk ex_image 1024 (in_blocks_buffer ex_file) l /\ length l = 11%nat /\
    spends mem_stream (mem_new ex_image 512) f (repeat buf 5) 16.
Proof.
  cbv zeta. set (P := fun f => run_within mem_stream (mem_new ex_image 512) f (map (fun k => (k, zeros 1024)) [3; 3; 5; 1; 4]%nat)).
  assert (E : match file_open ex_fs ex_file with Ok f => P f | _ => None end = Some [Ok 1024; Ok 1024; Ok 1024; Ok 428; Ok 0]) by (vm_compute; reflexivity).
  split; [exact E|]. do 5 (split; [vm_compute; reflexivity|]).
  destruct (file_open ex_fs ex_file) as [f|e|] eqn:FO; [|discriminate E|discriminate E]. exists f. eexists. split; [reflexivity|].
  split; [exact file_exact_tree_ex|]. split; [reflexivity|]. exact (run_within_spends _ _ _ _ _ E).
Qed.
