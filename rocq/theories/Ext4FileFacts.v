(** Auxiliary facts for [PropsExt4File]: nodes of extent trees, and what one turn of the reading loop does. *)

From Coq Require Import Strings.String.
From Verif Require Import Base BaseFacts Io SpecStream IoFacts SpecMd SuperblockFacts Superblock Crc SpecCrc PropsCrc
  Ext4Superblock SpecExt4 PropsExt4Superblock Ext4Inode SpecExt4Inode PropsExt4Inode Ext4Fs SpecExt4Fs Ext4FsFacts
  PropsExt4Fs Ext4Extent Ext4File SpecExt4File.

Local Opaque read_exact.

(** ** Nodes *)

Lemma skipn_seq k a n : skipn k (seq a n) = seq (a + k) (n - k).
Proof.
  revert a n. induction k as [|k IH]; intros a n; [now rewrite Nat.add_0_r, Nat.sub_0_r|].
  destruct n as [|n]; [reflexivity|]. cbn [seq skipn Nat.sub]. rewrite IH. f_equal. lia.
Qed.

Ltac fle_field :=
  match goal with |- context [fle ?lay ?n ?st] =>
    let f := eval vm_compute in (field lay n) in
    match f with Some (?o, ?w) =>
      let k := eval vm_compute in (N.to_nat w) in
      rewrite (fle_uint lay n o w st) by reflexivity; change (N.to_nat w) with k
    end
  end.

Lemma ex_first_spec e : ex_first_file_block e = extent_first e.
Proof. unfold ex_first_file_block. fle_field. reflexivity. Qed.

Lemma ex_length_spec e : ex_length e = extent_value e mod 32768.
Proof. unfold ex_length. fle_field. change 0x7fff with (N.ones 15). now rewrite N.land_ones. Qed.

Lemma extent_value_bound e : extent_value e < 65536.
Proof. apply (uint_le_bound e 4 2). Qed.

Lemma ex_length_blocks e : ex_length e <= extent_blocks e /\ (extent_value e <> 32768 -> ex_length e = extent_blocks e).
Proof.
  rewrite ex_length_spec. unfold extent_blocks. pose proof (extent_value_bound e) as B. set (v := extent_value e) in *.
  clearbody v. pose proof (N.div_mod v 32768 ltac:(discriminate)) as D. pose proof (N.mod_lt v 32768 ltac:(discriminate)) as M.
  destruct (N.leb_spec v 32768); lia.
Qed.

Lemma ex_start_spec e : ex_first_fs_block e = extent_start e.
Proof. unfold ex_first_fs_block, from_low_high. repeat fle_field. apply lor_shift, (uint_le_bound e 8 4). Qed.

Lemma ix_first_spec e : ix_block e = index_first e.
Proof. unfold ix_block. fle_field. reflexivity. Qed.

Lemma ix_child_spec e : ix_leaf e = index_child e.
Proof. unfold ix_leaf, from_low_high. repeat fle_field. apply lor_shift, (uint_le_bound e 4 4). Qed.

Lemma extent_start_bound e : extent_start e < 2 ^ 48.
Proof.
  unfold extent_start. pose proof (uint_le_bound e 8 4) as A. pose proof (uint_le_bound e 6 2) as B.
  change (256 ^ N.of_nat 4) with (2 ^ 32) in A. change (256 ^ N.of_nat 2) with (2 ^ 16) in B.
  change (2 ^ 48) with (2 ^ 32 * 2 ^ 16). change (2 ^ 32) with 4294967296 in *. change (2 ^ 16) with 65536 in *. lia.
Qed.

Section Node.
  Context (b : bytes) (seed : option N).
  Notation n := (Node b seed).

  Lemma nd_count_spec : nd_entry_count n = node_entries b.
  Proof. unfold nd_entry_count. fle_field. reflexivity. Qed.
  Lemma nd_depth_spec : nd_depth n = node_depth b.
  Proof. unfold nd_depth. fle_field. reflexivity. Qed.

  Lemma nd_entries_spec : 12 <= len b ->
    (node_fits b -> nd_entries_storage n = Ok (window b 12 (12 * node_entries b))) /\
    (~ node_fits b -> nd_entries_storage n = Panic).
  Proof.
    intros L. unfold nd_entries_storage, node_fits. unfold nd_entries_size. rewrite nd_count_spec. cbn [nd_storage].
    change (layout_size header_layout) with 12. change (layout_size index_layout) with 12.
    unfold slice_from. destruct (N.leb_spec 12 (len b)); [|lia]. cbn [unwrap rbind]. unfold slice_to.
    rewrite len_skipn, N2Nat.id. split; intros F.
    - destruct (N.leb_spec (node_entries b * 12) (len b - 12)); [|lia]. cbn [unwrap]. unfold window.
      rewrite (N.mul_comm 12). reflexivity.
    - destruct (N.leb_spec (node_entries b * 12) (len b - 12)); [lia|reflexivity].
  Qed.

  Lemma nd_entry_at_spec pos : 12 <= len b -> pos < node_entries b ->
    (node_fits b -> nd_entry_at n pos = Ok (Some (node_entry b pos))) /\ (~ node_fits b -> nd_entry_at n pos = Panic).
  Proof.
    intros L P. unfold nd_entry_at. rewrite nd_count_spec. destruct (N.ltb_spec pos (node_entries b)); [|lia].
    destruct (nd_entries_spec L) as [A B]. split; intros F.
    - rewrite (A F). cbn [rbind]. change (layout_size index_layout) with 12. unfold node_fits in F.
      unfold slice_from. rewrite len_window_in by lia. destruct (N.leb_spec (pos * 12) (12 * node_entries b)); [|lia].
      cbn [unwrap rbind]. unfold slice_to. rewrite len_skipn, N2Nat.id, len_window_in by lia.
      destruct (N.leb_spec 12 (12 * node_entries b - pos * 12)); [|lia]. cbn [unwrap rbind].
      f_equal. f_equal. change (firstn (N.to_nat 12) (skipn (N.to_nat (pos * 12)) (window b 12 (12 * node_entries b))))
        with (window (window b 12 (12 * node_entries b)) (pos * 12) 12).
      rewrite window_nested by lia. unfold node_entry. f_equal. lia.
    - now rewrite (B F).
  Qed.
End Node.

(** ** One turn of the loop *)

Definition turn_file {S} (t : turn S) : file := match t with Return _ f _ _ => f | Again _ f => f end.
Definition turn_state {S} (t : turn S) : S := match t with Return s _ _ _ => s | Again s _ => s end.

Section File.
  Context {S : Type} (st : stream S) (c : bytes) (bad : N -> Prop) (at_ : S -> N -> Prop).
  Hypothesis OK : stream_ok st c bad at_.
  Notation legal := (legal at_).
  Context (F : fs) (I : inode).
  Hypothesis OP : opened c (fs_sb F) (fs_groups F).
  Notation bs := (sb4_block_size (fs_sb F)).
  Notation root := (in_blocks_buffer I).
  Notation size := (in_file_size_bytes I).

  Lemma fs_block_size_ok : fs_block_size F = Ok bs.
  Proof.
    assert (Lsb : len (fs_sb F) = 1024) by (rewrite (op_sb _ _ _ OP); apply len_window_in; apply (op_len _ _ _ OP)).
    apply block_size_ok; [exact Lsb|]. destruct (sb4_valid_iff _ Lsb) as (v & V & H). rewrite V. f_equal.
    apply H, (op_acceptable _ _ _ OP).
  Qed.

  Lemma bs_ge : 1024 <= bs.
  Proof. unfold sb4_block_size. change 1024 with (2 ^ 10). apply N.pow_le_mono_r; [discriminate|lia]. Qed.

  (** A tree on the stack is a reachable node. *)
  Definition tree_ok (t : tree) : Prop :=
    exists b seed, t = from_internal (Node b seed) /\ reachable c bs root b /\ 12 <= len b.
  Definition is_tree_ok (e : stack_entry) : Prop := match e with STree t _ => tree_ok t | SExtent _ _ => False end.
  (** An extent on the stack belongs to a reachable leaf and is about to map the next block of the file. *)
  Definition extent_ok (next : N) (e : bytes) (pos : N) : Prop :=
    extent_first e + pos = next /\
    exists b i, reachable c bs root b /\ node_depth b = 0 /\ i < node_entries b /\ e = node_entry b i.
  Definition stack_ok (next : N) (stack : list stack_entry) : Prop :=
    match stack with
    | SExtent e pos :: rest => extent_ok next e pos /\ Forall is_tree_ok rest
    | _ => Forall is_tree_ok stack
    end.
  Record file_ok (f : file) : Prop := FileOk {
    fo_fs : fl_fs f = F;
    fo_inode : fl_inode f = I;
    fo_stack : stack_ok (fl_block f) (fl_stack f);
    fo_size : fl_byte f <= size;
    fo_block : fl_block f <= u32_max
  }.

  Lemma stack_ok_trees next stack : Forall is_tree_ok stack -> stack_ok next stack.
  Proof. intros H. destruct stack as [|[t p|e p] stack]; [exact H|exact H|]. inversion H; subst. contradiction. Qed.

  Lemma tree_ok_cases t : tree_ok t -> exists b seed, reachable c bs root b /\ 12 <= len b /\
    tree_entry_count t = node_entries b /\
    ((node_depth b = 0 /\ t = Leaf (Node b seed)) \/ (node_depth b <> 0 /\ t = Branch (Node b seed))).
  Proof.
    intros (b & seed & -> & R & L). exists b, seed. split; [exact R|]. split; [exact L|]. unfold from_internal, tree_entry_count.
    rewrite nd_depth_spec. destruct (N.eqb_spec (node_depth b) 0); cbn [tree_node]; rewrite nd_count_spec; auto.
  Qed.

  (** What a turn does to a file that is in order: it stays in order; nothing else changes unless a block is returned. *)
  Lemma turn_ok s f buf : legal s -> file_ok f -> bs <= len buf ->
    let t := file_turn st s f buf in
    legal (turn_state t) /\
    match t with
    | Again _ f' => file_ok f' /\ fl_block f' = fl_block f /\ fl_byte f' = fl_byte f
    | Return _ f' buf' r =>
        match r with
        | Ok k =>
            file_ok f' /\
            ((k = 0 /\ f' = f /\ buf' = buf /\ fl_byte f = size /\ fl_stack f = []) \/
             (exists q, mapped c bs root (fl_block f) q /\ q * bs + len buf <= len c /\ buf' = window c (q * bs) (len buf) /\
                fl_byte f < size /\ k = N.min bs (size - fl_byte f) /\ fl_block f' = fl_block f + 1 /\
                fl_byte f' = fl_byte f + k))
        | Err _ => file_ok f' /\ fl_block f' = fl_block f /\ fl_byte f' = fl_byte f /\ len buf' = len buf
        | Panic => (exists b, reachable c bs root b /\ ~ node_fits b) \/ fl_block f = u32_max
        end
    end.
  Proof.
    intros A FO LB. cbv zeta. destruct FO as [Ffs Fin Fst Fsz Fbl]. destruct f as [ffs fin stack blk byt].
    cbn [fl_fs fl_inode fl_stack fl_block fl_byte] in *. subst ffs fin. unfold file_turn. cbn [fl_stack].
    destruct stack as [|[t pos|e pos] stack].
    - cbn [turn_state fl_byte]. unfold file_size_bytes. cbn [fl_inode]. split; [exact A|].
      destruct (N.eqb_spec byt size) as [E|E].
      + split; [now constructor|]. left. auto.
      + split; [now constructor|]. auto.
    - assert (Fst' : Forall is_tree_ok stack) by (cbn in Fst; now inversion Fst).
      assert (T : tree_ok t) by (cbn in Fst; now inversion Fst).
      destruct (tree_ok_cases t T) as (b & seed & R & L & C & D). rewrite C.
      destruct (N.ltb_spec pos (node_entries b)) as [P|P].
      2:{ cbn. split; [exact A|]. split; [constructor; cbn; auto using stack_ok_trees|auto]. }
      destruct D as [[D ->]|[D ->]].
      + unfold leaf_turn. destruct (nd_entry_at_spec b seed pos L P) as [EF EN].
        destruct (N.leb_spec (12 + 12 * node_entries b) (len b)) as [FT|FT].
        2:{ rewrite EN by (unfold node_fits; lia). cbn. split; [exact A|]. left. exists b. split; [exact R|]. unfold node_fits. lia. }
        rewrite (EF FT). cbn [fl_block set_stack]. rewrite ex_first_spec.
        destruct (N.eqb_spec (extent_first (node_entry b pos)) blk) as [E|E]; cbn [negb turn_state fl_stack fl_fs fl_inode fl_byte].
        * split; [exact A|]. split; [|auto]. constructor; cbn [fl_fs fl_inode fl_stack fl_block fl_byte]; auto.
          cbn [stack_ok]. split.
          { split; [now rewrite N.add_0_r|]. exists b, pos. auto. }
          constructor; [|exact Fst']. exact T.
        * split; [exact A|]. split; [constructor; cbn; auto using stack_ok_trees|auto].
      + unfold branch_turn. destruct (nd_entry_at_spec b seed pos L P) as [EF EN].
        destruct (N.leb_spec (12 + 12 * node_entries b) (len b)) as [FT|FT].
        2:{ rewrite EN by (unfold node_fits; lia). cbn. split; [exact A|]. left. exists b. split; [exact R|]. unfold node_fits. lia. }
        rewrite (EF FT). cbn [fl_block set_stack fl_fs fl_inode]. rewrite ix_first_spec.
        destruct (N.eqb_spec (index_first (node_entry b pos)) blk) as [E|E]; cbn [negb].
        2:{ cbn. split; [exact A|]. split; [constructor; cbn; auto using stack_ok_trees|auto]. }
        rewrite fs_block_size_ok, ix_child_spec.
        destruct (fs_read_block st F (index_child (node_entry b pos)) s (zeros bs)) as [[s' block] r] eqn:RB.
        destruct (fs_read_block_spec st c bad at_ OK _ _ _ _ _ _ _ A OP RB) as (Lg & LB' & X). rewrite len_zeros in *.
        destruct r as [u|er|]; [| |destruct X].
        * cbn [turn_state]. split; [exact Lg|]. destruct X as (_ & X & ->). split; [|auto].
          constructor; cbn [fl_fs fl_inode fl_stack fl_block fl_byte]; auto. apply stack_ok_trees.
          constructor; [|constructor; [exact T|exact Fst']].
          exists (device_block c bs (index_child (node_entry b pos))), (in_seed I). split; [reflexivity|]. split.
          { apply reach_child with b; [exact R|]. split; [exact D|]. exists pos. auto. }
          unfold device_block. rewrite len_window_in by exact X. pose proof bs_ge. lia.
        * cbn. split; [exact Lg|]. split; [constructor; cbn; auto using stack_ok_trees|auto].
    - cbn [stack_ok] in Fst. destruct Fst as [(EX & b & i & R & D & Hi & EE) Fst]. unfold extent_turn.
      destruct (N.ltb_spec pos (ex_length e)) as [P|P].
      2:{ cbn. split; [exact A|]. split; [constructor; cbn; auto using stack_ok_trees|auto]. }
      unfold file_size_bytes. cbn [fl_inode fl_byte set_stack fl_fs fl_block fl_stack].
      destruct (N.leb_spec size byt) as [E|E].
      { cbn. split; [exact A|]. split; [constructor; cbn; auto using stack_ok_trees|auto]. }
      rewrite ex_start_spec. pose proof (extent_start_bound e) as SB.
      assert (PB : pos < 32768). { rewrite ex_length_spec in P. pose proof (N.mod_lt (extent_value e) 32768 ltac:(discriminate)). lia. }
      unfold cadd64. destruct (N.leb_spec (extent_start e + pos) u64_max) as [U|U].
      2:{ exfalso. change (2 ^ 48) with 281474976710656 in SB. change u64_max with 18446744073709551615 in U. lia. }
      cbn [unwrap].
      destruct (fs_read_block st F (extent_start e + pos) s buf) as [[s' buf'] r] eqn:RB.
      destruct (fs_read_block_spec st c bad at_ OK _ _ _ _ _ _ _ A OP RB) as (Lg & LB' & X).
      destruct r as [u|er|]; [| |destruct X].
      2:{ cbn. split; [exact Lg|]. split; [constructor; cbn; auto using stack_ok_trees|auto]. }
      rewrite fs_block_size_ok. unfold cadd32. destruct X as (_ & X & ->).
      destruct (N.leb_spec (blk + 1) u32_max) as [UB|UB]; cbn [unwrap turn_state].
      + split; [exact Lg|]. split.
        * constructor; cbn [fl_fs fl_inode fl_stack fl_block fl_byte]; auto; [|lia].
          cbn [stack_ok]. split; [|exact Fst]. split; [lia|]. exists b, i. auto.
        * right. exists (extent_start e + pos). split.
          { exists b, i. split; [exact R|]. split; [exact D|]. split; [exact Hi|]. cbv zeta. rewrite <- EE.
            pose proof (ex_length_blocks e) as [EL _]. split; [lia|]. split; [lia|]. f_equal. lia. }
          split; [exact X|]. split; [reflexivity|]. split; [exact E|]. split; [apply N.min_comm|].
          cbn [fl_block fl_byte]. split; [reflexivity|]. f_equal. 
      + split; [exact Lg|]. right. lia.
  Qed.

  (** What happens to the stack when the loop goes on. *)
  Lemma turn_again s f buf s' f' : legal s -> file_ok f -> file_turn st s f buf = Again s' f' ->
    exists stack', f' = set_stack f stack' /\
    match fl_stack f with
    | [] => False
    | SExtent e pos :: rest => stack' = rest /\ ex_length e <= pos
    | STree t pos :: rest =>
        exists b seed, t = from_internal (Node b seed) /\ reachable c bs root b /\ 12 <= len b /\
        ((node_entries b <= pos /\ stack' = rest) \/
         (pos < node_entries b /\ node_fits b /\ node_depth b = 0 /\
          extent_first (node_entry b pos) = fl_block f /\
          stack' = SExtent (node_entry b pos) 0 :: STree t (pos + 1) :: rest) \/
         (pos < node_entries b /\ node_fits b /\ node_depth b <> 0 /\
          index_first (node_entry b pos) = fl_block f /\
          (index_child (node_entry b pos) + 1) * bs <= len c /\
          stack' = STree (from_internal (Node (device_block c bs (index_child (node_entry b pos))) (in_seed I))) 0 ::
                   STree t (pos + 1) :: rest))
    end.
  Proof.
    intros A FO E. destruct FO as [Ffs Fin Fst Fsz Fbl]. destruct f as [ffs fin stack blk byt].
    cbn [fl_fs fl_inode fl_stack fl_block fl_byte] in *. subst ffs fin. unfold file_turn in E. cbn [fl_stack] in E.
    destruct stack as [|[t pos|e pos] stack]; [discriminate| |].
    - assert (T : tree_ok t) by (cbn in Fst; now inversion Fst).
      destruct T as (b & seed & -> & R & L). destruct (tree_ok_cases (from_internal (Node b seed))) as (b0 & seed0 & R0 & L0 & C & D).
      { exists b, seed. auto. }
      assert (B0 : Node b0 seed0 = Node b seed).
      { unfold from_internal in D. rewrite nd_depth_spec in D.
        destruct (node_depth b =? 0); destruct D as [[_ D]|[_ D]]; congruence. }
      injection B0 as -> ->. rewrite C in E.
      destruct (N.ltb_spec pos (node_entries b)) as [P|P].
      2:{ injection E as <- <-. eexists. split; [reflexivity|]. exists b, seed. auto 6. }
      destruct (nd_entry_at_spec b seed pos L P) as [EF EN].
      assert (FT : node_fits b).
      { unfold node_fits in *. destruct (N.leb_spec (12 + 12 * node_entries b) (len b)) as [FT|FT]; [exact FT|].
        destruct D as [[_ D]|[_ D]]; rewrite D in E; unfold leaf_turn, branch_turn in E; rewrite EN in E by lia; discriminate. }
      destruct D as [[D DE]|[D DE]]; rewrite DE in E.
      + unfold leaf_turn in E. rewrite (EF FT) in E. cbn [fl_block set_stack] in E. rewrite ex_first_spec in E.
        destruct (N.eqb_spec (extent_first (node_entry b pos)) blk) as [Q|Q]; cbn [negb] in E; [|discriminate].
        injection E as <- <-. cbn [fl_stack fl_fs fl_inode fl_block fl_byte]. eexists. split; [reflexivity|].
        exists b, seed. split; [reflexivity|]. split; [exact R|]. split; [exact L|]. right. left. rewrite DE. auto.
      + unfold branch_turn in E. rewrite (EF FT) in E. cbn [fl_block set_stack fl_fs fl_inode] in E. rewrite ix_first_spec in E.
        destruct (N.eqb_spec (index_first (node_entry b pos)) blk) as [Q|Q]; cbn [negb] in E; [|discriminate].
        rewrite fs_block_size_ok, ix_child_spec in E.
        destruct (fs_read_block st F (index_child (node_entry b pos)) s (zeros bs)) as [[s1 block] r] eqn:RB.
        destruct (fs_read_block_spec st c bad at_ OK _ _ _ _ _ _ _ A OP RB) as (Lg & LB' & X). rewrite len_zeros in *.
        destruct r as [u|er|]; [|discriminate|discriminate]. destruct X as (_ & X & ->).
        injection E as <- <-. eexists. split; [reflexivity|].
        exists b, seed. split; [reflexivity|]. split; [exact R|]. split; [exact L|]. right. right. rewrite DE.
        split; [exact P|]. split; [exact FT|]. split; [exact D|]. split; [exact Q|]. split; [lia|]. reflexivity.
    - unfold extent_turn in E. destruct (N.ltb_spec pos (ex_length e)) as [P|P].
      + exfalso. revert E. cbn [set_stack fl_fs fl_inode fl_stack fl_block fl_byte].
        destruct (file_size_bytes _ <=? byt); [discriminate|]. destruct (unwrap _); try discriminate.
        destruct (fs_read_block _ _ _ _ _) as [[? ?] []]; try discriminate.
        destruct (fs_block_size F); try discriminate. destruct (unwrap _); discriminate.
      + injection E as <- <-. eexists. split; [reflexivity|]. auto.
  Qed.

  (** ** The loop *)

  Definition outcome (f : file) (buf : bytes) (f' : file) (buf' : bytes) (r : res N) : Prop :=
    match r with
    | Ok k =>
        file_ok f' /\
        ((k = 0 /\ fl_block f' = fl_block f /\ fl_byte f' = fl_byte f /\ buf' = buf /\ fl_byte f = size /\ fl_stack f' = []) \/
         (exists q, mapped c bs root (fl_block f) q /\ q * bs + len buf <= len c /\ buf' = window c (q * bs) (len buf) /\
            fl_byte f < size /\ k = N.min bs (size - fl_byte f) /\ fl_block f' = fl_block f + 1 /\
            fl_byte f' = fl_byte f + k))
    | Err _ => file_ok f' /\ fl_block f' = fl_block f /\ fl_byte f' = fl_byte f /\ len buf' = len buf
    | Panic => (exists b, reachable c bs root b /\ ~ node_fits b) \/ fl_block f = u32_max
    end.

  Lemma loop_ok fuel : forall s f buf s' f' buf' r, legal s -> file_ok f -> bs <= len buf ->
    file_loop st fuel s f buf = Some (s', f', buf', r) -> legal s' /\ outcome f buf f' buf' r.
  Proof.
    induction fuel as [|fuel IH]; [discriminate|]. intros s f buf s' f' buf' r A FO LB E. cbn [file_loop] in E.
    pose proof (turn_ok s f buf A FO LB) as T. cbv zeta in T. destruct (file_turn st s f buf) as [s1 f1 buf1 r1|s1 f1] eqn:TE.
    - injection E as <- <- <- <-. cbn [turn_state] in T. destruct T as [Lg T]. split; [exact Lg|].
      unfold outcome. destruct r1 as [k|e|]; [|exact T|exact T]. destruct T as [FO' [T|T]]; split; auto.
      left. destruct T as (-> & -> & -> & T1 & T2). auto 8.
    - cbn [turn_state] in T. destruct T as (Lg & FO1 & B1 & Y1). apply (IH _ _ _ _ _ _ _ Lg FO1 LB) in E as [Lg' O].
      split; [exact Lg'|]. unfold outcome in *. rewrite B1, Y1 in O. exact O.
  Qed.

  Definition returns (s : S) (f : file) (buf : bytes) : Prop := exists fuel res, file_loop st fuel s f buf = Some res.

  Lemma returns_turn s f buf :
    (forall s' f', file_turn st s f buf = Again s' f' -> returns s' f' buf) -> returns s f buf.
  Proof.
    intros H. destruct (file_turn st s f buf) as [s1 f1 buf1 r1|s1 f1] eqn:TE.
    - exists 1%nat. eexists. cbn [file_loop]. rewrite TE. reflexivity.
    - destruct (H s1 f1 eq_refl) as (fuel & res & E). exists (Datatypes.S fuel), res. cbn [file_loop]. now rewrite TE.
  Qed.

  Lemma loop_mono fuel fuel' s f buf res : (fuel <= fuel')%nat -> file_loop st fuel s f buf = Some res ->
    file_loop st fuel' s f buf = Some res.
  Proof.
    revert fuel' s f. induction fuel as [|fuel IH]; [discriminate|]. intros fuel' s f L E.
    destruct fuel' as [|fuel']; [lia|]. cbn [file_loop] in *. destruct (file_turn st s f buf); [exact E|].
    apply IH; [lia|exact E].
  Qed.

  Lemma turn_ok_again s f buf s' f' : legal s -> file_ok f -> bs <= len buf -> file_turn st s f buf = Again s' f' ->
    legal s' /\ file_ok f'.
  Proof.
    intros A FO LB E. pose proof (turn_ok s f buf A FO LB) as T. cbv zeta in T. rewrite E in T. cbn in T. tauto.
  Qed.

  Lemma tree_returns buf : bs <= len buf -> forall b, Acc (child c bs) b -> forall seed pos rest s f,
    legal s -> file_ok f -> fl_stack f = STree (from_internal (Node b seed)) pos :: rest -> 
    (forall s', legal s' -> file_ok (set_stack f rest) -> returns s' (set_stack f rest) buf) -> returns s f buf.
  Proof.
    intros LB b AC. induction AC as [b _ IH]. intros seed pos rest.
    remember (N.to_nat (node_entries b - pos)) as k eqn:K. revert pos K.
    induction k as [k IHk] using lt_wf_ind. intros pos K s f A FO ST CONT.
    apply returns_turn. intros s1 f1 E. destruct (turn_ok_again _ _ _ _ _ A FO LB E) as [A1 FO1].
    destruct (turn_again _ _ _ _ _ A FO E) as (stack' & -> & X). rewrite ST in X.
    destruct X as (b' & seed' & T & R & L & X).
    assert (B : Node b' seed' = Node b seed).
    { unfold from_internal in T. rewrite !nd_depth_spec in T. destruct (node_depth b =? 0), (node_depth b' =? 0); congruence. }
    injection B as -> ->.
    destruct X as [[P ->]|[(P & FT & D & Q & ->)|(P & FT & D & Q & IN & ->)]].
    - now apply CONT.
    - apply returns_turn. intros s2 f2 E2. destruct (turn_ok_again _ _ _ _ _ A1 FO1 LB E2) as [A2 FO2].
      destruct (turn_again _ _ _ _ _ A1 FO1 E2) as (stack2 & -> & X2). cbn [fl_stack set_stack] in X2. destruct X2 as [-> _].
      apply (IHk (N.to_nat (node_entries b - (pos + 1)))) with (pos := pos + 1); [lia|reflexivity|exact A2|exact FO2|reflexivity|].
      exact CONT.
    - eapply (IH (device_block c bs (index_child (node_entry b pos)))).
      + split; [exact D|]. exists pos. auto.
      + exact A1.
      + exact FO1.
      + reflexivity.
      + intros s2 A2 FO2.
        apply (IHk (N.to_nat (node_entries b - (pos + 1)))) with (pos := pos + 1); [lia|reflexivity|exact A2|exact FO2|reflexivity|].
        exact CONT.
  Qed.

  Lemma reachable_acc b : Acc (child c bs) root -> reachable c bs root b -> Acc (child c bs) b.
  Proof. intros AC R. induction R as [|a b R IH C]; [exact AC|]. now apply (Acc_inv IH). Qed.

  Lemma loop_returns buf : bs <= len buf -> Acc (child c bs) root -> forall s f, legal s -> file_ok f -> returns s f buf.
  Proof.
    intros LB AC.
    assert (T : forall stack s f, legal s -> file_ok f -> fl_stack f = stack -> Forall is_tree_ok stack -> returns s f buf).
    { induction stack as [|e stack IH]; intros s f A FO ST FA.
      - apply returns_turn. intros s1 f1 E. destruct (turn_again _ _ _ _ _ A FO E) as (stack' & _ & X). rewrite ST in X. destruct X.
      - inversion FA as [|? ? TE FA']; subst. destruct e as [t pos|]; [|destruct TE]. destruct TE as (b & seed & -> & R & L).
        eapply (tree_returns buf LB b (reachable_acc b AC R)); [exact A|exact FO|exact ST|].
        intros s' A' FO'. now apply IH. }
    intros s f A FO. pose proof (fo_stack f FO) as SO. destruct (fl_stack f) as [|[t pos|e pos] stack] eqn:ST.
    - now apply (T [] s f).
    - now apply (T (STree t pos :: stack) s f).
    - destruct SO as [_ SO]. apply returns_turn. intros s1 f1 E. destruct (turn_ok_again _ _ _ _ _ A FO LB E) as [A1 FO1].
      destruct (turn_again _ _ _ _ _ A FO E) as (stack' & -> & X). rewrite ST in X. destruct X as [-> _].
      now apply (T stack).
  Qed.

  (** ** Trees that map a whole file *)

  Context (limit : N).
  Hypothesis LIM : limit <= 32767.
  Definition readable (n : N) : Prop := (n + 1) * bs <= len c /\ forall q, n * bs <= q < (n + 1) * bs -> ~ bad q.

  Definition node_rest (b : bytes) (pos p : N) (l : list N) : Prop :=
    if node_depth b =? 0 then extents_map limit (skipn (N.to_nat pos) (entries_of b)) p l
    else children_map c bs limit readable (skipn (N.to_nat pos) (entries_of b)) p l.

  Inductive stack_maps : list stack_entry -> N -> list N -> Prop :=
  | sm_nil p : stack_maps [] p []
  | sm_tree b seed pos rest p l l' :
      node_fits b -> 12 <= len b -> node_rest b pos p l -> stack_maps rest (p + len l) l' ->
      stack_maps (STree (from_internal (Node b seed)) pos :: rest) p (l ++ l')
  | sm_extent e pos rest p l' :
      extent_written e -> extent_blocks e <= limit -> pos <= extent_blocks e ->
      stack_maps rest (p + (extent_blocks e - pos)) l' ->
      stack_maps (SExtent e pos :: rest) p
        (map (fun j => extent_start e + N.of_nat j) (seq (N.to_nat pos) (N.to_nat (extent_blocks e - pos))) ++ l').

  Lemma skipn_entries b pos : pos < node_entries b ->
    skipn (N.to_nat pos) (entries_of b) = node_entry b pos :: skipn (N.to_nat (pos + 1)) (entries_of b).
  Proof.
    intros P. unfold entries_of. rewrite !skipn_map, !skipn_seq.
    replace (N.to_nat (node_entries b) - N.to_nat pos)%nat
      with (Datatypes.S (N.to_nat (node_entries b) - N.to_nat (pos + 1)))%nat by lia.
    cbn [seq map]. f_equal; [now rewrite Nat.add_0_l, N2Nat.id|]. f_equal. f_equal. lia.
  Qed.

  Lemma skipn_entries_end b pos : node_entries b <= pos -> skipn (N.to_nat pos) (entries_of b) = [].
  Proof. intros P. apply skipn_all2. unfold entries_of. rewrite map_length, seq_length. lia. Qed.

  Lemma read_good_block s block buf : legal s -> u64_ok (len c) -> readable block -> len buf = bs ->
    exists s', fs_read_block st F block s buf = (s', device_block c bs block, Ok tt) /\ legal s'.
  Proof.
    intros A U [R1 R2] LB. apply (fs_read_block_complete st c bad at_ OK s F block buf A OP LB U R1 R2).
  Qed.

  Lemma written_length e : extent_written e -> extent_blocks e <= limit -> ex_length e = extent_blocks e.
  Proof.
    intros W B. apply ex_length_blocks. unfold extent_written, extent_blocks in *. intros V.
    destruct (N.leb_spec (extent_value e) 32768); lia.
  Qed.

  (** A turn on a stack that maps the blocks [l]. *)
  Lemma maps_turn s f buf l : legal s -> file_ok f -> u64_ok (len c) -> len buf = bs ->
    stack_maps (fl_stack f) (fl_block f) l -> Forall readable l ->
    (l <> [] -> fl_byte f < size /\ fl_block f < u32_max) ->
    match file_turn st s f buf with
    | Again _ f' => stack_maps (fl_stack f') (fl_block f) l
    | Return _ f' buf' r =>
        match l with
        | [] => r = (if fl_byte f =? size then Ok 0 else Err UnexpectedEof) /\ buf' = buf /\ fl_stack f' = []
        | x :: l' => r = Ok (N.min bs (size - fl_byte f)) /\ buf' = device_block c bs x /\
                     stack_maps (fl_stack f') (fl_block f + 1) l'
        end
    end.
  Proof.
    intros A FO U LB SM RD PR. destruct FO as [Ffs Fin Fst Fsz Fbl]. destruct f as [ffs fin stack blk byt].
    cbn [fl_fs fl_inode fl_stack fl_block fl_byte] in *. subst ffs fin. unfold file_turn. cbn [fl_stack].
    destruct SM as [p|b seed pos rest p l l' FT L NR SM|e pos rest p l' W B P SM].
    - unfold file_size_bytes. cbn [fl_inode fl_byte fl_stack]. auto.
    - assert (C : tree_entry_count (from_internal (Node b seed)) = node_entries b).
      { unfold from_internal, tree_entry_count. rewrite nd_depth_spec. destruct (node_depth b =? 0); cbn [tree_node]; apply nd_count_spec. }
      rewrite C. destruct (N.ltb_spec pos (node_entries b)) as [P|P].
      2:{ cbn [fl_stack set_stack]. unfold node_rest in NR. rewrite (skipn_entries_end b pos P) in NR.
          assert (l = []) as ->. { destruct (node_depth b =? 0); [exact NR|]. now inversion NR. }
          change (len (@nil N)) with 0 in SM. rewrite N.add_0_r in SM. exact SM. }
      destruct (nd_entry_at_spec b seed pos L P) as [EF _]. unfold node_rest in NR. rewrite (skipn_entries b pos P) in NR.
      unfold from_internal at 1. rewrite nd_depth_spec. destruct (N.eqb_spec (node_depth b) 0) as [D|D].
      + unfold leaf_turn. rewrite (EF FT). cbn [fl_block set_stack fl_fs fl_inode]. rewrite ex_first_spec.
        cbn [extents_map] in NR. destruct NR as (E1 & W & B & l1 & -> & NR). rewrite E1, N.eqb_refl. cbn [negb fl_stack].
        rewrite <- app_assoc. 
        replace (seq 0 (N.to_nat (extent_blocks (node_entry b pos))))
          with (seq (N.to_nat 0) (N.to_nat (extent_blocks (node_entry b pos) - 0))) by (rewrite N.sub_0_r; reflexivity).
        apply sm_extent; [exact W|exact B|lia|]. rewrite N.sub_0_r.
        replace (Leaf (Node b seed)) with (from_internal (Node b seed)) by (unfold from_internal; rewrite nd_depth_spec, D; reflexivity).
        apply sm_tree; [exact FT|exact L| |].
        * unfold node_rest. rewrite D. exact NR.
        * rewrite len_app, len_map in SM. unfold len in SM at 1. rewrite seq_length, N2Nat.id, N.add_assoc in SM. exact SM.
      + unfold branch_turn. rewrite (EF FT). cbn [fl_block set_stack fl_fs fl_inode]. rewrite ix_first_spec.
        inversion NR as [|e es p' l1 l2 E1 E2 E3 E4]; subst. rewrite N.eqb_refl. cbn [negb].
        rewrite fs_block_size_ok, ix_child_spec.
        destruct (read_good_block s (index_child (node_entry b pos)) (zeros bs) A U E2 (len_zeros bs)) as (s' & RB & Lg).
        rewrite RB. cbn [fl_stack set_stack]. rewrite <- app_assoc.
        replace (Branch (Node b seed)) with (from_internal (Node b seed)).
        2:{ unfold from_internal. rewrite nd_depth_spec. destruct (N.eqb_spec (node_depth b) 0); [contradiction|reflexivity]. }
        apply sm_tree.
        * now inversion E3.
        * unfold device_block. rewrite len_window_in by (destruct E2; lia). pose proof bs_ge. lia.
        * unfold node_rest. inversion E3 as [b' p' l'' F3 D3 M3|b' p' l'' F3 D3 M3]; subst.
          { rewrite D3. exact M3. }
          { destruct (N.eqb_spec (node_depth (device_block c bs (index_child (node_entry b pos)))) 0); [contradiction|exact M3]. }
        * apply sm_tree; [exact FT|exact L| |].
          { unfold node_rest. destruct (N.eqb_spec (node_depth b) 0); [contradiction|exact E4]. }
          { rewrite len_app, N.add_assoc in SM. exact SM. }
    - unfold extent_turn. rewrite (written_length e W B). destruct (N.ltb_spec pos (extent_blocks e)) as [Q|Q].
      2:{ replace (extent_blocks e - pos) with 0 in * by lia. cbn [seq map app N.to_nat fl_stack set_stack]. now rewrite N.add_0_r in SM. }
      replace (N.to_nat (extent_blocks e - pos)) with (Datatypes.S (N.to_nat (extent_blocks e - (pos + 1)))) in * by lia.
      cbn [seq map app] in *. rewrite N2Nat.id in *.
      destruct (PR ltac:(discriminate)) as [P1 P2]. unfold file_size_bytes. cbn [fl_inode fl_byte set_stack fl_fs fl_block fl_stack].
      destruct (N.leb_spec size byt); [lia|]. rewrite ex_start_spec.
      inversion RD as [|? ? RX RL]; subst.
      pose proof (extent_start_bound e) as SB. unfold cadd64.
      destruct (N.leb_spec (extent_start e + pos) u64_max) as [UU|UU].
      2:{ exfalso. change (2 ^ 48) with 281474976710656 in SB. change u64_max with 18446744073709551615 in UU. lia. }
      cbn [unwrap]. destruct (read_good_block s (extent_start e + pos) buf A U RX LB) as (s' & RB & Lg). rewrite RB.
      rewrite fs_block_size_ok. unfold cadd32. destruct (N.leb_spec (p + 1) u32_max); [|lia]. cbn [unwrap fl_stack].
      split; [now rewrite N.min_comm|]. split; [reflexivity|].
      replace (Datatypes.S (N.to_nat pos)) with (N.to_nat (pos + 1)) by lia.
      apply sm_extent; [exact W|exact B|lia|]. replace (p + 1 + (extent_blocks e - (pos + 1))) with (p + (extent_blocks e - pos)) by lia.
      exact SM.
  Qed.

  Lemma maps_loop fuel : forall s f buf l s' f' buf' r, legal s -> file_ok f -> u64_ok (len c) -> len buf = bs ->
    stack_maps (fl_stack f) (fl_block f) l -> Forall readable l ->
    (l <> [] -> fl_byte f < size /\ fl_block f < u32_max) -> file_loop st fuel s f buf = Some (s', f', buf', r) ->
    match l with
    | [] => r = (if fl_byte f =? size then Ok 0 else Err UnexpectedEof) /\ buf' = buf /\ fl_stack f' = []
    | x :: l' => r = Ok (N.min bs (size - fl_byte f)) /\ buf' = device_block c bs x /\
                 stack_maps (fl_stack f') (fl_block f + 1) l'
    end.
  Proof.
    induction fuel as [|fuel IH]; [discriminate|]. intros s f buf l s' f' buf' r A FO U LB SM RD PR E. cbn [file_loop] in E.
    pose proof (maps_turn s f buf l A FO U LB SM RD PR) as T.
    assert (LB' : bs <= len buf) by lia. pose proof (turn_ok s f buf A FO LB') as O. cbv zeta in O.
    destruct (file_turn st s f buf) as [s1 f1 buf1 r1|s1 f1] eqn:TE.
    - injection E as <- <- <- <-. exact T.
    - cbn [turn_state] in O. destruct O as (Lg & FO1 & B1 & Y1).
      pose proof (IH s1 f1 buf l s' f' buf' r Lg FO1 U LB) as X. rewrite B1, Y1 in X. now apply X.
  Qed.
End File.

Scheme maps_mut := Induction for maps Sort Prop with children_mut := Induction for children_map Sort Prop.

(** A tree that maps a file is finite. *)
Lemma maps_acc c bs limit readable b p l : maps c bs limit readable b p l -> Acc (child c bs) b.
Proof.
  intros M. refine (maps_mut c bs limit readable (fun b _ _ _ => Acc (child c bs) b)
    (fun es _ _ _ => Forall (fun e => Acc (child c bs) (device_block c bs (index_child e))) es) _ _ _ _ b p l M).
  - intros b0 p0 l0 FT D E. constructor. intros a [D' _]. contradiction.
  - intros b0 p0 l0 FT D CM FA. constructor. intros a (_ & i & Hi & ->). rewrite Forall_forall in FA. apply FA.
    unfold entries_of. apply in_map_iff. exists (N.to_nat i). rewrite N2Nat.id. split; [reflexivity|]. apply in_seq. lia.
  - constructor.
  - intros e es p0 l0 l1 E1 E2 M1 A1 CM FA. now constructor.
Qed.
