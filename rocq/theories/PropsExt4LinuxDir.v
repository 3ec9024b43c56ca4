(** Properties C87 and C88: directories are listed as Linux lists them. *)

From Coq Require Import Strings.String.
From Verif Require Import Base BaseFacts Io SpecStream IoFacts SpecMd SuperblockFacts Superblock SpecCrc CrcFacts Crc PropsCrc Ext4Superblock SpecExt4 PropsExt4Superblock
  Ext4Inode SpecExt4Inode PropsExt4Inode Ext4Fs SpecExt4Fs Ext4FsFacts PropsExt4Fs Ext4Extent SpecExt4File Ext4File Ext4FileFacts PropsExt4File
  Ext4Dir SpecExt4Dir PropsExt4Dir PropsExt4Listing PropsExt4Flat PropsExt4Array SpecExt4Open PropsExt4Open SpecExt4Linux PropsExt4Linux
  SpecExt4Walk PropsExt4Walk SpecExt4Content PropsExt4Content SpecExt4LinuxDir TestData Raid SpecRaid RaidFacts SpecParity ParityFacts PropsRaid
  Device Array ArrayIo SpecArray ArrayFacts PropsArray PropsArrayRead PropsArrayIo Ext4String PropsExt4Recover.

(** ** Records of a block *)

Lemma linux_needed_ge n : n + 8 <= linux_needed n.
Proof. unfold linux_needed. pose proof (N.div_mod (n + 11) 4 ltac:(discriminate)). pose proof (N.mod_upper_bound (n + 11) 4 ltac:(discriminate)). lia. Qed.

Lemma sb4_block_size_ge sb : 1024 <= sb4_block_size sb.
Proof. unfold sb4_block_size. change 1024 with (2 ^ 10). apply N.pow_le_mono_r; [discriminate|lia]. Qed.

Section Block.
  Context (inodes : N) (b : bytes).

  (** What Linux accepts is a record here as well, if it ends in time. *)
  Lemma accepted_record limit o e : linux_accepts inodes b o -> e = window b o (rec_length (window b o 8)) ->
    len e = rec_length (window b o 8) /\ (o + len e <= limit -> record_at b limit o e).
  Proof.
    intros [A B C D _ _] ->. rewrite len_window_in by exact D. split; [reflexivity|]. intros L.
    change (linux_needed 1) with 12 in A. pose proof (linux_needed_ge (rec_name_length (window b o 8))). repeat split; lia.
  Qed.

  Lemma linux_records_unique o es es' : linux_records inodes b o es -> linux_records inodes b o es' -> es = es'.
  Proof.
    intros H. revert es'. induction H as [|o L A|o e es L A E H IH]; intros es' H'; inversion H'; subst; try reflexivity; try contradiction; try lia.
    f_equal. now apply IH.
  Qed.

  (** C87, one block: md-recover lists all records that Linux goes through, and maybe more behind one that Linux does not
      accept; but for one that reaches over the checksum to the end of the block. *)
  Lemma linux_prefix limit o es es' : limit = len b \/ limit + 12 = len b -> linux_records inodes b o es' -> records b limit o es ->
    exists pre last more, es' = pre ++ last /\ es = pre ++ more /\
      (last = [] \/ exists o', limit <> len b /\ o' <= limit /\ last = [window b o' (len b - o')]).
  Proof.
    intros LI H. revert es. induction H as [|o L A|o e es' L A E H IH]; intros es R; [exists [], [], es; auto..|].
    destruct (accepted_record limit o e A E) as [LE RA]. destruct (N.le_gt_cases (o + len e) limit) as [X|X].
    - specialize (RA X). inversion R as [o' N' |o' e' es2 R2 RS2]; subst o'; [now destruct (N' e)|]. subst es.
      assert (e = e') as <-. { destruct RA as (-> & _), R2 as (-> & _). reflexivity. }
      destruct (IH _ RS2) as (pre & last & more & -> & -> & Z). exists (e :: pre), last, more. auto.
    - destruct A as [A1 _ _ A4 A5 _]. change (linux_needed 1) with 12 in *. rewrite <- LE in *.
      assert (EB : o + len e = len b) by lia. rewrite EB in H. inversion H as [|? LT|? ? ? LT]; subst; [|lia..].
      exists [], [e], es. split; [reflexivity|]. split; [reflexivity|]. right. exists o. split; [lia|]. split; [lia|]. f_equal. rewrite E at 1. f_equal. lia.
  Qed.

  Lemma whole_records limit tail o es : limit <= len b -> linux_records inodes b o (es ++ tail) -> o + len (concat es) = limit -> records b limit o es.
  Proof.
    intros LB. revert o. induction es as [|e es IH]; intros o H L.
    - apply records_end. intros e (_ & X & _). cbn [concat] in L. rewrite len_nil in L. lia.
    - cbn [app] in H. inversion_clear H as [| |? ? ? LT A E H2]. cbn [concat] in L. rewrite len_app in L.
      apply records_cons; [|apply IH; [exact H2|lia]]. apply (accepted_record limit o e A E). lia.
  Qed.
End Block.

(** C87, one block whose records are all accepted: the same records, but for that of the checksum, which is not in use. *)
Lemma whole_listed inodes seed b es es' : 12 <= len b -> dir_tail_ok seed b -> linux_whole inodes seed b -> linux_records inodes b 0 es' ->
  records b (dir_limit seed b) 0 es -> filter linux_used es' = filter linux_used es /\ (forall e, In e es -> In e es').
Proof.
  intros LB T (es0 & W & L) H R. pose proof (linux_records_unique _ _ _ _ _ H W) as ->.
  assert (LI : dir_limit seed b <= len b) by (destruct seed; cbn [dir_limit]; lia).
  pose proof (whole_records _ _ _ _ _ _ LI W L) as R0. rewrite (records_unique _ _ _ _ _ R R0).
  split; [|intros e IN; apply in_or_app; now left]. rewrite filter_app. destruct seed as [sd|]; [|cbn [filter]; apply app_nil_r].
  cbn [filter]. unfold linux_used at 2, rec_inode. rewrite uint_window by (cbn; lia). rewrite N.add_0_r. destruct T as (-> & _). cbn [N.eqb negb].
  apply app_nil_r.
Qed.

(** ** One entry *)

(** The type that is reported, as Linux would report it. *)
Definition shown_type (t : inline_type) : byte := match t with ItUnknown _ => x00 | _ => byte_of (inline_type_code t) end.

(** What is reported of a record, [e], is the entry [d] of the listing of Linux: the inode; the type, if there are types;
    and the name exactly if it can be told. *)
Definition shown_as (typed : bool) (e : bytes) (d : dirent) : Prop :=
  entry_inode e = de_inode d /\ (typed = true -> shown_type (entry_file_type e) = de_type d) /\ (entry_name e = de_name d <-> rec_tidy e).

Lemma linux_shown typed e : 8 + rec_name_length e <= len e -> shown_as typed e (linux_entry typed e).
Proof.
  intros L. unfold shown_as, linux_entry. cbn [de_inode de_name de_type andb]. split; [|split; [|exact (entry_name_partial e L)]].
  - unfold entry_inode, rec_inode. fle_field. reflexivity.
  - intros ->. cbn [andb]. unfold entry_file_type, rec_type. fle_field. set (v := uint_le e 7 1). unfold inline_type_of.
    repeat (match goal with |- context [N.eqb ?a ?b] => destruct (N.eqb_spec a b) as [->|]; [reflexivity|] end). cbn [shown_type].
    destruct (N.ltb_spec v 8) as [LV|]; [|reflexivity]. assert (v = 0) as -> by lia. reflexivity.
Qed.

(** ** The blocks of a directory *)

Section Blocks.
  Context (c : bytes) (bs : N).

  Lemma extents_mapped limit es p l i q : extents_map limit es p l -> nth_N l i = Some q ->
    exists e, In e es /\ extent_first e <= p + i < extent_first e + extent_blocks e /\ q = extent_start e + (p + i - extent_first e).
  Proof.
    revert p l i. induction es as [|e es IH]; intros p l i M N; cbn [extents_map] in M; [subst l; rewrite nth_N_spec in N; destruct (N.to_nat i); discriminate|].
    destruct M as (F & _ & _ & l' & -> & M). rewrite RaidFacts.nth_N_app in N. unfold len at 1 2 in N. rewrite map_length, seq_length, N2Nat.id in N.
    destruct (N.ltb_spec i (extent_blocks e)) as [L|L].
    - exists e. split; [now left|]. split; [lia|]. rewrite nth_N_map, nth_N_spec in N. rewrite (nth_error_nth' _ 0%nat) in N by (rewrite seq_length; lia).
      rewrite seq_nth in N by lia. cbn [option_map] in N. injection N as <-. lia.
    - destruct (IH _ _ _ M N) as (e' & IN & C & Q). exists e'. split; [now right|]. split; [lia|]. rewrite Q. f_equal. lia.
  Qed.

  Lemma maps_mapped limit R root p l : maps c bs limit R root p l -> forall i q, nth_N l i = Some q -> mapped c bs root (p + i) q.
  Proof.
    intros M i q N.
    assert (X : exists b e, reachable c bs root b /\ node_depth b = 0 /\ In e (entries_of b) /\
      extent_first e <= p + i < extent_first e + extent_blocks e /\ q = extent_start e + (p + i - extent_first e)).
    { revert i q N. apply (maps_mut c bs limit R
        (fun root p l _ => forall i q, nth_N l i = Some q -> exists b e, reachable c bs root b /\ node_depth b = 0 /\ In e (entries_of b) /\
           extent_first e <= p + i < extent_first e + extent_blocks e /\ q = extent_start e + (p + i - extent_first e))
        (fun es p l _ => forall i q, nth_N l i = Some q -> exists x b e, In x es /\ reachable c bs (device_block c bs (index_child x)) b /\
           node_depth b = 0 /\ In e (entries_of b) /\
           extent_first e <= p + i < extent_first e + extent_blocks e /\ q = extent_start e + (p + i - extent_first e))); [..|exact M]; clear root p l M.
      - intros root p l _ D M i q N. destruct (extents_mapped _ _ _ _ _ _ M N) as (e & X). exists root, e. split; [constructor|]. auto.
      - intros root p l _ D _ IH i q N. destruct (IH i q N) as (x & b & e & IN & RB & X). exists b, e. split; [|exact X].
        destruct (entries_of_nth _ _ IN) as (j & LJ & ->). clear - D LJ RB. induction RB as [|a b0 RB IH C].
        + apply (reach_child _ _ _ _ root); [constructor|]. split; [exact D|]. eauto.
        + now apply (reach_child _ _ _ _ b0).
      - intros p i q N. rewrite nth_N_spec in N. destruct (N.to_nat i); discriminate.
      - intros e es p l l' _ _ _ IH _ IHc i q N. rewrite RaidFacts.nth_N_app in N. destruct (N.ltb_spec i (len l)) as [L|L].
        + destruct (IH i q N) as (b & e' & X). exists e, b, e'. split; [now left|exact X].
        + destruct (IHc _ q N) as (x & b & e' & IN & X). replace (p + len l + (i - len l)) with (p + i) in X by lia.
          exists x, b, e'. split; [now right|exact X]. }
    destruct X as (b & e & RB & D & IN & C & Q). destruct (entries_of_nth _ _ IN) as (j & LJ & ->). exists b, j. cbv zeta. intuition.
  Qed.

  Lemma linux_dir_block_unique root p b b' : linux_dir_block c bs root p b -> linux_dir_block c bs root p b' -> b = b'.
  Proof. intros (e & F & ->) (e' & F' & ->). pose proof (linux_finds_unique _ _ _ _ _ _ F F') as E. now injection E as ->. Qed.

  Lemma mapped_dir_block root hi p q : ordered c bs root 0 hi -> mapped c bs root p q -> linux_dir_block c bs root p (device_block c bs q).
  Proof. intros O M. destruct (ordered_mapped c bs root hi p q O M) as (e & F & ->). now exists e. Qed.

  (** The listing of Linux, block by block, where all blocks are in order. *)
  Lemma lists_blocks inodes typed seed root n ds : linux_lists c inodes bs typed seed root n ds -> forall l, len l = n ->
    (forall p q, nth_N l p = Some q -> linux_dir_block c bs root p (device_block c bs q) /\ 12 <= len (device_block c bs q) /\
       dir_tail_ok seed (device_block c bs q) /\ linux_whole inodes seed (device_block c bs q)) ->
    exists ess, Forall2 (fun q es => dir_tail_ok seed (device_block c bs q) /\
        records (device_block c bs q) (dir_limit seed (device_block c bs q)) 0 es) l ess /\
      ds = map (linux_entry typed) (filter linux_used (concat ess)).
  Proof.
    assert (SN : forall (l : list N) m, len l = m + 1 -> exists l' q, l = l' ++ [q] /\ len l' = m /\ nth_N l m = Some q /\
      forall p x, nth_N l' p = Some x -> nth_N l p = Some x).
    { intros l m L. destruct (exists_last (l := l)) as (l' & q & ->); [intros ->; rewrite len_nil in L; lia|]. exists l', q. rewrite len_app in L.
      change (len [q]) with 1 in L. split; [reflexivity|]. split; [lia|]. split.
      - rewrite RaidFacts.nth_N_app. destruct (N.ltb_spec m (len l')); [lia|]. replace (m - len l') with 0 by lia. reflexivity.
      - intros p x X. rewrite RaidFacts.nth_N_app. apply nth_N_some_lt in X as Y. destruct (N.ltb_spec p (len l')); [exact X|lia]. }
    induction 1 as [|n ds H IH F|n ds b H IH B T|n ds b es H IH B T R]; intros l L W.
    - exists []. destruct l; [|rewrite len_cons in L; lia]. split; [constructor|reflexivity].
    - destruct (SN l n L) as (l' & q & -> & _ & NQ & _). destruct (W _ _ NQ) as ((e & F' & _) & _).
      pose proof (linux_finds_unique _ _ _ _ _ _ F F'). discriminate.
    - destruct (SN l n L) as (l' & q & -> & _ & NQ & _). destruct (W _ _ NQ) as (B' & _ & T' & _).
      rewrite (linux_dir_block_unique _ _ _ _ B B') in T. contradiction.
    - destruct (SN l n L) as (l' & q & -> & L' & NQ & Q). destruct (W _ _ NQ) as (B' & B12 & T' & WH).
      rewrite (linux_dir_block_unique _ _ _ _ B B') in *. destruct (IH l' L' (fun p x X => W p x (Q p x X))) as (ess & F2 & ->).
      assert (DL : dir_limit seed (device_block c bs q) <= len (device_block c bs q)) by (destruct seed; cbn [dir_limit]; lia).
      destruct (records_exist (device_block c bs q) (dir_limit seed (device_block c bs q)) 0 DL ltac:(lia)) as (es' & RE & _).
      exists (ess ++ [es']). split; [apply Forall2_app; [exact F2|constructor; [auto|constructor]]|].
      rewrite concat_app. cbn [concat]. rewrite app_nil_r, filter_app, map_app. do 2 f_equal.
      exact (proj1 (whole_listed _ _ _ _ _ B12 T' WH R RE)).
  Qed.
End Blocks.

(** ** C87 and C88: from the device to the listing *)

(** What is listed: the records [es], which are, without those not in use, the entries [ds]. *)
Definition lists_as (typed : bool) (n : nat) (rs : list (res (option bytes))) (ds : list dirent) : Prop :=
  exists es, rs = firstn n (map (fun e => Ok (Some e)) es ++ repeat (Ok None) n) /\
    Forall2 (shown_as typed) (filter (fun e => negb (entry_inode e =? 0)) es) ds.

Section DeviceListing.
  Context {S : Type} (st : stream S) (c : bytes) (bad : N -> Prop) (at_ : S -> N -> Prop).
  Hypothesis OK : stream_ok st c bad at_.
  Notation legal := (legal at_).
  Context (clone : S -> S * res S).
  Hypothesis CL : forall s s' r, legal s -> clone s = (s', r) -> legal s' /\ r <> Panic /\ (forall t, r = Ok t -> legal t).
  Notation inodes := (sb4_inodes (device_sb c)).
  Notation bs := (sb4_block_size (device_sb c)).

  (** C87: whatever is listed of a directory, before, after and between errors, is a record of a block that Linux finds in
      that directory and whose checksum is right; and one that Linux goes through, if it accepts all of the block. *)
  Theorem listing_linux_partial s s1 F number a s2 own d fuel n s' d' rs hi e : legal s -> fs_open st s = (s1, Ok F) ->
    linux_usual (device_sb c) -> linux_inode_at c number a ->
    let slot := window c a (linux_inode_size (device_sb c)) in
    ordered c bs (slot_root slot) 0 hi ->
    open_file st clone F number s1 = (s2, Ok (own, AnyDirectory d)) -> run_dir st fuel n own d = Some (s', d', rs) -> In (Ok (Some e)) rs ->
    slot_kind slot = 4 /\ exists seed p b, inode_seed (device_sb c) number slot seed /\ p * bs < slot_size slot /\
      linux_dir_block c bs (slot_root slot) p b /\ dir_tail_ok seed b /\
      (exists es, records b (dir_limit seed b) 0 es /\ In e es) /\
      forall es, linux_whole inodes seed b -> linux_records inodes b 0 es -> In e es.
  Proof.
    intros A FO U L slot O E R IN. pose proof (linux_slot c number a U L) as SL.
    destruct (open_file_sound st c bad at_ OK clone CL s s1 F number s2 own _ A FO E) as (_ & _ & _ & K & _ & _ & seed & SE & AN).
    cbv zeta in AN. rewrite <- SL in K, SE, AN. fold slot in K, SE, AN. split; [exact K|]. exists seed.
    destruct (AN _ _ _ _ _ R) as (calls & ANS & ZB & LS).
    assert (B : 1024 <= bs) by apply sb4_block_size_ge.
    assert (X : exists buf b es, In (buf, b, Ok bs) calls /\ dir_tail_ok seed b /\ records b (dir_limit seed b) 0 es /\ In e es).
    { clear - LS IN. revert IN. induction LS as [calls|buf b calls es rs T R LS IH|buf b calls es more T R|buf b calls rs T LS IH|buf b k calls rs K0 KB LS IH|buf b e' calls rs LS IH|buf b calls n|buf b]; intros IN.
      - contradiction.
      - apply in_app_iff in IN as [IN|IN].
        + apply in_map_iff in IN as (x & Q & IN). injection Q as ->. exists buf, b, es. split; [now left|]. auto.
        + destruct (IH IN) as (bu & bb & ee & I1 & I2). exists bu, bb, ee. split; [now right|exact I2].
      - apply in_map_iff in IN as (x & Q & IN). injection Q as ->. exists buf, b, (es ++ more). split; [now left|]. split; [exact T|]. split; [exact R|]. apply in_or_app. now left.
      - destruct IN as [IN|IN]; [discriminate|]. destruct (IH IN) as (bu & bb & ee & I1 & I2). exists bu, bb, ee. split; [now right|exact I2].
      - destruct IN as [IN|IN]; [discriminate|]. destruct (IH IN) as (bu & bb & ee & I1 & I2). exists bu, bb, ee. split; [now right|exact I2].
      - destruct IN as [IN|IN]; [discriminate|]. destruct (IH IN) as (bu & bb & ee & I1 & I2). exists bu, bb, ee. split; [now right|exact I2].
      - apply repeat_spec in IN. discriminate.
      - destruct IN as [IN|[]]. discriminate. }
    destruct X as (buf & b & es & IC & T & RE & IE).
    assert (Y : exists p q, mapped c bs (slot_root slot) p q /\ b = device_block c bs q /\ p * bs < slot_size slot /\ (q + 1) * bs <= len c).
    { assert (Z : forall n t calls, (t < slot_size slot -> t = n * bs) -> answers c bs (slot_root slot) (slot_size slot) n t calls ->
        Forall (fun '(buf, _, _) => buf = zeros bs) calls -> In (buf, b, Ok bs) calls ->
        exists p q, mapped c bs (slot_root slot) p q /\ b = device_block c bs q /\ p * bs < slot_size slot /\ (q + 1) * bs <= len c).
      { clear - B. intros n t calls TN H. induction H as [n t|n t q bu bu' k calls M LB IN EB LT EK H IH|n t bu calls E H IH|n t bu bu' e calls L H IH|n t bu bu' P];
          intros ZB IC; try (destruct IC as [IC|IC]; [discriminate|]); try contradiction.
        - pose proof (Forall_inv ZB) as ZH. cbv beta iota in ZH. apply Forall_inv_tail in ZB. assert (LZ : len bu = bs) by (rewrite ZH; apply len_zeros).
          destruct IC as [IC|IC].
          + injection IC as <- <- _. exists n, q. split; [exact M|]. rewrite LZ in *. split; [exact EB|]. split; [specialize (TN LT); lia|lia].
          + apply IH; auto. specialize (TN LT). lia.
        - destruct IC as [IC|IC]; [injection IC as _ _ IC; lia|]. apply Forall_inv_tail in ZB. now apply IH.
        - apply Forall_inv_tail in ZB. now apply IH. }
      apply (Z 0 0 calls); auto. }
    destruct Y as (p & q & M & -> & PS & QC). exists p, (device_block c bs q). split; [exact SE|]. split; [exact PS|].
    split; [exact (mapped_dir_block c bs _ hi p q O M)|]. split; [exact T|]. split; [eauto|].
    intros es' W LR. assert (LB : len (device_block c bs q) = bs) by (apply len_window_in; lia).
    refine (proj2 (whole_listed _ _ _ es es' _ T W LR RE) e IE). lia.
  Qed.

  (** C87, completeness: a directory all of whose blocks Linux finds and accepts, with their checksums, and which can be
      read, can be opened by its number, and its listing is that of Linux - inode by inode and type by type, once the
      records that are not in use are left out; each name exactly if it can be told from what follows it. *)
  Theorem listing_linux_complete_partial s k number a ds n hi : legal s -> (forall s, legal s -> exists s' t, clone s = (s', Ok t)) ->
    device_supported c k -> device_inode c k number -> metadata_good c bad k number -> linux_usual (device_sb c) -> linux_inode_at c number a ->
    let slot := window c a (linux_inode_size (device_sb c)) in
    slot_kind slot = 4 -> slot_by_extents slot = true -> slot_indexed slot = false -> ordered c bs (slot_root slot) 0 hi ->
    slot_size slot = hi * bs -> hi <= u32_max -> nodes_readable c bs (block_good c bad bs) (slot_root slot) ->
    (forall p, p < hi -> exists e, linux_finds c bs (slot_root slot) p (Some e) /\ extent_value e < 32768 /\
       block_good c bad bs (extent_start e + (p - extent_first e))) ->
    (forall seed p b, inode_seed (device_sb c) number slot seed -> p < hi -> linux_dir_block c bs (slot_root slot) p b ->
       dir_tail_ok seed b /\ linux_whole inodes seed b) ->
    linux_directory c number ds ->
    exists s1 F s2 own d fuel s' d' rs,
      fs_open st s = (s1, Ok F) /\ open_file st clone F number s1 = (s2, Ok (own, AnyDirectory d)) /\
      run_dir st fuel n own d = Some (s', d', rs) /\ lists_as (linux_filetype (device_sb c)) n rs ds.
  Proof.
    intros A CL' SU DI MG U L slot K BE NI O SZ HI NR FI BL (a' & seed & m & L' & SE & SM & LI).
    pose proof (linux_slot c number a U L) as SL. pose proof (linux_slot c number a' U L') as SL'. rewrite <- SL in SL'. rewrite SL' in SE, SM, LI. fold slot in SL, SE, SM, LI.
    assert (B : 1024 <= bs) by apply sb4_block_size_ge.
    assert (m = hi) as -> by nia.
    destruct (linux_maps c bs (block_good c bad bs) (slot_root slot) hi O NR FI) as (l & M & LL & R).
    destruct (lists_blocks c bs _ _ _ _ _ _ LI l LL) as (ess & F2 & ->).
    { intros p q N. pose proof (maps_mapped c bs _ _ _ _ _ M p q N) as MP. rewrite N.add_0_l in MP.
      pose proof (mapped_dir_block c bs _ hi p q O MP) as DB. split; [exact DB|]. split.
      - rewrite Forall_forall in R. destruct (R q (nth_N_in _ _ _ N)) as (Q & _). unfold device_block. rewrite len_window_in; lia.
      - apply (BL seed p _ SE); [|exact DB]. apply nth_N_some_lt in N. lia. }
    destruct (list_directory_partial st c bad at_ OK clone CL s k number seed l ess n A CL' SU DI MG) as (s1 & F & s2 & own & d & fuel & s' & d' & FO & OF & RD);
      rewrite <- ?SL; auto.
    { lia. }
    { rewrite LL. exact SZ. }
    exists s1, F, s2, own, d, fuel, s', d', (firstn n (map (fun e => Ok (Some e)) (concat ess) ++ repeat (Ok None) n)).
    split; [exact FO|]. split; [exact OF|]. split; [exact RD|].
    exists (concat ess). split; [reflexivity|]. set (typed := linux_filetype _).
    assert (AL : forall e, In e (concat ess) -> 8 + rec_name_length e <= len e).
    { intros e IN. apply in_concat in IN as (es & IE & IN).
      assert (X : exists q, In q l /\ records (device_block c bs q) (dir_limit seed (device_block c bs q)) 0 es).
      { clear - F2 IE. induction F2 as [|q x l ess [_ H] F2 IH]; [contradiction|]. destruct IE as [->|IE]; [exists q; split; [now left|exact H]|].
        destruct (IH IE) as (q' & I1 & I2). exists q'. split; [now right|exact I2]. }
      destruct X as (q & _ & RE). clear - RE IN. assert (DL : dir_limit seed (device_block c bs q) <= len (device_block c bs q)) by (destruct seed; cbn [dir_limit]; lia).
      induction RE as [o N|o x es RA RE IH]; [contradiction|]. destruct IN as [->|IN]; [|exact (IH IN)]. exact (proj1 (proj2 (record_at_len _ _ _ _ DL RA))). }
    clear - AL. induction (concat ess) as [|e es IH]; [constructor|]. cbn [filter].
    assert (EI : entry_inode e = rec_inode e) by (unfold entry_inode, rec_inode; fle_field; reflexivity).
    unfold linux_used at 1. rewrite EI. specialize (IH (fun x H => AL x (or_intror H))).
    destruct (negb (rec_inode e =? 0)); [|exact IH]. cbn [map]. constructor; [|exact IH]. apply linux_shown, AL. now left.
  Qed.
End DeviceListing.

(** ** C88: from the members of an array to the listing *)

Section ArrayListing.
  Context {D : Type} (ops : blockdev D) (join : D -> D -> D) (J : joins join) (C : contents) (f : md_format) (l : layout6) (image : bytes).
  Hypothesis G : geometry_ok f l.
  Hypothesis U : u64_ok (len image).
  Hypothesis I : contents_image C (fun _ => 0) f l image.

  Let st := reader_stream (array_block_io ops join).
  Let clone := reader_clone (array_block_io ops join).
  Let holds := fun a : definition D => slots_hold ops a C /\ in_use a f.
  Notation inodes := (sb4_inodes (device_sb image)).
  Notation bs := (sb4_block_size (device_sb image)).

  (** C88: likewise of a directory that is read through an array on whose members md has stored the [image]. *)
  Theorem recover_listing_partial d s1 F number a s2 own g fuel n s' g' rs hi e : holds d -> fs_open st (reader_new d) = (s1, Ok F) ->
    linux_usual (device_sb image) -> linux_inode_at image number a ->
    let slot := window image a (linux_inode_size (device_sb image)) in
    ordered image bs (slot_root slot) 0 hi ->
    open_file st clone F number s1 = (s2, Ok (own, AnyDirectory g)) -> run_dir st fuel n own g = Some (s', g', rs) -> In (Ok (Some e)) rs ->
    slot_kind slot = 4 /\ exists seed p b, inode_seed (device_sb image) number slot seed /\ p * bs < slot_size slot /\
      linux_dir_block image bs (slot_root slot) p b /\ dir_tail_ok seed b /\
      (exists es, records b (dir_limit seed b) 0 es /\ In e es) /\
      forall es, linux_whole inodes seed b -> linux_records inodes b 0 es -> In e es.
  Proof.
    intros H. exact (listing_linux_partial st image (array_bad C f) (reader_at 512 holds) (recover_stream_ok ops join J C f l image G U I) clone
      (recover_clone ops join J C f l image G U I) (reader_new d) s1 F number a s2 own g fuel n s' g' rs hi e (recover_start ops join J C f l image G U I d H)).
  Qed.

  Theorem recover_listing_complete_partial d k number a ds n hi : holds d ->
    device_supported image k -> device_inode image k number -> metadata_good image (array_bad C f) k number ->
    linux_usual (device_sb image) -> linux_inode_at image number a ->
    let slot := window image a (linux_inode_size (device_sb image)) in
    slot_kind slot = 4 -> slot_by_extents slot = true -> slot_indexed slot = false -> ordered image bs (slot_root slot) 0 hi ->
    slot_size slot = hi * bs -> hi <= u32_max -> nodes_readable image bs (block_good image (array_bad C f) bs) (slot_root slot) ->
    (forall p, p < hi -> exists e, linux_finds image bs (slot_root slot) p (Some e) /\ extent_value e < 32768 /\
       block_good image (array_bad C f) bs (extent_start e + (p - extent_first e))) ->
    (forall seed p b, inode_seed (device_sb image) number slot seed -> p < hi -> linux_dir_block image bs (slot_root slot) p b ->
       dir_tail_ok seed b /\ linux_whole inodes seed b) ->
    linux_directory image number ds ->
    exists s1 F s2 own g fuel s' g' rs,
      fs_open st (reader_new d) = (s1, Ok F) /\ open_file st clone F number s1 = (s2, Ok (own, AnyDirectory g)) /\
      run_dir st fuel n own g = Some (s', g', rs) /\ lists_as (linux_filetype (device_sb image)) n rs ds.
  Proof.
    intros H. exact (listing_linux_complete_partial st image (array_bad C f) (reader_at 512 holds) (recover_stream_ok ops join J C f l image G U I) clone
      (recover_clone ops join J C f l image G U I) (reader_new d) k number a ds n hi (recover_start ops join J C f l image G U I d H)
      (recover_clone_there ops join J C f l image G U I)).
  Qed.
End ArrayListing.
Print Assumptions listing_linux_partial.
Print Assumptions listing_linux_complete_partial.
Print Assumptions recover_listing_partial.
Print Assumptions recover_listing_complete_partial.

(** ** Examples *)

Lemma linux_step inodes b o r o' es : o < len b -> linux_accepts inodes b o -> rec_length (window b o 8) = r -> o + r = o' ->
  linux_records inodes b o' es -> linux_records inodes b o (window b o r :: es).
Proof.
  intros L A <- <- H. apply linux_record; [exact L|exact A|reflexivity|]. destruct A as [_ _ _ I _ _]. now rewrite len_window_in by exact I.
Qed.

Ltac accepts m := constructor; [vm_compute; discriminate|exists m; vm_compute; reflexivity|vm_compute; discriminate|vm_compute; discriminate|
  first [left; vm_compute; reflexivity|right; vm_compute; discriminate]|vm_compute; discriminate].

(** The block of the tests, with its checksum: Linux goes through four records, the last of which is that of the checksum. *)
Example whole_listed_ex : exists es es', linux_records 16 root_directory_block 0 es' /\ linux_whole 16 (Some 1485601019) root_directory_block /\
  dir_tail_ok (Some 1485601019) root_directory_block /\ records root_directory_block (dir_limit (Some 1485601019) root_directory_block) 0 es /\
  map (linux_entry true) (filter linux_used es') = [Dirent 2 [x2e] x02; Dirent 2 [x2e; x2e] x02; Dirent 11 [x6c; x6f; x73; x74; x2b; x66; x6f; x75; x6e; x64] x02] /\
  length es = 3%nat /\ length es' = 4%nat.
Proof.
  set (b := root_directory_block). set (r1 := window b 0 12). set (r2 := window b 12 12). set (r3 := window b 24 4060). set (r4 := window b 4084 12).
  assert (LB : len b = 4096) by (vm_compute; reflexivity).
  assert (R : linux_records 16 b 0 [r1; r2; r3; r4]).
  { apply (linux_step _ _ 0 12 12); [vm_compute; reflexivity|accepts 3|vm_compute; reflexivity|reflexivity|].
    apply (linux_step _ _ 12 12 24); [vm_compute; reflexivity|accepts 3|vm_compute; reflexivity|reflexivity|].
    apply (linux_step _ _ 24 4060 4084); [vm_compute; reflexivity|accepts 1015|vm_compute; reflexivity|reflexivity|].
    apply (linux_step _ _ 4084 12 4096); [vm_compute; reflexivity|accepts 3|vm_compute; reflexivity|reflexivity|].
    rewrite <- LB. apply linux_end. }
  assert (W : linux_records 16 b 0 ([r1; r2; r3] ++ [r4])) by exact R.
  assert (LC : len (concat [r1; r2; r3]) = 4084) by (vm_compute; reflexivity).
  exists [r1; r2; r3], [r1; r2; r3; r4]. split; [exact R|]. split.
  { exists [r1; r2; r3]. rewrite LB. split; [exact W|]. rewrite LC. cbn [dir_limit]. now rewrite LB. }
  split.
  { destruct (dir_block_new_spec b (Some 1485601019)) as [[T _]|[_ N]]; [rewrite LB; discriminate|now intros sd [= <-]|exact T|].
    exfalso. destruct dir_block_ex as (d & X & _). fold b in X. rewrite X in N. discriminate N. }
  split; [cbn [dir_limit]; rewrite LB; apply (whole_records 16 b _ [r4]); [rewrite LB; discriminate|exact W|exact LC]|].
  split; [vm_compute; reflexivity|]. split; reflexivity.
Qed.

(** A directory of one block, in block 15 of the device. *)
Definition dir_root : bytes := ex_root (ex_header 1 4 0 ++ ex_extent 0 1 15).
Lemma dir_root_entries : entries_of dir_root = [ex_extent 0 1 15].
Proof. vm_compute. reflexivity. Qed.
Lemma dir_root_ordered c : ordered c 1024 dir_root 0 1.
Proof. apply ordered_leaf; [vm_compute; congruence|vm_compute; congruence|]. rewrite dir_root_entries. vm_compute. repeat split; congruence. Qed.
Lemma dir_root_finds c p : p < 1 -> linux_finds c 1024 dir_root p (Some (ex_extent 0 1 15)).
Proof.
  intros P. assert (p = 0) as -> by lia. apply finds_extent; [vm_compute; reflexivity| |vm_compute; split; congruence].
  rewrite dir_root_entries. exists [], []. repeat split; [now right|constructor].
Qed.
Lemma dir_root_at c p b : p < 1 -> linux_dir_block c 1024 dir_root p b -> b = device_block c 1024 15.
Proof.
  intros P (e & F & ->). pose proof (linux_finds_unique _ _ _ _ _ _ F (dir_root_finds c p P)) as E. injection E as ->.
  assert (p = 0) as -> by lia. now change (extent_start (ex_extent 0 1 15) + (0 - extent_first (ex_extent 0 1 15))) with 15.
Qed.
Lemma dir_root_block c : linux_dir_block c 1024 dir_root 0 (device_block c 1024 15).
Proof. exists (ex_extent 0 1 15). split; [now apply dir_root_finds|]. now change (extent_start (ex_extent 0 1 15) + (0 - extent_first (ex_extent 0 1 15))) with 15. Qed.
Lemma dir_root_nodes c P : nodes_readable c 1024 P dir_root.
Proof.
  intros b e R D. exfalso. apply D. destruct (reachable_down _ _ _ _ R) as [->|(x & (N & _) & _)]; [vm_compute; reflexivity|].
  exfalso. apply N. vm_compute. reflexivity.
Qed.
Lemma dir_root_lists c inodes typed es : dir_tail_ok None (device_block c 1024 15) -> linux_records inodes (device_block c 1024 15) 0 es ->
  linux_lists c inodes 1024 typed None dir_root 1 (map (linux_entry typed) (filter linux_used es)).
Proof. intros T R. exact (lists_block _ _ _ _ _ _ 0 [] _ es (lists_start _ _ _ _ _ _) (dir_root_block c) T R). Qed.

(** The image with the block of [removed_block]: a name with an old inode number behind it, and a record not in use.  It
    has types in its directories. *)
Definition listed_image : bytes := fold_left poke [(1120, to_le 4 (uint_le (device_sb open_image) 0x60 4 + 2)); (15360, removed_block)] open_image.
Lemma listed_len : len listed_image = 16384.
Proof. vm_compute. reflexivity. Qed.
Lemma listed_u64 : u64_ok (len listed_image).
Proof. rewrite listed_len. discriminate. Qed.
Lemma listed_supported : device_supported listed_image 1.
Proof.
  assert (O : exists sb gs, opened listed_image sb gs /\ len gs = 1).
  { eexists. eexists. split; [eapply (opened_by_computation listed_image); [exact listed_u64|]; vm_compute; reflexivity|reflexivity]. }
  destruct O as (sb & gs & O & LG).
  assert (SB : sb = device_sb listed_image) by exact (op_sb _ _ _ O).
  unfold device_supported. rewrite listed_len. fold (device_sb listed_image). rewrite <- SB.
  split; [discriminate|]. split; [discriminate|]. split; [apply (op_acceptable _ _ _ O)|]. split; [apply (op_supported _ _ _ O)|].
  split; [rewrite <- LG; apply (op_count _ _ _ O)|]. rewrite SB. split; vm_compute; discriminate.
Qed.
Lemma listed_inode : device_inode listed_image 1 6.
Proof. vm_compute; repeat split; discriminate. Qed.
Lemma listed_usual : linux_usual (device_sb listed_image).
Proof.
  assert (X : exists sb, device_sb listed_image = sb /\ linux_usual sb).
  { eexists. split; [vm_compute; reflexivity|]. constructor; try (vm_compute; reflexivity).
    - exists 16. vm_compute. split; reflexivity.
    - vm_compute. discriminate.
    - exists 4. vm_compute. split; reflexivity.
    - left. vm_compute. discriminate.
    - exists 1. repeat split; try (vm_compute; congruence). right. vm_compute. reflexivity. }
  destruct X as (sb & -> & X). exact X.
Qed.
Lemma listed_block : device_block listed_image 1024 15 = removed_block.
Proof. vm_compute. reflexivity. Qed.
Lemma removed_records : linux_records 16 removed_block 0 [window removed_block 0 12; window removed_block 12 28; window removed_block 40 984].
Proof.
  apply (linux_step _ _ 0 12 12); [vm_compute; reflexivity|accepts 3|vm_compute; reflexivity|reflexivity|].
  apply (linux_step _ _ 12 28 40); [vm_compute; reflexivity|accepts 7|vm_compute; reflexivity|reflexivity|].
  apply (linux_step _ _ 40 984 1024); [vm_compute; reflexivity|accepts 246|vm_compute; reflexivity|reflexivity|].
  replace 1024 with (len removed_block) by (vm_compute; reflexivity). apply linux_end.
Qed.

(** The listing of Linux has two entries; that of md-recover three, the last of them not in use, and the name of the second
    is wrong. *)
Definition listed_dirents : list dirent := [Dirent 2 [x2e] x02; Dirent 12 [x61; x62; x63; x64] x01].
Example listing_linux_complete_ex : exists s1 F s2 own d fuel s' d' rs,
  linux_directory listed_image 6 listed_dirents /\
  fs_open mem_stream (mem_new listed_image 512) = (s1, Ok F) /\ open_file mem_stream mem_clone F 6 s1 = (s2, Ok (own, AnyDirectory d)) /\
  run_dir mem_stream fuel 4 own d = Some (s', d', rs) /\ lists_as true 4 rs listed_dirents /\
  ~ rec_tidy (window removed_block 12 28).
Proof.
  assert (L : linux_inode_at listed_image 6 4352).
  { replace 4352 with (device_slot_offset listed_image 6) by (vm_compute; reflexivity). exact (linux_inode_place listed_image 6 listed_usual). }
  assert (SL : window listed_image 4352 (linux_inode_size (device_sb listed_image)) = device_slot listed_image 6) by exact (linux_slot listed_image 6 4352 listed_usual L).
  assert (BS : sb4_block_size (device_sb listed_image) = 1024) by (vm_compute; reflexivity).
  assert (NI : sb4_inodes (device_sb listed_image) = 16) by (vm_compute; reflexivity).
  assert (SZ : slot_size (device_slot listed_image 6) = 1024) by (vm_compute; reflexivity).
  assert (RT : slot_root (device_slot listed_image 6) = dir_root) by (vm_compute; reflexivity).
  assert (FT : linux_filetype (device_sb listed_image) = true) by (vm_compute; reflexivity).
  assert (NC : has_bit (uint_le (device_sb listed_image) 0x64 4) 10 = false) by (vm_compute; reflexivity).
  assert (LD : linux_directory listed_image 6 listed_dirents).
  { exists 4352, None, 1. cbv zeta. split; [exact L|]. rewrite SL, BS, SZ, RT, NI, FT. split; [unfold inode_seed; now rewrite NC|]. split; [reflexivity|].
    pose proof (dir_root_lists listed_image 16 true) as X. rewrite listed_block in X.
    replace listed_dirents with (map (linux_entry true) (filter linux_used [window removed_block 0 12; window removed_block 12 28; window removed_block 40 984]))
      by (vm_compute; reflexivity).
    apply X; [exact Logic.I|exact removed_records]. }
  pose proof (listing_linux_complete_partial mem_stream listed_image (fun _ => False) (mem_at listed_image 512) (mem_stream_ok listed_image 512 listed_u64)
    mem_clone (mem_clone_ok listed_image 512) (mem_new listed_image 512) 1 6 4352 listed_dirents 4 1) as R.
  cbv zeta in R. rewrite SL, BS, SZ, RT, NI, FT in R. destruct R as (s1 & F & s2 & own & d & fuel & s' & d' & rs & R1 & R2 & R3 & R4).
  - exists 0. repeat split. rewrite listed_len. discriminate.
  - exact (mem_clone_there listed_image 512).
  - exact listed_supported.
  - exact listed_inode.
  - intros q _ [].
  - exact listed_usual.
  - exact L.
  - vm_compute. reflexivity.
  - vm_compute. reflexivity.
  - vm_compute. reflexivity.
  - apply dir_root_ordered.
  - reflexivity.
  - discriminate.
  - apply dir_root_nodes.
  - intros p P. exists (ex_extent 0 1 15). split; [now apply dir_root_finds|]. assert (p = 0) as -> by lia. split; [vm_compute; reflexivity|].
    split; [rewrite listed_len; vm_compute; discriminate|auto].
  - intros seed p b SE P B. rewrite (dir_root_at _ _ _ P B), listed_block. unfold inode_seed in SE. rewrite NC in SE. subst seed. split; [exact Logic.I|].
    eexists. rewrite app_nil_r. split; [exact removed_records|]. vm_compute. reflexivity.
  - exact LD.
  - exists s1, F, s2, own, d, fuel, s', d', rs. split; [exact LD|]. do 4 (split; [assumption|]).
    intros (_ & [X|X]); vm_compute in X; discriminate.
Qed.

(** The directory of [open_image], through four members with parts that cannot be read. *)
Example recover_listing_complete_ex : exists s1 F s2 own g fuel s' g' rs,
  let st := reader_stream (array_block_io (filedev_block torn_policy) shared) in
  fs_open st (reader_new torn_array) = (s1, Ok F) /\
  open_file st (reader_clone (array_block_io (filedev_block torn_policy) shared)) F 6 s1 = (s2, Ok (own, AnyDirectory g)) /\
  run_dir st fuel 5 own g = Some (s', g', rs) /\ lists_as false 5 rs [Dirent 2 [x2e] x00; Dirent 2 [x2e; x2e] x00; Dirent 12 [x61; x62] x00].
Proof.
  assert (L : linux_inode_at open_image 6 4352).
  { replace 4352 with (device_slot_offset open_image 6) by (vm_compute; reflexivity). exact (linux_inode_place open_image 6 open_usual). }
  assert (SL : window open_image 4352 (linux_inode_size (device_sb open_image)) = device_slot open_image 6) by exact (linux_slot open_image 6 4352 open_usual L).
  assert (BS : sb4_block_size (device_sb open_image) = 1024) by (vm_compute; reflexivity).
  assert (NI : sb4_inodes (device_sb open_image) = 16) by (vm_compute; reflexivity).
  assert (SZ : slot_size (device_slot open_image 6) = 1024) by (vm_compute; reflexivity).
  assert (RT : slot_root (device_slot open_image 6) = dir_root) by (vm_compute; reflexivity).
  assert (FT : linux_filetype (device_sb open_image) = false) by (vm_compute; reflexivity).
  assert (NC : has_bit (uint_le (device_sb open_image) 0x64 4) 10 = false) by (vm_compute; reflexivity).
  set (b := device_block open_image 1024 15).
  assert (LB : len b = 1024) by (vm_compute; reflexivity).
  assert (RE : linux_records 16 b 0 [window b 0 12; window b 12 12; window b 24 1000]).
  { apply (linux_step _ _ 0 12 12); [vm_compute; reflexivity|accepts 3|vm_compute; reflexivity|reflexivity|].
    apply (linux_step _ _ 12 12 24); [vm_compute; reflexivity|accepts 3|vm_compute; reflexivity|reflexivity|].
    apply (linux_step _ _ 24 1000 1024); [vm_compute; reflexivity|accepts 250|vm_compute; reflexivity|reflexivity|].
    rewrite <- LB. apply linux_end. }
  assert (IU : in_use torn_array torn_format) by (right; split; reflexivity).
  assert (Jn : joins (@shared filedev)) by (intros d d'; now right).
  pose proof (recover_listing_complete_partial (filedev_block torn_policy) shared Jn (torn_contents torn_policy) torn_format (Md5 LeftSymmetric) open_image torn_geometry
    open_image_u64 (torn_image _) torn_array 1 6 4352 [Dirent 2 [x2e] x00; Dirent 2 [x2e; x2e] x00; Dirent 12 [x61; x62] x00] 5 1 (conj (torn_holds _) IU)
    open_image_supported (open_image_inode 6 ltac:(cbn; auto))) as R.
  cbv zeta in R. rewrite SL, BS, SZ, RT, NI, FT in R.
  destruct R as (s1 & F & s2 & own & g & fuel & s' & g' & rs & R1 & R2 & R3 & R4).
  - intros q Q B. apply torn_bad in B.
    assert (D0 : sb4_desc_offset (device_sb open_image) 1 <= 6144) by (vm_compute; discriminate).
    assert (S0 : device_slot_offset open_image 6 + sb4_inode_size (device_sb open_image) <= 6144) by (vm_compute; discriminate).
    lia.
  - exact open_usual.
  - exact L.
  - vm_compute. reflexivity.
  - vm_compute. reflexivity.
  - vm_compute. reflexivity.
  - apply dir_root_ordered.
  - reflexivity.
  - discriminate.
  - apply dir_root_nodes.
  - intros p P. exists (ex_extent 0 1 15). split; [now apply dir_root_finds|]. assert (p = 0) as -> by lia. split; [vm_compute; reflexivity|].
    apply torn_on_image; vm_compute; congruence.
  - intros seed p x SE P B. rewrite (dir_root_at _ _ _ P B). fold b. unfold inode_seed in SE. rewrite NC in SE. subst seed. split; [exact Logic.I|].
    eexists. rewrite app_nil_r. split; [exact RE|]. vm_compute. reflexivity.
  - exists 4352, None, 1. cbv zeta. split; [exact L|]. rewrite SL, BS, SZ, RT, NI, FT. split; [unfold inode_seed; now rewrite NC|]. split; [reflexivity|].
    pose proof (dir_root_lists open_image 16 false [window b 0 12; window b 12 12; window b 24 1000] Logic.I RE) as X.
    replace (map _ _) with [Dirent 2 [x2e] x00; Dirent 2 [x2e; x2e] x00; Dirent 12 [x61; x62] x00] in X by (vm_compute; reflexivity). exact X.
  - exists s1, F, s2, own, g, fuel, s', g', rs. auto.
Qed.
