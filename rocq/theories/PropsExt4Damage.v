(** Properties C97 and C98: members that hold wrong data. *)

From Coq Require Import Strings.String Permutation.
From Verif Require Import Base BaseFacts Raid SpecRaid RaidFacts SpecParity ParityFacts PropsRaid Io SpecStream IoFacts Superblock Device Array ArrayIo
  SpecMd SpecArray ArrayFacts PropsArray PropsArrayRead PropsArrayIo SpecExt4 SpecExt4Inode Ext4Superblock Ext4Inode Ext4Fs SpecExt4Fs Ext4FsFacts PropsExt4Fs
  Ext4Extent Ext4File SpecExt4File PropsExt4File Ext4String Ext4Dir SpecExt4Dir PropsExt4Dir PropsExt4Listing PropsExt4Flat PropsExt4Array SpecExt4Open PropsExt4Open
  PropsExt4Recover SpecExt4Content SpecExt4Linux PropsExt4Content SpecExt4LinuxDir PropsExt4LinuxDir SuperblockFacts PropsExt4Features SpecExt4Walk SpecExt4Frame PropsExt4Frame SpecDamage.

(** ** An array as a block device, whatever its members hold *)

Lemma array_io_block_any {D} (ops : blockdev D) join C f l image :
  joins join -> geometry_ok f l -> u64_ok (len image) -> len image = mf_sectors_per_device f * (mf_device_count f - 2) * 512 ->
  (forall s blks, s < mf_sectors_per_device f * (mf_device_count f - 2) -> row_in C l f s blks -> data_of l f s blks = Some (image_sector image s)) ->
  block_ok (array_block_io ops join) 512 (mf_sectors_per_device f * (mf_device_count f - 2)) (image_sector image)
    (fun s => forall blks, row_in C l f s blks -> row_bad C f s) (fun a => slots_hold ops a C /\ in_use a f).
Proof.
  intros J (code & ra & Al & Hl & Ha & Uf & Hn & Hc & Dv) U Li Dat.
  set (n := mf_device_count f) in *. set (c := mf_chunk_size f) in *. set (spd := mf_sectors_per_device f) in *.
  unfold u64_ok in U. constructor; unfold u64_ok; try lia; auto.
  - intros s Ls. apply len_window_in. lia.
  - intros a [_ Iu]. cbn [bd_count array_block_io]. unfold array_block_count. rewrite (proj1 (in_use_current a f) Iu). cbn [rbind].
    unfold data_sector_count, data_device_count. rewrite Al. cbn [parity_device_count obind]. unfold csub32. fold n.
    destruct (N.leb_spec 2 n); [|lia]. cbn [obind]. fold spd. rewrite cmul64_some by lia. reflexivity.
  - intros a s buf a' buf' r [H Iu] Ls Lb E. cbn [bd_read array_block_io] in E.
    assert (Un : forall g, in_use a g -> g = f). { intros g Ig. apply in_use_current in Ig, Iu. congruence. }
    destruct (array_io_sound ops join J C a s buf a' buf' r H) as (H' & [F1 F2] & O); auto.
    { unfold u64_ok. lia. }
    { intros g Ig. rewrite (Un g Ig). exact Uf. }
    split; [split; [exact H'|unfold in_use in *; now rewrite F1, F2]|].
    destruct r as [k|e|]; [| |destruct O].
    + destruct O as (-> & g & l' & code' & ra' & blks' & Ig & Al' & Hl' & Ha' & Hc' & Hn' & R' & D'). rewrite (Un g Ig) in *.
      assert (buf' = image_sector image s) as ->.
      { assert (EL : raid6_of l = raid6_of l').
        { pose proof (raid6_from_layout_code _ _ Hl). pose proof (raid6_from_layout_code _ _ Hl'). congruence. }
        assert (R : row_in C l f s blks').
        { destruct R' as (R1 & R2 & R3). split; [exact R1|]. split; [exact R2|]. now rewrite (raid6_of_row l l') by congruence. }
        pose proof (Dat s blks' Ls R) as X. unfold data_of in X, D'. rewrite (raid6_of_row l l') in X by congruence. congruence. }
      split; [|auto]. rewrite Lb. apply len_window_in. lia.
    + destruct O as [-> O]. split; [reflexivity|]. intros blks R. exact (O f l code ra blks Iu Al Hl Ha Hc Hn R).
  - intros a H. exists a. auto.
Qed.

Lemma block_ok_weaken {D} (ops : blockdev D) bs count blk (bad bad' : N -> Prop) inv : (forall n, n < count -> bad n -> bad' n) ->
  block_ok ops bs count blk bad inv -> block_ok ops bs count blk bad' inv.
Proof.
  intros W [B1 B2 B3 B4 B5 B6 B7]. constructor; auto. intros d n buf d' buf' r I L Lb E. destruct (B6 d n buf d' buf' r I L Lb E) as (I' & L' & O).
  split; [exact I'|]. split; [exact L'|]. destruct r; auto.
Qed.

(** ** Rows *)

Section Rows.
  Context (C : contents) (f : md_format) (l : layout6) (image : bytes) (q : N -> bytes).
  Let n := mf_device_count f.
  Let c := mf_chunk_size f.
  Let spd := mf_sectors_per_device f.
  Hypothesis G : geometry_ok f l.
  Hypothesis Li : len image = spd * (n - 2) * 512.

  Definition md_row (s : N) : list bytes := map (stored_slot n c image q (member_sector s c (n - 2))) (row6 l n (stripe_of s c (n - 2))).

  Lemma geometry_facts : 3 <= n /\ c <> 0 /\ N.divide c spd.
  Proof. destruct G as (code & ra & _ & _ & _ & _ & A & B & E). auto. Qed.

  Lemma sector_within s : s < spd * (n - 2) -> member_sector s c (n - 2) < spd.
  Proof.
    intros Ls. destruct geometry_facts as (Hn & Hc & z & Dv). rewrite Dv, (N.mul_comm z c) in *. apply sector_below; lia.
  Qed.
  Lemma md_row_len s : len (md_row s) = n.
  Proof. destruct geometry_facts as (Hn & _). unfold md_row. pose proof (len_row6 l n (stripe_of s c (n - 2)) ltac:(lia)) as Y. unfold len in *. now rewrite map_length. Qed.
  Lemma md_row_nth s i b : nth_N (md_row s) i = Some b -> i < n /\ b = stored l n c image q i (member_sector s c (n - 2)).
  Proof.
    destruct geometry_facts as (Hn & Hc & _). destruct (member_sector_split s c (n - 2) Hc) as [Tk To].
    intros Hb. pose proof (nth_N_some_lt _ _ _ Hb) as L. rewrite md_row_len in L. split; [exact L|].
    unfold md_row in Hb. rewrite nth_N_spec, nth_error_map in Hb. unfold stored. rewrite Tk, nth_N_spec.
    destruct (nth_error (row6 l n (stripe_of s c (n - 2))) (N.to_nat i)) as [sl|]; [|discriminate]. cbn in Hb. congruence.
  Qed.
  Lemma md_row_at s i : i < n -> nth_N (md_row s) i = Some (stored l n c image q i (member_sector s c (n - 2))).
  Proof.
    intros L. destruct (nth_N_lt_some (md_row s) i) as [b E]; [now rewrite md_row_len|]. destruct (md_row_nth s i b E) as [_ ->]. exact E.
  Qed.
  Lemma md_row_consistent s : p_consistent (row6 l n (stripe_of s c (n - 2))) (md_row s).
  Proof.
    destruct geometry_facts as (Hn & Hc & _). destruct (member_sector_split s c (n - 2) Hc) as [Tk To]. unfold md_row. rewrite <- Tk. apply stored_consistent. lia.
  Qed.
  Lemma md_row_data s : data_of l f s (md_row s) = Some (image_sector image s).
  Proof.
    destruct geometry_facts as (Hn & Hc & _). destruct (member_sector_split s c (n - 2) Hc) as [Tk To].
    unfold data_of. fold n c. unfold md_row. rewrite slot_block_map.
    - cbn [stored_slot]. rewrite To, Tk. do 2 apply f_equal. symmetry. apply sector_recompose; lia.
    - apply (Permutation_in _ (Permutation_sym (row6_perm l n (stripe_of s c (n - 2)) ltac:(lia)))). right. right. apply in_datas.
      eexists. split; [reflexivity|]. apply N.mod_lt. lia.
  Qed.
  Lemma md_row_full s i b : s < spd * (n - 2) -> nth_N (row6 l n (stripe_of s c (n - 2))) i <> Some Q -> nth_N (md_row s) i = Some b -> len b = 512.
  Proof.
    intros Ls NQ Hb. destruct geometry_facts as (Hn & Hc & Dz). destruct (md_row_nth s i b Hb) as [Li' ->].
    destruct (member_sector_split s c (n - 2) Hc) as [Tk To].
    unfold stored. rewrite Tk. destruct (nth_N (row6 l n (stripe_of s c (n - 2))) i) as [sl|] eqn:E.
    2:{ exfalso. destruct (nth_N_lt_some (row6 l n (stripe_of s c (n - 2))) i) as [x X]; [rewrite len_row6; lia|congruence]. }
    pose proof E as E0. apply nth_N_in in E. apply (Permutation_in _ (row6_perm l n _ ltac:(lia))) in E. destruct sl as [j| |]; cbn [stored_slot].
    - destruct E as [E|[E|E]]; [discriminate..|]. apply in_datas in E as (j' & E & Lj). injection E as <-.
      apply len_window_in. rewrite Tk, To, Li. unfold stripe_of in *.
      destruct Dz as [z Dz]. rewrite Dz in *. clear - Ls Lj Hc Hn. assert (Hd : n - 2 <> 0) by lia. revert Ls Lj Hd. generalize (n - 2). intros d Ls Lj Hd.
      assert (St : s / c / d < z).
      { apply N.div_lt_upper_bound; [exact Hd|]. apply N.div_lt_upper_bound; [exact Hc|]. rewrite (N.mul_comm d z), N.mul_assoc, (N.mul_comm c z). exact Ls. }
      pose proof (N.mod_lt s c Hc) as Lm. revert St Lm. generalize (s / c / d) (s mod c). intros a b St Lm.
      assert (X : a * d + j + 1 <= z * d) by nia. assert (Y : (a * d + j + 1) * c <= z * d * c) by now apply N.mul_le_mono_r.
      replace (z * c * d) with (z * d * c) by ring. nia.
    - unfold len. rewrite map_length, seq_length. reflexivity.
    - congruence.
  Qed.

  Lemma slot_sector_unique i t b b' : slot_sector C i t b -> slot_sector C i t b' -> b = b'.
  Proof. intros (ct & bad & E & _ & ->) (ct' & bad' & E' & _ & ->). congruence. Qed.
  Lemma slot_sector_len i t b : slot_sector C i t b -> len b = 512.
  Proof. intros (ct & bad & E & L & ->). now apply len_window_in. Qed.
  Lemma row_in_sectors s blks i b : row_in C l f s blks -> nth_N blks i = Some b -> slot_sector C i (member_sector s c (n - 2)) b.
  Proof. intros (_ & R & _) E. destruct (R i b E) as (ct & bad & X & Y). exists ct, bad. auto. Qed.

  (** ** A row with one slot that is not to be trusted *)

  Definition others s j : Prop := forall i, i < n -> i <> j -> as_stored C f l image q s i.

  Lemma row_replaced j s blks x : others s j -> j < n ->
    len blks = n -> (forall i b, nth_N blks i = Some b -> slot_sector C i (member_sector s c (n - 2)) b) -> nth_N blks j = Some x ->
    blks = replace_at (md_row s) (N.to_nat j) x.
  Proof.
    intros HB Lj Lb R Ej. pose proof (md_row_len s) as Lm. apply list_ext_N.
    - rewrite Lb. unfold len in *. now rewrite length_replace, Lm.
    - intros i Hi. rewrite Lb in Hi. rewrite nth_replace, N2Nat.id, Lm. destruct (N.eqb_spec i j) as [->|Ne].
      + destruct (N.ltb_spec j n); [exact Ej|lia].
      + rewrite (md_row_at s i Hi). destruct (nth_N_lt_some blks i) as [b Eb]; [lia|]. rewrite Eb. f_equal.
        exact (slot_sector_unique _ _ _ _ (R i b Eb) (HB i Hi Ne)).
  Qed.

  Lemma replaced_same s j : j < n -> replace_at (md_row s) (N.to_nat j) (stored l n c image q j (member_sector s c (n - 2))) = md_row s.
  Proof.
    intros Lj. pose proof (md_row_len s) as Lm. apply list_ext_N; [unfold len; now rewrite length_replace|]. intros i Hi.
    rewrite nth_replace, N2Nat.id, Lm. destruct (N.eqb_spec i j) as [->|Ne]; [|reflexivity].
    destruct (N.ltb_spec j n); [|lia]. now rewrite md_row_at.
  Qed.

  Lemma data_but j s blks : others s j -> s < spd * (n - 2) -> row_in C l f s blks -> data_of l f s blks = Some (image_sector image s).
  Proof.
    intros HB Ls R. destruct geometry_facts as (Hn & Hc & _). pose proof (md_row_len s) as Lm.
    assert (Lb : len blks = n) by apply R.
    destruct (N.ltb_spec j n) as [Lj|Lj].
    2:{ assert (blks = md_row s) as ->; [|apply md_row_data]. apply list_ext_N; [congruence|]. intros i Hi. rewrite Lb in Hi.
        rewrite (md_row_at s i Hi). destruct (nth_N_lt_some blks i) as [b Eb]; [lia|]. rewrite Eb. f_equal.
        exact (slot_sector_unique _ _ _ _ (row_in_sectors s blks i b R Eb) (HB i Hi ltac:(lia))). }
    destruct (nth_N_lt_some blks j) as [x Ex]; [lia|].
    pose proof (row_replaced j s blks x HB Lj Lb (fun i b => row_in_sectors s blks i b R) Ex) as EB.
    set (old := stored l n c image q j (member_sector s c (n - 2))). destruct (bytes_dec x old) as [->|Ne].
    { rewrite EB. unfold old. rewrite replaced_same by exact Lj. apply md_row_data. }
    set (row := row6 l n (stripe_of s c (n - 2))) in *.
    assert (RQ : nth_N row j = Some Q \/ nth_N row j <> Some Q).
    { destruct (nth_N row j) as [[k| |]|]; [right|right|left|right]; congruence. }
    destruct RQ as [RQ|RQ].
    - rewrite EB. unfold data_of. fold n c row. rewrite slot_block_replace by (rewrite N2Nat.id; congruence). apply md_row_data.
    - exfalso. refine (p_consistent_replace row (md_row s) (N.to_nat j) x old _ _ _ _ _ _ Ne _ (md_row_consistent s) _).
      + unfold row. rewrite len_row6, Lm; lia.
      + apply row6_nodup. lia.
      + assert (IP : In P row) by (apply (Permutation_in P (Permutation_sym (row6_perm l n (stripe_of s c (n - 2)) ltac:(lia)))); now left).
        apply In_nth_error in IP as (p & IP). exists (N.of_nat p). now rewrite nth_N_spec, Nat2N.id.
      + apply Forall_forall. intros b Ib. apply In_nth_error in Ib as (p & Ib). assert (Ib' : nth_N (md_row s) (N.of_nat p) = Some b) by now rewrite nth_N_spec, Nat2N.id.
        destruct (N.eq_dec (N.of_nat p) j) as [Ep|Np].
        * eapply md_row_full; [exact Ls| |exact Ib']. now rewrite Ep.
        * destruct (md_row_nth s _ _ Ib') as [Lp ->]. eapply slot_sector_len. exact (HB _ Lp Np).
      + eapply slot_sector_len. exact (row_in_sectors s blks j x R Ex).
      + rewrite N2Nat.id. now apply md_row_at.
      + now rewrite N2Nat.id.
      + rewrite <- EB. apply R.
  Qed.

  (** A row all slots of which are right is consistent. *)
  Lemma q_slot s : exists j, j < n /\ nth_N (row6 l n (stripe_of s c (n - 2))) j = Some Q.
  Proof.
    destruct geometry_facts as (Hn & _). set (row := row6 l n (stripe_of s c (n - 2))).
    assert (IQ : In Q row) by (apply (Permutation_in Q (Permutation_sym (row6_perm l n (stripe_of s c (n - 2)) ltac:(lia)))); right; now left).
    apply In_nth_error in IQ as (p & IP). assert (E : nth_N row (N.of_nat p) = Some Q) by now rewrite nth_N_spec, Nat2N.id.
    exists (N.of_nat p). split; [|exact E]. apply nth_N_some_lt in E. unfold row in E. rewrite len_row6 in E by lia. exact E.
  Qed.
  Lemma row_right s : (forall i, i < n -> right_about C f l image q s i) -> exists j, j < n /\ others s j /\ exists blks, row_in C l f s blks.
  Proof.
    intros R. destruct geometry_facts as (Hn & Hc & _). pose proof (md_row_len s) as Lm. destruct (q_slot s) as (j & Lj & Ej).
    exists j. split; [exact Lj|]. assert (HB : others s j).
    { intros i Li' Ne. destruct (R i Li') as [X|[X _]]; [exact X|]. exfalso. apply Ne.
      pose proof (row6_nodup l n (stripe_of s c (n - 2)) ltac:(lia)) as ND. fold n c in X. rewrite nth_N_spec in X, Ej.
      rewrite NoDup_nth_error in ND. assert (N.to_nat i = N.to_nat j); [|lia]. apply ND; [|congruence].
      apply nth_error_Some. congruence. }
    split; [exact HB|]. assert (B : exists b, slot_sector C j (member_sector s c (n - 2)) b).
    { destruct (R j Lj) as [X|[_ X]]; [eexists; exact X|exact X]. }
    destruct B as (b & B).
    exists (replace_at (md_row s) (N.to_nat j) b). unfold row_in. fold n c. split; [unfold len in *; now rewrite length_replace|]. split.
    - intros i x Ex. rewrite nth_replace, N2Nat.id, Lm in Ex. destruct (N.eqb_spec i j) as [->|Ne].
      + destruct (N.ltb_spec j n); [|lia]. injection Ex as <-. exact B.
      + destruct (md_row_nth s i x Ex) as [Lx ->]. exact (HB i Lx Ne).
    - apply p_consistent_replace_q; [now rewrite N2Nat.id|apply md_row_consistent].
  Qed.
End Rows.

(** ** C97: an array in every row of which at most one slot is wrong *)

Section Corrupt.
  Context {D : Type} (ops : blockdev D) (join : D -> D -> D) (J : joins join) (C : contents) (f : md_format) (l : layout6) (image : bytes)
    (q : N -> bytes).
  Hypothesis G : geometry_ok f l.
  Hypothesis U : u64_ok (len image).
  Hypothesis HB : one_wrong C f l image q.

  Let st := reader_stream (array_block_io ops join).
  Let clone := reader_clone (array_block_io ops join).
  Let holds := fun a : definition D => slots_hold ops a C /\ in_use a f.
  Let count := mf_sectors_per_device f * (mf_device_count f - 2).

  Lemma corrupt_block_ok : block_ok (array_block_io ops join) 512 count (image_sector image) (fun s => ~ whole C f l image q s) holds.
  Proof.
    eapply block_ok_weaken; [|apply (array_io_block_any ops join C f l image J G U (proj1 HB))].
    - intros s Ls B [W NB]. destruct (row_right C f l image q G (proj1 HB) s W) as (j & _ & _ & blks & X). exact (NB (B blks X)).
    - intros s blks Ls R. destruct (proj2 HB s Ls) as (j & O). exact (data_but C f l image q G (proj1 HB) j s blks O Ls R).
  Qed.

  Lemma corrupt_stream_ok : stream_ok st image (damaged C f l image q) (reader_at 512 holds).
  Proof. pose proof (reader_stream_ok _ _ _ _ _ _ corrupt_block_ok) as S. rewrite flat_image in S by apply (proj1 HB). exact S. Qed.
  Lemma corrupt_start a : holds a -> legal (reader_at 512 holds) (reader_new a).
  Proof. intros H. exists 0. apply (reader_new_at _ _ _ _ _ _ corrupt_block_ok a H). Qed.
  Lemma corrupt_clone s s' r : legal (reader_at 512 holds) s -> clone s = (s', r) ->
    legal (reader_at 512 holds) s' /\ r <> Panic /\ (forall t, r = Ok t -> legal (reader_at 512 holds) t).
  Proof.
    intros A E. unfold clone, reader_clone in E.
    destruct (bo_clone _ _ _ _ _ _ (reader_block_ok _ _ _ _ _ _ corrupt_block_ok) s A) as (t & E1 & T).
    rewrite E1 in E. injection E as <- <-. split; [exact A|]. split; [discriminate|]. intros u [= <-]. exact T.
  Qed.
  Lemma corrupt_clone_there s : legal (reader_at 512 holds) s -> exists s' t, clone s = (s', Ok t).
  Proof.
    intros A. unfold clone, reader_clone.
    destruct (bo_clone _ _ _ _ _ _ (reader_block_ok _ _ _ _ _ _ corrupt_block_ok) s A) as (t & -> & _). eauto.
  Qed.

  (** C97: a sector read from the array is the sector of the [image] or an error; and an error only where the row is not
      whole. *)
  Theorem one_wrong_sector a s buf a' buf' r : holds a -> s < count -> len buf = 512 -> array_read_block_io ops join a s buf = (a', buf', r) ->
    holds a' /\
    match r with
    | Ok k => k = 512 /\ buf' = image_sector image s
    | Err _ => ~ whole C f l image q s
    | Panic => False
    end.
  Proof.
    intros H Ls Lb E. destruct (bo_read _ _ _ _ _ _ corrupt_block_ok a s buf a' buf' r H Ls Lb E) as (H' & _ & O). split; [exact H'|]. destruct r; exact O.
  Qed.

  (** C97, for files: what is read from a file through the array is what Linux reads from that file in the [image], but for
      unwritten extents. *)
  Theorem one_wrong_linux_partial d s1 F number a s2 own g fuel bufs s' g' calls hi : holds d -> fs_open st (reader_new d) = (s1, Ok F) ->
    linux_usual (device_sb image) -> linux_inode_at image number a ->
    let slot := window image a (linux_inode_size (device_sb image)) in
    let bs := sb4_block_size (device_sb image) in
    ordered image bs (slot_root slot) 0 hi ->
    open_file st clone F number s1 = (s2, Ok (own, AnyRegular g)) -> run_file st fuel own g bufs = Some (s', g', calls) ->
    slot_kind slot = 8 /\ len (delivered calls) <= slot_size slot /\
    forall o x, nth_N (delivered calls) o = Some x -> linux_file_byte image number o x \/ in_unwritten image bs (slot_root slot) o.
  Proof.
    intros H. exact (device_linux st image (damaged C f l image q) (reader_at 512 holds) corrupt_stream_ok clone
      corrupt_clone (reader_new d) s1 F number a s2 own g fuel bufs s' g' calls hi (corrupt_start d H)).
  Qed.

  (** And a file is read to its end, if Linux finds all of its blocks, written and in whole rows. *)
  Theorem one_wrong_complete_partial d k number a bufs hi : holds d ->
    device_supported image k -> device_inode image k number -> metadata_good image (damaged C f l image q) k number ->
    linux_usual (device_sb image) -> linux_inode_at image number a ->
    let slot := window image a (linux_inode_size (device_sb image)) in
    let bs := sb4_block_size (device_sb image) in
    slot_kind slot = 8 -> slot_by_extents slot = true -> ordered image bs (slot_root slot) 0 hi ->
    slot_size slot <= hi * bs < slot_size slot + bs -> hi <= u32_max ->
    nodes_readable image bs (block_good image (damaged C f l image q) bs) (slot_root slot) ->
    (forall p, p < hi -> exists e, linux_finds image bs (slot_root slot) p (Some e) /\ extent_value e < 32768 /\
       block_good image (damaged C f l image q) bs (extent_start e + (p - extent_first e))) ->
    hi <= len bufs -> Forall (fun buf => len buf = bs) bufs ->
    exists s1 F s2 own g fuel s' g' calls,
      fs_open st (reader_new d) = (s1, Ok F) /\ open_file st clone F number s1 = (s2, Ok (own, AnyRegular g)) /\
      run_file st fuel own g bufs = Some (s', g', calls) /\ Forall (fun '(_, _, r) => is_ok r) calls /\
      len (delivered calls) = slot_size slot /\ forall o x, nth_N (delivered calls) o = Some x -> linux_file_byte image number o x.
  Proof.
    intros H. exact (device_linux_complete st image (damaged C f l image q) (reader_at 512 holds) corrupt_stream_ok clone
      corrupt_clone (reader_new d) k number a bufs hi (corrupt_start d H) corrupt_clone_there).
  Qed.

  (** C97, for directories: every entry that is listed is one that Linux reads in the [image], where it accepts the block. *)
  Theorem one_wrong_listing_partial d s1 F number a s2 own g fuel n s' g' rs hi e : holds d -> fs_open st (reader_new d) = (s1, Ok F) ->
    linux_usual (device_sb image) -> linux_inode_at image number a ->
    let slot := window image a (linux_inode_size (device_sb image)) in
    let bs := sb4_block_size (device_sb image) in
    ordered image bs (slot_root slot) 0 hi ->
    open_file st clone F number s1 = (s2, Ok (own, AnyDirectory g)) -> run_dir st fuel n own g = Some (s', g', rs) -> In (Ok (Some e)) rs ->
    slot_kind slot = 4 /\ exists seed p b, inode_seed (device_sb image) number slot seed /\ p * bs < slot_size slot /\
      linux_dir_block image bs (slot_root slot) p b /\ dir_tail_ok seed b /\
      (exists es, records b (dir_limit seed b) 0 es /\ In e es) /\
      forall es, linux_whole (sb4_inodes (device_sb image)) seed b -> linux_records (sb4_inodes (device_sb image)) b 0 es -> In e es.
  Proof.
    intros H. exact (listing_linux_partial st image (damaged C f l image q) (reader_at 512 holds) corrupt_stream_ok clone
      corrupt_clone (reader_new d) s1 F number a s2 own g fuel n s' g' rs hi e (corrupt_start d H)).
  Qed.
End Corrupt.

(** ** C98: any damage, but to rows that are not used *)

(** What an array has, whatever its members hold: the sectors in the data slots; zeros where there is none. *)
Definition sector_here (C : contents) (i t : N) : bytes :=
  match C i with Some (ct, _) => if t * 512 + 512 <=? len ct then window ct (t * 512) 512 else zeros 512 | None => zeros 512 end.
Definition row_here (C : contents) (f : md_format) (s : N) : list bytes :=
  let n := mf_device_count f in
  map (fun i => sector_here C (N.of_nat i) (member_sector s (mf_chunk_size f) (n - 2))) (seq 0 (N.to_nat n)).
Definition data_here (C : contents) (f : md_format) (l : layout6) (s : N) : bytes :=
  match data_of l f s (row_here C f s) with Some b => b | None => zeros 512 end.
Definition image_here (C : contents) (f : md_format) (l : layout6) : bytes :=
  flat (mf_sectors_per_device f * (mf_device_count f - 2)) (data_here C f l).

Lemma slot_here C i t b : slot_sector C i t b -> b = sector_here C i t.
Proof. intros (ct & bad & E & L & ->). unfold sector_here. rewrite E. destruct (N.leb_spec (t * 512 + 512) (len ct)); [reflexivity|lia]. Qed.

Section Here.
  Context (C : contents) (f : md_format) (l : layout6).
  Let n := mf_device_count f.
  Let c := mf_chunk_size f.
  Let spd := mf_sectors_per_device f.
  Hypothesis G : geometry_ok f l.

  Lemma len_sector_here i t : len (sector_here C i t) = 512.
  Proof.
    unfold sector_here. destruct (C i) as [[ct bad]|]; [|reflexivity]. destruct (N.leb_spec (t * 512 + 512) (len ct)); [now apply len_window_in|reflexivity].
  Qed.
  Lemma row_here_nth s i : i < n -> nth_N (row_here C f s) i = Some (sector_here C i (member_sector s c (n - 2))).
  Proof.
    intros L. unfold row_here. fold n c. rewrite nth_N_spec, nth_error_map.
    rewrite (nth_error_nth' (seq 0 (N.to_nat n)) 0%nat) by (rewrite seq_length; lia). rewrite seq_nth by lia. cbn [option_map Nat.add]. now rewrite N2Nat.id.
  Qed.
  Lemma len_row_here s : len (row_here C f s) = n.
  Proof. unfold row_here, len. fold n. rewrite map_length, seq_length. lia. Qed.
  Lemma row_in_here s blks : row_in C l f s blks -> blks = row_here C f s.
  Proof.
    intros (L & R & _). apply list_ext_N; [now rewrite len_row_here|]. intros i Hi. fold n in L. rewrite L in Hi. rewrite row_here_nth by exact Hi.
    destruct (nth_N_lt_some blks i) as [b Eb]; [lia|]. rewrite Eb. f_equal. apply slot_here. destruct (R i b Eb) as (ct & bad & X & Y). exists ct, bad. auto.
  Qed.
  Lemma data_here_of s : data_of l f s (row_here C f s) = Some (data_here C f l s) /\ len (data_here C f l s) = 512.
  Proof.
    destruct G as (code & ra & _ & _ & _ & _ & Hn & Hc & _). fold n in Hn. unfold data_here.
    destruct (data_of l f s (row_here C f s)) as [b|] eqn:E.
    - split; [reflexivity|]. unfold data_of in E. apply slot_block_inv in E as (k & _ & E). pose proof (nth_N_some_lt _ _ _ E) as L.
      rewrite len_row_here in L. rewrite row_here_nth in E by exact L. injection E as <-. apply len_sector_here.
    - exfalso. unfold data_of in E. fold n c in E. set (row := row6 l n (stripe_of s c (n - 2))) in *.
      assert (ID : In (SpecRaid.D (data_index_of s c (n - 2))) row).
      { apply (Permutation_in _ (Permutation_sym (row6_perm l n (stripe_of s c (n - 2)) ltac:(lia)))). right. right. apply in_datas.
        eexists. split; [reflexivity|]. apply N.mod_lt. lia. }
      apply In_nth_error in ID as (p & IP). assert (EP : nth_N row (N.of_nat p) = Some (SpecRaid.D (data_index_of s c (n - 2)))) by now rewrite nth_N_spec, Nat2N.id.
      pose proof (nth_N_some_lt _ _ _ EP) as L. pose proof (len_row6 l n (stripe_of s c (n - 2)) ltac:(lia)) as LR. fold row in LR. rewrite LR in L.
      rewrite (slot_block_nth row (row_here C f s) _ (N.of_nat p) (sector_here C (N.of_nat p) (member_sector s c (n - 2)))) in E; [discriminate| |apply row6_nodup; lia|exact EP|apply row_here_nth; exact L].
      pose proof (len_row_here s) as LH. unfold len in *. lia.
  Qed.
  Lemma len_image_here : len (image_here C f l) = spd * (n - 2) * 512.
  Proof. unfold image_here. fold spd n. apply len_flat. intros s _. apply data_here_of. Qed.
  Lemma image_here_sector s : s < spd * (n - 2) -> image_sector (image_here C f l) s = data_here C f l s.
  Proof.
    intros L. unfold image_sector, image_here. fold spd n.
    pose proof (flat_window (spd * (n - 2)) (data_here C f l) 512 s 0 512 (fun s _ => proj2 (data_here_of s)) L ltac:(lia)) as W.
    rewrite N.add_0_r in W. rewrite W. rewrite <- (proj2 (data_here_of s)) at 1. apply window_full.
  Qed.
End Here.

Section Damage.
  Context {D : Type} (ops : blockdev D) (join : D -> D -> D) (J : joins join) (C : contents) (f : md_format) (l : layout6) (image : bytes)
    (q : N -> bytes).
  Hypothesis G : geometry_ok f l.
  Hypothesis U : u64_ok (len image).
  Hypothesis Li : len image = mf_sectors_per_device f * (mf_device_count f - 2) * 512.

  Let st := reader_stream (array_block_io ops join).
  Let clone := reader_clone (array_block_io ops join).
  Let holds := fun a : definition D => slots_hold ops a C /\ in_use a f.
  Let count := mf_sectors_per_device f * (mf_device_count f - 2).
  Let here := image_here C f l.
  Let bad_here := fun s => forall blks, row_in C l f s blks -> row_bad C f s.

  Lemma here_len : len here = len image.
  Proof. unfold here. rewrite len_image_here by exact G. now rewrite Li. Qed.
  Lemma here_block_ok : block_ok (array_block_io ops join) 512 count (image_sector here) bad_here holds.
  Proof.
    apply (array_io_block_any ops join C f l here J G); rewrite ?here_len; auto.
    intros s blks Ls R. rewrite (row_in_here C f l s blks R). unfold here. rewrite image_here_sector by assumption. apply data_here_of. exact G.
  Qed.
  Lemma here_whole s : s < count -> whole C f l image q s -> image_sector here s = image_sector image s /\ ~ bad_here s.
  Proof.
    intros Ls [W NB]. destruct (row_right C f l image q G Li s W) as (j & Lj & O & blks & R). split.
    - pose proof (data_but C f l image q G Li j s blks O Ls R) as X. rewrite (row_in_here C f l s blks R) in X.
      unfold here. rewrite image_here_sector by assumption. rewrite (proj1 (data_here_of C f l G s)) in X. congruence.
    - intros B. exact (NB (B blks R)).
  Qed.
  Lemma here_alike o k : whole_range C f l image q o k -> alike image no_bad here (bad_pos 512 bad_here) o k.
  Proof.
    intros [L W]. unfold alike. rewrite here_len. split; [exact L|]. split; [exact L|].
    assert (Ls : forall p, o <= p < o + k -> p / 512 < count).
    { intros p P. apply N.div_lt_upper_bound; [lia|]. fold count in Li. lia. }
    split.
    - apply list_ext_N; [rewrite !len_window_in; rewrite ?here_len; auto|]. intros i Hi. rewrite len_window_in in Hi by exact L.
      rewrite !nth_N_window by exact Hi. destruct (here_whole ((o + i) / 512)) as [E _]; [apply Ls; lia|apply W; lia|].
      assert (B : forall x : bytes, nth_N x (o + i) = nth_N (image_sector x ((o + i) / 512)) ((o + i) mod 512)).
      { intros x. unfold image_sector. rewrite nth_N_window by (apply N.mod_lt; lia). f_equal. pose proof (N.div_mod (o + i) 512). lia. }
      now rewrite (B image), (B here), E.
    - intros p P. split; [intros []|]. exact (proj2 (here_whole _ (Ls p P) (W p P))).
  Qed.

  (** C98: an inode that uses whole rows only is served from the array as from an intact device with the [image], whatever
      the members hold in the other rows, and whether or not they can be read there. *)
  Theorem damage_elsewhere {S} (st0 : stream S) at0 clone0 s a k number : stream_ok st0 image no_bad at0 ->
    (forall s s' r, legal at0 s -> clone0 s = (s', r) -> legal at0 s' /\ r <> Panic /\ (forall t, r = Ok t -> legal at0 t)) ->
    (forall s, legal at0 s -> exists s1 t, clone0 s = (s1, Ok t)) -> legal at0 s -> holds a ->
    device_supported image k -> device_inode image k number -> whole_footprint C f l image q k number ->
    exists s1 F s2 r s1' F' s2' r',
      fs_open st0 s = (s1, Ok F) /\ open_file st0 clone0 F number s1 = (s2, r) /\
      fs_open st (reader_new a) = (s1', Ok F') /\ open_file st clone F' number s1' = (s2', r') /\
      same_results st0 image st r r'.
  Proof.
    intros OK0 CL0 CT0 A0 H SU DI [W1 W2 W3 W4].
    assert (OK' : stream_ok st here (bad_pos 512 bad_here) (reader_at 512 holds)).
    { pose proof (reader_stream_ok _ _ _ _ _ _ here_block_ok) as S'. rewrite flat_image in S'; [exact S'|]. rewrite here_len. exact Li. }
    refine (served_elsewhere st0 image no_bad at0 st here (bad_pos 512 bad_here) (reader_at 512 holds) OK0 OK' clone0 clone CL0 _ s (reader_new a) k number A0 _ CT0 _ _ SU DI _).
    - intros x x' r A E. unfold clone, reader_clone in E.
      destruct (bo_clone _ _ _ _ _ _ (reader_block_ok _ _ _ _ _ _ here_block_ok) x A) as (t & E1 & T).
      rewrite E1 in E. injection E as <- <-. split; [exact A|]. split; [discriminate|]. intros u [= <-]. exact T.
    - exists 0. apply (reader_new_at _ _ _ _ _ _ here_block_ok a H).
    - intros x A. unfold clone, reader_clone.
      destruct (bo_clone _ _ _ _ _ _ (reader_block_ok _ _ _ _ _ _ here_block_ok) x A) as (t & -> & _). eauto.
    - rewrite here_len. exact U.
    - constructor.
      + now apply here_alike.
      + now apply here_alike.
      + now apply here_alike.
      + cbv zeta in *. intros BE. destruct (W4 BE) as (t & T & B). exists t. split; [exact T|]. intros b Nb. now apply here_alike, B.
  Qed.
End Damage.
Print Assumptions one_wrong_sector.
Print Assumptions one_wrong_linux_partial.
Print Assumptions one_wrong_complete_partial.
Print Assumptions one_wrong_listing_partial.
Print Assumptions damage_elsewhere.

(** ** Examples: the members of [torn_array], with other contents *)

Section Parts.
  Context (w : N -> bytes).
  Hypothesis W : forall i, i < 4 -> len (w i) = 8192.

  Definition wrong_member (i : N) : md_device filedev :=
    MdDevice i (DsSuperblock (ex_part_sb i)) (FileDev (OsFile (w i) 0 0 false (Ok 512) (Ok 8192)) 512).
  Definition wrong_array : definition filedev := array_open (fun x => x) (map wrong_member [2; 0; 3; 1]).
  Definition wrong_contents (pol : io_policy) : contents := fun i => if i <? 4 then Some (w i, fun p => pol_bad_block pol 512 (p / 512)) else None.

  Lemma wrong_holds pol : slots_hold (filedev_block pol) wrong_array (wrong_contents pol).
  Proof.
    assert (Dv : ad_devices wrong_array = map (fun i => (i, wrong_member i)) [2; 0; 3; 1]) by reflexivity.
    assert (In4 : forall i, i < 4 <-> In i [2; 0; 3; 1]). { intros i. cbn [In]. lia. }
    unfold slots_hold. rewrite Dv. split; [|split].
    - rewrite map_map. cbn [fst]. repeat constructor; cbn [In]; intuition discriminate.
    - intros i m X. apply in_map_iff in X as (j & E & Hj). apply In4 in Hj. injection E as <- <-. unfold wrong_contents. destruct (N.ltb_spec j 4); [|lia].
      eexists. eexists. split; [reflexivity|]. pose proof (W j Hj) as Sm.
      exists 512, (len (w j) / 512), (block_of (w j) 512), (pol_bad_block pol 512).
      eexists. split; [eapply (filedev_block_ok pol (w j) false (Ok 512) (Ok 8192) 512); [rewrite Sm; discriminate|discriminate]|].
      split; [split; [reflexivity|]; exists 0; repeat split; discriminate|]. split; [|intros p; reflexivity].
      rewrite flat_block_of by lia. rewrite Sm. change (8192 / 512 * 512) with 8192. rewrite <- Sm. symmetry. apply window_full.
    - intros i ct bad E. unfold wrong_contents in E. destruct (N.ltb_spec i 4) as [Hi|]; [|discriminate]. apply In4 in Hi.
      eexists. apply in_map_iff. exists i. split; [reflexivity|exact Hi].
  Qed.

  Lemma wrong_stored pol s i : s < 32 -> i < 4 -> window (w i) (member_sector s 2 2 * 512) 512 = window (torn_part i) (member_sector s 2 2 * 512) 512 ->
    as_stored (wrong_contents pol) torn_format (Md5 LeftSymmetric) open_image (fun _ => zeros 512) s i.
  Proof.
    intros Ls Hi E. pose proof (proj1 (sector_below s 2 8 2 ltac:(lia) ltac:(lia)) Ls) as B.
    unfold as_stored. cbv zeta. change (mf_device_count torn_format) with 4. change (mf_chunk_size torn_format) with 2. change (4 - 2) with 2.
    exists (w i), (fun p => pol_bad_block pol 512 (p / 512)). split; [unfold wrong_contents; destruct (N.ltb_spec i 4); [reflexivity|lia]|].
    split; [rewrite (W i Hi); lia|]. rewrite E. set (t := member_sector s 2 2) in *. clearbody t. unfold torn_part.
    pose proof (flat_window 16 (stored (Md5 LeftSymmetric) 4 2 open_image (fun _ => zeros 512) i) 512 t 0 512 (fun u => torn_stored_len i u Hi) B ltac:(lia)) as X.
    rewrite N.add_0_r in X. rewrite X, <- (torn_stored_len i t Hi B) at 1. now rewrite window_full.
  Qed.
End Parts.

Definition short_reads : io_policy := fun clock _ _ => IoXfer (100 + clock mod 100).
Lemma short_reads_well w s : ~ row_bad (wrong_contents w short_reads) torn_format s.
Proof.
  intros (i & ct & bad & p & _ & Ci & _ & B). unfold wrong_contents in Ci. destruct (i <? 4); [|discriminate]. injection Ci as _ <-.
  destruct B as (p' & _ & t & n & e & F). discriminate.
Qed.
Lemma torn_poke_window i o b t : i < 4 -> o + len b <= 8192 -> t < 16 -> t * 512 + 512 <= o \/ o + len b <= t * 512 ->
  window (poke (torn_part i) (o, b)) (t * 512) 512 = window (torn_part i) (t * 512) 512.
Proof. intros Hi Ho Ht D. apply window_poke; rewrite ?torn_part_len by exact Hi; [exact Ho|lia|exact D]. Qed.
Lemma row_sector s : s < 32 -> member_sector s 2 2 < 16 /\ member_sector s 2 2 / 2 = s / 4.
Proof.
  intros Ls. split; [exact (proj1 (sector_below s 2 8 2 ltac:(lia) ltac:(lia)) Ls)|].
  destruct (member_sector_split s 2 2 ltac:(lia)) as [T _]. rewrite T. unfold stripe_of. now rewrite N.div_div.
Qed.

(** Member 2 has garbage where it should have the block 6, and member 0 where it should have the parity of the blocks 14 and
    15.  Both are found out; the other blocks are as in the image. *)
Definition part_one (i : N) : bytes :=
  if i =? 2 then poke (torn_part 2) (3072, repeat xa5 1024) else if i =? 0 then poke (torn_part 0) (7168, repeat x5a 1024) else torn_part i.
Lemma part_one_len i : i < 4 -> len (part_one i) = 8192.
Proof.
  intros Hi. unfold part_one. destruct (N.eqb_spec i 2); [|destruct (N.eqb_spec i 0)]; rewrite ?len_poke; rewrite ?torn_part_len; try lia; vm_compute; discriminate.
Qed.
Example one_wrong_ex : one_wrong (wrong_contents part_one short_reads) torn_format (Md5 LeftSymmetric) open_image (fun _ => zeros 512) /\
  in_use (wrong_array part_one) torn_format /\
  (forall s, s < 32 -> s / 4 <> 3 -> s / 4 <> 7 -> whole (wrong_contents part_one short_reads) torn_format (Md5 LeftSymmetric) open_image (fun _ => zeros 512) s) /\
  session (reader_stream (array_block_io (filedev_block short_reads) shared)) (reader_clone (array_block_io (filedev_block short_reads) shared))
    (reader_new (wrong_array part_one)) [RqBlock 6 (zeros 1024); RqBlock 9 (zeros 1024); RqBlock 14 (zeros 1024); RqBlock 12 (zeros 1024)] =
  Ok [OcBlock (Err InvalidData) (zeros 1024); OcBlock (Ok tt) (repeat x09 1024); OcBlock (Err InvalidData) (zeros 1024); OcBlock (Ok tt) (repeat x12 1024)].
Proof.
  assert (ST : forall s i, s < 32 -> i < 4 -> i <> (if s / 4 =? 3 then 2 else if s / 4 =? 7 then 0 else 4) ->
    as_stored (wrong_contents part_one short_reads) torn_format (Md5 LeftSymmetric) open_image (fun _ => zeros 512) s i).
  { intros s i Ls Hi Ne. apply (wrong_stored part_one part_one_len); [exact Ls|exact Hi|]. destruct (row_sector s Ls) as [T R].
    set (t := member_sector s 2 2) in *. clearbody t. pose proof (N.div_mod t 2 ltac:(lia)). pose proof (N.mod_lt t 2 ltac:(lia)).
    unfold part_one. destruct (N.eqb_spec i 2) as [->|]; [|destruct (N.eqb_spec i 0) as [->|]; [|reflexivity]].
    - apply torn_poke_window; [lia|vm_compute; discriminate|exact T|]. change (len (repeat xa5 1024)) with 1024.
      destruct (N.eqb_spec (s / 4) 3); [congruence|]. lia.
    - apply torn_poke_window; [lia|vm_compute; discriminate|exact T|]. change (len (repeat x5a 1024)) with 1024.
      destruct (N.eqb_spec (s / 4) 3); [lia|]. destruct (N.eqb_spec (s / 4) 7); [congruence|]. lia. }
  split; [|split; [right; split; reflexivity|split]].
  - split; [rewrite open_image_len; reflexivity|]. intros s Ls. exists (if s / 4 =? 3 then 2 else if s / 4 =? 7 then 0 else 4). intros i Hi Ne. now apply ST.
  - intros s Ls N3 N7. split; [|apply short_reads_well]. intros i Hi. left. apply ST; [exact Ls|exact Hi|].
    destruct (N.eqb_spec (s / 4) 3); [contradiction|]. destruct (N.eqb_spec (s / 4) 7); [contradiction|]. change (mf_device_count torn_format) with 4 in Hi. lia.
  - vm_compute. reflexivity.
Qed.

(** Two wrong members in a row: the garbage in the places of the blocks 6 and 7 has the parity of these blocks, and is
    returned. *)
Definition part_two (i : N) : bytes := if (i =? 2) || (i =? 3) then poke (torn_part i) (3072, repeat xa5 1024) else torn_part i.
Lemma part_two_len i : i < 4 -> len (part_two i) = 8192.
Proof.
  intros Hi. unfold part_two. destruct ((i =? 2) || (i =? 3)); rewrite ?len_poke; rewrite ?torn_part_len; try lia; vm_compute; discriminate.
Qed.
Lemma part_two_stored s i : s < 32 -> i < 4 -> s / 4 <> 3 \/ i < 2 ->
  as_stored (wrong_contents part_two short_reads) torn_format (Md5 LeftSymmetric) open_image (fun _ => zeros 512) s i.
Proof.
  intros Ls Hi Ne. apply (wrong_stored part_two part_two_len); [exact Ls|exact Hi|]. destruct (row_sector s Ls) as [T R].
  set (t := member_sector s 2 2) in *. clearbody t. pose proof (N.div_mod t 2 ltac:(lia)). pose proof (N.mod_lt t 2 ltac:(lia)).
  unfold part_two. destruct (N.eqb_spec i 2); destruct (N.eqb_spec i 3); cbn [orb]; try reflexivity.
  all: apply torn_poke_window; [exact Hi|vm_compute; discriminate|exact T|]; change (len (repeat xa5 1024)) with 1024; lia.
Qed.

Theorem two_wrong_refuted : exists C f l image q a s,
  geometry_ok f l /\ joins (@shared filedev) /\ slots_hold (filedev_block short_reads) a C /\ in_use a f /\
  len image = mf_sectors_per_device f * (mf_device_count f - 2) * 512 /\ s < mf_sectors_per_device f * (mf_device_count f - 2) /\
  (forall t, t < mf_sectors_per_device f * (mf_device_count f - 2) -> exists j j', forall i, i < mf_device_count f -> i <> j -> i <> j' ->
     as_stored C f l image q t i) /\
  exists a' buf', array_read_block_io (filedev_block short_reads) shared a s (zeros 512) = (a', buf', Ok 512) /\ buf' <> image_sector image s.
Proof.
  exists (wrong_contents part_two short_reads), torn_format, (Md5 LeftSymmetric), open_image, (fun _ => zeros 512), (wrong_array part_two), 12.
  split; [exact torn_geometry|]. split; [intros d d'; now right|]. split; [apply wrong_holds, part_two_len|]. split; [right; split; reflexivity|].
  split; [rewrite open_image_len; reflexivity|]. split; [reflexivity|]. split.
  - intros t Lt. exists 2, 3. intros i Hi N2 N3. apply part_two_stored; [exact Lt|exact Hi|]. change (mf_device_count torn_format) with 4 in Hi. lia.
  - assert (X : snd (fst (array_read_block_io (filedev_block short_reads) shared (wrong_array part_two) 12 (zeros 512))) = repeat xa5 512 /\
        snd (array_read_block_io (filedev_block short_reads) shared (wrong_array part_two) 12 (zeros 512)) = Ok 512) by (split; vm_compute; reflexivity).
    destruct (array_read_block_io (filedev_block short_reads) shared (wrong_array part_two) 12 (zeros 512)) as [[a' buf'] r]. cbn [fst snd] in X.
    destruct X as [-> ->]. eexists. eexists. split; [reflexivity|]. intros E. apply (f_equal (fun b => window b 0 1)) in E. vm_compute in E. discriminate E.
Qed.
Print Assumptions two_wrong_refuted.

(** The same array: the file 5 does not use these blocks, and is served as from memory. *)
Lemma part_two_whole o n : o + n <= 16384 -> o + n <= 6144 \/ 8192 <= o ->
  whole_range (wrong_contents part_two short_reads) torn_format (Md5 LeftSymmetric) open_image (fun _ => zeros 512) o n.
Proof.
  intros L O. split; [rewrite open_image_len; exact L|]. intros p P. split; [|apply short_reads_well]. intros i Hi. left.
  apply part_two_stored; [apply N.div_lt_upper_bound; lia|exact Hi|]. left. rewrite N.div_div by lia. intros E.
  pose proof (N.div_mod p (512 * 4) ltac:(lia)). pose proof (N.mod_lt p (512 * 4) ltac:(lia)). lia.
Qed.
Lemma part_two_footprint : whole_footprint (wrong_contents part_two short_reads) torn_format (Md5 LeftSymmetric) open_image (fun _ => zeros 512) 1 5.
Proof.
  constructor.
  - apply part_two_whole; [vm_compute; discriminate|left; vm_compute; discriminate].
  - apply part_two_whole; [vm_compute; discriminate|left; vm_compute; discriminate].
  - apply part_two_whole; [vm_compute; discriminate|left; vm_compute; discriminate].
  - intros bs _. replace bs with 1024 by (vm_compute; reflexivity). exists ex_steps. split; [exact ex_steps_walk|].
    intros b (k & B). assert (In b [8; 9; 10; 11; 12; 14]) as H.
    { cbn [In ex_steps] in B. repeat (destruct B as [B|B]); try discriminate B; try contradiction; injection B as <- _; cbn; tauto. }
    clear B k. cbn [In] in H. apply part_two_whole; lia.
Qed.
Example damage_elsewhere_ex : whole_footprint (wrong_contents part_two short_reads) torn_format (Md5 LeftSymmetric) open_image (fun _ => zeros 512) 1 5 /\
  ~ whole (wrong_contents part_two short_reads) torn_format (Md5 LeftSymmetric) open_image (fun _ => zeros 512) 12 /\
  let st := reader_stream (array_block_io (filedev_block short_reads) shared) in
  exists s1 F s2 r s1' F' s2' r',
    fs_open mem_stream (mem_new open_image 512) = (s1, Ok F) /\ open_file mem_stream mem_clone F 5 s1 = (s2, r) /\
    fs_open st (reader_new (wrong_array part_two)) = (s1', Ok F') /\
    open_file st (reader_clone (array_block_io (filedev_block short_reads) shared)) F' 5 s1' = (s2', r') /\ same_results mem_stream open_image st r r'.
Proof.
  split; [exact part_two_footprint|]. split.
  - intros [W _]. destruct (W 2 ltac:(reflexivity)) as [X|[X _]]; [|discriminate X]. apply slot_here in X.
    apply (f_equal (fun b => window b 0 1)) in X. vm_compute in X. discriminate X.
  - cbv zeta. assert (IU : in_use (wrong_array part_two) torn_format) by (right; split; reflexivity).
    refine (damage_elsewhere (filedev_block short_reads) shared _ (wrong_contents part_two short_reads) torn_format (Md5 LeftSymmetric) open_image (fun _ => zeros 512)
      torn_geometry open_image_u64 _ mem_stream (mem_at open_image 512) mem_clone (mem_new open_image 512) (wrong_array part_two) 1 5 open_image_ok
      (mem_clone_ok open_image 512) (mem_clone_there open_image 512) open_image_start (conj (wrong_holds part_two part_two_len short_reads) IU) open_image_supported _ part_two_footprint).
    + intros d d'. now right.
    + rewrite open_image_len. reflexivity.
    + apply open_image_inode; cbn; auto.
Qed.
