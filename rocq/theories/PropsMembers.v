(** Property C111: from the bytes of the members to the files on the array. *)

From Coq Require Import Strings.String Permutation.
From Verif Require Import Base BaseFacts Raid SpecRaid RaidFacts SpecParity ParityFacts PropsRaid Io SpecStream IoFacts Superblock SpecMd SuperblockFacts PropsSuperblock
  Device SpecDevice PropsDevice Array ArrayIo SpecArray ArrayFacts PropsArray PropsArrayRead PropsArrayIo SpecExt4 SpecExt4Inode Ext4Superblock Ext4Inode Ext4Fs
  SpecExt4Fs Ext4FsFacts PropsExt4Fs Ext4Extent Ext4File SpecExt4File PropsExt4File Ext4String Ext4Dir SpecExt4Dir PropsExt4Dir PropsExt4Listing PropsExt4Flat
  PropsExt4Array SpecExt4Open PropsExt4Open PropsExt4Recover SpecMembers.

(** ** Recognising one member *)

Lemma v10_unique size o o' : v10_offset size o -> v10_offset size o' -> o = o'.
Proof.
  intros (A & B) (A' & B'). pose proof (N.div_mod o 4096 ltac:(lia)). pose proof (N.div_mod o' 4096 ltac:(lia)). lia.
Qed.

(** The member [d] has the content [c], of which the positions [bad] may fail when it is read by blocks; and its class is what
    was found on a stream over that content, of which the positions [sbad] may fail. *)
Definition member_opened {D} (ops : blockdev D) (d : md_device D) (c : bytes) (sbad bad : N -> Prop) : Prop :=
  member_holds ops d c bad /\
  exists (S : Type) (st : stream S) (bd : blockdev S) c0 at_ s p s',
    stream_ok st c0 sbad at_ /\ at_ s p /\ device_size bd s = Ok (len c) /\ c = window c0 0 (len c) /\
    classify bd st s = (s', Ok (md_superblock d)).

(** A member that md has written, and whose superblock can be read, is taken for what it is. *)
Lemma recognised {D} (ops : blockdev D) d x i o c sbad bad : array_ok x -> labelled_member x i o c ->
  member_opened ops d c sbad bad -> (forall p, o <= p < o + 4096 -> ~ sbad p) ->
  exists sb ra, md_superblock d = DsSuperblock sb /\ raid6_from_layout (match layout6_code (x_layout x) with Some k => k | None => 0 end) = Some ra /\
    sb_algorithm sb = AlgRaid6 ra /\ sb_device_count sb = x_devices x /\ sb_sectors_per_device sb = x_size x /\ sb_chunk_size sb = x_chunk x /\
    sb_reshape sb = None /\ sb_roles sb = x_roles x /\ nth_N (x_roles x) (sb_role_index sb) = Some i.
Proof.
  intros ((code & Hcode) & _) (Bg & Vo & Ws & N2 & N1) Op Rd.
  destruct Op as (_ & S & st & bd & c0 & at_ & dev & p & s' & SO & A & Sz & Ew & Cl).
  assert (Le : len c <= len c0). { rewrite Ew, len_window. lia. }
  assert (Md : 512 * (len c / 512) <= len c) by (apply N.mul_div_le; lia).
  assert (Win : forall p, p + 4096 <= len c -> window c0 p 4096 = window c p 4096).
  { intros p' P. rewrite Ew, window_nested by lia. f_equal. }
  destruct (classify_ok st c0 sbad at_ SO bd (len c) dev p A Sz Le) as (s1 & cls & E & _ & H).
  rewrite Cl in E. injection E as _ <-. destruct (N.ltb_spec (len c) 12288); [lia|]. destruct H as (ls & (o' & Vo' & Hls) & K).
  rewrite <- (v10_unique _ _ _ Vo Vo') in Hls. clear o' Vo'. destruct Vo as [_ Vo].
  assert (W2 := Win 4096 ltac:(lia)). assert (W1 := Win 0 ltac:(lia)). assert (W0 := Win o ltac:(lia)).
  assert (exists post, ls = LocV1 2 4096 :: LocV1 1 0 :: LocV1 0 o :: post) as (post & ->).
  { destruct (65536 <=? len c); [destruct Hls as (o' & _ & ->)|]; eauto. }
  assert (NP : ~ passed c0 sbad (LocV1 0 o)).
  { intros [V|(r & R & B)]; [|exact (Rd r R B)]. apply (V (v1_superblock (window c0 o 4096) 0)). unfold superblock_at. cbn [loc_off].
    rewrite W0. split; [apply Ws|reflexivity]. }
  assert (S0 : md_superblock d = DsSuperblock (v1_superblock (window c o 4096) 0)).
  { destruct (md_superblock d) as [sb| |]; cbn [classified] in K; [|destruct K|].
    - destruct K as (pre & l & post' & E & Sa & F). destruct pre as [|l1 [|l2 [|l3 pre]]]; cbn [List.app] in E.
      + injection E; intros; subst l. destruct Sa as [Sa _]. cbn [loc_off] in Sa. rewrite W2 in Sa. destruct (N2 Sa).
      + injection E; intros; subst l. destruct Sa as [Sa _]. cbn [loc_off] in Sa. rewrite W1 in Sa. destruct (N1 Sa).
      + injection E; intros; subst l. destruct Sa as [_ ->]. cbn [loc_off]. now rewrite W0.
      + injection E; intros; subst l1 l2 l3. apply Forall_inv_tail, Forall_inv_tail, Forall_inv in F. destruct (NP F).
    - apply Forall_inv_tail, Forall_inv_tail, Forall_inv in K. destruct (NP K). }
  set (img := window c o 4096) in *. assert (Li : len img = 4096) by (apply len_window_in; lia).
  destruct Ws as (Pr & Fe & Lv & Ly & Si & Ch & Dc & Do & Rc & Rl & Rt & Ri).
  destruct (v1_accessors_published img 0 Li) as (_ & _ & _ & _ & _ & Al & As & Ac & Ad & Ar & _ & Ai & _ & Al' & An). cbv zeta in *.
  assert (uint_le img 76 4 = code) as Ey by congruence. clear Ly. pose proof (raid6_from_layout_code _ _ Hcode) as RF.
  eexists. eexists. split; [exact S0|]. rewrite Hcode. split; [exact RF|]. split.
  { rewrite Al, Lv, Ey. unfold from_level_and_layout. rewrite RF. reflexivity. }
  split; [congruence|]. split; [congruence|]. split; [congruence|]. split; [rewrite Ar, Fe; reflexivity|]. split; [|now rewrite Ai].
  apply list_ext_N; [lia|]. intros k Hk. rewrite An by exact Hk. destruct (nth_N (x_roles x) k) as [r|] eqn:E.
  - f_equal. now apply Rt.
  - exfalso. rewrite nth_N_spec in E. apply nth_error_None in E. unfold len in *. lia.
Qed.

(** ** Assembling the members *)

Lemma merge_same r : merge_role r r = Some r.
Proof. unfold merge_role. rewrite N.eqb_refl. destruct (is_spare r || is_invalid r || is_faulty r); [reflexivity|]. now rewrite orb_true_r. Qed.
Lemma merge_same_all t : merge_roles t t = Some t.
Proof. induction t as [|r t IH]; [reflexivity|]. cbn [merge_roles]. rewrite merge_same. cbn [obind]. now rewrite IH. Qed.
Lemma roles_same {D} (ds : list (md_device D)) t : ds <> [] ->
  (forall d, In d ds -> exists sb, md_superblock d = DsSuperblock sb /\ sb_roles sb = t) -> array_roles ds = Some t.
Proof.
  intros Ne H. unfold array_roles.
  assert (E : map (fun d => option_map sb_roles (as_option (md_superblock d))) ds = repeat (Some t) (length ds)).
  { clear Ne. induction ds as [|d ds IH]; [reflexivity|]. cbn [map length repeat]. rewrite IH by (intros; apply H; now right).
    destruct (H d ltac:(now left)) as (sb & -> & <-). reflexivity. }
  rewrite E. destruct ds as [|d ds]; [contradiction|]. cbn [length repeat reduce_flatten]. clear E H Ne d.
  induction ds as [|d ds IH]; [reflexivity|]. cbn [length repeat fold_left]. unfold merge_opt at 2. cbn [obind]. rewrite merge_same_all. exact IH.
Qed.

(** Each member with its position, the place of its superblock, its bytes, and what of them may fail. *)
Record member_written : Type := MemberWritten { w_position : N; w_place : N; w_bytes : bytes; w_sbad : N -> Prop; w_bad : N -> Prop }.

Definition labelled (x : md_array) (w : member_written) : Prop :=
  labelled_member x (w_position w) (w_place w) (w_bytes w) /\ (forall p, w_place w <= p < w_place w + 4096 -> ~ w_sbad w p).
Definition written (x : md_array) (image : bytes) (q : N -> bytes) (w : member_written) : Prop :=
  written_member x image q (w_position w) (w_place w) (w_bytes w) /\ (forall p, w_place w <= p < w_place w + 4096 -> ~ w_sbad w p).

(** What the slots of the array hold. *)
Definition written_contents (ws : list member_written) : contents := fun i =>
  option_map (fun w => (w_bytes w, w_bad w)) (List.find (fun w => w_position w =? i) ws).

Definition array_format_of (x : md_array) : md_format :=
  MdFormat (from_level_and_layout 6 (match layout6_code (x_layout x) with Some k => k | None => 0 end)) (x_devices x) (x_size x) (x_chunk x).

Lemma find_position ws w : NoDup (map w_position ws) -> In w ws -> List.find (fun v => w_position v =? w_position w) ws = Some w.
Proof.
  induction ws as [|v ws IH]; intros Nd I; [destruct I|]. cbn [map] in Nd. apply NoDup_cons_iff in Nd as [Ni Nd]. cbn [List.find].
  destruct I as [<-|I]; [now rewrite N.eqb_refl|]. destruct (N.eqb_spec (w_position v) (w_position w)) as [E|]; [|now apply IH].
  destruct Ni. rewrite E. now apply in_map.
Qed.

(** The members of an array that can be recognised, opened in any order, are put where they belong, all of them are used, and
    the array has the format that md has given it; whether members are missing, and whatever data they hold. *)
Lemma members_placed {D} (ops : blockdev D) order ds ws x : (forall l, Permutation (order l) l) -> array_ok x ->
  positions_some x (map w_position ws) ->
  Forall (labelled x) ws -> Forall2 (fun d w => member_opened ops d (w_bytes w) (w_sbad w) (w_bad w)) ds ws ->
  let a := array_open order ds in
  in_use a (array_format_of x) /\ geometry_ok (array_format_of x) (x_layout x) /\ slots_hold ops a (written_contents ws) /\ ad_inactive a = [].
Proof.
  intros Ord Ok (Nws & Nd & Po) Wr Op a.
  assert (Each : forall d, In d ds -> exists w, In w ws /\ member_opened ops d (w_bytes w) (w_sbad w) (w_bad w)).
  { intros d I. clear - Op I. induction Op as [|d0 w ds ws O Op IH]; [destruct I|]. destruct I as [<-|I]; [exists w; split; [now left|exact O]|].
    destruct (IH I) as (w' & Iw & O'). exists w'. split; [now right|exact O']. }
  pose proof Ok as ((code & Hcode) & Hn & Hc & Dv).
  assert (Ne : ds <> []).
  { intros ->. inversion Op; subst. now apply Nws. }
  pose proof (raid6_from_layout_code _ _ Hcode) as RF.
  assert (Al : mf_algorithm (array_format_of x) = AlgRaid6 (raid6_of (x_layout x))).
  { unfold array_format_of. cbn [mf_algorithm]. rewrite Hcode. unfold from_level_and_layout. now rewrite RF. }
  assert (Rec : forall d w, In w ws -> member_opened ops d (w_bytes w) (w_sbad w) (w_bad w) ->
    exists sb, md_superblock d = DsSuperblock sb /\ states_format d (array_format_of x) /\ sb_reshape sb = None /\ sb_roles sb = x_roles x /\
      nth_N (x_roles x) (sb_role_index sb) = Some (w_position w)).
  { intros d w Iw O. rewrite Forall_forall in Wr. destruct (Wr w Iw) as [W R].
    destruct (recognised ops d x _ _ _ _ _ Ok W O R) as (sb & ra & S & Ra & A1 & A2 & A3 & A4 & A5 & A6 & A7).
    exists sb. split; [exact S|]. split; [|auto]. exists sb. split; [exact S|]. rewrite A1, A2, A3, A4. unfold array_format_of.
    rewrite Hcode in *. unfold from_level_and_layout. now rewrite Ra. }
  assert (Ro : array_roles ds = Some (x_roles x)).
  { apply roles_same; [exact Ne|]. intros d I. destruct (Each d I) as (w & Iw & O). destruct (Rec d w Iw O) as (sb & S & _ & _ & R & _). eauto. }
  assert (Sl : forall d w k, In w ws -> member_opened ops d (w_bytes w) (w_sbad w) (w_bad w) -> (assigned (array_roles ds) d k <-> k = w_position w)).
  { intros d w k Iw O. destruct (Rec d w Iw O) as (sb & S & _ & _ & _ & R). rewrite Ro. rewrite nth_N_spec in R. split.
    - intros (sb' & tbl & S' & T & Nt & _). rewrite S in S'. injection S' as <-. injection T as <-. congruence.
    - intros ->. exists sb, (x_roles x). split; [exact S|]. split; [reflexivity|]. split; [exact R|].
      assert (w_position w < x_devices x) by (apply Po; now apply in_map). lia. }
  destruct (array_members_partition order ds Ord) as (Pm & Nk & Sk). fold a in Pm, Nk, Sk.
  (* every pair of a member and what md has written is in its slot *)
  assert (Pair : forall pre d post w, ds = pre ++ d :: post -> In w ws -> member_opened ops d (w_bytes w) (w_sbad w) (w_bad w) ->
    (forall d', In d' (pre ++ post) -> exists w', In w' ws /\ member_opened ops d' (w_bytes w') (w_sbad w') (w_bad w') /\ w_position w' <> w_position w) ->
    In (w_position w, d) (ad_devices a)).
  { intros pre d post w E Iw O Oth. apply Sk. exists pre, post. split; [exact E|]. split; [now apply (Sl d w)|].
    apply Forall_forall. intros d' I'. destruct (Oth d' I') as (w' & Iw' & O' & Ne'). rewrite (Sl d' w' _ Iw' O'). congruence. }
  assert (All : forall d w, In (d, w) (combine ds ws) -> In (w_position w, d) (ad_devices a) /\ member_opened ops d (w_bytes w) (w_sbad w) (w_bad w) /\ In w ws).
  { intros d w I. apply in_split in I as (l1 & l2 & E).
    assert (Sp : forall (ds : list (md_device D)) ws l1 l2, Forall2 (fun d w => member_opened ops d (w_bytes w) (w_sbad w) (w_bad w)) ds ws -> combine ds ws = l1 ++ (d, w) :: l2 ->
      ds = map fst l1 ++ d :: map fst l2 /\ ws = map snd l1 ++ w :: map snd l2 /\ Forall (fun dw => member_opened ops (fst dw) (w_bytes (snd dw)) (w_sbad (snd dw)) (w_bad (snd dw))) (l1 ++ (d, w) :: l2)).
    { clear. intros ds ws l1 l2 F E. rewrite <- E.
      assert (X : ds = map fst (combine ds ws) /\ ws = map snd (combine ds ws) /\ Forall (fun dw => member_opened ops (fst dw) (w_bytes (snd dw)) (w_sbad (snd dw)) (w_bad (snd dw))) (combine ds ws)).
      { clear E. induction F as [|d0 w0 ds ws O F (I1 & I2 & I3)]; [repeat split; constructor|]. cbn [combine map fst snd]. rewrite <- I1, <- I2.
        repeat split. constructor; [exact O|exact I3]. }
      destruct X as (X1 & X2 & X3). split; [|split; [|exact X3]].
      - rewrite X1, E, map_app. reflexivity.
      - rewrite X2, E, map_app. reflexivity. }
    destruct (Sp ds ws l1 l2 Op E) as (E1 & E2 & F). assert (Iw : In w ws) by (rewrite E2; apply in_elt).
    rewrite Forall_forall in F. assert (O := F (d, w) ltac:(apply in_elt)). cbn [fst snd] in O.
    split; [|split; [exact O|exact Iw]]. apply (Pair (map fst l1) d (map fst l2) w E1 Iw O).
    intros d' I'. rewrite <- map_app in I'. apply in_map_iff in I' as ([d0 w'] & <- & I'). cbn [fst].
    exists w'. assert (I2 : In (d0, w') (l1 ++ (d, w) :: l2)) by (apply in_app_or in I'; apply in_or_app; destruct I'; [now left|right; now right]).
    split; [rewrite E2; apply in_app_or in I'; apply in_or_app; destruct I' as [I'|I']; [left|right; right]; apply in_map_iff; now exists (d0, w')|].
    split; [exact (F _ I2)|]. intros Eq. rewrite E2, map_app in Nd. cbn [map] in Nd. apply NoDup_remove_2 in Nd. apply Nd. rewrite <- Eq, <- map_app.
    apply in_map. rewrite <- map_app. apply in_map_iff. now exists (d0, w'). }
  assert (Cover : forall d, In d ds -> exists w, In (d, w) (combine ds ws)).
  { intros d I. clear - Op I. induction Op as [|d0 w ds ws O Op IH]; [destruct I|]. destruct I as [<-|I]; [exists w; now left|].
    destruct (IH I) as (w' & Iw). exists w'. now right. }
  assert (Cover' : forall w, In w ws -> exists d, In (d, w) (combine ds ws)).
  { intros w I. clear - Op I. induction Op as [|d0 w0 ds ws O Op IH]; [destruct I|]. destruct I as [<-|I]; [exists d0; now left|].
    destruct (IH I) as (w' & Iw). exists w'. now right. }
  split; [|split; [|split]].
  - apply stable_format_partial; [exact Ne| |].
    + intros d I. destruct (Each d I) as (w & Iw & O). now destruct (Rec d w Iw O) as (sb & _ & S & _).
    + intros d sb I S. destruct (Each d I) as (w & Iw & O). destruct (Rec d w Iw O) as (sb' & S' & _ & R & _). rewrite S in S'. injection S' as <-. exact R.
  - exists code, (raid6_of (x_layout x)). split; [exact Al|]. split; [exact Hcode|]. split; [exact RF|]. cbn [array_format_of mf_device_count mf_chunk_size mf_sectors_per_device].
    split; [unfold u32_ok; assert (u32_max = 4294967295) by reflexivity; lia|]. split; [lia|]. split; [exact Hc|exact Dv].
  - split; [exact Nk|]. split.
    + intros i d I. assert (Id : In d ds).
      { apply Sk in I as (pre & post & -> & _). apply in_elt. }
      destruct (Cover d Id) as (w & Iw). destruct (All d w Iw) as (_ & O & Iws).
      assert (i = w_position w) as ->. { apply Sk in I as (pre & post & E & As & _). now apply (Sl d w i Iws O). }
      exists (w_bytes w), (w_bad w). unfold written_contents. rewrite (find_position ws w Nd Iws). split; [reflexivity|].
      apply O.
    + intros i ct bad E. unfold written_contents in E. destruct (List.find _ ws) as [w|] eqn:Fw; [|discriminate]. apply find_some in Fw as [Iw Eq].
      apply N.eqb_eq in Eq as <-. destruct (Cover' w Iw) as (d & I). exists d. now apply All.
  - destruct (ad_inactive a) as [|d0 rest] eqn:Ei; [reflexivity|]. exfalso.
    assert (Ld : len ds <= len (ad_devices a)).
    { assert (L1 : len ds = len ws) by (unfold len; f_equal; clear - Op; induction Op; cbn; congruence).
      rewrite L1. rewrite <- (len_map w_position ws), <- (len_map fst (ad_devices a)). enough (X : (length (map w_position ws) <= length (map fst (ad_devices a)))%nat) by (unfold len; lia). apply NoDup_incl_length; [exact Nd|].
      intros k Ik. apply in_map_iff in Ik as (w & <- & Iw). destruct (Cover' w Iw) as (d & I). destruct (All d w I) as (J & _). apply in_map_iff. now exists (w_position w, d). }
    apply Permutation_length in Pm. rewrite app_length, map_length in Pm. unfold len in Ld. cbn [length] in Pm. lia.
Qed.

Lemma written_labelled x image q ws : Forall (written x image q) ws -> Forall (labelled x) ws.
Proof. apply Forall_impl. intros w [[L _] R]. now split. Qed.
Lemma filled_some x is : array_ok x -> positions_filled x is -> positions_some x is.
Proof.
  intros (_ & Hn & _) (Nd & Po). split; [|split; [exact Nd|apply Po]]. intros ->. destruct (proj2 (Po 0) ltac:(lia)).
Qed.

(** C111, assembling: the members of an array, opened in any order, are put where they belong, all of them are used, and the
    array has the format that md has given it.  (Partial: the data must not look like another superblock, see
    [data_taken_for_superblock_refuted]; and they must start at the first sector, see [data_offset_refuted].) *)
Theorem members_assembled_partial : forall {D} (ops : blockdev D) order ds ws x image q,
  (forall l, Permutation (order l) l) -> array_ok x -> image_fills x image -> positions_filled x (map w_position ws) ->
  Forall (written x image q) ws -> Forall2 (fun d w => member_opened ops d (w_bytes w) (w_sbad w) (w_bad w)) ds ws ->
  let a := array_open order ds in
  in_use a (array_format_of x) /\ geometry_ok (array_format_of x) (x_layout x) /\ slots_hold ops a (written_contents ws) /\
  contents_image (written_contents ws) (fun _ => 0) (array_format_of x) (x_layout x) image /\ ad_inactive a = [].
Proof.
  intros D ops order ds ws x image q Ord Ok Fi Po Wr Op a.
  destruct (members_placed ops order ds ws x Ord Ok (filled_some _ _ Ok Po) (written_labelled _ _ _ _ Wr) Op) as (A1 & A2 & A3 & A4).
  split; [exact A1|]. split; [exact A2|]. split; [exact A3|]. split; [|exact A4]. destruct Po as [Nd Po].
  split; [exact Fi|]. exists q. intros i Hi. cbn [array_format_of mf_device_count mf_chunk_size mf_sectors_per_device] in *.
  apply Po, in_map_iff in Hi as (w & <- & Iw). exists (w_bytes w), (w_bad w). unfold written_contents. rewrite (find_position ws w Nd Iw).
  split; [reflexivity|]. intros t Ht. rewrite N.add_0_l. rewrite Forall_forall in Wr. destruct (Wr w Iw) as [(_ & W) _]. now apply W.
Qed.
Print Assumptions members_assembled_partial.
