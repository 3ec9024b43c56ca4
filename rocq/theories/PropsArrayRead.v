(** Properties C29-C32 and C59: reading arrays. *)

From Coq Require Import Permutation.
From Verif Require Import Base BaseFacts Raid SpecRaid RaidFacts SpecParity ParityFacts PropsRaid Io SpecStream IoFacts
  Superblock Device Array SpecMd SpecArray ArrayFacts PropsArray PropsSuperblock.

(** ** C29 *)

Lemma assoc_in {V} (m : list (N * V)) k v : NoDup (map fst m) -> (assoc m k = Some v <-> In (k, v) m).
Proof.
  induction m as [|[k' v'] m IH]; intros Nd; cbn [assoc].
  - split; [discriminate|intros []].
  - cbn [map fst] in Nd. apply NoDup_cons_iff in Nd as [Ni Nd]. destruct (N.eqb_spec k' k) as [->|Ne].
    + split; [intros E; inv E; now left|]. intros [E|I]; [now inv E|]. destruct Ni. apply in_map_iff. now exists (k, v).
    + rewrite (IH Nd). split; [now right|]. intros [E|I]; [inv E; contradiction|exact I].
Qed.

Lemma assoc_none {V} (m : list (N * V)) k : (assoc m k = None <-> forall v, ~ In (k, v) m).
Proof.
  induction m as [|[k' v'] m IH]; cbn [assoc].
  - split; [intros _ v []|auto].
  - destruct (N.eqb_spec k' k) as [->|Ne].
    + split; [discriminate|]. intros H. destruct (H v'). now left.
    + rewrite IH. split; intros H v; [intros [E|I]; [inv E; contradiction|now apply (H v)]|]. intros I. apply (H v). now right.
Qed.

Lemma md_block_ok {D} (ops : blockdev D) bs count blk bad inv :
  block_ok ops bs count blk bad inv -> block_ok (md_block ops) bs count blk bad (fun m => inv (md_dev m)).
Proof.
  intros [Hb Fit Len Size Count Read Clone]. constructor; auto.
  - intros m. cbn [bd_size md_block]. auto.
  - intros m. cbn [bd_count md_block]. auto.
  - intros m n buf m' buf' r I L Lb E. cbn [bd_read md_block] in E.
    destruct (bd_read ops (md_dev m) n buf) as [[d b] x] eqn:R. injection E as <- <- <-. cbn [md_dev]. exact (Read _ _ _ _ _ _ I L Lb R).
  - intros m I. cbn [bd_clone md_block]. destruct (Clone _ I) as (d & -> & Id). cbn [rbind].
    eexists. split; [reflexivity|exact Id].
Qed.

Local Opaque read_exact.

(** One call of the closure. *)
Lemma member_read_spec {D} (ops : blockdev D) a i m c bad sec :
  assoc (ad_devices a) i = Some m -> member_holds ops m c bad ->
  forall buf x b, 512 <= len buf -> member_read ops a i sec buf = (x, b) ->
  len b = len buf /\
  match x with
  | Ok k => k = 512 /\ exists b1, sector_at c sec b1 /\ b = b1 ++ skipn 512 buf
  | Err _ => len c < sec * 512 + 512 \/ exists q, sec * 512 <= q < sec * 512 + 512 /\ bad q
  | Panic => False
  end.
Proof.
  intros As (bs & count & blk & badb & inv & OK & I & -> & Bd) buf x b Lbuf E.
  pose proof (md_block_ok _ _ _ _ _ _ OK) as OKm. pose proof (reader_stream_ok _ _ _ _ _ _ OKm) as SO.
  pose proof (bo_fit _ _ _ _ _ _ OK) as Fit. pose proof (len_c _ _ _ _ _ _ OKm) as LC.
  unfold member_read in E. destruct (N.ltb_spec (len buf) 512); [lia|].
  assert (Lf : len (firstn 512 buf) = 512) by (rewrite len_firstn; lia).
  assert (Ls : len (skipn 512 buf) = len buf - 512) by (rewrite len_skipn; lia).
  rewrite As in E. destruct (bo_clone _ _ _ _ _ _ OKm m I) as (m1 & Cl & I1). rewrite Cl in E.
  destruct (cmul64 sec 512) as [pos|] eqn:M.
  2: { apply pair_equal_spec in E as [<- <-]. split; [reflexivity|]. left. rewrite LC. unfold cmul64, u64_ok in *.
       destruct (N.leb_spec (sec * 512) u64_max); [discriminate|]. lia. }
  assert (pos = sec * 512 /\ u64_ok pos) as [-> Up].
  { unfold cmul64 in M. destruct (N.leb_spec (sec * 512) u64_max); [|discriminate]. inv M. split; [reflexivity|]. assumption. }
  clear M. pose proof (reader_new_at _ _ _ _ _ _ OKm _ I1) as A0.
  destruct (reader_seek (md_block ops) (reader_new m1) (SeekStart (sec * 512))) as [r x1] eqn:Sk.
  destruct (N.le_gt_cases (sec * 512) (len (flat count blk))) as [In_|Out].
  - destruct (so_seek _ _ _ _ SO _ _ (sec * 512) A0 In_) as (r' & Sk' & A1). cbn [st_seek reader_stream] in Sk'.
    rewrite Sk in Sk'. inv Sk'.
    destruct (read_exact (reader_stream (md_block ops)) r' (firstn 512 buf)) as [[r2 b2] x2] eqn:R.
    apply pair_equal_spec in E as [<- <-].
    pose proof (read_exact_spec _ _ _ _ SO _ _ _ _ _ _ A1 R) as O. rewrite Lf in O.
    unfold exact_outcome in O. destruct x2 as [u|e|]; cbn [rbind]; [| |destruct O].
    + destruct O as ([Z|L] & -> & _); [discriminate|]. rewrite len_app, len_window. split; [lia|]. split; [reflexivity|].
      eexists. split; [split; [lia|reflexivity]|reflexivity].
    + destruct O as (Lb & _ & _ & [(q & Q & Bq)|(_ & L)]); (split; [rewrite len_app; lia|]); auto.
      right. exists q. split; [exact Q|]. apply Bd. exact Bq.
  - destruct (so_seek_out _ _ _ _ SO _ _ _ _ _ A0 Out Up Sk) as (p' & A1 & NP & L').
    destruct x1 as [k|e|]; [|apply pair_equal_spec in E as [<- <-]; split; [reflexivity|left; lia]|contradiction].
    specialize (L' _ eq_refl).
    destruct (read_exact (reader_stream (md_block ops)) r (firstn 512 buf)) as [[r2 b2] x2] eqn:R.
    apply pair_equal_spec in E as [<- <-].
    pose proof (read_exact_spec _ _ _ _ SO _ _ _ _ _ _ A1 R) as O. rewrite Lf in O.
    unfold exact_outcome in O. destruct x2 as [u|e|]; cbn [rbind]; [| |destruct O].
    + destruct O as ([Z|L] & _); [discriminate|]. lia.
    + destruct O as (Lb & _). split; [rewrite len_app; lia|left; lia].
Qed.

(** All members of the array have some content. *)
Definition members_hold {D} (ops : blockdev D) (a : definition D) : Prop :=
  forall i m, In (i, m) (ad_devices a) -> exists c bad, member_holds ops m c bad.

Lemma member_read_total {D} (ops : blockdev D) a :
  members_hold ops a -> NoDup (map fst (ad_devices a)) ->
  reader_ok (member_read ops a) /\
  forall i sec, fst (member_read ops a i sec (zeros 512)) <> Panic /\
    (forall b k, member_read ops a i sec (zeros 512) = (Ok k, b) ->
       k = 512 /\ exists m, In (i, m) (ad_devices a) /\ forall c bad, member_holds ops m c bad -> sector_at c sec b).
Proof.
  intros Mh Nd. split.
  - intros i sec buf. destruct (member_read ops a i sec buf) as [x b] eqn:E. cbn [snd].
    destruct (N.le_gt_cases 512 (len buf)) as [Lb|Lb].
    2: { unfold member_read in E. destruct (N.ltb_spec (len buf) 512); [inv E; reflexivity|lia]. }
    destruct (assoc (ad_devices a) i) as [m|] eqn:As.
    + assert (I := As). apply assoc_in in I; [|exact Nd]. destruct (Mh _ _ I) as (c & bad & H).
      apply (member_read_spec ops a i m c bad sec As H _ _ _ Lb E).
    + unfold member_read in E. destruct (N.ltb_spec (len buf) 512); [inv E; reflexivity|]. rewrite As in E. now inv E.
  - intros i sec. destruct (member_read ops a i sec (zeros 512)) as [x b] eqn:E. cbn [fst].
    assert (L0 : 512 <= len (zeros 512)) by (vm_compute; discriminate).
    assert (S0 : skipn 512 (zeros 512) = []) by reflexivity.
    destruct (assoc (ad_devices a) i) as [m|] eqn:As.
    + assert (I := As). apply assoc_in in I; [|exact Nd]. destruct (Mh _ _ I) as (c & bad & H).
      pose proof (member_read_spec ops a i m c bad sec As H _ _ _ L0 E) as [_ O].
      split; [intros ->; exact O|]. intros b' k E'. inv E'. split; [apply O|]. exists m. split; [exact I|].
      intros c' bad' H'. destruct (member_read_spec ops a i m c' bad' sec As H' _ _ _ L0 E) as (_ & _ & b1 & B1 & ->).
      now rewrite S0, app_nil_r.
    + unfold member_read in E. change (len (zeros 512) <? 512) with false in E. cbn iota in E. rewrite As in E. inv E.
      split; [discriminate|]. intros b k H. discriminate.
Qed.

(** What sector [s] of the array is: the member sectors of its row, P-consistent, and the one in its data slot. *)
Definition row_of {D} (ops : blockdev D) (a : definition D) (l : layout6) (f : md_format) (s : N) (blks : list bytes) : Prop :=
  let n := mf_device_count f in let c := mf_chunk_size f in
  len blks = n /\
  (forall i b, nth_N blks i = Some b ->
     exists m, In (i, m) (ad_devices a) /\
     forall ct bad, member_holds ops m ct bad -> sector_at ct (member_sector s c (n - 2)) b) /\
  p_consistent (row6 l n (stripe_of s c (n - 2))) blks.

Definition data_of (l : layout6) (f : md_format) (s : N) (blks : list bytes) : option bytes :=
  let n := mf_device_count f in let c := mf_chunk_size f in
  slot_block (row6 l n (stripe_of s c (n - 2))) blks (SpecRaid.D (data_index_of s c (n - 2))).

Lemma in_use_current {D} (a : definition D) f : in_use a f <-> current_format a = Ok f.
Proof.
  unfold in_use, current_format. destruct (ad_new_format a) as [g|]; cbn [ok_or].
  - split; [intros [E|[E _]]; congruence|]. intros E. inv E. now left.
  - destruct (ad_format a) as [g|]; cbn [ok_or]; split; try (intros [E|[_ E]]; congruence); intros E; inv E. now right.
Qed.

Lemma slot_block_in row blks sl b : slot_block row blks sl = Some b -> In b blks.
Proof.
  revert row. induction blks as [|b0 blks IH]; intros [|t row] H; cbn [slot_block] in H; try discriminate.
  assert (H' : Some b0 = Some b \/ slot_block row blks sl = Some b).
  { destruct sl as [i| |], t as [j| |]; auto. destruct (i =? j); auto. }
  destruct H' as [H'|H']; [inv H'; now left|right; eauto].
Qed.

(** Everything a read with a sector-sized buffer can do: return the data sector of a P-consistent row, or fail and leave the
    buffer alone. *)
Theorem array_read_sound : forall {D} (ops : blockdev D) order (ds : list (md_device D)) s buf buf' r,
  (forall x, Permutation (order x) x) ->
  let a := array_open order ds in
  members_hold ops a -> u64_ok s -> (forall f, in_use a f -> u32_ok (mf_device_count f)) -> len buf = 512 ->
  array_read_block ops a s buf = (buf', r) ->
  match r with
  | Ok k => k = 512 /\ exists f l code ra blks,
      in_use a f /\ mf_algorithm f = AlgRaid6 ra /\ layout6_code l = Some code /\ raid6_from_layout code = Some ra /\
      mf_chunk_size f <> 0 /\ 3 <= mf_device_count f /\
      row_of ops a l f s blks /\ data_of l f s blks = Some buf'
  | Err _ => buf' = buf
  | Panic => False
  end.
Proof.
  intros D ops order ds s buf buf' r O a Mh Us Uf Lb E.
  assert (Nd : NoDup (map fst (ad_devices a))) by apply (array_members_partition order ds O).
  destruct (member_read_total ops a Mh Nd) as (RO & Tot).
  unfold array_read_block in E. destruct (N.ltb_spec (len buf) 512); [lia|].
  destruct (current_format a) as [f|e|] eqn:Cf; [|inv E; reflexivity|].
  2: { exfalso. unfold current_format in Cf. destruct (ad_new_format a); [discriminate|]. destruct (ad_format a); discriminate. }
  apply in_use_current in Cf. specialize (Uf f Cf).
  destruct (mf_algorithm f) as [lv ly|r5|r6] eqn:Al; cbn [alg_read_sector] in E; try (inv E; reflexivity).
  destruct (raid6_read_sector r6 s (mf_chunk_size f) (mf_device_count f) (member_read ops a)) as [blk|e|] eqn:R.
  - destruct (raid6_of_surj r6) as (l & code & Hl & ->).
    assert (Hcode := raid6_from_layout_code _ _ Hl).
    assert (G : mf_chunk_size f <> 0 /\ 3 <= mf_device_count f /\ ~ r6_exception (raid6_of l) s (mf_chunk_size f) (mf_device_count f)).
    { split; [|split].
      - intros Z. rewrite raid6_read_bad_geometry in R by auto. discriminate.
      - destruct (N.le_gt_cases 3 (mf_device_count f)) as [L|L]; [exact L|].
        rewrite raid6_read_bad_geometry in R by auto. discriminate.
      - intros X. rewrite raid6_read_bad_geometry in R by auto. discriminate. }
    destruct G as (Hc & Hn & Hx).
    pose proof (proj1 (raid6_read_ok_iff l code _ s _ _ _ blk Hl Hcode Us Uf Hc Hn Hx RO) R) as (blks & Lk & Rd & PC & Sb).
    assert (Bl : len blk = 512).
    { apply slot_block_in in Sb. apply In_nth_error in Sb as (i & I). apply (Rd (N.of_nat i) blk). now rewrite nth_N_spec, Nat2N.id. }
    unfold copy_from_slice in E. rewrite Lb, Bl in E. cbn in E. inv E. split; [reflexivity|].
    exists f, l, code, (raid6_of l), blks. repeat (split; [assumption|]). split; [|exact Sb].
    split; [exact Lk|]. split; [|exact PC]. intros i b Hb. apply Rd in Hb as [Hb _].
    destruct (Tot i (member_sector s (mf_chunk_size f) (mf_device_count f - 2))) as (_ & T). apply T in Hb. apply Hb.
  - inv E. reflexivity.
  - exfalso. apply (raid6_read_never_panics r6 s (mf_chunk_size f) (mf_device_count f) (member_read ops a) Us Uf RO); [|exact R].
    intros i t. apply Tot.
Qed.
Print Assumptions array_read_sound.

(** A P-consistent row all of whose sectors are there and readable is returned. *)
Theorem array_read_complete : forall {D} (ops : blockdev D) order (ds : list (md_device D)) s buf f l code ra blks,
  (forall x, Permutation (order x) x) ->
  let a := array_open order ds in
  members_hold ops a -> u64_ok s -> len buf = 512 ->
  in_use a f -> u32_ok (mf_device_count f) -> mf_algorithm f = AlgRaid6 ra ->
  layout6_code l = Some code -> raid6_from_layout code = Some ra ->
  mf_chunk_size f <> 0 -> 3 <= mf_device_count f ->
  let sec := member_sector s (mf_chunk_size f) (mf_device_count f - 2) in
  (forall i, i < mf_device_count f -> exists ct bad, slot_holds ops a i ct bad /\ sec * 512 + 512 <= len ct /\
     forall q, sec * 512 <= q < sec * 512 + 512 -> ~ bad q) ->
  row_of ops a l f s blks ->
  exists blk, data_of l f s blks = Some blk /\ array_read_block ops a s buf = (blk, Ok 512).
Proof.
  intros D ops order ds s buf f l code ra blks O a Mh Us Lb Iu Uf Al Hl Ha Hc Hn sec Rd (Lk & Rw & PC).
  assert (Nd : NoDup (map fst (ad_devices a))) by apply (array_members_partition order ds O).
  destruct (member_read_total ops a Mh Nd) as (RO & Tot).
  assert (Hx : ~ r6_exception ra s (mf_chunk_size f) (mf_device_count f)).
  { intros (_ & Es & Ec & En). destruct (Rd 0 ltac:(lia)) as (ct & bad & (m & _ & Mo) & L & _).
    unfold sec, member_sector, stripe_of in L. rewrite Es, Ec, En in L. change (3 - 2) with 1 in L. rewrite !N.div_1_r in L.
    destruct Mo as (bs & count & blk & badb & inv & OK & _ & -> & _). rewrite (len_c _ _ _ _ _ _ OK) in L.
    pose proof (bo_fit _ _ _ _ _ _ OK) as U. unfold u64_ok in U. clear - L U. rewrite N.mul_1_r in L.
    assert (u64_max <= 18446744073709551615) by (vm_compute; discriminate). lia. }
  assert (Ar : forall i b, nth_N blks i = Some b -> member_read ops a i sec (zeros 512) = (Ok 512, b) /\ len b = 512).
  { intros i b Hb. assert (Li : i < mf_device_count f) by (rewrite <- Lk; eapply nth_N_some_lt; eassumption).
    destruct (Rw i b Hb) as (m & Im & Sec). destruct (Rd i Li) as (ct & bad & (m' & Im' & Mo) & L & Nb).
    assert (m' = m).
    { apply (assoc_in _ _ _ Nd) in Im. apply (assoc_in _ _ _ Nd) in Im'. congruence. }
    subst m'. destruct (Sec _ _ Mo) as (_ & Eb). fold sec in Eb.
    destruct (member_read ops a i sec (zeros 512)) as [x b'] eqn:E.
    assert (As := Im). apply (assoc_in _ _ _ Nd) in As.
    destruct (member_read_spec ops a i m ct bad sec As Mo (zeros 512) _ _ ltac:(vm_compute; discriminate) E) as (Lb' & Ou).
    destruct x as [k|e|]; [|exfalso; destruct Ou as [Ou|(q & Q & Bq)]; [lia|exact (Nb q Q Bq)]|destruct Ou].
    destruct Ou as (-> & b1 & (_ & E1) & E2). change (skipn 512 (zeros 512)) with (@nil byte) in E2. rewrite app_nil_r in E2.
    split; [congruence|]. rewrite Eb, len_window. lia. }
  destruct (raid6_read_complete l code ra s _ _ (member_read ops a) blks Hl Ha Us Uf Hc Hn Hx RO Lk Ar PC) as (blk & R & Sb).
  exists blk. split; [exact Sb|]. unfold array_read_block. destruct (N.ltb_spec (len buf) 512); [lia|].
  apply in_use_current in Iu. rewrite Iu, Al. cbn [alg_read_sector]. rewrite R.
  assert (Bl : len blk = 512).
  { apply slot_block_in in Sb. apply In_nth_error in Sb as (i & I). apply (Ar (N.of_nat i) blk). now rewrite nth_N_spec, Nat2N.id. }
  unfold copy_from_slice. now rewrite Lb, Bl.
Qed.
Print Assumptions array_read_complete.

(** The failures, by kind. *)
Theorem array_read_refused : forall {D} (ops : blockdev D) (a : definition D) s buf,
  (len buf < 512 -> array_read_block ops a s buf = (buf, Err InvalidInput)) /\
  (512 <= len buf -> (forall f, ~ in_use a f) -> array_read_block ops a s buf = (buf, Err InvalidData)) /\
  (forall f, 512 <= len buf -> in_use a f -> (forall ra, mf_algorithm f <> AlgRaid6 ra) ->
     array_read_block ops a s buf = (buf, Err Unsupported)).
Proof.
  intros D ops a s buf. unfold array_read_block. split; [|split].
  - intros L. destruct (N.ltb_spec (len buf) 512); [reflexivity|lia].
  - intros L N. destruct (N.ltb_spec (len buf) 512); [lia|].
    destruct (current_format a) as [f|e|] eqn:C.
    + apply in_use_current in C. destruct (N f C).
    + unfold current_format in C. destruct (ad_new_format a); [discriminate|]. destruct (ad_format a); inv C. reflexivity.
    + unfold current_format in C. destruct (ad_new_format a); [discriminate|]. destruct (ad_format a); discriminate.
  - intros f L I N. destruct (N.ltb_spec (len buf) 512); [lia|]. apply in_use_current in I. rewrite I.
    destruct (mf_algorithm f); try reflexivity. now destruct (N a0).
Qed.
Print Assumptions array_read_refused.

(** False of the code: with a buffer longer than a sector a successful read panics, always. *)
Theorem array_read_long_buffer_panics : forall {D} (ops : blockdev D) order (ds : list (md_device D)) s buf buf' long,
  (forall x, Permutation (order x) x) ->
  let a := array_open order ds in
  members_hold ops a -> u64_ok s -> (forall f, in_use a f -> u32_ok (mf_device_count f)) -> len buf = 512 ->
  array_read_block ops a s buf = (buf', Ok 512) -> 512 < len long ->
  snd (array_read_block ops a s long) = Panic.
Proof.
  intros D ops order ds s buf buf' long O a Mh Us Uf Lb E Ll. unfold array_read_block in *.
  destruct (N.ltb_spec (len buf) 512); [lia|]. destruct (N.ltb_spec (len long) 512); [lia|].
  destruct (current_format a) as [f|e|]; try discriminate.
  destruct (alg_read_sector _ _ _ _ _) as [blk|e|]; try discriminate.
  unfold copy_from_slice in *. destruct (N.eqb_spec (len buf) (len blk)) as [L|L]; [|discriminate].
  destruct (N.eqb_spec (len long) (len blk)); [lia|reflexivity].
Qed.
Print Assumptions array_read_long_buffer_panics.

(** A RAID-6 array of four in-memory members with one-sector chunks, left-symmetric: rows [Q D0 D1 P], [D0 D1 P Q] ... *)
Definition r6_sb (offset index : N) : superblock :=
  Superblock 1 2 (UuidLong []) None (AlgRaid6 R6LeftSymmetric) 2 1 4 None offset index 0 [0; 1; 2; 3].
Definition r6_member (offset index : N) (mem : bytes) : md_device memdev :=
  MdDevice index (DsSuperblock (r6_sb offset index)) (mem_new mem 512).
Definition sec (b : byte) : bytes := repeat b 512.
Definition r6_ex : definition memdev :=
  array_open (fun l => l)
    [r6_member 0 0 (sec x00 ++ sec x0a); r6_member 0 1 (sec x31 ++ sec x0c); r6_member 0 2 (sec x42 ++ sec x06);
     r6_member 0 3 (sec x73 ++ sec x00)].

Lemma mem_member_holds m mem bs :
  md_dev m = mem_new mem bs -> bs <> 0 -> u64_ok (len mem) ->
  member_holds mem_block m (flat (len mem / bs) (block_of mem bs)) (fun _ => False).
Proof.
  intros E Hb U. exists bs, (len mem / bs), (block_of mem bs), (fun _ => False), (fun d => m_mem d = mem /\ m_bs d = bs /\ m_pos d <= len mem).
  split; [now apply mem_block_ok|]. rewrite E. cbn. repeat split; auto. lia.
Qed.

Example array_read_ex :
  members_hold mem_block r6_ex /\
  array_read_block mem_block r6_ex 0 (zeros 512) = (sec x31, Ok 512) /\
  array_read_block mem_block r6_ex 1 (zeros 512) = (sec x42, Ok 512) /\
  array_read_block mem_block r6_ex 2 (zeros 512) = (sec x0a, Ok 512) /\
  array_read_block mem_block r6_ex 3 (zeros 512) = (sec x0c, Ok 512) /\
  snd (array_read_block mem_block r6_ex 4 (zeros 512)) = Err UnexpectedEof /\
  snd (array_read_block mem_block r6_ex 0 (zeros 513)) = Panic.
Proof.
  split; [|repeat match goal with |- _ /\ _ => split end; vm_compute; reflexivity].
  intros i m I. unfold r6_ex in I. cbn in I.
  assert (H : exists mem, md_dev m = mem_new mem 512 /\ len mem <= 1024).
  { repeat (destruct I as [I|I]; [injection I as _ <-; eexists; split; [reflexivity|vm_compute; discriminate]|]). destruct I. }
  destruct H as (mem & E & L). eexists. eexists. eapply mem_member_holds; [exact E|lia|]. unfold u64_ok.
  assert (1024 <= u64_max) by (vm_compute; discriminate). lia.
Qed.

(** ** C30 *)

(** False of the code: the members' data areas start at sector 1, as their superblocks say; what is returned for the first
    sector of the array is what stands before them. *)
Theorem data_offset_refuted : exists (ds : list (md_device memdev)) l s buf blks want,
  let a := array_open (fun x => x) ds in
  members_hold mem_block a /\ len ds = 4 /\
  (forall d, In d ds -> exists sb, md_superblock d = DsSuperblock sb /\ sb_data_offset sb = 1) /\
  (* the row that starts at the data offset, and its data sector *)
  (forall i b, nth_N blks i = Some b -> exists m ct bad, In (i, m) (ad_devices a) /\ member_holds mem_block m ct bad /\
     sector_at ct (1 + member_sector s 1 2) b) /\
  p_consistent (row6 l 4 (stripe_of s 1 2)) blks /\
  slot_block (row6 l 4 (stripe_of s 1 2)) blks (SpecRaid.D (data_index_of s 1 2)) = Some want /\
  exists got, array_read_block mem_block a s buf = (got, Ok 512) /\ got <> want.
Proof.
  exists [r6_member 1 0 (sec x00 ++ sec x00); r6_member 1 1 (sec x00 ++ sec x31); r6_member 1 2 (sec x00 ++ sec x42);
          r6_member 1 3 (sec x00 ++ sec x73)], (Md5 LeftSymmetric), 0, (zeros 512),
         [sec x00; sec x31; sec x42; sec x73], (sec x31).
  set (a := array_open _ _).
  assert (Mh : forall i m, In (i, m) (ad_devices a) -> exists mem, md_dev m = mem_new mem 512 /\ len mem = 1024).
  { intros i m I. unfold a in I. cbn in I.
    repeat (destruct I as [I|I]; [injection I as _ <-; eexists; split; [reflexivity|vm_compute; reflexivity]|]). destruct I. }
  assert (Mm : forall m mem, md_dev m = mem_new mem 512 -> len mem = 1024 ->
     member_holds mem_block m mem (fun _ => False)).
  { intros m mem E L. pose proof (mem_member_holds m mem 512 E ltac:(lia)) as H.
    rewrite flat_block_of, L in H by lia. change (1024 / 512 * 512) with 1024 in H. rewrite <- L in H. rewrite window_full in H.
    apply H. rewrite L. vm_compute. discriminate. }
  split; [|split; [reflexivity|split; [|split; [|split; [|split]]]]].
  - intros i m I. destruct (Mh i m I) as (mem & E & L). eauto.
  - intros d I. repeat (destruct I as [<-|I]; [eexists; split; reflexivity|]). destruct I.
  - intros i b Hb. rewrite nth_N_spec in Hb.
    assert (G : forall x y, len (sec x) = 512 -> sector_at (sec x ++ sec y) (1 + member_sector 0 1 2) (sec y)).
    { intros x y _. split; [rewrite len_app; vm_compute; discriminate|]. vm_compute. reflexivity. }
    assert (F : forall i x y m, nth_error (ad_devices a) (N.to_nat i) = Some (i, m) -> md_dev m = mem_new (sec x ++ sec y) 512 -> 
       exists m ct bad, In (i, m) (ad_devices a) /\ member_holds mem_block m ct bad /\ sector_at ct (1 + member_sector 0 1 2) (sec y)).
    { intros j x y m N E. exists m, (sec x ++ sec y), (fun _ => False). split; [eapply nth_error_In; exact N|].
      split; [apply Mm; [exact E|vm_compute; reflexivity]|apply G; vm_compute; reflexivity]. }
    assert (Ei : i = N.of_nat (N.to_nat i)) by lia. rewrite Ei. clear Ei.
    destruct (N.to_nat i) as [|[|[|[|k]]]]; cbn in Hb; try (injection Hb as <-).
    5: { destruct k; discriminate. }
    all: eapply F; [cbn; reflexivity|reflexivity].
  - assert (Rw : row6 (Md5 LeftSymmetric) 4 (stripe_of 0 1 2) = [Q; SpecRaid.D 0; SpecRaid.D 1; P]) by reflexivity.
    rewrite Rw. intros pb Hp j Hj. cbn [slot_block] in Hp. injection Hp as <-. cbn [data_xor].
    assert (B : forall x, byte_at (sec x) j = x).
    { intros x. unfold byte_at, sec. apply (repeat_spec 512 x). apply nth_In. rewrite repeat_length. lia. }
    now rewrite !B.
  - reflexivity.
  - eexists. split; [vm_compute; reflexivity|]. vm_compute. discriminate.
Qed.
Print Assumptions data_offset_refuted.

(** What does hold: with data offset 0 everywhere, the sectors read are those of the data areas. *)
Theorem data_offset_partial : forall {D} (ops : blockdev D) order (ds : list (md_device D)) s buf buf' k,
  (forall x, Permutation (order x) x) ->
  let a := array_open order ds in
  members_hold ops a -> u64_ok s -> (forall f, in_use a f -> u32_ok (mf_device_count f)) -> len buf = 512 ->
  (forall d sb, In d ds -> md_superblock d = DsSuperblock sb -> sb_data_offset sb = 0) ->
  array_read_block ops a s buf = (buf', Ok k) ->
  exists f l blks, in_use a f /\ data_of l f s blks = Some buf' /\ len blks = mf_device_count f /\
    forall i b, nth_N blks i = Some b -> exists m sb, In (i, m) (ad_devices a) /\ md_superblock m = DsSuperblock sb /\
      forall ct bad, member_holds ops m ct bad ->
        sector_at ct (sb_data_offset sb + member_sector s (mf_chunk_size f) (mf_device_count f - 2)) b.
Proof.
  intros D ops order ds s buf buf' k O a Mh Us Uf Lb Z E.
  destruct (array_read_sound ops order ds s buf buf' (Ok k) O Mh Us Uf Lb E) as (_ & f & l & code & ra & blks & Iu & _ & _ & _ & _ & _ & (Lk & Rw & _) & Db).
  exists f, l, blks. split; [exact Iu|]. split; [exact Db|]. split; [exact Lk|]. intros i b Hb.
  destruct (Rw i b Hb) as (m & Im & Sec).
  destruct (array_members_partition order ds O) as (_ & _ & Sl).
  destruct (proj1 (Sl i m) Im) as (pre & post & Eds & (sb & tbl & Sm & _) & _).
  exists m, sb. split; [exact Im|]. split; [exact Sm|]. intros ct bad Mo.
  rewrite (Z m sb); [|rewrite Eds; apply in_elt|exact Sm]. now apply Sec in Mo.
Qed.
Print Assumptions data_offset_partial.

(** ** C31 *)

Lemma sector_below s c q dd : c <> 0 -> dd <> 0 -> (s < c * q * dd <-> member_sector s c dd < c * q).
Proof.
  intros Hc Hd. unfold member_sector, stripe_of.
  pose proof (N.div_mod s c Hc) as E1. pose proof (N.mod_lt s c Hc) as L1.
  pose proof (N.div_mod (s / c) dd Hd) as E2. pose proof (N.mod_lt (s / c) dd Hd) as L2.
  remember (s mod c) as o. remember ((s / c) mod dd) as r. remember (s / c / dd) as b. remember (s / c) as a.
  clear Heqo Heqr Heqb Heqa. split; intros H.
  - assert (b < q); [|nia]. apply N.nle_gt. intros G. assert (q * dd <= b * dd) by nia. assert (q * dd <= a) by lia. nia.
  - assert (b < q); [|nia]. apply N.nle_gt. intros G. nia.
Qed.

(** Members' sectors that hold data of the array: every block number below the block count maps to a sector below the
    per-member size, and every such sector is reached or holds parity. *)
Theorem array_blocks_fill_members : forall {D} (a : definition D) f ra k,
  in_use a f -> mf_algorithm f = AlgRaid6 ra -> u32_ok (mf_device_count f) -> u32_ok (mf_chunk_size f) ->
  mf_chunk_size f <> 0 -> N.divide (mf_chunk_size f) (mf_sectors_per_device f) -> 3 <= mf_device_count f ->
  array_block_count a = Ok k ->
  k = mf_sectors_per_device f * (mf_device_count f - 2) /\
  (forall s, s < k -> exists t p q d,
     raid6_compute_sector ra s (mf_chunk_size f) (mf_device_count f) = Some (t, p, q, d) /\ t < mf_sectors_per_device f) /\
  (forall t d, t < mf_sectors_per_device f -> d < mf_device_count f -> exists s p q d',
     s < k /\ raid6_compute_sector ra s (mf_chunk_size f) (mf_device_count f) = Some (t, p, q, d') /\ (d = d' \/ d = p \/ d = q)).
Proof.
  intros D a f ra k Iu Al Uf Uc Hc [z Dv] Hn E. unfold array_block_count in E. apply in_use_current in Iu. rewrite Iu in E.
  cbn [rbind] in E. unfold data_sector_count, data_device_count in E. rewrite Al in E. cbn [parity_device_count obind] in E.
  unfold csub32 in E. destruct (N.leb_spec 2 (mf_device_count f)); [|lia]. cbn [obind] in E.
  unfold cmul64 in E. destruct (N.leb_spec (mf_sectors_per_device f * (mf_device_count f - 2)) u64_max) as [Uk|]; [|discriminate].
  cbn [ok_or] in E. injection E as <-.
  set (c := mf_chunk_size f) in *. set (n := mf_device_count f) in *. rewrite Dv in *. rewrite (N.mul_comm z c) in *.
  assert (Hd : n - 2 <> 0) by lia.
  assert (Cmp : forall s, s < c * z * (n - 2) -> exists p q d,
     raid6_compute_sector ra s c n = Some (member_sector s c (n - 2), p, q, d)).
  { intros s Ls. assert (Us : u64_ok s) by (unfold u64_ok; lia).
    destruct (proj2 (raid6_total_iff ra s c n Us Uc Uf)) as ((((t & p) & q) & d) & R).
    - split; [exact Hc|]. split; [exact Hn|]. intros (_ & Es & _). assert (u64_max <= 18446744073709551615) by (vm_compute; discriminate). lia.
    - exists p, q, d. rewrite R. apply raid6_compute_inv in R as (l & _ & _ & _ & _ & _ & -> & _); auto. }
  split; [reflexivity|]. split.
  - intros s Ls. destruct (Cmp s Ls) as (p & q & d & R). exists (member_sector s c (n - 2)), p, q, d. split; [exact R|].
    now apply sector_below.
  - intros t d Lt Ld.
    pose proof (N.div_mod t c Hc) as Et. pose proof (N.mod_lt t c Hc) as Lo.
    set (s1 := t / c * (n - 2) * c + t mod c).
    assert (Q1 : s1 / c = t / c * (n - 2)) by (symmetry; apply (N.div_unique _ _ _ (t mod c)); unfold s1; lia).
    assert (M1 : s1 mod c = t mod c) by (symmetry; apply (N.mod_unique _ _ (t / c * (n - 2))); unfold s1; lia).
    assert (S1 : member_sector s1 c (n - 2) = t).
    { unfold member_sector, stripe_of. rewrite Q1, M1, N.div_mul by exact Hd. lia. }
    assert (L1 : s1 < c * z * (n - 2)) by (apply sector_below; [assumption..|now rewrite S1]).
    destruct (Cmp s1 L1) as (p & q & d1 & R1). rewrite S1 in R1.
    destruct (N.eq_dec d p) as [->|Np]; [exists s1, p, q, d1; auto|].
    destruct (N.eq_dec d q) as [->|Nq]; [exists s1, p, q, d1; auto|].
    assert (U1 : u64_ok s1) by (unfold u64_ok; lia).
    assert (Fit : (t / c + 1) * (n - 2) * c <= u64_max + 1).
    { assert (t / c < z) by (apply N.div_lt_upper_bound; lia). nia. }
    destruct (raid6_surjective ra c n t d s1 t p q d1 U1 Uf R1 eq_refl Ld Np Nq Fit) as (s & Us & R).
    exists s, p, q, d. split; [|auto]. apply sector_below; [assumption..|].
    apply raid6_compute_inv in R as (l & _ & _ & _ & _ & _ & <- & _); auto.
Qed.
Print Assumptions array_blocks_fill_members.

(** The same for RAID-5 (which the code cannot read, but whose blocks it counts). *)
Theorem array_blocks_inside_raid5 : forall {D} (a : definition D) f ra k,
  in_use a f -> mf_algorithm f = AlgRaid5 ra -> u32_ok (mf_device_count f) ->
  mf_chunk_size f <> 0 -> N.divide (mf_chunk_size f) (mf_sectors_per_device f) -> 2 <= mf_device_count f ->
  array_block_count a = Ok k ->
  k = mf_sectors_per_device f * (mf_device_count f - 1) /\
  forall s, s < k -> exists t p d,
    raid5_compute_sector ra s (mf_chunk_size f) (mf_device_count f) = Some (t, p, d) /\ t < mf_sectors_per_device f.
Proof.
  intros D a f ra k Iu Al Uf Hc [z Dv] Hn E. unfold array_block_count in E. apply in_use_current in Iu. rewrite Iu in E.
  cbn [rbind] in E. unfold data_sector_count, data_device_count in E. rewrite Al in E. cbn [parity_device_count obind] in E.
  unfold csub32 in E. destruct (N.leb_spec 1 (mf_device_count f)); [|lia]. cbn [obind] in E.
  unfold cmul64 in E. destruct (N.leb_spec (mf_sectors_per_device f * (mf_device_count f - 1)) u64_max) as [Uk|]; [|discriminate].
  cbn [ok_or] in E. injection E as <-. split; [reflexivity|]. intros s Ls.
  assert (Us : u64_ok s) by (unfold u64_ok; lia). destruct (raid5_of_surj ra) as [l ->].
  destruct (raid5_compute_ok l s _ _ Us Uf Hc Hn) as (p & d & R & _).
  exists (member_sector s (mf_chunk_size f) (mf_device_count f - 1)), p, d. split; [exact R|].
  rewrite Dv in *. rewrite (N.mul_comm z) in *. apply sector_below; [assumption|lia|assumption].
Qed.
Print Assumptions array_blocks_inside_raid5.

Example array_blocks_ex : array_block_count r6_ex = Ok 4 /\ in_use r6_ex (MdFormat (AlgRaid6 R6LeftSymmetric) 4 2 1).
Proof. split; [reflexivity|]. right. split; reflexivity. Qed.

(** Without the divisibility it is false: ten sectors per member, chunks of eight. *)
Theorem array_blocks_outside_refuted : exists (a : definition unit) f ra s k t p q d,
  in_use a f /\ mf_algorithm f = AlgRaid6 ra /\ array_block_count a = Ok k /\ s < k /\
  raid6_compute_sector ra s (mf_chunk_size f) (mf_device_count f) = Some (t, p, q, d) /\ mf_sectors_per_device f <= t.
Proof.
  exists (Definition_ (Some (MdFormat (AlgRaid6 R6LeftSymmetric) 4 10 8)) None [] []), (MdFormat (AlgRaid6 R6LeftSymmetric) 4 10 8),
    R6LeftSymmetric, 19, 20, 11, 2, 3, 0.
  split; [right; split; reflexivity|]. repeat match goal with |- _ /\ _ => split end; vm_compute; first [reflexivity|discriminate].
Qed.
Print Assumptions array_blocks_outside_refuted.

(** ** C32 *)

(** What does hold: if the members agree and none of them announces a reshape, their format is the one in use. *)
Theorem stable_format_partial : forall {D} order (ds : list (md_device D)) f,
  ds <> [] -> (forall d, In d ds -> states_format d f) ->
  (forall d sb, In d ds -> md_superblock d = DsSuperblock sb -> sb_reshape sb = None) ->
  in_use (array_open order ds) f /\ forall g, in_use (array_open order ds) g -> g = f.
Proof.
  intros D order ds f N S R.
  assert (F : ad_format (array_open order ds) = Some f) by (apply array_format_unanimous; auto).
  assert (G : ad_new_format (array_open order ds) = None).
  { cbn [ad_new_format array_open]. destruct (array_new_format ds) as [g|] eqn:E; [|reflexivity].
    apply array_new_format_unanimous in E as (_ & E). destruct ds as [|d ds]; [contradiction|].
    destruct (E d ltac:(now left)) as (sb & rs & Sd & Rs & _). rewrite (R d sb ltac:(now left) Sd) in Rs. discriminate. }
  unfold in_use. rewrite F, G. split; [auto|]. intros g [H|[_ H]]; congruence.
Qed.
Print Assumptions stable_format_partial.

Example stable_format_ex :
  in_use (array_open (fun l => l) [role_member 0 0 [0; 1]; role_member 1 1 [0; 1]])
    (MdFormat (AlgRaid6 R6LeftSymmetric) 4 1000 128).
Proof. right. split; reflexivity. Qed.

(** The members agree, they carry version 0.90 superblocks of an array that is not being reshaped (minor version 90; the
    reshape fields are zero). *)
Definition v0_quiet (c : v0_contents) : Prop :=
  v0_ok c /\ c0_minor c = 90 /\ c0_position c = 0 /\ c0_new_level c = 0 /\ c0_delta c = 0 /\ c0_new_layout c = 0 /\ c0_new_chunk c = 0.

(** False of the code: no such array can be read at all, whatever its level, layout and contents. *)
Theorem v0_arrays_unreadable_refuted : forall {D} (ops : blockdev D) order (ds : list (md_device D)) s buf cs,
  ds <> [] -> 512 <= len buf ->
  Forall2 (fun d c => md_superblock d = DsSuperblock (v0_meaning c) /\ v0_quiet c) ds cs ->
  (forall c c', In c cs -> In c' cs -> c0_level c = c0_level c' /\ c0_layout c = c0_layout c' /\ c0_size c = c0_size c' /\
     c0_chunk c = c0_chunk c' /\ c0_raid_disks c = c0_raid_disks c') ->
  array_read_block ops (array_open order ds) s buf = (buf, Err Unsupported).
Proof.
  intros D ops order ds s buf cs N L F Ag.
  destruct ds as [|d0 ds]; [contradiction|]. inversion F as [|d c0 ds' cs' [S0 Q0] F']; subst.
  apply (array_read_refused ops _ s buf) with (f := MdFormat (AlgUnsupported 0 0) (c0_raid_disks c0) (c0_size c0) 0); [exact L| |discriminate].
  left. cbn [ad_new_format array_open]. apply array_new_format_unanimous. split; [discriminate|]. intros d I.
  assert (H : exists c, In c (c0 :: cs') /\ md_superblock d = DsSuperblock (v0_meaning c) /\ v0_quiet c).
  { clear - F I. revert I. generalize dependent (c0 :: cs'). generalize (d0 :: ds). intros l cs F. induction F as [|x y l cs P F IH]; intros I; [destruct I|].
    destruct I as [<-|I]; [exists y; split; [now left|exact P]|]. destruct (IH I) as (c & Ic & P'). exists c. split; [now right|exact P']. }
  destruct H as (c & Ic & Sc & (Ok & _ & _ & Nl & De & Ny & Nc)).
  destruct (Ag c c0 Ic ltac:(now left)) as (_ & _ & As & _ & Ar).
  eexists. eexists. split; [exact Sc|]. split; [reflexivity|]. cbn [rs_delta_devices rs_algorithm rs_chunk_size v0_meaning sb_device_count sb_sectors_per_device].
  rewrite Nl, De, Ny, Nc, As, Ar, N.add_0_r. split; [|reflexivity].
  destruct Ok as (Fo & _). rewrite Forall_forall in Fo. rewrite <- Ar.
  assert (B : fits 4 (c0_raid_disks c)) by (apply Fo; cbn; auto 12). unfold fits in B.
  assert (256 ^ 4 = u32_max + 1) by reflexivity. lia.
Qed.
Print Assumptions v0_arrays_unreadable_refuted.

Example v0_quiet_ex : v0_quiet v0_ex /\ sb_algorithm (v0_meaning v0_ex) = AlgRaid6 R6LeftSymmetric.
Proof. split; [|reflexivity]. split; [apply v0_round_trip_ex|repeat split]. Qed.

(** The change of the number of devices is a signed number (two's complement). *)
Definition delta_signed (v : N) : Z := if v <? 2 ^ 31 then Z.of_N v else (Z.of_N v - 2 ^ 32)%Z.

(** False of the code: members that announce a reshape to fewer devices are taken not to be reshaping. *)
Theorem shrinking_reshape_refuted : forall {D} order (ds : list (md_device D)) f rs,
  ds <> [] -> (forall d, In d ds -> states_format d f) ->
  (forall d sb, In d ds -> md_superblock d = DsSuperblock sb -> sb_reshape sb = Some rs) ->
  u32_ok (rs_delta_devices rs) -> u32_ok (mf_device_count f) ->
  (delta_signed (rs_delta_devices rs) < 0)%Z -> (0 <= Z.of_N (mf_device_count f) + delta_signed (rs_delta_devices rs))%Z ->
  in_use (array_open order ds) f.
Proof.
  intros D order ds f rs N S R Ud Un Neg Pos. right. split; [|now apply array_format_unanimous].
  cbn [ad_new_format array_open]. destruct (array_new_format ds) as [g|] eqn:E; [|reflexivity]. exfalso.
  apply array_new_format_unanimous in E as (_ & E). destruct ds as [|d ds]; [contradiction|].
  destruct (E d ltac:(now left)) as (sb & rs' & Sd & Rs & Le & _). rewrite (R d sb ltac:(now left) Sd) in Rs. injection Rs as <-.
  destruct (S d ltac:(now left)) as (sb' & Sd' & ->). rewrite Sd in Sd'. injection Sd' as <-. cbn [mf_device_count] in *.
  unfold delta_signed, u32_ok in *. assert (u32_max = 2 ^ 32 - 1) by reflexivity.
  destruct (N.ltb_spec (rs_delta_devices rs) (2 ^ 31)); lia.
Qed.
Print Assumptions shrinking_reshape_refuted.

(** Five devices, one of which is to be given up. *)
Example shrinking_reshape_ex :
  let rs := Reshape (AlgRaid6 R6LeftSymmetric) 0 0xffffffff 128 0 in
  let sb := Superblock 1 2 (UuidLong []) None (AlgRaid6 R6LeftSymmetric) 1000 128 5 (Some rs) 0 0 0 [] in
  in_use (array_open (fun l => l) [MdDevice 0 (DsSuperblock sb) tt]) (MdFormat (AlgRaid6 R6LeftSymmetric) 5 1000 128) /\
  delta_signed (rs_delta_devices rs) = (-1)%Z.
Proof. split; [right; split; reflexivity|reflexivity]. Qed.

(** ** C59 *)

(** The version 0.90 superblock records sizes in units of 1024 bytes and chunks in bytes. *)
Definition v0_sectors (c : v0_contents) : N := 2 * c0_size c.
Definition v0_chunk_sectors (c : v0_contents) : N := c0_chunk c / 512.

(** False of the code: the numbers are taken as they are, so they are right only if they are 0. *)
Theorem v0_units_refuted : forall e c st sb,
  v0_ok c -> len st = 4096 -> Forall (holds st) (v0_bytes e c) ->
  v0_decode st = Ok sb ->
  (sb_sectors_per_device sb = v0_sectors c <-> c0_size c = 0) /\
  (sb_chunk_size sb = v0_chunk_sectors c <-> c0_chunk c = 0).
Proof.
  intros e c st sb OK L H E. rewrite (v0_decoded e c st sb OK L H E). cbn [v0_meaning sb_sectors_per_device sb_chunk_size].
  unfold v0_sectors, v0_chunk_sectors. split; [lia|]. split; [|intros ->; reflexivity].
  intros Q. destruct (N.eq_dec (c0_chunk c) 0) as [Z|Z]; [exact Z|]. pose proof (N.div_lt (c0_chunk c) 512 ltac:(lia) ltac:(lia)). lia.
Qed.
Print Assumptions v0_units_refuted.

(** The image of [v0_round_trip_ex]: 4 MiB per device in chunks of 64 KiB. *)
Example v0_units_ex :
  sb_sectors_per_device (v0_meaning v0_ex) = 4096 /\ v0_sectors v0_ex = 8192 /\
  sb_chunk_size (v0_meaning v0_ex) = 65536 /\ v0_chunk_sectors v0_ex = 128.
Proof. repeat split. Qed.

(** ** C62: one blank disk among the members *)

(** False of the code: give it a member without a superblock, and there is neither a format nor an active member. *)
Theorem blank_member_refuted : forall {D} order (ds : list (md_device D)) blank,
  (forall x, Permutation (order x) x) -> In blank ds -> (forall sb, md_superblock blank <> DsSuperblock sb) ->
  let a := array_open order ds in
  (forall f, ~ in_use a f) /\ ad_devices a = [] /\ Permutation (ad_inactive a) ds.
Proof.
  intros D order ds blank O I B a.
  assert (R : array_roles ds = None).
  { unfold array_roles. apply in_split in I as (pre & post & ->). rewrite map_app. cbn [map].
    assert (Nb : option_map sb_roles (as_option (md_superblock blank)) = None).
    { destruct (md_superblock blank) as [sb| |]; [now destruct (B sb)|reflexivity..]. }
    rewrite Nb. clear. assert (F : forall l, fold_left merge_opt l None = None).
    { induction l as [|x l IH]; [reflexivity|]. cbn [fold_left]. exact IH. }
    destruct pre as [|p pre]; cbn [map app reduce_flatten]; [apply F|].
    generalize (option_map sb_roles (as_option (md_superblock p))) as acc. intros acc.
    rewrite fold_left_app. cbn [fold_left]. set (x := fold_left _ _ acc).
    assert (Mx : merge_opt x None = None) by (unfold merge_opt; now destruct x). rewrite Mx. apply F. }
  destruct (array_members_partition order ds O) as (Pm & _ & Sl). fold a in Pm, Sl.
  assert (E : ad_devices a = []).
  { destruct (ad_devices a) as [|[k d] t]; [reflexivity|]. exfalso.
    destruct (proj1 (Sl k d) ltac:(now left)) as (pre & post & _ & (sb & tbl & _ & T & _) & _). congruence. }
  split; [|split; [exact E|]].
  - intros f [H|[_ H]]; cbn [a ad_new_format ad_format array_open] in H.
    + apply array_new_format_unanimous in H as (_ & H). destruct (H blank I) as (sb & _ & S & _). now apply (B sb).
    + apply array_format_unanimous in H as (_ & H). destruct (H blank I) as (sb & S & _). now apply (B sb).
  - rewrite E in Pm. exact Pm.
Qed.
Print Assumptions blank_member_refuted.

(** The array of [r6_ex] plus one blank disk: nothing can be read any more. *)
Example blank_member_ex :
  let a := array_open (fun l => l)
    [r6_member 0 0 (sec x00); r6_member 0 1 (sec x31); r6_member 0 2 (sec x42); r6_member 0 3 (sec x73);
     MdDevice 4 DsMissing (mem_new (sec x00) 512)] in
  snd (array_read_block mem_block a 0 (zeros 512)) = Err InvalidData /\ len (ad_inactive a) = 5.
Proof. split; vm_compute; reflexivity. Qed.
