(** Properties C101-C103: members that md has dropped, members of different arrays, and what opening an array looks at. *)

From Coq Require Import Strings.String Permutation.
From Verif Require Import Base BaseFacts Raid SpecRaid RaidFacts SpecParity ParityFacts PropsRaid Io SpecStream IoFacts Superblock Device Array
  ArrayIo SpecMd SpecArray ArrayFacts PropsArray PropsArrayRead PropsArrayIo PropsExt4Array PropsExt4Recover SpecDamage PropsExt4Damage SpecStale.

(** ** C101, C102: what the diagnosis says *)

Lemma reports_listed {D K} (f : superblock -> option K) (ds : list (md_device D)) entry d d' v v' :
  reports f ds entry -> In d ds -> In d' ds -> value f d = Some v -> value f d' = Some v' -> v <> v' -> listed entry v d.
Proof.
  intros R I I' V V' Ne. unfold reports in R. destruct entry as [m|]; [|destruct Ne; now apply (R d d')].
  destruct R as (_ & _ & A & B). destruct (B d v I V) as (ids & X). exists m, ids. split; [reflexivity|]. split; [exact X|].
  destruct (A v ids X) as (_ & sel & rest & Pm & -> & _ & Fr). apply in_map.
  apply (Permutation_in _ (Permutation_sym Pm)) in I. apply in_app_iff in I as [I|I]; [exact I|].
  rewrite Forall_forall in Fr. now destruct (Fr d I).
Qed.

(** A dropped member is named, with its event count, in the diagnosis; so is a member of another array, with the identifier
    of that array. *)
Theorem dropped_reported : forall {D} order order' (ds : list (md_device D)) d sb,
  (forall l, Permutation (order l) l) -> (forall l, Permutation (order' l) l) ->
  In d ds -> md_superblock d = DsSuperblock sb -> dropped ds d ->
  listed (dg_event_count (diagnose order' (array_open order ds))) (sb_event_count sb) d.
Proof.
  intros D order order' ds d sb O O' I S (sb0 & d' & sb' & r & S0 & I' & S' & Lt & _ & _).
  assert (sb0 = sb) as -> by congruence.
  destruct (diagnosis_disagreements order order' ds O O') as (_ & _ & _ & _ & _ & _ & _ & R & _).
  apply (reports_listed _ _ _ d d' _ (sb_event_count sb') R I I'); unfold value; rewrite ?S, ?S'; auto. lia.
Qed.
Print Assumptions dropped_reported.

Theorem mixed_reported : forall {D} order order' (ds : list (md_device D)) u u' d d',
  (forall l, Permutation (order l) l) -> (forall l, Permutation (order' l) l) ->
  In d ds -> In d' ds -> of_array u d -> of_array u' d' -> u <> u' ->
  listed (dg_uuid (diagnose order' (array_open order ds))) u d /\ listed (dg_uuid (diagnose order' (array_open order ds))) u' d'.
Proof.
  intros D order order' ds u u' d d' O O' I I' (sb & S & <-) (sb' & S' & <-) Ne.
  destruct (diagnosis_disagreements order order' ds O O') as (R & _).
  split; [apply (reports_listed _ _ _ d d' _ (sb_uuid sb') R I I')|apply (reports_listed _ _ _ d' d _ (sb_uuid sb) R I' I)];
    unfold value; rewrite ?S, ?S'; auto.
Qed.
Print Assumptions mixed_reported.

(** ** C101: a dropped member is used all the same *)

(** Whatever the event counts are: a member that itself names a position for its index gets that position, unless another
    member contradicts with something definite or another member has that position too. *)
Theorem dropped_used : forall {D} order (ds : list (md_device D)) d sb k pre post,
  (forall l, Permutation (order l) l) -> ds = pre ++ d :: post -> md_superblock d = DsSuperblock sb ->
  nth_error (sb_roles sb) (N.to_nat (sb_role_index sb)) = Some k -> k <= 0xfeff ->
  (forall d', In d' ds -> exists sb', md_superblock d' = DsSuperblock sb') ->
  (forall i r r', definite r -> definite r' -> claimed ds i r -> claimed ds i r' -> r = r') ->
  (forall v, reserved v -> ~ claimed ds (sb_role_index sb) v) ->
  (forall d' sb', In d' (pre ++ post) -> md_superblock d' = DsSuperblock sb' -> ~ claimed ds (sb_role_index sb') k) ->
  In (k, d) (ad_devices (array_open order ds)).
Proof.
  intros D order ds d sb k pre post O E S R K A Cf Rs Al.
  destruct (array_members_partition order ds O) as (_ & _ & X). apply X. exists pre, post. split; [exact E|].
  assert (Id : In d ds) by (rewrite E; apply in_elt).
  assert (Dk : definite k). { unfold definite, reserved, idle. lia. }
  destruct (array_roles ds) as [tbl|] eqn:T.
  2: { exfalso. destruct (roles_fail ds T ltac:(rewrite E; destruct pre; discriminate)) as [(d' & I' & N)|(i & r & r' & Ne & D1 & D2 & C1 & C2)].
       - destruct (A d' I') as (sb' & S'). now apply (N sb').
       - apply Ne. now apply (Cf i). }
  split.
  - exists sb, tbl. split; [exact S|]. split; [reflexivity|]. split; [|exact K].
    apply (roles_merged_value ds tbl _ _ T K). assert (Ck : claimed ds (sb_role_index sb) k) by (exists d, sb; auto).
    split; [exact Ck|]. split; [|exact Rs]. intros r Dr Cr. now apply (Cf (sb_role_index sb)).
  - apply Forall_forall. intros d' I' (sb' & tbl' & S' & T' & N' & _). injection T' as <-.
    apply (roles_merged_value ds tbl _ _ T K) in N' as (C' & _). exact (Al d' sb' I' S' C').
Qed.
Print Assumptions dropped_used.

(** Rows [Q D0 D1 P]: members 1 and 3 were dropped, and then the first sector was overwritten. *)
Definition stale_sb (u : byte) (events : N) (roles : list N) (size index : N) : superblock :=
  Superblock 1 2 (UuidLong [u]) None (AlgRaid6 R6LeftSymmetric) size 1 4 None 0 index events roles.
Definition stale_members : list (md_device memdev) :=
  [MdDevice 10 (DsSuperblock (stale_sb x01 9 [0; 0xfffe; 2; 0xfffe] 1 0)) (mem_new (sec x00) 512);
   MdDevice 11 (DsSuperblock (stale_sb x01 5 [0; 1; 2; 3] 1 1)) (mem_new (sec x31) 512);
   MdDevice 12 (DsSuperblock (stale_sb x01 9 [0; 0xfffe; 2; 0xfffe] 1 2)) (mem_new (sec x42) 512);
   MdDevice 13 (DsSuperblock (stale_sb x01 5 [0; 1; 2; 3] 1 3)) (mem_new (sec x73) 512)].
Definition stale_old : bytes := sec x31 ++ sec x42.
Definition stale_new : bytes := sec x55 ++ sec x42.
Definition stale_format : md_format := MdFormat (AlgRaid6 R6LeftSymmetric) 4 1 1.

(** Member [d] can be read everywhere and has the part of the [image] for slot [k]. *)
Definition has_part {D} (ops : blockdev D) (f : md_format) (l : layout6) (image : bytes) (q : N -> bytes) (k : N) (d : md_device D) : Prop :=
  exists ct, member_holds ops d ct (fun _ => False) /\
  forall t, t < mf_sectors_per_device f -> sector_at ct t (stored l (mf_device_count f) (mf_chunk_size f) image q k t).

Lemma mem_holds (m : md_device memdev) mem k : md_dev m = mem_new mem 512 -> len mem = k * 512 -> u64_ok (len mem) ->
  member_holds mem_block m mem (fun _ => False).
Proof.
  intros E L U. pose proof (mem_member_holds m mem 512 E ltac:(lia) U) as H.
  rewrite flat_block_of, L, N.div_mul in H by lia. rewrite <- L in H. now rewrite window_full in H.
Qed.

Lemma mem_part f l image q k (m : md_device memdev) mem : md_dev m = mem_new mem 512 -> len mem = mf_sectors_per_device f * 512 -> u64_ok (len mem) ->
  (forall t, t < mf_sectors_per_device f -> window mem (t * 512) 512 = stored l (mf_device_count f) (mf_chunk_size f) image q k t) ->
  has_part mem_block f l image q k m.
Proof.
  intros E L U W. exists mem. split; [exact (mem_holds m mem _ E L U)|]. intros t Ht. split; [lia|]. symmetry. now apply W.
Qed.

(** False of the code: two members were dropped, which is what RAID-6 is for, and the other two have all of the array's data.
    Every member has what md last wrote to it.  The first sector comes back as it was when the two were dropped. *)
Theorem dropped_not_read_refuted : exists (ds : list (md_device memdev)) f l old new q s,
  let a := array_open (fun x => x) ds in
  geometry_ok f l /\ in_use a f /\ s < mf_sectors_per_device f * (mf_device_count f - 2) /\
  len old = mf_sectors_per_device f * (mf_device_count f - 2) * 512 /\ len new = len old /\
  (forall d, In d ds -> exists k, In (k, d) (ad_devices a) /\
     (dropped ds d /\ has_part mem_block f l old q k d \/ newest ds d /\ has_part mem_block f l new q k d)) /\
  exists a' buf', array_read_block_io mem_block shared a s (zeros 512) = (a', buf', Ok 512) /\
    buf' = image_sector old s /\ buf' <> image_sector new s.
Proof.
  exists stale_members, stale_format, (Md5 LeftSymmetric), stale_old, stale_new, (fun _ => sec x00), 0. cbv zeta.
  split; [|split; [right; split; reflexivity|split; [reflexivity|split; [reflexivity|split; [reflexivity|split; [|]]]]]].
  - exists 2, R6LeftSymmetric. repeat split; try (vm_compute; congruence). now exists 1.
  - assert (HP : forall image k d b, md_dev d = mem_new (sec b) 512 -> stored (Md5 LeftSymmetric) 4 1 image (fun _ => sec x00) k 0 = sec b ->
      has_part mem_block stale_format (Md5 LeftSymmetric) image (fun _ => sec x00) k d).
    { intros image k d b E St. apply (mem_part _ _ _ _ _ _ (sec b) E); [unfold sec; rewrite len_repeat; reflexivity|unfold sec; rewrite len_repeat; vm_compute; discriminate|].
      intros t Ht. cbn in Ht. assert (t = 0) as -> by lia. cbn [mf_device_count mf_chunk_size stale_format]. rewrite St.
      change (0 * 512) with 0. change 512 with (len (sec b)) at 1. apply window_full. }
    assert (Nw : forall i d, nth_error stale_members i = Some d -> (i = 0 \/ i = 2)%nat -> newest stale_members d).
    { intros i d E [->| ->]; cbn in E; injection E as <-; eexists; (split; [reflexivity|]); intros d' sb' I' S';
        repeat (destruct I' as [<-|I']; [injection S' as <-; vm_compute; discriminate|]); destruct I'. }
    assert (Dr : forall i d, nth_error stale_members i = Some d -> (i = 1 \/ i = 3)%nat -> dropped stale_members d).
    { intros i d E [->| ->]; cbn in E; injection E as <-; eexists; eexists; eexists; eexists;
        (split; [reflexivity|]); (split; [left; reflexivity|]); (split; [reflexivity|]); (split; [reflexivity|]); (split; [reflexivity|right; reflexivity]). }
    intros d I. assert (X : exists i, nth_error stale_members i = Some d) by now apply In_nth_error. destruct X as (i & E).
    exists (N.of_nat i). destruct i as [|[|[|[|i]]]]; cbn in E; try (injection E as <-); [| | | |destruct i; discriminate E].
    + split; [left; reflexivity|]. right. split; [apply (Nw 0%nat); [reflexivity|auto]|]. eapply HP; [reflexivity|vm_compute; reflexivity].
    + split; [right; left; reflexivity|]. left. split; [apply (Dr 1%nat); [reflexivity|auto]|]. eapply HP; [reflexivity|vm_compute; reflexivity].
    + split; [right; right; left; reflexivity|]. right. split; [apply (Nw 2%nat); [reflexivity|auto]|]. eapply HP; [reflexivity|vm_compute; reflexivity].
    + split; [right; right; right; left; reflexivity|]. left. split; [apply (Dr 3%nat); [reflexivity|auto]|]. eapply HP; [reflexivity|vm_compute; reflexivity].
  - eexists. eexists. split; [vm_compute; reflexivity|]. split; [vm_compute; reflexivity|vm_compute; discriminate].
Qed.
Print Assumptions dropped_not_read_refuted.

Example dropped_ex : let ds := stale_members in
  Forall (fun d => exists sb k, md_superblock d = DsSuperblock sb /\ nth_error (sb_roles sb) (N.to_nat (sb_role_index sb)) = Some k /\ k <= 0xfeff) ds /\
  map fst (ad_devices (array_open (fun x => x) ds)) = [0; 1; 2; 3] /\
  dg_event_count (diagnose (fun x => x) (array_open (fun x => x) ds)) = Some [(9, [10; 12]); (5, [11; 13])].
Proof.
  cbv zeta. split; [|split; vm_compute; reflexivity]. unfold stale_members.
  repeat constructor; eexists; eexists; (split; [reflexivity|]); (split; [reflexivity|]); vm_compute; discriminate.
Qed.

(** ** C102: members of different arrays *)

(** Rows [Q D0 D1 P] and [D0 D1 P Q]; the members 0 and 1 belong to one array, the members 2 and 3 to another one.  In the
    first array the second row is written, in the second array the second sector is. *)
Definition mixed_image (b : byte) : bytes := if Byte.eqb b x01 then sec x00 ++ sec x00 ++ sec x31 ++ sec x31 else sec x00 ++ sec x55 ++ sec x00 ++ sec x00.
Definition mixed_members : list (md_device memdev) :=
  [MdDevice 10 (DsSuperblock (stale_sb x01 5 [0; 1; 2; 3] 2 0)) (mem_new (sec x00 ++ sec x31) 512);
   MdDevice 11 (DsSuperblock (stale_sb x01 5 [0; 1; 2; 3] 2 1)) (mem_new (sec x00 ++ sec x31) 512);
   MdDevice 12 (DsSuperblock (stale_sb x02 5 [0; 1; 2; 3] 2 2)) (mem_new (sec x55 ++ sec x00) 512);
   MdDevice 13 (DsSuperblock (stale_sb x02 5 [0; 1; 2; 3] 2 3)) (mem_new (sec x55 ++ sec x00) 512)].
Definition mixed_format : md_format := MdFormat (AlgRaid6 R6LeftSymmetric) 4 2 1.

(** False of the code: each member has the part of the image of its own array, the identifiers differ, and what is read
    is the image of neither. *)
Theorem mixed_not_combined_refuted : exists (ds : list (md_device memdev)) f l (image : array_uuid -> bytes) q,
  let a := array_open (fun x => x) ds in
  let count := mf_sectors_per_device f * (mf_device_count f - 2) in
  geometry_ok f l /\ in_use a f /\ (forall u, len (image u) = count * 512) /\
  (forall d, In d ds -> exists u k, of_array u d /\ In (k, d) (ad_devices a) /\ has_part mem_block f l (image u) q k d) /\
  exists got, map snd (array_reads mem_block shared a (map (fun s => (s, zeros 512)) (map N.of_nat (seq 0 (N.to_nat count))))) = repeat (Ok 512) (N.to_nat count) /\
    concat (map fst (array_reads mem_block shared a (map (fun s => (s, zeros 512)) (map N.of_nat (seq 0 (N.to_nat count)))))) = got /\
    forall u, got <> image u.
Proof.
  exists mixed_members, mixed_format, (Md5 LeftSymmetric), (fun u => match u with UuidLong [b] => mixed_image b | _ => mixed_image x02 end), (fun _ => sec x00).
  assert (ML : forall b, len (mixed_image b) = 2048) by (intros b; unfold mixed_image; destruct (Byte.eqb b x01); reflexivity).
  cbv zeta. split; [|split; [right; split; reflexivity|split; [|split]]].
  - exists 2, R6LeftSymmetric. repeat split; try (vm_compute; congruence). now exists 2.
  - intros u. change (_ * 512) with 2048. destruct u as [?|[|b [|]]]; apply ML.
  - assert (HP : forall image k d x y, md_dev d = mem_new (sec x ++ sec y) 512 -> stored (Md5 LeftSymmetric) 4 1 image (fun _ => sec x00) k 0 = sec x ->
      stored (Md5 LeftSymmetric) 4 1 image (fun _ => sec x00) k 1 = sec y ->
      has_part mem_block mixed_format (Md5 LeftSymmetric) image (fun _ => sec x00) k d).
    { intros image k d x y E S0 S1. apply (mem_part _ _ _ _ _ _ _ E); [unfold sec; rewrite len_app, !len_repeat; reflexivity|unfold sec; rewrite len_app, !len_repeat; vm_compute; discriminate|].
      intros t Ht. cbn in Ht. assert (t = 0 \/ t = 1) as [->| ->] by lia; cbn [mf_device_count mf_chunk_size mixed_format]; rewrite ?S0, ?S1.
      - reflexivity.
      - reflexivity. }
    intros d I. assert (X : exists i, nth_error mixed_members i = Some d) by now apply In_nth_error. destruct X as (i & E).
    destruct i as [|[|[|[|i]]]]; cbn in E; try (injection E as <-); [| | | |destruct i; discriminate E].
    + exists (UuidLong [x01]), 0. split; [eexists; split; reflexivity|]. split; [left; reflexivity|]. eapply HP; [reflexivity|vm_compute; reflexivity|vm_compute; reflexivity].
    + exists (UuidLong [x01]), 1. split; [eexists; split; reflexivity|]. split; [right; left; reflexivity|]. eapply HP; [reflexivity|vm_compute; reflexivity|vm_compute; reflexivity].
    + exists (UuidLong [x02]), 2. split; [eexists; split; reflexivity|]. split; [right; right; left; reflexivity|]. eapply HP; [reflexivity|vm_compute; reflexivity|vm_compute; reflexivity].
    + exists (UuidLong [x02]), 3. split; [eexists; split; reflexivity|]. split; [right; right; right; left; reflexivity|]. eapply HP; [reflexivity|vm_compute; reflexivity|vm_compute; reflexivity].
  - eexists. split; [vm_compute; reflexivity|]. split; [vm_compute; reflexivity|]. intros u.
    assert (N : forall b, sec x00 ++ sec x55 ++ sec x31 ++ sec x31 <> mixed_image b)
      by (intros b; unfold mixed_image; destruct (Byte.eqb b x01); vm_compute; discriminate).
    destruct u as [?|[|b [|]]]; [exact (N x02)|exact (N x02)|exact (N b)|exact (N x02)].
Qed.
Print Assumptions mixed_not_combined_refuted.

Example mixed_ex : let ds := mixed_members in
  of_array (UuidLong [x01]) (nth 1 ds (nth 0 ds (MdDevice 0 DsMissing (mem_new [] 512)))) /\
  dg_uuid (diagnose (fun x => x) (array_open (fun x => x) ds)) = Some [(UuidLong [x01], [10; 11]); (UuidLong [x02], [12; 13])].
Proof. cbv zeta. split; [eexists; split; reflexivity|vm_compute; reflexivity]. Qed.

(** What does hold, of dropped members and of members of other arrays alike: one of them is not enough.  (Partial: the
    parts are taken to start at the beginning of the members, see [data_offset_refuted]; and from two members on the claim is
    false, see the two theorems above.) *)
Lemma contents_exist {D} (ops : blockdev D) (devs : list (N * md_device D)) : NoDup (map fst devs) ->
  (forall i m, In (i, m) devs -> exists c bad, member_holds ops m c bad) ->
  exists C : contents, (forall i m, In (i, m) devs -> exists ct bad, C i = Some (ct, bad) /\ member_holds ops m ct bad) /\
    (forall i ct bad, C i = Some (ct, bad) -> exists m, In (i, m) devs).
Proof.
  induction devs as [|[k d] devs IH]; intros Nd H.
  - exists (fun _ => None). split; [intros i m []|discriminate].
  - cbn [map fst] in Nd. apply NoDup_cons_iff in Nd as [Ni Nd]. destruct (IH Nd) as (C & A & B); [intros i m X; apply (H i m); now right|].
    destruct (H k d ltac:(now left)) as (ct & bad & M). exists (fun i => if i =? k then Some (ct, bad) else C i). split.
    + intros i m [E|X].
      * injection E as <- <-. rewrite N.eqb_refl. eauto.
      * destruct (N.eqb_spec i k) as [->|]; [|now apply A]. destruct Ni. apply in_map_iff. now exists (k, m).
    + intros i ct' bad' E. destruct (N.eqb_spec i k) as [->|]; [exists d; now left|]. destruct (B i ct' bad' E) as (m & X). exists m. now right.
Qed.

Theorem one_outsider_partial : forall {D} (ops : blockdev D) join order (ds : list (md_device D)) f l image q j s buf a' buf' r,
  (forall x, Permutation (order x) x) -> joins join ->
  let a := array_open order ds in
  geometry_ok f l -> u64_ok (len image) -> len image = mf_sectors_per_device f * (mf_device_count f - 2) * 512 ->
  members_hold ops a -> in_use a f ->
  (forall i, i < mf_device_count f -> i <> j -> exists m, In (i, m) (ad_devices a) /\ has_part ops f l image q i m) ->
  s < mf_sectors_per_device f * (mf_device_count f - 2) -> len buf = 512 ->
  array_read_block_io ops join a s buf = (a', buf', r) ->
  r = Ok 512 /\ buf' = image_sector image s \/ exists e, r = Err e.
Proof.
  intros D ops join order ds f l image q j s buf a' buf' r O J a G U Li Mh Iu Pt Ls Lb E.
  assert (Nd : NoDup (map fst (ad_devices a))) by apply (array_members_partition order ds O).
  destruct (contents_exist ops (ad_devices a) Nd Mh) as (C & A & B).
  assert (Hs : slots_hold ops a C) by (split; [exact Nd|split; [exact A|exact B]]).
  assert (OW : one_wrong C f l image q).
  { split; [exact Li|]. intros t Lt. exists j. intros i Hi Ne. destruct (Pt i Hi Ne) as (m & I & ct & M & Pc).
    destruct (A i m I) as (ct' & bad' & Ci & M'). pose proof (member_content_unique ops m ct ct' bad' M M') as ->.
    exists ct, bad'. split; [exact Ci|]. apply Pc.
    destruct G as (code & ra & _ & _ & _ & _ & Hn & Hc & [z Dv]).
    rewrite Dv, (N.mul_comm z) in *. apply sector_below; [exact Hc|lia|exact Lt]. }
  destruct (one_wrong_sector ops join J C f l image q G U OW a s buf a' buf' r (conj Hs Iu) Ls Lb E) as [_ R].
  destruct r as [k|e|]; [left|right; eauto|destruct R]. destruct R as [-> ->]. auto.
Qed.
Print Assumptions one_outsider_partial.

Example one_outsider_ex : let f := stale_format in let l := Md5 LeftSymmetric in let a := array_open (fun x => x)
    [MdDevice 10 (DsSuperblock (stale_sb x01 9 [0; 0xfffe; 2; 3] 1 0)) (mem_new (sec x00) 512);
     MdDevice 11 (DsSuperblock (stale_sb x07 5 [0; 1; 2; 3] 1 1)) (mem_new (sec x31) 512);
     MdDevice 12 (DsSuperblock (stale_sb x01 9 [0; 0xfffe; 2; 3] 1 2)) (mem_new (sec x42) 512);
     MdDevice 13 (DsSuperblock (stale_sb x01 9 [0; 0xfffe; 2; 3] 1 3)) (mem_new (sec x17) 512)] in
  in_use a f /\ members_hold mem_block a /\
  (forall i, i < mf_device_count f -> i <> 1 -> exists m, In (i, m) (ad_devices a) /\ has_part mem_block f l stale_new (fun _ => sec x00) i m) /\
  array_reads mem_block shared a [(0, zeros 512); (1, zeros 512)] = [(zeros 512, Err InvalidData); (zeros 512, Err InvalidData)].
Proof.
  cbv zeta. split; [right; split; reflexivity|].
  assert (HP : forall image k d b, md_dev d = mem_new (sec b) 512 -> stored (Md5 LeftSymmetric) 4 1 image (fun _ => sec x00) k 0 = sec b ->
    has_part mem_block stale_format (Md5 LeftSymmetric) image (fun _ => sec x00) k d).
  { intros image k d b E St. apply (mem_part _ _ _ _ _ _ (sec b) E); [unfold sec; rewrite len_repeat; reflexivity|unfold sec; rewrite len_repeat; vm_compute; discriminate|].
    intros t Ht. cbn in Ht. assert (t = 0) as -> by lia. cbn [mf_device_count mf_chunk_size stale_format]. rewrite St.
    change (0 * 512) with 0. change 512 with (len (sec b)) at 1. apply window_full. }
  split; [|split].
  - intros i m I. cbn in I. repeat (destruct I as [I|I]; [injection I as <- <-; eexists; eexists; eapply (mem_holds _ _ 1); [reflexivity|reflexivity|vm_compute; discriminate]|]). destruct I.
  - intros i Hi Ne. change (mf_device_count stale_format) with 4 in Hi. assert (i = 0 \/ i = 2 \/ i = 3) as [->|[->| ->]] by lia.
    + eexists. split; [left; reflexivity|]. eapply HP; [reflexivity|vm_compute; reflexivity].
    + eexists. split; [right; right; left; reflexivity|]. eapply HP; [reflexivity|vm_compute; reflexivity].
    + eexists. split; [right; right; right; left; reflexivity|]. eapply HP; [reflexivity|vm_compute; reflexivity].
  - vm_compute. reflexivity.
Qed.

(** ** C103: what opening and reading look at *)

Section Same.
  Context {D : Type} (ops : blockdev D) (join : D -> D -> D).

  (** Two arrays have the same formats, and the same devices in the same slots. *)
  Definition same_array (a a' : definition D) : Prop :=
    ad_format a = ad_format a' /\ ad_new_format a = ad_new_format a' /\
    forall k, option_map md_dev (assoc (ad_devices a) k) = option_map md_dev (assoc (ad_devices a') k).

  Definition same_reader (r r' : reader (md_device D)) : Prop :=
    md_dev (r_dev r) = md_dev (r_dev r') /\ r_block r = r_block r' /\ r_byte r = r_byte r'.

  Lemma same_seek r r' p : same_reader r r' ->
    same_reader (fst (reader_seek (md_block ops) r p)) (fst (reader_seek (md_block ops) r' p)) /\
    snd (reader_seek (md_block ops) r p) = snd (reader_seek (md_block ops) r' p).
  Proof.
    intros (E1 & E2 & E3). unfold reader_seek. cbn [bd_count bd_size md_block]. rewrite E1, E2, E3.
    set (m := rbind _ _). destruct m as [[[pos b] y]|e|]; cbn [fst snd]; (split; [|reflexivity]); repeat split; auto.
  Qed.
  Lemma same_read r r' buf : same_reader r r' ->
    let '(s, b, x) := reader_read (md_block ops) r buf in let '(s', b', x') := reader_read (md_block ops) r' buf in
    same_reader s s' /\ b = b' /\ x = x'.
  Proof.
    intros (E1 & E2 & E3). unfold reader_read. cbn [bd_count bd_size bd_read md_block]. rewrite E1, E2, E3.
    assert (Z : same_reader r r') by (repeat split; assumption).
    destruct (bd_count ops _) as [count| |]; auto. destruct (count <=? r_block r'); auto.
    destruct (bd_size ops _) as [bs| |]; auto. destruct (bd_read ops _ _ _) as [[d b] x].
    destruct x as [?|e|]; [|now repeat split|now repeat split]. cbn [r_byte r_block].
    destruct (csub64 bs (r_byte r')) as [room|]; [|now repeat split].
    destruct (sub b (r_byte r') _) as [src|]; [|now repeat split].
    destruct (bs <=? _); [|now repeat split]. destruct (cadd64 _ 1); now repeat split.
  Qed.
  Lemma same_exact fuel : forall r r' buf, same_reader r r' ->
    let '(s, b, x) := read_exact_loop (reader_read (md_block ops)) fuel r buf in
    let '(s', b', x') := read_exact_loop (reader_read (md_block ops)) fuel r' buf in
    same_reader s s' /\ b = b' /\ x = x'.
  Proof.
    induction fuel as [|fuel IH]; intros r r' buf Z; (destruct buf as [|y buf]; [now cbn [read_exact_loop]|]).
    - cbn [read_exact_loop]. auto.
    - cbn [read_exact_loop]. pose proof (same_read r r' (y :: buf) Z) as H.
      destruct (reader_read (md_block ops) r (y :: buf)) as [[s b] x]. destruct (reader_read (md_block ops) r' (y :: buf)) as [[s' b'] x'].
      destruct H as (H & <- & <-). cbn [sbind]. destruct x as [k|e|]; [|auto|auto].
      destruct (k =? 0); [auto|]. destruct (k <=? len b); [|auto].
      specialize (IH s s' (skipn (N.to_nat k) b) H).
      destruct (read_exact_loop _ fuel s _) as [[s2 b2] x2]. destruct (read_exact_loop _ fuel s' _) as [[s2' b2'] x2'].
      destruct IH as (I1 & <- & <-). auto.
  Qed.

  Lemma assoc_set_get {V} (m : list (N * V)) k v i : assoc (assoc_set m k v) i = if i =? k then option_map (fun _ => v) (assoc m k) else assoc m i.
  Proof.
    induction m as [|[k' v'] m IH]; cbn [assoc_set assoc]; [now destruct (i =? k)|].
    destruct (N.eqb_spec k' k) as [->|Ne]; cbn [assoc].
    - destruct (N.eqb_spec k i) as [->|]; [now rewrite N.eqb_refl|]. destruct (N.eqb_spec i k); [congruence|reflexivity].
    - destruct (N.eqb_spec k' i) as [->|]; [destruct (N.eqb_spec i k); [congruence|reflexivity]|exact IH].
  Qed.
  Lemma same_set a a' dev m m' n n' : same_array a a' -> md_dev m = md_dev m' -> md_dev n = md_dev n' ->
    same_array (set_member join a dev m n) (set_member join a' dev m' n').
  Proof.
    intros (F1 & F2 & F3) Em En. repeat split; cbn [ad_format ad_new_format set_member]; auto. intros k. cbn [set_member ad_devices].
    rewrite !assoc_set_get, Em, En. destruct (k =? dev); [|apply F3]. specialize (F3 dev).
    destruct (assoc (ad_devices a) dev), (assoc (ad_devices a') dev); cbn in *; congruence.
  Qed.
  Lemma same_member_read dev sec buf a a' : same_array a a' ->
    let '(b, x, u) := member_read_io ops join dev sec buf a in let '(b', x', u') := member_read_io ops join dev sec buf a' in
    same_array b b' /\ x = x' /\ u = u'.
  Proof.
    intros Z. unfold member_read_io. destruct (len buf <? 512); [auto|]. pose proof (proj2 (proj2 Z) dev) as F.
    destruct (assoc (ad_devices a) dev) as [m|], (assoc (ad_devices a') dev) as [m'|]; cbn in F; try discriminate; [|auto].
    injection F as F. cbn [bd_clone md_block]. rewrite F. destruct (bd_clone ops (md_dev m')) as [d|e|]; cbn [rbind]; [|auto|auto].
    destruct (cmul64 sec 512) as [pos|]; [|auto].
    set (m1 := MdDevice (md_id m) (md_superblock m) d). set (m1' := MdDevice (md_id m') (md_superblock m') d).
    assert (R : same_reader (reader_new m1) (reader_new m1')) by (repeat split).
    destruct (same_seek _ _ (SeekStart pos) R) as [R1 E1].
    destruct (reader_seek (md_block ops) (reader_new m1) (SeekStart pos)) as [r x].
    destruct (reader_seek (md_block ops) (reader_new m1') (SeekStart pos)) as [r' x']. cbn [fst snd] in R1, E1. subst x'.
    destruct x as [?|e|]; [|split; [apply same_set; [exact Z|exact F|apply R1]|auto]|split; [apply same_set; [exact Z|exact F|apply R1]|auto]].
    pose proof (same_exact (length (firstn 512 buf)) r r' (firstn 512 buf) R1) as X. unfold read_exact. cbn [st_read reader_stream].
    destruct (read_exact_loop _ _ r _) as [[s b] y]. destruct (read_exact_loop _ _ r' _) as [[s' b'] y']. destruct X as (X & <- & <-).
    split; [apply same_set; [exact Z|exact F|apply X]|auto].
  Qed.
  Lemma same_read_all sec k : forall i a a', same_array a a' ->
    let '(b, x) := raid6_read_all_io (member_read_io ops join) sec i k a in let '(b', x') := raid6_read_all_io (member_read_io ops join) sec i k a' in
    same_array b b' /\ x = x'.
  Proof.
    induction k as [|k IH]; intros i a a' Z; cbn [raid6_read_all_io]; [auto|].
    pose proof (same_member_read i sec (zeros 512) a a' Z) as H.
    destruct (member_read_io ops join i sec (zeros 512) a) as [[b x] u]. destruct (member_read_io ops join i sec (zeros 512) a') as [[b' x'] u'].
    destruct H as (H & <- & <-). destruct x as [g|e|]; [|auto|auto]. destruct (g =? len u); [|auto].
    specialize (IH (i + 1) b b' H). destruct (raid6_read_all_io _ sec (i + 1) k b) as [c y]. destruct (raid6_read_all_io _ sec (i + 1) k b') as [c' y'].
    destruct IH as [I1 <-]. auto.
  Qed.
  Lemma same_block a a' s buf : same_array a a' ->
    let '(b, x, u) := array_read_block_io ops join a s buf in let '(b', x', u') := array_read_block_io ops join a' s buf in
    same_array b b' /\ x = x' /\ u = u'.
  Proof.
    intros Z. unfold array_read_block_io. destruct (len buf <? 512); [auto|].
    assert (CF : current_format a = current_format a') by (unfold current_format; now rewrite (proj1 Z), (proj1 (proj2 Z))).
    rewrite CF. destruct (current_format a') as [f|e|]; [|auto|auto]. unfold alg_read_sector_io.
    destruct (mf_algorithm f) as [? ?|?|ra]; [auto|auto|].
    unfold raid6_read_sector_io; destruct (raid6_compute_sector _ _ _ _) as [[[[sec p] q] d]|]; [|auto].
    pose proof (same_read_all sec (N.to_nat (mf_device_count f)) 0 a a' Z) as H;
      destruct (raid6_read_all_io _ sec 0 _ a) as [b y]; destruct (raid6_read_all_io _ sec 0 _ a') as [b' y']; destruct H as [H <-];
      destruct (rbind y _) as [blk|e|]; [|auto|auto]; destruct (copy_from_slice buf blk); auto.
  Qed.
  Lemma same_reads qs : forall a a', same_array a a' -> array_reads ops join a qs = array_reads ops join a' qs.
  Proof.
    induction qs as [|[s buf] qs IH]; intros a a' Z; cbn [array_reads]; [reflexivity|]. pose proof (same_block a a' s buf Z) as H.
    destruct (array_read_block_io ops join a s buf) as [[b x] u]. destruct (array_read_block_io ops join a' s buf) as [[b' x'] u'].
    destruct H as (H & <- & <-). f_equal. now apply IH.
  Qed.
End Same.

Section SameOpen.
  Context {D : Type} (ds ds' : list (md_device D)) (SM : Forall2 same_member ds ds').

  Lemma same_map {T} (g : md_device D -> T) : (forall d d', same_member d d' -> g d = g d') -> map g ds = map g ds'.
  Proof. intros H. induction SM as [|d d' l l' E F IH]; [reflexivity|]. cbn [map]. f_equal; auto. Qed.
  Lemma same_place_of (d d' : md_device D) : same_member d d' ->
    match as_option (md_superblock d), as_option (md_superblock d') with
    | Some sb, Some sb' => same_place sb sb'
    | None, None => True
    | _, _ => False
    end.
  Proof. intros [_ H]. destruct (md_superblock d), (md_superblock d'); cbn; auto. Qed.

  Lemma same_roles : array_roles ds = array_roles ds'.
  Proof.
    unfold array_roles. f_equal. apply same_map. intros d d' H. apply same_place_of in H.
    destruct (as_option (md_superblock d)), (as_option (md_superblock d')); cbn; try easy. f_equal. apply H.
  Qed.
  Lemma same_format : array_format ds = array_format ds'.
  Proof.
    unfold array_format. f_equal. apply same_map. intros d d' H. apply same_place_of in H. unfold format_of.
    destruct (as_option (md_superblock d)), (as_option (md_superblock d')); cbn; try easy.
    destruct H as (-> & -> & -> & -> & _). reflexivity.
  Qed.
  Lemma same_new_format : array_new_format ds = array_new_format ds'.
  Proof.
    unfold array_new_format. f_equal. apply same_map. intros d d' H. apply same_place_of in H. unfold new_format_of.
    destruct (as_option (md_superblock d)) as [sb|], (as_option (md_superblock d')) as [sb'|]; cbn [obind]; try easy.
    destruct H as (_ & -> & _ & -> & T & _). unfold same_target in T.
    destruct (sb_reshape sb) as [r|], (sb_reshape sb') as [r'|]; cbn [obind]; try easy. destruct T as (-> & -> & ->). reflexivity.
  Qed.
  Lemma same_slot (d d' : md_device D) : same_member d d' -> member_slot (array_roles ds) d = member_slot (array_roles ds') d'.
  Proof.
    intros H. apply same_place_of in H. rewrite <- same_roles. unfold member_slot.
    destruct (as_option (md_superblock d)) as [sb|], (as_option (md_superblock d')) as [sb'|]; cbn [obind]; try easy.
    destruct H as (_ & _ & _ & _ & _ & -> & _). reflexivity.
  Qed.
  Lemma same_group k :
    Forall2 same_member (group (option_dec N.eq_dec) (map (fun d : md_device D => (member_slot (array_roles ds) d, d)) ds) (Some k))
      (group (option_dec N.eq_dec) (map (fun d : md_device D => (member_slot (array_roles ds') d, d)) ds') (Some k)).
  Proof.
    pose proof same_slot as Sl. revert Sl. generalize (array_roles ds) (array_roles ds'). intros t t' Sl. unfold group.
    induction SM as [|d d' l l' E F IH]; [constructor|]. cbn [map filter fst]. rewrite (Sl d d' E).
    destruct (option_dec N.eq_dec (member_slot t' d') (Some k)); cbn [map snd]; [constructor; [exact E|]|]; exact (IH F).
  Qed.
  Theorem same_open order order' : (forall x, Permutation (order x) x) -> (forall x, Permutation (order' x) x) ->
    same_array (array_open order ds) (array_open order' ds').
  Proof.
    intros O O'. split; [exact same_format|]. split; [exact same_new_format|]. intros k.
    assert (A : forall order (ds : list (md_device D)) k, (forall x, Permutation (order x) x) ->
      assoc (ad_devices (array_open order ds)) k =
      match group (option_dec N.eq_dec) (map (fun d : md_device D => (member_slot (array_roles ds) d, d)) ds) (Some k) with [d] => Some d | _ => None end).
    { clear. intros order ds k O. pose proof (proj1 (proj2 (array_members_partition order ds O))) as Nd.
      set (g := group _ _ _). assert (G : forall d, In (k, d) (ad_devices (array_open order ds)) <-> g = [d]) by (intros d; apply open_slots; exact O).
      destruct (assoc (ad_devices (array_open order ds)) k) as [d|] eqn:E.
      - apply (assoc_in _ _ _ Nd), G in E. now rewrite E.
      - rewrite (assoc_none (ad_devices (array_open order ds)) k) in E. destruct g as [|d [|]]; try reflexivity. destruct (E d). now apply G. }
    rewrite !A by assumption. destruct (same_group k) as [|d d' l l' E [|? ? ? ? ? ?]]; try reflexivity. cbn. f_equal. apply E.
  Qed.
End SameOpen.

(** C103: reads from two arrays whose members agree so, one after the other, have the same results; in whatever order the
    hash maps list their entries. *)
Theorem open_looks_at : forall {D} (ops : blockdev D) join order order' (ds ds' : list (md_device D)) qs,
  (forall x, Permutation (order x) x) -> (forall x, Permutation (order' x) x) -> Forall2 same_member ds ds' ->
  array_block_count (array_open order ds) = array_block_count (array_open order' ds') /\
  array_reads ops join (array_open order ds) qs = array_reads ops join (array_open order' ds') qs.
Proof.
  intros D ops join order order' ds ds' qs O O' SM. pose proof (same_open ds ds' SM order order' O O') as S. split.
  - unfold array_block_count, current_format. now rewrite (proj1 S), (proj1 (proj2 S)).
  - now apply same_reads.
Qed.
Print Assumptions open_looks_at.

(** The members of [mixed_members], as members of one array that has been written to more often. *)
Definition unmixed_members : list (md_device memdev) :=
  map (fun d => MdDevice (md_id d + 90) (DsSuperblock (stale_sb x77 123 [0; 1; 2; 3] 2 (md_id d - 10))) (md_dev d)) mixed_members.
Example open_looks_at_ex : Forall2 same_member mixed_members unmixed_members /\ mixed_members <> unmixed_members /\
  array_reads mem_block own (array_open (@rev _) unmixed_members) [(1, zeros 512); (3, zeros 512); (9, zeros 512)] =
    [(sec x55, Ok 512); (sec x31, Ok 512); (zeros 512, Err UnexpectedEof)].
Proof.
  split; [repeat constructor; vm_compute; auto|]. split; [|vm_compute; reflexivity].
  intros E. apply (f_equal (map md_id)) in E. vm_compute in E. discriminate E.
Qed.
