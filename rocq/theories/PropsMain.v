(** Property C72: what the program prints. *)

From Coq Require Import Permutation.
From Verif Require Import Base BaseFacts Raid Io SpecStream IoFacts Superblock Device Array SpecMd SpecDevice SpecArray ArrayFacts PropsArray PropsDevice RaidFacts PropsSuperblock Main.

(** ** Specification *)

(** [path] cannot be used, because of [e]: it cannot be opened, or does not tell its size or its block size (as a regular
    file does not). *)
Definition refused (open : opener) (path : bytes) (e : ekind) : Prop :=
  open path = Err e \/ exists f, open path = Ok f /\ (os_size64 f = Err e \/ (exists n, os_size64 f = Ok n) /\ os_pbsz f = Err e).

(** [path] is a block device with content [c] and blocks of [bs] bytes. *)
Definition is_device (open : opener) (path c : bytes) (bs : N) : Prop :=
  exists f, open path = Ok f /\ os_content f = c /\ os_pbsz f = Ok bs /\ os_size64 f = Ok (len c) /\ bs <> 0 /\ len c <= i64_max.

(** [l] has the paths that cannot be used, in order, with the reason for each. *)
Inductive failures (open : opener) : list bytes -> list (bytes * ekind) -> Prop :=
| failures_nil : failures open [] []
| failures_refused path paths e l : refused open path e -> failures open paths l -> failures open (path :: paths) ((path, e) :: l)
| failures_device path paths c bs l : is_device open path c bs -> failures open paths l -> failures open (path :: paths) l.

(** The member at [path]: classified by its content, where locations that cannot be read count as empty. *)
Definition member_of (pol : bytes -> io_policy) (open : opener) (path : bytes) (cls : device_superblock) : Prop :=
  exists c bs, is_device open path c bs /\
    let size := len c / bs * bs in
    if size <? 12288 then cls = DsTooSmall
    else exists ls, locations size ls /\ classified c (fun l => vacant c l \/ unreadable (pol_bad (pol path)) l) ls cls.

(** ** One path *)

Lemma open_path_refused pol open counter path e : refused open path e -> open_path pol open counter path = (counter, Err e).
Proof.
  intros [E|(f & E & [S|[(n & S) B]])]; unfold open_path; rewrite E; [reflexivity|..]; unfold device_size; cbn [bd_count bd_size native_block];
    rewrite S, ?B; reflexivity.
Qed.

Lemma open_path_device pol open counter path c bs : is_device open path c bs -> counter < u64_max ->
  exists cls f, open_path (pol path) open counter path = (counter + 1, Ok (DeviceId counter (Some path), MdDevice counter cls f)) /\ member_of pol open path cls.
Proof.
  intros DV L. assert (DV' := DV). destruct DV' as (f & E & C & B & Z & Nb & U).
  set (size := len c / bs * bs).
  assert (M : size <= len c) by (unfold size; rewrite N.mul_comm; apply N.mul_div_le; exact Nb).
  assert (Sz : device_size (native_block (pol path)) f = Ok size).
  { unfold device_size. cbn [bd_count bd_size native_block]. rewrite Z, B. cbn [rbind]. unfold cdiv64. destruct (N.eqb_spec bs 0); [contradiction|].
    cbn [unwrap rbind]. unfold size_bytes. rewrite cmul64_some; [reflexivity|]. fold size. change u64_max with (2 * i64_max + 1). lia. }
  destruct (member_classification (native_stream (pol path)) (native_block (pol path)) c (pol_bad (pol path)) (os_at c (os_fixed f) (Ok bs) (Ok (len c))) size f (os_pos f))
    as (f' & cls & Cl & H); [now apply os_stream_ok|now repeat split|exact Sz|exact M|].
  exists cls, f'. split.
  - unfold open_path, id_new, next_index. rewrite E, Sz. destruct (N.eqb_spec counter u64_max); [lia|]. cbn [rbind]. rewrite Cl. cbn [rbind id_index].
    rewrite N.mod_small; [reflexivity|]. change (2 ^ 64) with (u64_max + 1). lia.
  - exists c, bs. split; [exact DV|]. fold size. exact H.
Qed.

(** ** All paths *)

Lemma open_paths_spec pol open paths l : failures open paths l -> forall counter, counter + len paths <= u64_max ->
  exists devices, open_paths pol open counter paths = Ok (devices, l) /\
    (l = [] -> map (fun d => id_index (fst d)) devices = map (fun k => counter + N.of_nat k) (seq 0 (length paths)) /\
      map (fun d => id_reference (fst d)) devices = map Some paths /\ map (fun d => md_id (snd d)) devices = map (fun d => id_index (fst d)) devices /\
      Forall2 (fun p d => member_of pol open p (md_superblock (snd d))) paths devices).
Proof.
  intros F. induction F as [|path paths e l R F IH|path paths c bs l DV F IH]; intros counter L.
  - exists []. split; [reflexivity|]. intros _. repeat split. constructor.
  - rewrite len_cons in L. cbn [open_paths]. rewrite (open_path_refused _ _ counter _ _ R). destruct (IH counter ltac:(lia)) as (ds & -> & _).
    exists ds. split; [reflexivity|]. discriminate.
  - rewrite len_cons in L. cbn [open_paths]. destruct (open_path_device pol open counter path c bs DV ltac:(lia)) as (cls & f & -> & M).
    destruct (IH (counter + 1) ltac:(lia)) as (ds & -> & H). cbn [rbind]. exists ((DeviceId counter (Some path), MdDevice counter cls f) :: ds).
    split; [reflexivity|]. intros Z. destruct (H Z) as (H1 & H2 & H3 & H4). cbn [map length seq fst snd id_index id_reference md_id].
    rewrite H1, H2, H3. split; [|split; [reflexivity|split; [now rewrite H1|constructor; [exact M|exact H4]]]].
    f_equal; [lia|]. rewrite <- seq_shift, map_map. apply map_ext. intros k. lia.
Qed.

Lemma failures_all open paths : (forall p, In p paths -> (exists e, refused open p e) \/ (exists c bs, is_device open p c bs)) -> exists l, failures open paths l.
Proof.
  induction paths as [|p ps IH]; intros H; [exists []; constructor|]. destruct IH as (l & F); [intros q Q; apply H; now right|].
  destruct (H p ltac:(now left)) as [(e & R)|(c & bs & D)]; [exists ((p, e) :: l)|exists l]; econstructor; eassumption.
Qed.

(** ** C72: failures

    If some path cannot be used, the program prints the paths that cannot, in order, each with its reason, and nothing else. *)
Theorem main_prints_failures : forall pol open order order' paths l,
  len paths <= u64_max -> failures open paths l -> l <> [] -> main_program pol open order order' paths = Ok (PrErrors l).
Proof.
  intros pol open order order' paths l L F N. unfold main_program. destruct (open_paths_spec pol open paths l F 0 ltac:(lia)) as (ds & -> & _).
  cbn [rbind]. destruct l; [contradiction|reflexivity].
Qed.
Print Assumptions main_prints_failures.

(** ** C72: diagnosis

    If all paths are block devices, the program prints a diagnosis, whichever reads fail.  Devices are named by their
    position among the arguments, and carry their path.  The diagnosis says of each member what its class and its superblock
    give. *)
Theorem main_prints_diagnosis : forall pol open order order' paths,
  (forall l, Permutation (order l) l) -> (forall l, Permutation (order' l) l) -> len paths <= u64_max ->
  (forall p, In p paths -> exists c bs, is_device open p c bs) ->
  exists ids (ds : list (md_device osfile)) g, main_program pol open order order' paths = Ok (PrDiagnosis ids g) /\
    map id_index ids = map N.of_nat (seq 0 (length paths)) /\ map id_reference ids = map Some paths /\
    map md_id ds = map id_index ids /\ Forall2 (fun p d => member_of pol open p (md_superblock d)) paths ds /\
    lists DsTooSmall ds (dg_too_small g) /\ lists DsMissing ds (dg_missing g) /\ reports_index ds (dg_role_index g) /\
    reports (fun sb => Some (sb_uuid sb)) ds (dg_uuid g) /\
    reports sb_name ds (dg_name g) /\
    reports (fun sb => Some (sb_algorithm sb)) ds (dg_algorithm g) /\
    reports (fun sb => Some (sb_sectors_per_device sb)) ds (dg_size g) /\
    reports (fun sb => Some (sb_chunk_size sb)) ds (dg_chunk_size g) /\
    reports (fun sb => Some (sb_device_count sb)) ds (dg_device_count g) /\
    reports (fun sb => Some (sb_reshape sb)) ds (dg_reshape g) /\
    reports (fun sb => Some (sb_event_count sb)) ds (dg_event_count g) /\
    reports (fun sb => Some (sb_roles sb)) ds (dg_roles g).
Proof.
  intros pol open order order' paths O O' L A.
  assert (F : failures open paths []).
  { clear L. induction paths as [|p ps IH]; [constructor|]. destruct (A p ltac:(now left)) as (c & bs & D).
    eapply failures_device; [exact D|]. apply IH. intros q Q. apply A. now right. }
  unfold main_program. destruct (open_paths_spec pol open paths [] F 0 ltac:(lia)) as (devs & -> & H). destruct (H eq_refl) as (H1 & H2 & H3 & H4). cbn [rbind].
  exists (map fst devs), (map snd devs), (diagnose order' (array_open order (map snd devs))). split; [reflexivity|]. rewrite !map_map.
  split; [rewrite H1; apply map_ext; intros; lia|]. split; [exact H2|]. split; [exact H3|]. split.
  - clear - H4. induction H4; constructor; auto.
  - destruct (diagnosis_members order order' (map snd devs) O O') as (D1 & D2 & D3). do 3 (split; [assumption|]).
    exact (diagnosis_disagreements order order' (map snd devs) O O').
Qed.
Print Assumptions main_prints_diagnosis.

(** The members in an entry of the diagnosis are the arguments with that class. *)
Lemma lists_paths pol open paths ids ds cls (P : bytes -> Prop) entry :
  map id_index ids = map N.of_nat (seq 0 (length paths)) -> map md_id ds = map id_index ids ->
  Forall2 (fun p (d : md_device osfile) => member_of pol open p (md_superblock d)) paths ds ->
  (forall p m, member_of pol open p m -> (m = cls <-> P p)) -> lists cls ds entry ->
  forall k, (exists l, entry = Some l /\ In (N.of_nat k) l) <-> exists p, nth_error paths k = Some p /\ P p.
Proof.
  intros I1 I3 F Small TS k.
  assert (Ix : forall j d, nth_error ds j = Some d -> md_id d = N.of_nat j).
  { intros j d Hd. pose proof (map_nth_error md_id _ _ Hd) as X. rewrite I3, I1 in X. rewrite nth_error_map in X.
    destruct (nth_error (seq 0 (length paths)) j) as [m|] eqn:Sq; [|discriminate]. cbn in X. injection X as X. rewrite <- X. f_equal.
    assert (j < length paths)%nat. { rewrite <- (seq_length (length paths) 0). apply nth_error_Some. congruence. }
    assert (Q : nth j (seq 0 (length paths)) 0%nat = m) by (now apply nth_error_nth). rewrite seq_nth in Q by assumption. lia. }
  assert (N2 : forall j p d, nth_error paths j = Some p -> nth_error ds j = Some d -> member_of pol open p (md_superblock d)).
  { clear - F. induction F as [|p d ps ds M F IH]; intros [|j] u v; cbn; try discriminate; [congruence|apply IH]. }
  assert (Len : length paths = length ds) by (clear - F; induction F; cbn; congruence).
  split.
  - intros (l & El & Il). rewrite El in TS. cbn [lists] in TS. destruct TS as (_ & _ & TS). apply TS in Il as (d & Id & Cd & Nd).
    apply In_nth_error in Id as (j & Hj). rewrite (Ix j d Hj) in Nd. assert (j = k) by lia. subst j.
    destruct (nth_error paths k) as [p|] eqn:Ep.
    2: { apply nth_error_None in Ep. assert (k < length ds)%nat by (apply nth_error_Some; congruence). lia. }
    exists p. split; [reflexivity|]. exact (proj1 (Small p _ (N2 k p d Ep Hj)) Cd).
  - intros (p & Ep & Sm).
    destruct (nth_error ds k) as [d|] eqn:Hj.
    2: { apply nth_error_None in Hj. assert (k < length paths)%nat by (apply nth_error_Some; congruence). lia. }
    assert (Cd : md_superblock d = cls) by (now apply (Small p _ (N2 k p d Ep Hj))). apply nth_error_In in Hj as Id.
    destruct entry as [l|]; cbn [lists] in TS.
    + exists l. split; [reflexivity|]. apply TS. exists d. auto.
    + destruct (TS d Id Cd).
Qed.

Lemma is_device_unique open p c bs c' bs' : is_device open p c bs -> is_device open p c' bs' -> c' = c /\ bs' = bs.
Proof. intros (f & E1 & C & B & _) (f' & E1' & C' & B' & _). assert (f' = f) by congruence. subst f'. split; congruence. Qed.

(** The members reported as too small are exactly the arguments of less than 12288 bytes. *)
Theorem main_too_small : forall pol open order order' paths ids g,
  (forall l, Permutation (order l) l) -> (forall l, Permutation (order' l) l) -> len paths <= u64_max ->
  (forall p, In p paths -> exists c bs, is_device open p c bs) ->
  main_program pol open order order' paths = Ok (PrDiagnosis ids g) ->
  forall k, (exists l, dg_too_small g = Some l /\ In (N.of_nat k) l) <->
    exists p, nth_error paths k = Some p /\ exists c bs, is_device open p c bs /\ len c / bs * bs < 12288.
Proof.
  intros pol open order order' paths ids g O O' L A E k.
  destruct (main_prints_diagnosis pol open order order' paths O O' L A) as (ids' & ds & g' & E' & I1 & I2 & I3 & F & TS & _).
  rewrite E in E'. injection E' as -> ->. rename g' into g.
  apply (lists_paths pol open paths ids' ds DsTooSmall); [assumption..| |assumption].
  intros p cls (c & bs & DV & H). cbv zeta in H. split.
  - intros ->. exists c, bs. split; [exact DV|]. destruct (N.ltb_spec (len c / bs * bs) 12288); [assumption|]. destruct H as (ls & _ & []).
  - intros (c' & bs' & DV' & Sm). destruct (is_device_unique _ _ _ _ _ _ DV DV') as [-> ->].
    destruct (N.ltb_spec (len c / bs * bs) 12288); [exact H|lia].
Qed.
Print Assumptions main_too_small.

(** If no read fails, the members reported as without superblock are exactly the larger arguments with no valid superblock
    at any of the places where one may be. *)
Theorem main_missing : forall pol open order order' paths ids g,
  (forall l, Permutation (order l) l) -> (forall l, Permutation (order' l) l) -> len paths <= u64_max ->
  (forall p, In p paths -> exists c bs, is_device open p c bs) -> (forall p t o k e, pol p t o k <> IoFail e) ->
  main_program pol open order order' paths = Ok (PrDiagnosis ids g) ->
  forall k, (exists l, dg_missing g = Some l /\ In (N.of_nat k) l) <->
    exists p, nth_error paths k = Some p /\ exists c bs ls, is_device open p c bs /\ 12288 <= len c / bs * bs /\
      locations (len c / bs * bs) ls /\ Forall (vacant c) ls.
Proof.
  intros pol open order order' paths ids g O O' L A NF E k.
  destruct (main_prints_diagnosis pol open order order' paths O O' L A) as (ids' & ds & g' & E' & I1 & I2 & I3 & F & _ & TS & _).
  rewrite E in E'. injection E' as -> ->. rename g' into g.
  apply (lists_paths pol open paths ids' ds DsMissing); [assumption..| |assumption].
  intros p cls (c & bs & DV & H). cbv zeta in H.
  assert (NB : forall l, vacant c l \/ unreadable (pol_bad (pol p)) l -> vacant c l).
  { intros l [V|U]; [exact V|]. exfalso. destruct U as (q & _ & t & n & e & B). exact (NF _ _ _ _ _ B). }
  split.
  - intros ->. destruct (N.ltb_spec (len c / bs * bs) 12288) as [Sm|Bg]; [discriminate|]. destruct H as (ls & Lo & H). cbn [classified] in H.
    exists c, bs, ls. do 3 (split; [assumption|]). revert H. apply Forall_impl. exact NB.
  - intros (c' & bs' & ls' & DV' & Bg & Lo' & V). destruct (is_device_unique _ _ _ _ _ _ DV DV') as [-> ->].
    destruct (N.ltb_spec (len c / bs * bs) 12288); [lia|]. destruct H as (ls & Lo & H).
    assert (ls' = ls) by (eapply locations_unique; eassumption). subst ls'.
    destruct cls as [sb| |]; cbn [classified] in H; [|contradiction|reflexivity].
    destruct H as (pre & l & post & -> & S & _). apply Forall_app in V as [_ V]. inversion V as [|? ? V1 _]; subst. destruct (V1 sb S).
Qed.
Print Assumptions main_missing.

(** The program does not panic and does not end otherwise. *)
Theorem main_total : forall pol open order order' paths, len paths <= u64_max ->
  (forall p, In p paths -> (exists e, refused open p e) \/ (exists c bs, is_device open p c bs)) ->
  exists out, main_program pol open order order' paths = Ok out.
Proof.
  intros pol open order order' paths L A. destruct (failures_all open paths A) as (l & F). unfold main_program.
  destruct (open_paths_spec pol open paths l F 0 ltac:(lia)) as (ds & -> & _). cbn [rbind]. destruct l; eauto.
Qed.
Print Assumptions main_total.

(** ** Examples *)

(** [a] is a member, [b] has no superblock, [c] is too small, [d] does not exist, [e] is a regular file. *)
Definition ex_open : opener := fun path =>
  match path with
  | [x61] => Ok (OsFile (zeros 4096 ++ sb_img ++ zeros 8192) 0 0 true (Ok 512) (Ok 16384))
  | [x62] => Ok (OsFile (zeros 16384) 0 0 true (Ok 4096) (Ok 16384))
  | [x63] => Ok (OsFile (zeros 12200) 0 0 true (Ok 4096) (Ok 12200))
  | [x64] => Err (OsError 2)
  | [x65] => Ok (OsFile (zeros 16384) 0 0 true (Err (OsError 25)) (Err (OsError 25)))
  | _ => Err (OsError 13)
  end.
Definition ex_pol : bytes -> io_policy := fun path t p k => IoXfer (if len path =? t then 100 else 65536).

Lemma ex_devices p : In p [[x61]; [x62]; [x63]] -> exists c bs, is_device ex_open p c bs.
Proof.
  intros [<-|[<-|[<-|[]]]]; do 2 eexists; eexists; (split; [reflexivity|]); (split; [reflexivity|]); (split; [reflexivity|]);
    (split; [vm_compute; reflexivity|]); split; [discriminate|vm_compute; discriminate|discriminate|vm_compute; discriminate|discriminate|vm_compute; discriminate].
Qed.

Example main_diagnosis_ex :
  (exists ids ds g, main_program ex_pol ex_open (fun l => l) (fun l => l) [[x61]; [x62]; [x63]] = Ok (PrDiagnosis ids g) /\
     map md_id ds = map id_index ids /\ lists DsMissing (D := osfile) ds (dg_missing g)) /\
  main_program ex_pol ex_open (fun l => l) (fun l => l) [[x61]; [x62]; [x63]] =
  Ok (PrDiagnosis [DeviceId 0 (Some [x61]); DeviceId 1 (Some [x62]); DeviceId 2 (Some [x63])]
        (Diagnosis (Some [2]) (Some [1]) None None None None None None None None None None)).
Proof.
  split; [|vm_compute; reflexivity].
  destruct (main_prints_diagnosis ex_pol ex_open (fun l => l) (fun l => l) [[x61]; [x62]; [x63]]) as (ids & ds & g & E & _ & _ & I & _ & _ & M & _).
  - reflexivity.
  - reflexivity.
  - vm_compute; discriminate.
  - exact ex_devices.
  - exists ids, ds, g. auto.
Qed.

(** One member twice: the program says that both claim the same place in the array. *)
Example main_duplicate_ex :
  main_program ex_pol ex_open (fun l => l) (fun l => l) [[x61]; [x61]] =
  Ok (PrDiagnosis [DeviceId 0 (Some [x61]); DeviceId 1 (Some [x61])]
        (Diagnosis None None None None None None None None None None (Some [(sb_role_index (v1_meaning v1_ex 2), [0; 1])]) None)).
Proof. vm_compute. reflexivity. Qed.

Example main_too_small_ex : exists g ids l,
  main_program ex_pol ex_open (fun l => l) (fun l => l) [[x61]; [x62]; [x63]] = Ok (PrDiagnosis ids g) /\ dg_too_small g = Some l /\ In (N.of_nat 2) l.
Proof.
  destruct main_diagnosis_ex as (_ & E). do 2 eexists.
  destruct (proj2 (main_too_small ex_pol ex_open (fun l => l) (fun l => l) [[x61]; [x62]; [x63]] _ _ ltac:(reflexivity) ltac:(reflexivity)
    ltac:(vm_compute; discriminate) ex_devices E 2%nat)) as (l & H & Il).
  - exists [x63]. destruct (ex_devices [x63]) as (c & bs & D); [cbn; auto|]. split; [reflexivity|]. exists c, bs. split; [exact D|].
    destruct D as (f & O & <- & B & _). injection O as <-. injection B as <-. vm_compute. reflexivity.
  - eauto.
Qed.

Example main_missing_ex : exists g ids l,
  main_program ex_pol ex_open (fun l => l) (fun l => l) [[x61]; [x62]; [x63]] = Ok (PrDiagnosis ids g) /\ dg_missing g = Some l /\ ~ In (N.of_nat 0) l /\
  forall c bs ls, is_device ex_open [x61] c bs -> 12288 <= len c / bs * bs -> locations (len c / bs * bs) ls -> ~ Forall (vacant c) ls.
Proof.
  destruct main_diagnosis_ex as (_ & E). do 3 eexists. split; [exact E|]. split; [reflexivity|]. split; [intros [X|[]]; discriminate|].
  intros c bs ls D Bg Lo V.
  destruct (proj2 (main_missing ex_pol ex_open (fun l => l) (fun l => l) [[x61]; [x62]; [x63]] _ _ ltac:(reflexivity) ltac:(reflexivity)
    ltac:(vm_compute; discriminate) ex_devices ltac:(discriminate) E 0%nat)) as (l & H & Il).
  - exists [x61]. split; [reflexivity|]. exists c, bs, ls. auto.
  - injection H as <-. destruct Il as [X|[]]. discriminate.
Qed.

Example main_failures_ex :
  main_program ex_pol ex_open (fun l => l) (fun l => l) [[x64]; [x61]; [x65]; [x62]] = Ok (PrErrors [([x64], OsError 2); ([x65], OsError 25)]).
Proof.
  apply main_prints_failures; [vm_compute; discriminate| |discriminate].
  destruct (ex_devices [x61]) as (c & bs & Da); [cbn; auto|]. destruct (ex_devices [x62]) as (c' & bs' & Db); [cbn; auto|].
  constructor; [left; reflexivity|]. eapply failures_device; [exact Da|]. constructor.
  - right. eexists. split; [reflexivity|]. now left.
  - eapply failures_device; [exact Db|]. constructor.
Qed.

Example main_total_ex : exists out, main_program ex_pol ex_open (fun l => l) (fun l => l) [[x61]; [x64]] = Ok out.
Proof.
  apply main_total; [vm_compute; discriminate|]. intros p [<-|[<-|[]]]; [right; apply ex_devices; cbn; auto|left; exists (OsError 2); now left].
Qed.
