(** Property C118: interrupted system calls, from the paths given to the program to the diagnosis, and to the files on the array. *)

From Coq Require Import Strings.String Permutation.
From Verif Require Import Base BaseFacts Raid SpecRaid RaidFacts SpecParity ParityFacts PropsRaid Io SpecStream IoFacts Superblock SpecMd SuperblockFacts PropsSuperblock
  Device SpecDevice PropsDevice Array ArrayIo SpecArray ArrayFacts PropsArray PropsArrayRead PropsArrayIo SpecExt4 SpecExt4Inode Ext4Superblock Ext4Inode Ext4Fs
  SpecExt4Fs Ext4FsFacts PropsExt4Fs Ext4Extent Ext4File SpecExt4File PropsExt4File Ext4String Ext4Dir SpecExt4Dir PropsExt4Dir PropsExt4Listing PropsExt4Flat
  PropsExt4Array SpecExt4Open PropsExt4Open PropsExt4Recover SpecExt4Linux PropsExt4Linux SpecExt4Walk PropsExt4Walk SpecExt4Content PropsExt4Content
  SpecExt4LinuxDir PropsExt4LinuxDir Main PropsMain SpecMembers PropsMembers PropsPaths Interrupt InterruptMain PropsInterrupt.

(** ** Specification *)

(** From some number of calls on, the answer no longer depends on how many are allowed. *)
Definition ends {A} (f : nat -> option A) (x : A) : Prop := exists n, forall m, (n <= m)%nat -> f m = Some x.

(** [natives] does with a file what the standard library and the operating system do, over all interruptions. *)
Record native_std (pol : io_policy) (natives : blockdev osfile) : Prop := {
  ns_size : forall f, bd_size natives f = os_pbsz f;
  ns_count : forall f, bd_count natives f = bd_count (native_block pol) f;
  ns_read : forall f n buf, ends (fun fuel => native_read_std pol fuel f n buf) (bd_read natives f n buf);
  ns_clone : forall f, bd_clone natives f = Ok f
}.

(** The member at [path], like [member_of]: but locations count as empty only where the operating system fails otherwise than
    by interrupting. *)
Definition member_calmly (pol : bytes -> io_policy) (open : opener) (path : bytes) (cls : device_superblock) : Prop :=
  exists c bs, is_device open path c bs /\
    let size := len c / bs * bs in
    if size <? 12288 then cls = DsTooSmall
    else exists ls, locations size ls /\ classified c (fun l => vacant c l \/ unreadable (fails (pol path)) l) ls cls.

(** At [path] there is a block device with the bytes of the member [w], which can be read where [w] says, after interruptions. *)
Definition path_calmly (pol : bytes -> io_policy) (open : opener) (path : bytes) (w : member_written) : Prop :=
  exists c bs, is_device open path c bs /\ w_bytes w = window c 0 (len c / bs * bs) /\
    (forall p, w_sbad w p <-> fails (pol path) p) /\ (forall p, w_bad w p <-> fails_block (pol path) bs (p / bs)).

(** Files with the paths they were opened from. *)
Definition calm_block (natives : bytes -> blockdev osfile) : blockdev (bytes * osfile) := {|
  bd_size d := bd_size (natives (fst d)) (snd d);
  bd_count d := bd_count (natives (fst d)) (snd d);
  bd_read d n buf := let '(f, b, r) := bd_read (natives (fst d)) (snd d) n buf in (fst d, f, b, r);
  bd_clone d := let? f := bd_clone (natives (fst d)) (snd d) in Ok (fst d, f)
|}.

(** ** What the definitions of InterruptMain.v end with *)

Lemma ends_det {A} (f : nat -> option A) x y : ends f x -> ends f y -> x = y.
Proof.
  intros (n & H) (m & K). specialize (H (Nat.max n m) (Nat.le_max_l _ _)). specialize (K (Nat.max n m) (Nat.le_max_r _ _)). congruence.
Qed.
Lemma ends_const {A} (x : A) : ends (fun _ => Some x) x.
Proof. exists 0%nat. reflexivity. Qed.
Lemma ends_bind {A B} (f : nat -> option A) (x : A) (k : nat -> A -> option B) (y : B) :
  ends f x -> ends (fun m => k m x) y -> ends (fun m => match f m with None => None | Some a => k m a end) y.
Proof.
  intros (n & H) (m & K). exists (Nat.max n m). intros j L. rewrite (H j ltac:(lia)). apply K. lia.
Qed.
Lemma ends_ext {A} (f g : nat -> option A) x : (forall n, f n = g n) -> ends f x -> ends g x.
Proof. intros E (n & H). exists n. intros m L. rewrite <- E. exact (H m L). Qed.

Section Calm.
  Context (pol : io_policy) (P : patient pol).
  Let st := calm_stream pol P.

  Lemma v1_read_ends f minor : ends (fun fuel => v1_read_std pol fuel f minor) (v1_read st f minor).
  Proof.
    destruct (read_exact_std_calm pol P f (zeros v1_max_size)) as (n & H). exists n. intros m L. unfold v1_read_std, v1_read. rewrite (H m L).
    fold st. destruct (read_exact st f (zeros v1_max_size)) as [[f1 b] r]. reflexivity.
  Qed.
  Lemma v0_read_ends f : ends (fun fuel => v0_read_std pol fuel f) (v0_read st f).
  Proof.
    destruct (read_exact_std_calm pol P f (zeros v0_size)) as (n & H). exists n. intros m L. unfold v0_read_std, v0_read. rewrite (H m L).
    fold st. destruct (read_exact st f (zeros v0_size)) as [[f1 b] r]. reflexivity.
  Qed.
  Lemma probe_v1_ends l : forall f, ends (fun fuel => probe_v1_std pol fuel f l) (probe_v1 st f l).
  Proof.
    induction l as [|[minor off] l IH]; intros f; [apply ends_const|]. cbn [probe_v1_std probe_v1]. change (st_seek st f (SeekStart off)) with (os_seek f (SeekStart off)).
    destruct (os_seek f (SeekStart off)) as [f1 [k|e|]]; [|apply ends_const|apply ends_const].
    destruct (v1_read_ends f1 minor) as (n & H). destruct (v1_read st f1 minor) as [f2 r]. destruct r as [sb|e|].
    - exists n. intros m L. now rewrite (H m L).
    - destruct (IH f2) as (j & K). exists (Nat.max n j). intros m L. rewrite (H m ltac:(lia)). apply K. lia.
    - exists n. intros m L. now rewrite (H m L).
  Qed.
  Lemma probe_v0_ends size f : ends (fun fuel => probe_v0_std pol fuel f size) (probe_v0 st f size).
  Proof.
    unfold probe_v0_std, probe_v0. destruct (min_superblock_0_device_size <=? size); [|apply ends_const].
    change (st_seek st f (SeekStart (v0_probe size))) with (os_seek f (SeekStart (v0_probe size))).
    destruct (os_seek f (SeekStart (v0_probe size))) as [f1 [k|e|]]; [|apply ends_const|apply ends_const].
    destruct (v0_read_ends f1) as (n & H). exists n. intros m L. rewrite (H m L). destruct (v0_read st f1) as [f2 [sb|e|]]; reflexivity.
  Qed.
  Lemma classify_ends f : ends (fun fuel => classify_std pol fuel f) (classify (native_block pol) st f).
  Proof.
    unfold classify_std, classify. destruct (device_size (native_block pol) f) as [size|e|]; [|apply ends_const|apply ends_const].
    destruct (size <? min_device_size); [apply ends_const|]. destruct (probe_v1_ends (v1_probes size) f) as (n & H).
    destruct (probe_v1 st f (v1_probes size)) as [f1 r]. destruct r as [[sb|]|e|].
    - exists n. intros m L. now rewrite (H m L).
    - destruct (probe_v0_ends size f1) as (j & K). exists (Nat.max n j). intros m L. rewrite (H m ltac:(lia)), (K m ltac:(lia)).
      destruct (probe_v0 st f1 size) as [f2 r2]. reflexivity.
    - exists n. intros m L. now rewrite (H m L).
    - exists n. intros m L. now rewrite (H m L).
  Qed.

  Lemma native_std_exists : native_std pol (calm_native pol P).
  Proof.
    constructor; try reflexivity. intros f n buf. unfold native_read_std, ends. cbn [bd_read calm_native].
    destruct (os_pbsz f) as [bs|e|]; [|exists 0%nat; reflexivity|exists 0%nat; reflexivity]. apply read_block_std_calm.
  Qed.
  Lemma native_std_ok natives c fx bs : native_std pol natives -> len c <= i64_max -> bs <> 0 ->
    block_ok natives bs (len c / bs) (block_of c bs) (fails_block pol bs) (fun f => exists p, os_at c fx (Ok bs) (Ok (len c)) f p).
  Proof.
    intros [N1 N2 N3 N4] U Hb. destruct (calm_native_ok pol P c fx bs U Hb) as [H1 H2 H3 H4 H5 H6 H7].
    destruct native_std_exists as [_ _ E3 _]. constructor; try assumption.
    - intros f A. rewrite N1. exact (H4 f A).
    - intros f A. rewrite N2. exact (H5 f A).
    - intros f n buf d' buf' r A L Lb E. apply (H6 f n buf d' buf' r A L Lb). rewrite <- E. exact (ends_det _ _ _ (E3 f n buf) (N3 f n buf)).
    - intros f A. rewrite N4. exists f. split; [reflexivity|exact A].
  Qed.
End Calm.

Lemma device_sized pol f (c : bytes) bs : os_pbsz f = Ok bs -> os_size64 f = Ok (len c) -> bs <> 0 -> len c <= i64_max ->
  device_size (native_block pol) f = Ok (len c / bs * bs) /\ len c / bs * bs <= len c.
Proof.
  intros B Z Nb U. assert (M : len c / bs * bs <= len c) by (rewrite N.mul_comm; apply N.mul_div_le; exact Nb). split; [|exact M].
  unfold device_size. cbn [bd_count bd_size native_block]. rewrite Z, B. cbn [rbind]. unfold cdiv64. destruct (N.eqb_spec bs 0); [contradiction|].
  cbn [unwrap rbind]. unfold size_bytes. rewrite cmul64_some; [reflexivity|]. change u64_max with (2 * i64_max + 1). lia.
Qed.

(** A block device is opened, whatever is interrupted. *)
Lemma open_path_ends pol open counter path c bs : patient (pol path) -> is_device open path c bs -> counter < u64_max ->
  exists f cls f', open path = Ok f /\ os_pbsz f = Ok bs /\ os_size64 f = Ok (len c) /\ bs <> 0 /\ len c <= i64_max /\
    os_at c (os_fixed f) (Ok bs) (Ok (len c)) f (os_pos f) /\
    ends (fun fuel => open_path_std (pol path) fuel open counter path) (counter + 1, Ok (DeviceId counter (Some path), MdDevice counter cls f')) /\
    (forall P, classify (native_block (pol path)) (calm_stream (pol path) P) f = (f', Ok cls)) /\
    (exists p, os_at c (os_fixed f) (Ok bs) (Ok (len c)) f' p) /\
    if len c / bs * bs <? 12288 then cls = DsTooSmall
    else exists ls, locations (len c / bs * bs) ls /\ classified c (fun l => vacant c l \/ unreadable (fails (pol path)) l) ls cls.
Proof.
  intros P (f & E & C & B & Z & Nb & U) L. destruct (device_sized (pol path) f c bs B Z Nb U) as [Sz M].
  assert (At : os_at c (os_fixed f) (Ok bs) (Ok (len c)) f (os_pos f)) by now repeat split.
  destruct (classify_ok (calm_stream (pol path) P) c (fails (pol path)) (os_at c (os_fixed f) (Ok bs) (Ok (len c))) (calm_stream_ok (pol path) P c _ _ _ U)
    (native_block (pol path)) _ f (os_pos f) At Sz M) as (f' & cls & Cl & A' & Hc).
  exists f, cls, f'. do 6 (split; [assumption|]). destruct (classify_ends (pol path) P f) as (n & H). rewrite Cl in H. split; [|split; [|split; [exact A'|exact Hc]]].
  - exists n. intros m Lm. unfold open_path_std, id_new, next_index. rewrite E, Sz. destruct (N.eqb_spec counter u64_max); [lia|]. cbn [rbind].
    rewrite (H m Lm). cbn [rbind id_index]. rewrite N.mod_small; [reflexivity|]. change (2 ^ 64) with (u64_max + 1). lia.
  - intros P'. destruct (classify_ends (pol path) P' f) as (j & K). specialize (H (Nat.max n j) ltac:(lia)). specialize (K (Nat.max n j) ltac:(lia)). congruence.
Qed.

Lemma open_refused_ends pol open counter path e : refused open path e -> forall fuel, open_path_std pol fuel open counter path = Some (counter, Err e).
Proof.
  intros [E|(f & E & [S|[(n & S) B]])] fuel; unfold open_path_std; rewrite E; [reflexivity|..]; unfold device_size; cbn [bd_count bd_size native_block];
    rewrite S, ?B; reflexivity.
Qed.

Lemma open_paths_ends pol open paths l : (forall p, patient (pol p)) -> failures open paths l -> forall counter, counter + len paths <= u64_max ->
  exists devices, ends (fun fuel => open_paths_std pol fuel open counter paths) (Ok (devices, l)) /\
    (l = [] -> map (fun d => id_index (fst d)) devices = map (fun k => counter + N.of_nat k) (seq 0 (length paths)) /\
      map (fun d => id_reference (fst d)) devices = map Some paths /\ map (fun d => md_id (snd d)) devices = map (fun d => id_index (fst d)) devices /\
      Forall2 (fun p d => member_calmly pol open p (md_superblock (snd d))) paths devices).
Proof.
  intros P F. induction F as [|path paths e l R F IH|path paths c bs l DV F IH]; intros counter L.
  - exists []. split; [apply ends_const|]. intros _. repeat split. constructor.
  - rewrite len_cons in L. destruct (IH counter ltac:(lia)) as (ds & (n & H) & _).
    exists ds. split; [|discriminate]. exists n. intros m Lm. cbn [open_paths_std]. rewrite (open_refused_ends (pol path) open counter path e R m), (H m Lm). reflexivity.
  - rewrite len_cons in L. destruct (open_path_ends pol open counter path c bs (P path) DV ltac:(lia)) as (f & cls & f' & _ & _ & _ & _ & _ & _ & (j & K) & _ & _ & M).
    destruct (IH (counter + 1) ltac:(lia)) as (ds & (n & H) & H'). exists ((DeviceId counter (Some path), MdDevice counter cls f') :: ds).
    split; [exists (Nat.max n j); intros m Lm; cbn [open_paths_std]; rewrite (K m ltac:(lia)), (H m ltac:(lia)); reflexivity|].
    intros Z. destruct (H' Z) as (H1 & H2 & H3 & H4). cbn [map length seq fst snd id_index id_reference md_id].
    rewrite H1, H2, H3. split; [|split; [reflexivity|split; [now rewrite H1|constructor; [exists c, bs; split; [exact DV|exact M]|exact H4]]]].
    f_equal; [lia|]. rewrite <- seq_shift, map_map. apply map_ext. intros k. lia.
Qed.

(** ** C118: what the program prints

    The program ends, and prints what it would print if no call were interrupted: the paths that cannot be used, if there are
    any, *)
Theorem interrupted_failures : forall pol open order order' paths l,
  (forall p, patient (pol p)) -> len paths <= u64_max -> failures open paths l -> l <> [] ->
  ends (fun fuel => main_program_std pol fuel open order order' paths) (Ok (PrErrors l)).
Proof.
  intros pol open order order' paths l P L F N. destruct (open_paths_ends pol open paths l P F 0 ltac:(lia)) as (ds & (n & H) & _).
  exists n. intros m Lm. unfold main_program_std. rewrite (H m Lm). cbn [rbind]. destruct l; [contradiction|reflexivity].
Qed.
Print Assumptions interrupted_failures.

(** and otherwise the diagnosis; no superblock is missed because of an interruption. *)
Theorem interrupted_diagnosis : forall pol open order order' paths,
  (forall p, patient (pol p)) -> (forall l, Permutation (order l) l) -> (forall l, Permutation (order' l) l) -> len paths <= u64_max ->
  (forall p, In p paths -> exists c bs, is_device open p c bs) ->
  exists ids (ds : list (md_device osfile)) g, ends (fun fuel => main_program_std pol fuel open order order' paths) (Ok (PrDiagnosis ids g)) /\
    map id_index ids = map N.of_nat (seq 0 (length paths)) /\ map id_reference ids = map Some paths /\
    map md_id ds = map id_index ids /\ Forall2 (fun p d => member_calmly pol open p (md_superblock d)) paths ds /\
    lists DsTooSmall ds (dg_too_small g) /\ lists DsMissing ds (dg_missing g) /\ reports_index ds (dg_role_index g) /\
    reports (fun sb => Some (sb_uuid sb)) ds (dg_uuid g) /\
    reports sb_name ds (dg_name g) /\
    reports (fun sb => Some (sb_algorithm sb)) ds (dg_algorithm g) /\
    reports (fun sb => Some (sb_sectors_per_device sb)) ds (dg_size g) /\
    reports (fun sb => Some (sb_chunk_size sb)) ds (dg_chunk_size g) /\
    reports (fun sb => Some (sb_device_count sb)) ds (dg_device_count g) /\
    reports (fun sb => Some (sb_reshape sb)) ds (dg_reshape g) /\
    reports (fun sb => Some (sb_event_count sb)) ds (dg_event_count g) /\
    reports (fun sb => Some (sb_roles sb)) ds (dg_roles g).
Proof.
  intros pol open order order' paths P O O' L A.
  assert (F : failures open paths []).
  { clear L. induction paths as [|p ps IH]; [constructor|]. destruct (A p ltac:(now left)) as (c & bs & D).
    eapply failures_device; [exact D|]. apply IH. intros q Q. apply A. now right. }
  destruct (open_paths_ends pol open paths [] P F 0 ltac:(lia)) as (devs & (n & E) & H). destruct (H eq_refl) as (H1 & H2 & H3 & H4).
  exists (map fst devs), (map snd devs), (diagnose order' (array_open order (map snd devs))). split.
  { exists n. intros m Lm. unfold main_program_std. rewrite (E m Lm). reflexivity. }
  rewrite !map_map.
  split; [rewrite H1; apply map_ext; intros; lia|]. split; [exact H2|]. split; [exact H3|]. split.
  - clear - H4. induction H4; constructor; auto.
  - destruct (diagnosis_members order order' (map snd devs) O O') as (D1 & D2 & D3). do 3 (split; [assumption|]).
    exact (diagnosis_disagreements order order' (map snd devs) O O').
Qed.
Print Assumptions interrupted_diagnosis.

(** ** C118: from the paths to the files *)

Lemma calm_block_ok natives path bs count blk bad inv : (forall f, bd_clone (natives path) f = Ok f) -> block_ok (natives path) bs count blk bad inv ->
  block_ok (calm_block natives) bs count blk bad (fun d => fst d = path /\ inv (snd d)).
Proof.
  intros Cn [H1 H2 H3 H4 H5 H6 H7]. constructor; try assumption.
  - intros [p f] [E A]. cbn in E. subst p. cbn. now apply H4.
  - intros [p f] [E A]. cbn in E. subst p. cbn [bd_count calm_block fst snd]. now apply H5.
  - intros [p f] n buf d' buf' r [E A] L Lb R. cbn in E. subst p. cbn [bd_read calm_block fst snd] in R.
    destruct (bd_read (natives path) f n buf) as [[f1 b1] r1] eqn:B. injection R as <- <- <-.
    destruct (H6 _ _ _ _ _ _ A L Lb B) as (I & X). split; [split; [reflexivity|exact I]|exact X].
  - intros [p f] [E A]. cbn in E. subst p. cbn [bd_clone calm_block fst snd]. rewrite Cn. cbn. eauto.
Qed.

Lemma calm_opened pol natives open counter path w : patient (pol path) -> native_std (pol path) (natives path) -> path_calmly pol open path w -> counter < u64_max ->
  exists d, ends (fun fuel => open_path_std (pol path) fuel open counter path) (counter + 1, Ok d) /\ id_reference (fst d) = Some path /\
    member_opened (calm_block natives) (at_path d) (w_bytes w) (w_sbad w) (w_bad w).
Proof.
  intros P Ns (c & bs & DV & Wb & Ws & Wd) L.
  destruct (open_path_ends pol open counter path c bs P DV L) as (f & cls & f' & E & B & Z & Nb & U & At & En & Cl & A' & _).
  destruct (device_sized (pol path) f c bs B Z Nb U) as [Sz M].
  assert (Lw : len (w_bytes w) = len c / bs * bs) by (rewrite Wb; apply len_window_in; lia).
  exists (DeviceId counter (Some path), MdDevice counter cls f'). split; [exact En|split; [reflexivity|]]. split.
  - exists bs, (len c / bs), (block_of c bs), (fails_block (pol path) bs). eexists.
    split; [apply (calm_block_ok natives path); [exact (ns_clone _ _ Ns)|exact (native_std_ok (pol path) P (natives path) c (os_fixed f) bs Ns U Nb)]|].
    split; [split; [reflexivity|exact A']|]. split; [rewrite flat_block_of by exact Nb; exact Wb|exact Wd].
  - exists osfile, (calm_stream (pol path) P), (native_block (pol path)), c, (os_at c (os_fixed f) (Ok bs) (Ok (len c))), f, (os_pos f), f'.
    split; [|split; [exact At|split; [now rewrite Lw|split; [now rewrite Lw|exact (Cl P)]]]].
    destruct (calm_stream_ok (pol path) P c (os_fixed f) (Ok bs) (Ok (len c)) U) as [S1 S2 S3].
    constructor; [|exact S2|exact S3]. intros s p buf s' buf' r A R. destruct (S1 _ _ _ _ _ _ A R) as (p' & F & A2 & Bd).
    exists p'. split; [exact F|]. split; [exact A2|]. intros e X. apply Ws. exact (Bd e X).
Qed.

Lemma calm_paths_opened pol natives open paths ws : (forall p, patient (pol p)) -> (forall p, native_std (pol p) (natives p)) ->
  Forall2 (path_calmly pol open) paths ws -> forall counter, counter + len paths <= u64_max ->
  exists devices, ends (fun fuel => open_paths_std pol fuel open counter paths) (Ok (devices, [])) /\ map (fun d => id_reference (fst d)) devices = map Some paths /\
    Forall2 (fun d w => member_opened (calm_block natives) d (w_bytes w) (w_sbad w) (w_bad w)) (map at_path devices) ws.
Proof.
  intros P Ns. induction 1 as [|path w paths ws Pc F IH]; intros counter L.
  - exists []. split; [apply ends_const|]. split; [reflexivity|constructor].
  - rewrite len_cons in L. destruct (calm_opened pol natives open counter path w (P path) (Ns path) Pc ltac:(lia)) as (d & (n & E) & R & O).
    destruct (IH (counter + 1) ltac:(lia)) as (ds & (m & E2) & R2 & O2). exists (d :: ds).
    split; [exists (Nat.max n m); intros j Lj; cbn [open_paths_std]; rewrite (E j ltac:(lia)), (E2 j ltac:(lia)); reflexivity|].
    cbn [map]. split; [now rewrite R, R2|]. constructor; assumption.
Qed.

Section Paths.
  Context (pol : bytes -> io_policy) (natives : bytes -> blockdev osfile) (open : opener) (paths : list bytes) (ws : list member_written) (x : md_array)
    (image : bytes) (q : N -> bytes).
  Context (order : list (option N * list (md_device (bytes * osfile))) -> list (option N * list (md_device (bytes * osfile)))).
  Hypothesis Ord : forall l, Permutation (order l) l.
  Hypothesis Pt : forall p, patient (pol p).
  Hypothesis Ns : forall p, native_std (pol p) (natives p).
  Hypothesis X : array_ok x.
  Hypothesis Fi : image_fills x image.
  Hypothesis U : u64_ok (len image).
  Hypothesis Po : positions_filled x (map w_position ws).
  Hypothesis Wr : Forall (written x image q) ws.
  Hypothesis Ph : Forall2 (path_calmly pol open) paths ws.

  Let assembled (devices : list (device_id * md_device osfile)) (d : definition (bytes * osfile)) : Prop :=
    ends (fun fuel => open_paths_std pol fuel open 0 paths) (Ok (devices, [])) /\ d = array_open order (map at_path devices).

  (** All paths are opened, and the members are put where they belong. *)
  Theorem interrupted_assembled : exists devices d, assembled devices d /\ map (fun d => id_reference (fst d)) devices = map Some paths /\
    in_use d (array_format_of x) /\ geometry_ok (array_format_of x) (x_layout x) /\ slots_hold (calm_block natives) d (written_contents ws) /\
    contents_image (written_contents ws) (fun _ => 0) (array_format_of x) (x_layout x) image /\ ad_inactive d = [].
  Proof.
    assert (Lp : len paths <= x_devices x).
    { assert (len paths = len ws) as -> by (unfold len; now rewrite (both_long Ph)). rewrite <- (len_map w_position).
      destruct Po as [Nd Co]. pose proof (NoDup_incl_length Nd (l' := map N.of_nat (seq 0 (N.to_nat (x_devices x))))) as H.
      rewrite (map_length N.of_nat), seq_length in H. enough (incl (map w_position ws) (map N.of_nat (seq 0 (N.to_nat (x_devices x))))) by (specialize (H H0); unfold len; lia).
      intros i I. apply Co in I. apply in_map_iff. exists (N.to_nat i). split; [lia|]. apply in_seq. lia. }
    assert (Hn : x_devices x <= 0xff00) by apply X.
    destruct (calm_paths_opened pol natives open paths ws Pt Ns Ph 0) as (devices & E & R & O).
    { assert (0xff00 <= u64_max) by (vm_compute; discriminate). lia. }
    exists devices, (array_open order (map at_path devices)). split; [split; [exact E|reflexivity]|]. split; [exact R|].
    exact (members_assembled_partial (calm_block natives) order (map at_path devices) ws x image q Ord X Fi Po Wr O).
  Qed.

  Context (join : bytes * osfile -> bytes * osfile -> bytes * osfile) (J : joins join).
  Let st := reader_stream (array_block_io (calm_block natives) join).
  Let clone := reader_clone (array_block_io (calm_block natives) join).
  Notation bad := (array_bad (written_contents ws) (array_format_of x)).
  Notation bs := (sb4_block_size (device_sb image)).

  Lemma calm_holds devices d : assembled devices d -> slots_hold (calm_block natives) d (written_contents ws) /\ in_use d (array_format_of x).
  Proof.
    intros [E ->]. destruct interrupted_assembled as (devices' & d' & [E' ->] & _ & H1 & _ & H2 & _).
    pose proof (ends_det _ _ _ E E') as Q. injection Q as <-. auto.
  Qed.
  Lemma calm_geometry : geometry_ok (array_format_of x) (x_layout x).
  Proof. now destruct interrupted_assembled as (_ & _ & _ & _ & _ & G & _). Qed.
  Lemma calm_image : contents_image (written_contents ws) (fun _ => 0) (array_format_of x) (x_layout x) image.
  Proof. now destruct interrupted_assembled as (_ & _ & _ & _ & _ & _ & _ & I & _). Qed.

  (** What is read from a file is what Linux would read from it; (partial: as in C112) *)
  Theorem interrupted_linux_partial devices d s1 F number a s2 own g fuel bufs s' g' calls hi :
    assembled devices d -> fs_open st (reader_new d) = (s1, Ok F) -> linux_usual (device_sb image) -> linux_inode_at image number a ->
    let slot := window image a (linux_inode_size (device_sb image)) in
    ordered image bs (slot_root slot) 0 hi ->
    open_file st clone F number s1 = (s2, Ok (own, AnyRegular g)) -> run_file st fuel own g bufs = Some (s', g', calls) ->
    slot_kind slot = 8 /\ len (delivered calls) <= slot_size slot /\
    forall o y, nth_N (delivered calls) o = Some y -> linux_file_byte image number o y \/ in_unwritten image bs (slot_root slot) o.
  Proof.
    intros A. exact (recover_linux_partial (calm_block natives) join J (written_contents ws) (array_format_of x) (x_layout x) image calm_geometry U calm_image
      d s1 F number a s2 own g fuel bufs s' g' calls hi (calm_holds devices d A)).
  Qed.

  (** it is read to its end if Linux finds all of its blocks, written, and they and the metadata can be read after the
      interruptions; *)
  Theorem interrupted_complete_partial k number a bufs hi :
    device_supported image k -> device_inode image k number -> metadata_good image bad k number ->
    linux_usual (device_sb image) -> linux_inode_at image number a ->
    let slot := window image a (linux_inode_size (device_sb image)) in
    slot_kind slot = 8 -> slot_by_extents slot = true -> ordered image bs (slot_root slot) 0 hi ->
    slot_size slot <= hi * bs < slot_size slot + bs -> hi <= u32_max -> nodes_readable image bs (block_good image bad bs) (slot_root slot) ->
    (forall p, p < hi -> exists e, linux_finds image bs (slot_root slot) p (Some e) /\ extent_value e < 32768 /\
       block_good image bad bs (extent_start e + (p - extent_first e))) ->
    hi <= len bufs -> Forall (fun buf => len buf = bs) bufs ->
    exists devices d s1 F s2 own g fuel s' g' calls, assembled devices d /\
      fs_open st (reader_new d) = (s1, Ok F) /\ open_file st clone F number s1 = (s2, Ok (own, AnyRegular g)) /\
      run_file st fuel own g bufs = Some (s', g', calls) /\ Forall (fun '(_, _, r) => is_ok r) calls /\
      len (delivered calls) = slot_size slot /\ forall o y, nth_N (delivered calls) o = Some y -> linux_file_byte image number o y.
  Proof.
    intros H1 H2 H3 H4 H5 slot H6 H7 H8 H9 H10 H11 H12 H13 H14.
    destruct interrupted_assembled as (devices & d & A & _). exists devices, d.
    destruct (recover_linux_complete_partial (calm_block natives) join J (written_contents ws) (array_format_of x) (x_layout x) image calm_geometry U calm_image
      d k number a bufs hi (calm_holds devices d A) H1 H2 H3 H4 H5 H6 H7 H8 H9 H10 H11 H12 H13 H14) as (s1 & F & s2 & own & g & fuel & s' & g' & calls & R).
    exists s1, F, s2, own, g, fuel, s', g', calls. split; [exact A|exact R].
  Qed.

  (** no entry is listed that Linux does not find in the directory; *)
  Theorem interrupted_listing_partial devices d s1 F number a s2 own g fuel n s' g' rs hi e :
    assembled devices d -> fs_open st (reader_new d) = (s1, Ok F) -> linux_usual (device_sb image) -> linux_inode_at image number a ->
    let slot := window image a (linux_inode_size (device_sb image)) in
    ordered image bs (slot_root slot) 0 hi ->
    open_file st clone F number s1 = (s2, Ok (own, AnyDirectory g)) -> run_dir st fuel n own g = Some (s', g', rs) -> In (Ok (Some e)) rs ->
    slot_kind slot = 4 /\ exists seed p b, inode_seed (device_sb image) number slot seed /\ p * bs < slot_size slot /\
      linux_dir_block image bs (slot_root slot) p b /\ dir_tail_ok seed b /\
      (exists es, records b (dir_limit seed b) 0 es /\ In e es) /\
      forall es, linux_whole (sb4_inodes (device_sb image)) seed b -> linux_records (sb4_inodes (device_sb image)) b 0 es -> In e es.
  Proof.
    intros A. exact (recover_listing_partial (calm_block natives) join J (written_contents ws) (array_format_of x) (x_layout x) image calm_geometry U calm_image
      d s1 F number a s2 own g fuel n s' g' rs hi e (calm_holds devices d A)).
  Qed.

  (** and a directory that Linux reads whole is listed as Linux lists it. *)
  Theorem interrupted_listing_complete_partial k number a es n hi :
    device_supported image k -> device_inode image k number -> metadata_good image bad k number ->
    linux_usual (device_sb image) -> linux_inode_at image number a ->
    let slot := window image a (linux_inode_size (device_sb image)) in
    slot_kind slot = 4 -> slot_by_extents slot = true -> slot_indexed slot = false -> ordered image bs (slot_root slot) 0 hi ->
    slot_size slot = hi * bs -> hi <= u32_max -> nodes_readable image bs (block_good image bad bs) (slot_root slot) ->
    (forall p, p < hi -> exists e, linux_finds image bs (slot_root slot) p (Some e) /\ extent_value e < 32768 /\
       block_good image bad bs (extent_start e + (p - extent_first e))) ->
    (forall seed p b, inode_seed (device_sb image) number slot seed -> p < hi -> linux_dir_block image bs (slot_root slot) p b ->
       dir_tail_ok seed b /\ linux_whole (sb4_inodes (device_sb image)) seed b) ->
    linux_directory image number es ->
    exists devices d s1 F s2 own g fuel s' g' rs, assembled devices d /\
      fs_open st (reader_new d) = (s1, Ok F) /\ open_file st clone F number s1 = (s2, Ok (own, AnyDirectory g)) /\
      run_dir st fuel n own g = Some (s', g', rs) /\ lists_as (linux_filetype (device_sb image)) n rs es.
  Proof.
    intros H1 H2 H3 H4 H5 slot H6 H7 H8 H9 H10 H11 H12 H13 H14 H15.
    destruct interrupted_assembled as (devices & d & A & _). exists devices, d.
    destruct (recover_listing_complete_partial (calm_block natives) join J (written_contents ws) (array_format_of x) (x_layout x) image calm_geometry U calm_image
      d k number a es n hi (calm_holds devices d A) H1 H2 H3 H4 H5 H6 H7 H8 H9 H10 H11 H12 H13 H14 H15) as (s1 & F & s2 & own & g & fuel & s' & g' & rs & R).
    exists s1, F, s2, own, g, fuel, s', g', rs. split; [exact A|exact R].
  Qed.
End Paths.
Print Assumptions interrupted_assembled.
Print Assumptions interrupted_linux_partial.
Print Assumptions interrupted_complete_partial.
Print Assumptions interrupted_listing_partial.
Print Assumptions interrupted_listing_complete_partial.

(** Such block devices exist. *)
Theorem interrupted_natives : forall pol : bytes -> io_policy, (forall p, patient (pol p)) -> exists natives, forall p, native_std (pol p) (natives p).
Proof. intros pol P. exists (fun p => calm_native (pol p) (P p)). intros p. apply native_std_exists. Qed.
Print Assumptions interrupted_natives.

(** ** Example

    The devices of PropsPaths.v, with two of three calls interrupted. *)
Definition startled (pol : io_policy) : io_policy := fun t p n => if negb (t mod 3 =? 2) then IoFail 4 else pol t p n.
Definition calm_pol : bytes -> io_policy := fun path => startled (raw_pol path).
Definition calm_written (i : N) : member_written :=
  MemberWritten i 8192 (raw_bytes i) (fails (calm_pol (raw_path i))) (fun p => fails_block (calm_pol (raw_path i)) (raw_bs i) (p / raw_bs i)).
Definition calm_ws : list member_written := map calm_written [3; 1; 2; 0].

Lemma startled_patient pol : (forall t p n, pol t p n <> IoFail 4) -> patient (startled pol).
Proof.
  intros H t p n. exists (N.to_nat (2 - t mod 3)). unfold startled. rewrite N2Nat.id.
  assert (E : (t + (2 - t mod 3)) mod 3 = 2).
  { pose proof (N.mod_upper_bound t 3 ltac:(lia)). pose proof (N.div_mod t 3 ltac:(lia)) as D. set (q := t / 3) in *. set (m := t mod 3) in *. clearbody q m.
    subst t. replace (3 * q + m + (2 - m)) with (2 + q * 3) by lia. rewrite N.mod_add by lia. reflexivity. }
  rewrite E. cbn. apply H.
Qed.
Lemma raw_pol_cases path : raw_pol path = torn_policy \/ raw_pol path = short_policy.
Proof. unfold raw_pol. destruct path as [|a [|b [|c [|d [|e l]]]]]; auto; destruct d; auto. Qed.
Lemma calm_patient path : patient (calm_pol path).
Proof.
  apply startled_patient. intros t p n. destruct (raw_pol_cases path) as [-> | ->]; unfold torn_policy, short_policy; [|discriminate].
  destruct ((3072 <=? p) && (p <? 4096)); discriminate.
Qed.
Lemma calm_fails path p : fails (calm_pol path) p -> pol_bad (raw_pol path) p.
Proof.
  intros (t & n & e & E & N4). unfold calm_pol, startled in E. destruct (negb (t mod 3 =? 2)); [injection E as <-; congruence|]. exists t, n, e. exact E.
Qed.
Lemma calm_ws_in w : In w calm_ws -> exists i, i < 4 /\ w = calm_written i.
Proof. intros I. apply in_map_iff in I as (i & <- & I). exists i. split; [|reflexivity]. cbn [In] in I. lia. Qed.

Lemma calm_path_holds i : i < 4 -> path_calmly calm_pol raw_open (raw_path i) (calm_written i).
Proof.
  intros Hi. destruct (raw_path_holds i Hi) as (c & bs & DV & Wb & _). exists (raw_bytes i), (raw_bs i).
  assert (E : raw_open (raw_path i) = Ok (OsFile (raw_bytes i) 0 0 true (Ok (raw_bs i)) (Ok 16384)) /\ len (raw_bytes i) / raw_bs i * raw_bs i = 16384 /\ raw_bs i <> 0).
  { rewrite raw_len by exact Hi. assert (i = 0 \/ i = 1 \/ i = 2 \/ i = 3) as [->|[->|[->| ->]]] by lia; repeat split; discriminate. }
  destruct E as (E1 & E2 & E3). split; [|split; [|split; [now intros p|now intros p]]].
  - eexists. split; [exact E1|]. cbn [os_content os_pbsz os_size64]. rewrite raw_len by exact Hi. repeat split; [exact E3|discriminate].
  - rewrite E2. cbn [w_bytes calm_written]. rewrite <- (raw_len i Hi). symmetry. apply window_full.
Qed.

(** The hypotheses of the theorems. *)
Example interrupted_assembled_ex : (forall p, patient (calm_pol p)) /\
  array_ok raw_array /\ image_fills raw_array open_image /\ positions_filled raw_array (map w_position calm_ws) /\
  Forall (written raw_array open_image (fun _ => zeros 512)) calm_ws /\ Forall2 (path_calmly calm_pol raw_open) (map raw_path [3; 1; 2; 0]) calm_ws.
Proof.
  split; [exact calm_patient|]. destruct raw_assembled_ex as (H1 & H2 & H3 & _). do 3 (split; [assumption|]). split.
  - apply Forall_forall. intros w I. destruct (calm_ws_in w I) as (i & Hi & ->). split; [now apply raw_member|]. cbn [w_place w_sbad calm_written]. intros p P B.
    apply calm_fails in B. destruct (raw_fails i Hi) as [E|E]; rewrite E in B; [|now apply (short_fails p)]. destruct B as (t & n & e & H). unfold torn_policy in H.
    destruct (N.leb_spec 3072 p), (N.ltb_spec p 4096); cbn [andb] in H; try discriminate H. lia.
  - unfold calm_ws. cbn [map]. repeat (constructor; [apply calm_path_holds; reflexivity|]). constructor.
Qed.

Lemma calm_bad p : array_bad (written_contents calm_ws) (array_format_of raw_array) p -> array_bad (torn_contents torn_policy) torn_format p.
Proof.
  assert (Pl : forall i, raw_bs i = 512 \/ raw_pol (raw_path i) = short_policy \/ 4 <= i).
  { intros i. destruct (N.leb_spec 4 i); [auto|]. assert (i = 0 \/ i = 1 \/ i = 2 \/ i = 3) as [->|[->|[->| ->]]] by lia; auto. }
  intros (i & ct & bad & r & Hi & Ci & Q & B). change (mf_device_count (array_format_of raw_array)) with 4 in *. exists i, (torn_part i). eexists. exists r.
  split; [exact Hi|]. unfold torn_contents. destruct (N.ltb_spec i 4); [|lia]. split; [reflexivity|]. split; [exact Q|].
  unfold written_contents in Ci. destruct (List.find _ calm_ws) as [w|] eqn:Fw; [|discriminate Ci]. apply find_some in Fw as [Iw Eq]. apply N.eqb_eq in Eq.
  destruct (calm_ws_in w Iw) as (j & Hj & ->). cbn [w_position calm_written] in Eq. subst j.
  assert (bad = w_bad (calm_written i)) as -> by (cbn [option_map] in Ci; congruence). cbn [w_bad calm_written] in B.
  destruct B as (b & Q' & Bb). apply calm_fails in Bb.
  destruct (raw_fails i Hi) as [E|E]; [|rewrite E in Bb; destruct (short_fails b Bb)].
  destruct (Pl i) as [Pb|[Ps|]]; [|rewrite Ps in Bb; destruct (short_fails b Bb)|lia].
  rewrite Pb in Q'. rewrite E in Bb. exists b. split; [exact Q'|exact Bb].
Qed.

Example interrupted_complete_ex : forall natives, (forall p, native_std (calm_pol p) (natives p)) -> exists devices d s1 F s2 own g fuel s' g' calls,
  let st := reader_stream (array_block_io (calm_block natives) shared) in
  ends (fun fuel => open_paths_std calm_pol fuel raw_open 0 (map raw_path [3; 1; 2; 0])) (Ok (devices, [])) /\ d = array_open (@rev _) (map at_path devices) /\
  fs_open st (reader_new d) = (s1, Ok F) /\
  open_file st (reader_clone (array_block_io (calm_block natives) shared)) F 5 s1 = (s2, Ok (own, AnyRegular g)) /\
  run_file st fuel own g (repeat (zeros 1024) 5) = Some (s', g', calls) /\ len (delivered calls) = 3500 /\
  forall o y, nth_N (delivered calls) o = Some y -> linux_file_byte open_image 5 o y.
Proof.
  intros natives Ns. pose proof open_image_supported as SU. pose proof (open_image_inode 5 ltac:(cbn; auto)) as DI.
  assert (Jn : joins (@shared (bytes * osfile))) by (intros d d'; now right). destruct interrupted_assembled_ex as (H0 & H1 & H2 & H3 & H4 & H5).
  pose proof (interrupted_complete_partial calm_pol natives raw_open (map raw_path [3; 1; 2; 0]) calm_ws raw_array open_image (fun _ => zeros 512) (@rev _)
    ltac:(intros l; apply Permutation_sym, Permutation_rev) H0 Ns H1 H2 open_image_u64 H3 H4 H5 shared Jn 1 5 4096 (repeat (zeros 1024) 5) 4 SU DI) as R.
  cbv zeta in R. rewrite open_slot in R.
  assert (BS : sb4_block_size (device_sb open_image) = 1024) by (vm_compute; reflexivity). rewrite BS in R.
  assert (SZ : slot_size (device_slot open_image 5) = 3500) by (vm_compute; reflexivity). rewrite SZ in R.
  assert (RT : slot_root (device_slot open_image 5) = in_blocks_buffer ex_file) by (vm_compute; reflexivity). rewrite RT in R.
  assert (Im : forall b, b < 16 -> b <> 6 -> b <> 7 -> block_good open_image (array_bad (written_contents calm_ws) (array_format_of raw_array)) 1024 b).
  { intros b L N6 N7. destruct (torn_on_image b L N6 N7) as [G1 G2]. split; [exact G1|]. intros p P B. exact (G2 p P (calm_bad p B)). }
  destruct R as (devices & d & s1 & F & s2 & own & f & fuel & s' & f' & calls & [R0 R0'] & R1 & R2 & R3 & _ & R4 & R5).
  - intros p P B. apply calm_bad, torn_bad in B.
    assert (D0 : sb4_desc_offset (device_sb open_image) 1 <= 6144) by (vm_compute; discriminate).
    assert (S0 : device_slot_offset open_image 5 + sb4_inode_size (device_sb open_image) <= 6144) by (vm_compute; discriminate).
    lia.
  - exact open_usual.
  - exact open_inode_at.
  - vm_compute. reflexivity.
  - vm_compute. reflexivity.
  - exact open_ordered.
  - split; [discriminate|reflexivity].
  - discriminate.
  - apply open_nodes; apply Im; vm_compute; congruence.
  - intros p P. apply open_finds; try exact P; apply Im; vm_compute; congruence.
  - discriminate.
  - apply Forall_forall. intros b Hb. apply repeat_spec in Hb as ->. apply len_zeros.
  - exists devices, d, s1, F, s2, own, f, fuel, s', f', calls. auto 10.
Qed.

(** The paths are usable; one path more is not.  If calls were not made again, no superblock would be found. *)
Example interrupted_diagnosis_ex : (forall p, In p (map raw_path [3; 1; 2; 0]) -> exists c bs, is_device raw_open p c bs) /\
  failures raw_open [raw_path 1; [x78]; raw_path 2] [([x78], OsError 2)] /\
  (exists f, raw_open (raw_path 2) = Ok f /\
     classify_std (calm_pol (raw_path 2)) 100 f = None /\
     (exists f' sb, classify_std (calm_pol (raw_path 2)) 200 f = Some (f', Ok (DsSuperblock sb)) /\ sb_device_count sb = 4) /\
     exists f', classify (native_block (calm_pol (raw_path 2))) (native_stream (calm_pol (raw_path 2))) f = (f', Ok DsMissing)).
Proof.
  assert (DV : forall i, i < 4 -> exists c bs, is_device raw_open (raw_path i) c bs) by (intros i Hi; destruct (raw_path_holds i Hi) as (c & bs & D & _); eauto).
  split; [intros p I; apply in_map_iff in I as (i & <- & I); apply DV; cbn [In] in I; lia|]. split.
  - destruct (DV 1 ltac:(lia)) as (c1 & b1 & D1). destruct (DV 2 ltac:(lia)) as (c2 & b2 & D2). eapply failures_device; [exact D1|].
    apply failures_refused; [left; reflexivity|]. eapply failures_device; [exact D2|constructor].
  - eexists. split; [reflexivity|]. split; [vm_compute; reflexivity|].
    split; [|eexists; vm_compute; reflexivity].
    assert (X : match classify_std (calm_pol (raw_path 2)) 200 (OsFile (raw_bytes 2) 0 0 true (Ok 512) (Ok 16384)) with
                | Some (_, Ok (DsSuperblock sb)) => sb_device_count sb =? 4 | _ => false end = true) by (vm_compute; reflexivity).
    destruct (classify_std (calm_pol (raw_path 2)) 200 (OsFile (raw_bytes 2) 0 0 true (Ok 512) (Ok 16384))) as [[f' [[sb| |]|e|]]|] eqn:E; try discriminate X.
    exists f', sb. split; [reflexivity|]. now apply N.eqb_eq.
Qed.
