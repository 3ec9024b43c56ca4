(** Properties C01-C05: block reader, file-backed and in-memory devices. *)

From Verif Require Import Base BaseFacts Io SpecStream RaidFacts IoFacts.

(** ** C01 *)

(** Over any block device that meets the contract: every history of calls is a history of a cursor over the
    concatenated blocks. *)
Theorem reader_is_flat_stream : forall {D} (ops : blockdev D) bs count blk bad inv d cs r' ans,
  block_ok ops bs count blk bad inv -> inv d -> Forall call_ok cs ->
  run_calls (reader_stream ops) (reader_new d) cs = (r', ans) ->
  exists p', flat_history (flat count blk) (fun p => bad (p / bs)) 0 cs ans p'.
Proof.
  intros D ops bs count blk bad inv d cs r' ans OK I F E.
  destruct (reader_history ops bs count blk bad inv OK _ 0 cs r' ans (reader_new_at _ _ _ _ _ _ OK d I) F E)
    as (p' & H & _). exists p'. exact H.
Qed.
Print Assumptions reader_is_flat_stream.

(** Instance: an in-memory device; the content is its whole blocks, and nothing ever fails. *)
Theorem reader_over_memory : forall mem bs cs r' ans,
  bs <> 0 -> u64_ok (len mem) -> Forall call_ok cs ->
  run_calls (reader_stream mem_block) (reader_new (mem_new mem bs)) cs = (r', ans) ->
  exists p', flat_history (firstn (N.to_nat (len mem / bs * bs)) mem) (fun _ => False) 0 cs ans p'.
Proof.
  intros mem bs cs r' ans Hb U F E. pose proof (mem_block_ok mem bs U Hb) as OK.
  rewrite <- window_firstn, <- flat_block_of by assumption.
  refine (reader_is_flat_stream mem_block bs _ _ (fun _ => False) _ _ _ _ _ OK _ F E).
  cbn. repeat split; lia.
Qed.
Print Assumptions reader_over_memory.

(** Instance: a file, under every schedule of short reads and I/O errors. *)
Theorem reader_over_file : forall pol c fx pb sz bs pos clock cs r' ans,
  bs <> 0 -> len c <= i64_max -> Forall call_ok cs ->
  run_calls (reader_stream (filedev_block pol)) (reader_new (FileDev (OsFile c pos clock fx pb sz) bs)) cs = (r', ans) ->
  exists p', flat_history (firstn (N.to_nat (len c / bs * bs)) c) (fun p => pol_bad_block pol bs (p / bs)) 0 cs ans p'.
Proof.
  intros pol c fx pb sz bs pos clock cs r' ans Hb U F E.
  pose proof (filedev_block_ok pol c fx pb sz bs U Hb) as OK.
  rewrite <- window_firstn, <- flat_block_of by assumption.
  refine (reader_is_flat_stream (filedev_block pol) bs _ _ (pol_bad_block pol bs) _ _ _ _ _ OK _ F E).
  cbn. split; [reflexivity|]. exists pos. repeat split.
Qed.
Print Assumptions reader_over_file.

(** The exact amount returned by one read: the rest of the current block, or less if the buffer is smaller. *)
Theorem reader_read_amount : forall {D} (ops : blockdev D) bs count blk bad inv r p buf r' buf' k,
  block_ok ops bs count blk bad inv -> reader_at bs inv r p -> p < count * bs ->
  reader_read ops r buf = (r', buf', Ok k) -> k = N.min (len buf) (bs - p mod bs).
Proof.
  intros D ops bs count blk bad inv r p buf r' buf' k OK A L E.
  destruct (reader_read_spec _ _ _ _ _ _ OK _ _ _ _ _ _ A E) as (p' & _ & _ & _ & H).
  apply H; [reflexivity|]. now rewrite (len_c _ _ _ _ _ _ OK).
Qed.
Print Assumptions reader_read_amount.

Example reader_ex :
  let mem := map (fun i => byte_of (N.of_nat i)) (seq 0 10) in
  snd (run_calls (reader_stream mem_block) (reader_new (mem_new mem 4))
        [CSeek (SeekStart 3); CRead (zeros 3); CRead (zeros 3); CRead (zeros 3); CRead (zeros 3);
         CSeek (SeekEnd (-9)); CSeek (SeekCurrent (-9)); CSeek (SeekEnd 5); CRead (zeros 1)])
  = [ASeek (Ok 3); ARead (Ok 1) [x03; x00; x00]; ARead (Ok 3) [x04; x05; x06]; ARead (Ok 1) [x07; x00; x00];
     ARead (Ok 0) [x00; x00; x00]; ASeek (Err InvalidInput); ASeek (Err InvalidInput); ASeek (Ok 13);
     ARead (Ok 0) [x00]].
Proof. vm_compute. reflexivity. Qed.

(** ** C02 *)

(** Over any contract device, at any reader position. *)
Theorem reader_read_exact : forall {D} (ops : blockdev D) bs count blk bad inv r p buf,
  block_ok ops bs count blk bad inv -> reader_at bs inv r p -> len buf <> 0 ->
  exists r' buf' x,
    read_exact (reader_stream ops) r buf = (r', buf', x) /\
    match x with
    | Ok _ => p + len buf <= len (flat count blk) /\ buf' = window (flat count blk) p (len buf) /\
              reader_at bs inv r' (p + len buf)
    | Err e => (len (flat count blk) < p + len buf /\ e = UnexpectedEof) \/
               (exists q, p <= q < p + len buf /\ bad (q / bs))
    | Panic => False
    end.
Proof.
  intros D ops bs count blk bad inv r p buf OK A NZ.
  destruct (read_exact (reader_stream ops) r buf) as [[r' buf'] x] eqn:E. exists r', buf', x. split; [reflexivity|].
  pose proof (read_exact_spec _ _ _ _ (reader_stream_ok _ _ _ _ _ _ OK) _ _ _ _ _ _ A E) as O.
  destruct x as [|e|]; [| |exact O].
  - destruct O as (L & -> & A'). split; [lia|]. auto.
  - destruct O as (_ & _ & _ & [(q & Q)|(-> & Q)]); [right; exists q; exact Q|left; auto].
Qed.
Print Assumptions reader_read_exact.

(** On a device without unreadable blocks it is decided by the range alone. *)
Theorem reader_read_exact_iff : forall mem bs p buf r,
  bs <> 0 -> u64_ok (len mem) -> len buf <> 0 ->
  reader_at bs (fun d => m_mem d = mem /\ m_bs d = bs /\ m_pos d <= len mem) r p ->
  exists r' buf',
    read_exact (reader_stream mem_block) r buf =
    if p + len buf <=? len mem / bs * bs
    then (r', firstn (length buf) (skipn (N.to_nat p) mem), Ok tt)
    else (r', buf', Err UnexpectedEof).
Proof.
  intros mem bs p buf r Hb U NZ A. pose proof (mem_block_ok mem bs U Hb) as OK.
  destruct (reader_read_exact mem_block _ _ _ _ _ r p buf OK A NZ) as (r' & buf' & x & E & O).
  rewrite flat_block_of in O by assumption.
  assert (M : len mem / bs * bs <= len mem) by (rewrite N.mul_comm; apply N.mul_div_le; lia).
  assert (LW : len (window mem 0 (len mem / bs * bs)) = len mem / bs * bs) by (apply len_window_in; lia).
  rewrite LW in O. exists r', buf'. rewrite E.
  destruct x as [[]|e|]; [| |destruct O].
  - destruct O as (L & -> & _). destruct (N.leb_spec (p + len buf) (len mem / bs * bs)); [|lia].
    rewrite window_window by lia. unfold window. rewrite N.add_0_l. f_equal. f_equal. f_equal. now rewrite length_len.
  - destruct O as [(L & ->)|(q & _ & [])]. destruct (N.leb_spec (p + len buf) (len mem / bs * bs)); [lia|reflexivity].
Qed.
Print Assumptions reader_read_exact_iff.

Example reader_read_exact_ex :
  let mem := map (fun i => byte_of (N.of_nat i)) (seq 0 11) in
  let r := Reader (mem_new mem 2) 1 1 in
  snd (read_exact (reader_stream mem_block) r (zeros 7)) = Ok tt /\
  snd (fst (read_exact (reader_stream mem_block) r (zeros 7))) = [x03; x04; x05; x06; x07; x08; x09] /\
  snd (read_exact (reader_stream mem_block) r (zeros 8)) = Err UnexpectedEof.
Proof. vm_compute. auto. Qed.

(** ** C03 *)

(** [InternalFile::read_block], the body of the file-backed and native devices: for every policy of the operating
    system, every cursor and every buffer. *)
Theorem file_read_block : forall pol c fx pb sz pos clock n bs buf f' buf' r,
  len c <= i64_max ->
  internal_read_block pol (OsFile c pos clock fx pb sz) n bs buf = (f', buf', r) ->
  len buf' = len buf /\ os_content f' = c /\
  match r with
  | Ok k => k = bs /\ bs <= len buf /\ (bs <> 0 -> (n + 1) * bs <= len c) /\
            buf' = window c (n * bs) bs ++ skipn (N.to_nat bs) buf
  | Err e => (len buf < bs /\ e = InvalidInput /\ f' = OsFile c pos clock fx pb sz /\ buf' = buf) \/
             pol_bad_block pol bs n \/ len c < (n + 1) * bs
  | Panic => False
  end.
Proof.
  intros pol c fx pb sz pos clock n bs buf f' buf' r U E.
  assert (A : os_at c fx pb sz (OsFile c pos clock fx pb sz) pos) by (repeat split).
  destruct (internal_read_block_spec pol c fx pb sz _ pos n bs buf f' buf' r U A E) as ((p' & Ec & _) & L & O); auto.
Qed.
Print Assumptions file_read_block.

(** Errors only when there is a reason: without I/O errors, an in-range block always reads. *)
Theorem file_read_block_succeeds : forall pol c fx pb sz pos clock n bs buf,
  len c <= i64_max -> (forall t p k e, pol t p k <> IoFail e) ->
  bs <= len buf -> (n + 1) * bs <= len c ->
  exists f', internal_read_block pol (OsFile c pos clock fx pb sz) n bs buf =
             (f', window c (n * bs) bs ++ skipn (N.to_nat bs) buf, Ok bs).
Proof.
  intros pol c fx pb sz pos clock n bs buf U NF Lb In.
  destruct (internal_read_block pol (OsFile c pos clock fx pb sz) n bs buf) as [[f' buf'] r] eqn:E.
  destruct (file_read_block _ _ _ _ _ _ _ _ _ _ _ _ _ U E) as (_ & _ & O).
  destruct r as [k|e|]; [| |destruct O].
  - destruct O as (-> & _ & _ & ->). eauto.
  - destruct O as [(O & _)|[(q & _ & t & k & e' & P)|O]]; [lia| |lia]. exfalso. eapply NF. exact P.
Qed.
Print Assumptions file_read_block_succeeds.

(** Both devices are this function. *)
Theorem file_and_native_read_block : forall pol d n buf bs,
  (bd_read (filedev_block pol) d n buf =
   let '(f, b, r) := internal_read_block pol (fd_file d) n (fd_bs d) buf in (FileDev f (fd_bs d), b, r)) /\
  (os_pbsz (fd_file d) = Ok bs ->
   bd_read (native_block pol) (fd_file d) n buf = internal_read_block pol (fd_file d) n bs buf).
Proof. intros. split; [reflexivity|]. intros E. cbn. now rewrite E. Qed.
Print Assumptions file_and_native_read_block.

(** One byte per call; then an error at the third call. *)
Example file_read_block_ex :
  let c := map (fun i => byte_of (N.of_nat i)) (seq 0 12) in
  let f := OsFile c 11 0 false (Ok 4) (Ok 12) in
  let '(_, b, r) := internal_read_block (fun _ _ _ => IoXfer 0) f 1 4 [xff; xff; xff; xff; xee] in
  let '(_, _, r2) := internal_read_block (fun t _ _ => if t =? 2 then IoFail 5 else IoXfer 0) f 1 4 (zeros 4) in
  b = [x04; x05; x06; x07; xee] /\ r = Ok 4 /\ r2 = Err (OsError 5).
Proof. vm_compute. auto. Qed.

(** ** C04 *)

Theorem mem_read_block_exact : forall mem pos bs n buf,
  bd_read mem_block (MemDev mem pos bs) n buf =
  if len buf <? bs then (MemDev mem pos bs, buf, Err InvalidInput)
  else if u64_max <? n * bs then (MemDev mem pos bs, buf, Err InvalidInput)
  else if (n * bs + bs <=? len mem) && (len buf =? bs)
  then (MemDev mem pos bs, window mem (n * bs) bs, Ok bs)
  else (MemDev mem pos bs, buf, Panic).
Proof.
  intros mem pos bs n buf. cbn [bd_read mem_block m_mem m_bs].
  destruct (N.ltb_spec (len buf) bs); [reflexivity|].
  unfold byte_pos, cmul64.
  destruct (N.leb_spec (n * bs) u64_max), (N.ltb_spec u64_max (n * bs)); try lia; [|reflexivity].
  destruct (N.leb_spec (n * bs + bs) (len mem)) as [In|Out]; cbn [andb].
  - rewrite sub_some by assumption. unfold copy_from_slice. rewrite len_window_in by assumption.
    destruct (len buf =? bs); reflexivity.
  - rewrite sub_none by assumption. reflexivity.
Qed.
Print Assumptions mem_read_block_exact.

(** The legal call, and the exact set of panicking calls. *)
Theorem mem_read_block_panics_iff : forall mem pos bs n buf,
  snd (bd_read mem_block (MemDev mem pos bs) n buf) = Panic <->
  bs <= len buf /\ u64_ok (n * bs) /\ (len mem < n * bs + bs \/ bs < len buf).
Proof.
  intros. rewrite mem_read_block_exact. unfold u64_ok.
  destruct (N.ltb_spec (len buf) bs); [split; [discriminate|lia]|].
  destruct (N.ltb_spec u64_max (n * bs)); [split; [discriminate|lia]|].
  destruct (N.leb_spec (n * bs + bs) (len mem)), (N.eqb_spec (len buf) bs); cbn; split;
    intros; try discriminate; try reflexivity; lia.
Qed.
Print Assumptions mem_read_block_panics_iff.

Example mem_read_block_ex :
  let d := mem_new [x01; x02; x03; x04; x05] 2 in
  snd (fst (bd_read mem_block d 1 (zeros 2))) = [x03; x04] /\
  snd (bd_read mem_block d 2 (zeros 2)) = Panic /\ snd (bd_read mem_block d 0 (zeros 3)) = Panic /\
  snd (bd_read mem_block d 0 (zeros 1)) = Err InvalidInput.
Proof. vm_compute. auto. Qed.

(** ** C05 *)

(** What a caller sees of a block read. *)
Definition observed (x : osfile * bytes * res N) : res bytes :=
  let '(_, buf, r) := x in match r with Ok _ => Ok buf | Err e => Err e | Panic => Panic end.

(** The answer that depends on nothing but the file contents and the arguments. *)
Definition expected (c : bytes) (fx : bool) (n bs : N) (buf : bytes) : res bytes :=
  if len buf <? bs then Err InvalidInput
  else if u64_max <? n * bs then Err InvalidData
  else if i64_max <? n * bs then Err InvalidInput
  else if fx && (len c <? n * bs) then Err InvalidInput
  else if bs =? 0 then Ok buf
  else if n * bs + bs <=? len c then Ok (window c (n * bs) bs ++ skipn (N.to_nat bs) buf)
  else Err UnexpectedEof.

Lemma read_block_expected pol f n bs buf :
  len (os_content f) <= i64_max -> (forall t p k e, pol t p k <> IoFail e) ->
  observed (internal_read_block pol f n bs buf) = expected (os_content f) (os_fixed f) n bs buf /\
  os_content (fst (fst (internal_read_block pol f n bs buf))) = os_content f /\
  os_fixed (fst (fst (internal_read_block pol f n bs buf))) = os_fixed f.
Proof.
  intros U NF. set (c := os_content f) in *. set (fx := os_fixed f).
  assert (A : os_at c fx (os_pbsz f) (os_size64 f) f (os_pos f)) by (repeat split).
  destruct (internal_read_block pol f n bs buf) as [[f' buf'] r] eqn:E.
  destruct (internal_read_block_spec _ _ _ _ _ _ _ _ _ _ _ _ _ U A E) as ((p' & Ec & Ef & _) & L & O).
  split; [|cbn; auto]. cbn [observed]. unfold expected.
  assert (NB : forall q, ~ pol_bad pol q) by (intros q (t & k & e & P); eapply NF; exact P).
  unfold internal_read_block in E.
  destruct (N.ltb_spec (len buf) bs); [inv E; reflexivity|].
  unfold byte_pos, cmul64 in E.
  destruct (N.leb_spec (n * bs) u64_max), (N.ltb_spec u64_max (n * bs)); try lia; [|inv E; reflexivity].
  cbn [os_stream st_seek] in E. unfold os_seek in E. fold c fx in E.
  destruct (N.leb_spec (n * bs) i64_max), (N.ltb_spec i64_max (n * bs)); try lia; [|inv E; reflexivity].
  destruct (Z.ltb_spec (Z.of_N (n * bs)) 0); [lia|].
  destruct (Z.ltb_spec (Z.of_N i64_max) (Z.of_N (n * bs))); [lia|].
  rewrite N2Z.id in E. destruct (fx && (len c <? n * bs)); [inv E; reflexivity|].
  set (f1 := os_set f (n * bs) (os_clock f)) in *.
  assert (A1 : os_at c fx (os_pbsz f) (os_size64 f) f1 (n * bs)) by (repeat split).
  destruct (read_exact (os_stream pol) f1 (firstn (N.to_nat bs) buf)) as [[f2 b2] r2] eqn:R.
  pose proof (read_exact_spec _ _ _ _ (os_stream_ok pol c fx (os_pbsz f) (os_size64 f) U) _ _ _ _ _ _ A1 R) as O2.
  rewrite len_firstn in O2. replace (N.min (N.of_nat (N.to_nat bs)) (len buf)) with bs in O2 by lia.
  inv E. destruct (N.eqb_spec bs 0) as [->|B0].
  - destruct r2 as [|e|]; cbn [rbind]; [|destruct O2 as (_ & ? & _); lia|destruct O2].
    destruct O2 as (_ & -> & _). reflexivity.
  - destruct r2 as [|e|]; cbn [rbind]; [| |destruct O2].
    + destruct O2 as (L2 & -> & _). destruct (N.leb_spec (n * bs + bs) (len c)); [reflexivity|lia].
    + destruct O2 as (_ & _ & _ & [(q & _ & Q)|(-> & Q)]); [exfalso; eapply NB; exact Q|].
      destruct (N.leb_spec (n * bs + bs) (len c)); [lia|reflexivity].
Qed.

(** Calls of several handles on one shared file description, in the order they happen: handle number, block number,
    block size of the handle, buffer. *)
Definition shared_call : Type := nat * (N * N * bytes).

Fixpoint run_shared (pol : io_policy) (f : osfile) (cs : list shared_call) : list (nat * res bytes) :=
  match cs with
  | [] => []
  | (h, (n, bs, buf)) :: cs =>
      let x := internal_read_block pol f n bs buf in
      (h, observed x) :: run_shared pol (fst (fst x)) cs
  end.

Definition of_handle {A} (h : nat) (l : list (nat * A)) : list (nat * A) :=
  filter (fun x => Nat.eqb (fst x) h) l.

(** Whatever the interleaving, every handle sees what it would see as the only user of the file, from any other cursor,
    under any other schedule of short reads. *)
Theorem clones_do_not_interfere : forall pol pol' c fx pb sz pos pos' clock clock' cs h,
  len c <= i64_max ->
  (forall t p k e, pol t p k <> IoFail e) -> (forall t p k e, pol' t p k <> IoFail e) ->
  of_handle h (run_shared pol (OsFile c pos clock fx pb sz) cs) =
  run_shared pol' (OsFile c pos' clock' fx pb sz) (of_handle h cs).
Proof.
  intros pol pol' c fx pb sz pos pos' clock clock' cs h U NF NF'.
  assert (G : forall f f', os_content f = c -> os_content f' = c -> os_fixed f = fx -> os_fixed f' = fx ->
     of_handle h (run_shared pol f cs) = run_shared pol' f' (of_handle h cs)); [|apply G; reflexivity].
  unfold of_handle. induction cs as [|[h' [[n bs] buf]] cs IH]; intros f f' E1 E2 E3 E4; [reflexivity|].
  cbn [run_shared filter fst].
  destruct (read_block_expected pol f n bs buf ltac:(congruence) NF) as (O1 & O2 & O3).
  destruct (read_block_expected pol' f' n bs buf ltac:(congruence) NF') as (P1 & P2 & P3).
  destruct (Nat.eqb h' h).
  - cbn [run_shared]. f_equal; [f_equal; congruence|]. apply IH; congruence.
  - apply IH; congruence.
Qed.
Print Assumptions clones_do_not_interfere.

(** With I/O errors too, no handle ever gets wrong bytes: a successful answer is always the expected one. *)
Theorem clones_never_wrong : forall pol c fx pb sz pos clock cs h r i,
  len c <= i64_max ->
  nth_error (run_shared pol (OsFile c pos clock fx pb sz) cs) i = Some (h, Ok r) ->
  exists n bs buf, nth_error cs i = Some (h, (n, bs, buf)) /\
    r = window c (n * bs) bs ++ skipn (N.to_nat bs) buf.
Proof.
  intros pol c fx pb sz pos clock cs h r i U.
  assert (G : forall f p, os_at c fx pb sz f p -> forall i, nth_error (run_shared pol f cs) i = Some (h, Ok r) ->
     exists n bs buf, nth_error cs i = Some (h, (n, bs, buf)) /\
       r = window c (n * bs) bs ++ skipn (N.to_nat bs) buf).
  { clear pos clock i. induction cs as [|[h' [[n bs] buf]] cs IH]; intros f p A i E; [destruct i; discriminate|].
    cbn [run_shared] in E. destruct (internal_read_block pol f n bs buf) as [[f' buf'] x] eqn:R.
    destruct (internal_read_block_spec _ _ _ _ _ _ _ _ _ _ _ _ _ U A R) as ((p' & A') & _ & O).
    destruct i as [|i].
    - cbn in E. inv E. exists n, bs, buf. split; [reflexivity|].
      destruct x as [k|e|]; inv H1. now destruct O as (-> & _ & _ & ->).
    - cbn in E. apply (IH _ _ A' _ E). }
  apply (G _ pos). repeat split.
Qed.
Print Assumptions clones_never_wrong.

Example clones_ex :
  let c := map (fun i => byte_of (N.of_nat i)) (seq 0 8) in
  let f := OsFile c 5 0 false (Ok 4) (Ok 8) in
  run_shared (fun _ _ _ => IoXfer 1) f
    [(1%nat, (1, 4, zeros 4)); (2%nat, (3, 2, zeros 2)); (1%nat, (0, 4, zeros 4)); (2%nat, (4, 2, zeros 2))]
  = [(1%nat, Ok [x04; x05; x06; x07]); (2%nat, Ok [x06; x07]); (1%nat, Ok [x00; x01; x02; x03]);
     (2%nat, Err UnexpectedEof)].
Proof. vm_compute. reflexivity. Qed.
