(** Property C121: what the command line means. *)

From Coq Require Import Strings.String.
From Verif Require Import Base BaseFacts Io Device Array Main Text SpecText Ext4String PropsExt4String PropsMain Options.

(** ** Specification: how command lines are written *)

Inductive item : Type := Device (path : bytes) | Output (path : bytes).
(** Not taken for an option. *)
Definition plain (s : bytes) : Prop := s <> [] /\ (s = name "-" \/ hd x00 s <> x2d).
Inductive written : item -> list bytes -> Prop :=
| written_device p : plain p -> written (Device p) [p]
| written_long_next v : plain v -> written (Output v) [name "--output"; v]
| written_short_next v : plain v -> written (Output v) [name "-o"; v]
| written_long v : v <> [] -> written (Output v) [name "--output=" ++ v]
| written_short_equals v : v <> [] -> written (Output v) [name "-o=" ++ v]
| written_short v : v <> [] -> hd x00 v <> x3d -> written (Output v) [name "-o" ++ v].
Inductive written_all : list item -> list bytes -> Prop :=
| written_nil : written_all [] []
| written_cons i a items args : written i a -> written_all items args -> written_all (i :: items) (a ++ args).
Definition devices_of (items : list item) : list bytes := flat_map (fun i => match i with Device p => [p] | _ => [] end) items.
Definition outputs_of (items : list item) : list bytes := flat_map (fun i => match i with Output p => [p] | _ => [] end) items.
(** Behind [--] there are only devices. *)
Definition command_line (args devices outputs : list bytes) : Prop :=
  exists items front, written_all items front /\ outputs = outputs_of items /\
    ((args = front /\ devices = devices_of items) \/
     (exists more, args = front ++ name "--" :: more /\ Forall (fun p => p <> []) more /\ devices = devices_of items ++ more)).

(** ** Facts *)

Lemma byte_eqb_spec a b : Bool.reflect (a = b) (Byte.eqb a b).
Proof. apply Bool.iff_reflect. split; [intros ->; apply Byte.byte_dec_lb; reflexivity|apply Byte.byte_dec_bl]. Qed.

Lemma lex_plain v : v <> [] -> (lex v = ArgValue <-> plain v).
Proof.
  intros N. unfold plain. destruct v as [|c [|c' s]]; [contradiction| |]; cbn [lex hd].
  - split; [intros _|reflexivity]. split; [exact N|]. destruct (byte_eqb_spec c x2d) as [->|D]; [left; reflexivity|now right].
  - unfold hyphen. destruct (byte_eqb_spec c x2d) as [->|D].
    + split; [|intros [_ [X|X]]; [discriminate X|now destruct X]].
      destruct (Byte.eqb c' x2d); [destruct s; [discriminate|destruct (split_equals _); discriminate]|discriminate].
    + split; [intros _; split; [exact N|now right]|reflexivity].
Qed.
Lemma lex_nil : lex [] = ArgValue.
Proof. reflexivity. Qed.

Lemma split_equals_spec s : match split_equals s with (n, None) => s = n | (n, Some v) => s = n ++ x3d :: v end.
Proof.
  induction s as [|c s IH]; [reflexivity|]. cbn [split_equals]. unfold equals. destruct (byte_eqb_spec c x3d) as [->|D]; [reflexivity|].
  destruct (split_equals s) as [n [v|]]; cbn; now rewrite IH at 1.
Qed.
Lemma existsb_empty l : existsb is_empty l = false <-> Forall (fun p => p <> []) l.
Proof.
  induction l as [|p l IH]; [split; [constructor|reflexivity]|]. cbn [existsb]. rewrite Bool.orb_false_iff, IH, Forall_cons_iff.
  destruct p; cbn; split; intros [A B]; (split; [|exact B]); try discriminate; try reflexivity. now destruct A.
Qed.
Lemma add_device_some a o d t : add_device a o = Some (Options d t) <-> a <> [] /\ exists d', d = a :: d' /\ o = Some (Options d' t).
Proof.
  unfold add_device. destruct o as [[d' t']|]; cbn [obind opt_devices opt_output].
  - destruct a; cbn [is_empty]; split.
    + discriminate.
    + intros [N _]. now destruct N.
    + intros E. injection E as <- <-. split; [discriminate|now exists d'].
    + intros (_ & d2 & -> & E). now injection E as -> ->.
  - split; [discriminate|]. intros (_ & d' & _ & E). discriminate E.
Qed.
Lemma add_output_some a o d t : add_output a o = Some (Options d t) <-> a <> [] /\ exists t', t = a :: t' /\ o = Some (Options d t').
Proof.
  unfold add_output. destruct o as [[d' t']|]; cbn [obind opt_devices opt_output].
  - destruct a; cbn [is_empty]; split.
    + discriminate.
    + intros [N _]. now destruct N.
    + intros E. injection E as <- <-. split; [discriminate|now exists t'].
    + intros (_ & d2 & -> & E). now injection E as -> ->.
  - split; [discriminate|]. intros (_ & d' & _ & E). discriminate E.
Qed.

Lemma command_line_cons i a args d t : written i a -> command_line args d t ->
  command_line (a ++ args) (devices_of [i] ++ d) (outputs_of [i] ++ t).
Proof.
  intros W (items & front & A & -> & H). exists (i :: items), (a ++ front). split; [now constructor|].
  assert (D : devices_of (i :: items) = devices_of [i] ++ devices_of items) by (destruct i; reflexivity).
  split; [destruct i; reflexivity|]. destruct H as [[-> ->]|(more & -> & F & ->)]; [left|right; exists more]; rewrite D, ?app_assoc; auto.
Qed.

Lemma options_sound : forall n args d t, (length args <= n)%nat -> parse_options args = Some (Options d t) -> command_line args d t.
Proof.
  induction n as [|n IH]; intros args d t L E; (destruct args as [|a args]; [injection E as <- <-; exists [], []; split; [constructor|]; split; [reflexivity|now left]|]); [cbn in L; lia|].
  cbn [length] in L. cbn [parse_options] in E.
  assert (Next : forall opt, (forall v, plain v -> written (Output v) [opt; v]) -> match args with
                  | v :: args => match lex v with ArgValue => add_output v (parse_options args) | _ => None end
                  | [] => None
                  end = Some (Options d t) -> command_line (opt :: args) d t).
  { intros opt W X. destruct args as [|v args]; [discriminate X|]. destruct (lex v) eqn:V; try discriminate X.
    apply add_output_some in X as (N & t' & -> & X). apply lex_plain in V; [|exact N]. cbn [length] in L.
    exact (command_line_cons (Output v) [opt; v] args d t' (W v V) (IH args d t' ltac:(lia) X)). }
  destruct (lex a) as [|nm value|letter rest|] eqn:A.
  - destruct (existsb is_empty args) eqn:X; [discriminate E|]. injection E as <- <-. apply existsb_empty in X.
    assert (a = name "--") as ->.
    { destruct a as [|c [|c' [|c'' s]]]; cbn [lex] in A; try discriminate A; unfold hyphen in A.
      - destruct (byte_eqb_spec c x2d) as [->|]; [|discriminate A]. destruct (byte_eqb_spec c' x2d) as [->|]; [reflexivity|discriminate A].
      - destruct (Byte.eqb c x2d); [|discriminate A]. destruct (Byte.eqb c' x2d); [destruct (split_equals _); discriminate A|discriminate A]. }
    exists [], []. split; [constructor|]. split; [reflexivity|]. right. exists args. auto.
  - destruct (bytes_eqb nm (lit "output")) eqn:B; [|discriminate E]. apply bytes_eqb_eq in B. subst nm.
    assert (X : a = x2d :: x2d :: lit "output" ++ match value with Some v => x3d :: v | None => [] end).
    { destruct a as [|c [|c' s]]; cbn [lex] in A; try discriminate A; unfold hyphen in A.
      destruct (byte_eqb_spec c x2d) as [->|]; [|discriminate A]. destruct (byte_eqb_spec c' x2d) as [->|]; [|discriminate A].
      destruct s as [|c s]; [discriminate A|]. pose proof (split_equals_spec (c :: s)) as S. destruct (split_equals (c :: s)) as [m v]. injection A as -> ->.
      do 2 f_equal. destruct value; rewrite S; [reflexivity|now rewrite app_nil_r]. }
    destruct value as [v|].
    + apply add_output_some in E as (N & t' & -> & E). subst a.
      exact (command_line_cons (Output v) [name "--output=" ++ v] args d t' (written_long v N) (IH args d t' ltac:(lia) E)).
    + subst a. apply (Next (name "--output") written_long_next E).
  - destruct (byte_eqb_spec letter x6f) as [->|]; [|discriminate E].
    assert (X : a = x2d :: x6f :: rest).
    { destruct a as [|c [|c' s]]; cbn [lex] in A; try discriminate A; unfold hyphen in A.
      destruct (byte_eqb_spec c x2d) as [->|]; [|discriminate A]. destruct (byte_eqb_spec c' x2d) as [->|]; [destruct s; [|destruct (split_equals _)]; discriminate A|].
      now injection A as -> ->. }
    subst a. destruct rest as [|c v]; [apply (Next (name "-o") written_short_next E)|].
    apply add_output_some in E as (N & t' & -> & E). unfold equals in *. destruct (byte_eqb_spec c x3d) as [->|D].
    + exact (command_line_cons (Output v) [name "-o=" ++ v] args d t' (written_short_equals v N) (IH args d t' ltac:(lia) E)).
    + exact (command_line_cons (Output (c :: v)) [name "-o" ++ c :: v] args d t' (written_short _ N D) (IH args d t' ltac:(lia) E)).
  - apply add_device_some in E as (N & d' & -> & E). apply lex_plain in A; [|exact N].
    exact (command_line_cons (Device a) [a] args d' t (written_device a A) (IH args d' t ltac:(lia) E)).
Qed.

Lemma split_output v : split_equals (lit "output" ++ x3d :: v) = (lit "output", Some v).
Proof. reflexivity. Qed.

Lemma written_parsed i a args d t : written i a -> parse_options args = Some (Options d t) ->
  parse_options (a ++ args) = Some (Options (devices_of [i] ++ d) (outputs_of [i] ++ t)).
Proof.
  intros W E.
  assert (O : forall v, v <> [] -> add_output v (parse_options args) = Some (Options d (v :: t))).
  { intros v N. apply add_output_some. eauto. }
  destruct W as [p P|v P|v P|v N|v N|v N D]; cbn [app devices_of outputs_of flat_map].
  - pose proof (proj1 P) as N. apply lex_plain in P; [|exact N]. cbn [parse_options]. rewrite P. apply add_device_some. eauto.
  - pose proof (proj1 P) as N. apply lex_plain in P; [|exact N].
    change (parse_options (name "--output" :: v :: args)) with (match lex v with ArgValue => add_output v (parse_options args) | _ => None end). rewrite P. now apply O.
  - pose proof (proj1 P) as N. apply lex_plain in P; [|exact N].
    change (parse_options (name "-o" :: v :: args)) with (match lex v with ArgValue => add_output v (parse_options args) | _ => None end). rewrite P. now apply O.
  - change (parse_options ((name "--output=" ++ v) :: args)) with (add_output v (parse_options args)). now apply O.
  - change (parse_options ((name "-o=" ++ v) :: args)) with (add_output v (parse_options args)). now apply O.
  - destruct v as [|c v]; [contradiction|]. cbn [hd] in D.
    change (parse_options ((name "-o" ++ c :: v) :: args)) with (add_output (if Byte.eqb c equals then v else c :: v) (parse_options args)).
    unfold equals. destruct (byte_eqb_spec c x3d); [contradiction|]. now apply O.
Qed.

(** ** C121 *)

(** A command line is accepted exactly if it is written like that, and then means that. *)
Theorem options_read : forall args d t, parse_options args = Some (Options d t) <-> command_line args d t.
Proof.
  intros args d t. split; [now apply (options_sound (length args))|]. intros (items & front & W & -> & H).
  assert (G : forall more d', parse_options more = Some (Options d' []) -> parse_options (front ++ more) = Some (Options (devices_of items ++ d') (outputs_of items))).
  { clear - W. intros more d' E. induction W as [|i a items args Wi _ IH]; [exact E|]. rewrite <- app_assoc.
    rewrite (written_parsed i a _ _ _ Wi IH). f_equal. destruct i; reflexivity. }
  destruct H as [[-> ->]|(more & -> & F & ->)].
  - specialize (G [] [] eq_refl). now rewrite !app_nil_r in G.
  - apply G. change (parse_options (name "--" :: more)) with (if existsb is_empty more then None else Some (Options more [])).
    apply existsb_empty in F. now rewrite F.
Qed.
Print Assumptions options_read.

(** Each command line has one meaning. *)
Theorem command_line_unique : forall args d t d' t', command_line args d t -> command_line args d' t' -> d = d' /\ t = t'.
Proof. intros args d t d' t' H H'. apply options_read in H, H'. rewrite H in H'. injection H' as -> ->. auto. Qed.
Print Assumptions command_line_unique.

(** All paths can be given: behind [--], whatever they are; and directly, if they are not taken for options. *)
Theorem any_paths : forall paths, Forall (fun p => p <> []) paths ->
  command_line (name "--" :: paths) paths [] /\ (Forall plain paths -> command_line paths paths []).
Proof.
  intros paths F. split; [exists [], []; split; [constructor|]; split; [reflexivity|]; right; exists paths; auto|]. intros P.
  assert (H : written_all (map Device paths) paths /\ devices_of (map Device paths) = paths /\ outputs_of (map Device paths) = []).
  { clear F. induction P as [|p paths P _ (H1 & H2 & H3)]; [repeat split; constructor|]. cbn [map]. split; [exact (written_cons (Device p) [p] _ _ (written_device p P) H1)|].
    split; [cbn; now f_equal|exact H3]. }
  destruct H as (H1 & H2 & H3). exists (map Device paths), paths. rewrite H2, H3. auto.
Qed.
Print Assumptions any_paths.

(** What the program prints depends on the devices alone: whatever outputs are asked for, it does what it does without them, and
    that is what C72 and C118 say about the devices in their order. *)
Theorem outputs_ignored : forall pol open order order' args d t, command_line args d t ->
  program pol open order order' args = Some (main_program pol open order order' d) /\
  program pol open order order' args = program pol open order order' (name "--" :: d).
Proof.
  intros pol open order order' args d t H. assert (N : Forall (fun p => p <> []) d).
  { destruct H as (items & front & W & _ & H). assert (G : Forall (fun p => p <> []) (devices_of items)).
    { clear - W. induction W as [|i a items args Wi _ IH]; [constructor|]. destruct i; [|exact IH]. inversion Wi as [p P| | | | |]; subst. constructor; [apply P|exact IH]. }
    destruct H as [[_ ->]|(more & _ & F & ->)]; [exact G|now apply Forall_app]. }
  pose proof (proj1 (any_paths d N)) as A. apply options_read in H, A. unfold program. rewrite H, A. split; reflexivity.
Qed.
Print Assumptions outputs_ignored.

(** So it always prints something, if each path is a block device or is refused: the refused paths, or a diagnosis; or the parser
    of the command line does. *)
Theorem program_total : forall pol open order order' args,
  (forall p, (exists e, refused open p e) \/ (exists c bs, is_device open p c bs)) -> len args <= u64_max ->
  (exists d t out, command_line args d t /\ program pol open order order' args = Some (Ok out)) \/
  ((forall d t, ~ command_line args d t) /\ program pol open order order' args = None).
Proof.
  intros pol open order order' args A L. destruct (parse_options args) as [[d t]|] eqn:E.
  - left. pose proof E as H. apply options_read in H. exists d, t.
    assert (Ld : len d <= len args).
    { destruct H as (items & front & W & _ & H). assert (G : len (devices_of items) <= len front).
      { clear - W. induction W as [|i a items args Wi _ IH]; [apply N.le_refl|]. rewrite len_app. inversion Wi; subst; cbn [devices_of flat_map app] in *; rewrite ?len_cons; change (@len bytes []) with 0; unfold devices_of in IH; lia. }
      destruct H as [[-> ->]|(more & -> & _ & ->)]; [exact G|]. rewrite !len_app, len_cons. lia. }
    destruct (main_total pol open order order' d ltac:(lia)) as (out & M); [intros p _; apply A|]. exists out. split; [exact H|].
    unfold program. rewrite E. cbn [obind opt_devices]. now rewrite M.
  - right. split; [|unfold program; now rewrite E]. intros d t H. apply options_read in H. congruence.
Qed.
Print Assumptions program_total.

(** ** Examples *)

Example options_ex : command_line (map name ["a"; "-o"; "x"; "--output=-y"; "-"; "-oz"; "--"; "-o"; "--"]%string) (map name ["a"; "-"; "-o"; "--"]%string) (map name ["x"; "-y"; "z"]%string) /\
  (forall d t, ~ command_line (map name ["a"; "--output"; "-x"]%string) d t) /\ (forall d t, ~ command_line (map name ["--help"]%string) d t) /\ (forall d t, ~ command_line [name "a"; []] d t) /\
  command_line [] [] [].
Proof.
  split; [apply options_read; vm_compute; reflexivity|]. do 3 (split; [intros d t H; apply options_read in H; vm_compute in H; discriminate H|]). now apply options_read.
Qed.
Example program_ex : program ex_pol ex_open (fun l => l) (fun l => l) (map name ["-o"; "x"; "d"; "a"; "--output=x"; "--"; "e"; "b"]%string) = Some (Ok (PrErrors [([x64], OsError 2); ([x65], OsError 25)])).
Proof.
  assert (H : command_line (map name ["-o"; "x"; "d"; "a"; "--output=x"; "--"; "e"; "b"]%string) (map name ["d"; "a"; "e"; "b"]%string) (map name ["x"; "x"]%string))
    by (apply options_read; vm_compute; reflexivity).
  rewrite (proj1 (outputs_ignored ex_pol ex_open (fun l => l) (fun l => l) _ _ _ H)). exact (f_equal Some main_failures_ex).
Qed.
