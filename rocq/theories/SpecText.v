(** Specification of how to read the text of a diagnosis: a reader for the notation of Rust values that knows nothing of
    how they were laid out, and the value that stands for a diagnosis. *)

From Coq Require Import Strings.String.
From Verif Require Import Base Raid Superblock Device Array SpecExt4String.

(** ** Tokens *)

Inductive token : Type :=
| TWord (w : bytes)  (** a name or a number *)
| TText (s : bytes)  (** a quoted text, without quotes and escapes *)
| TSign (c : byte).  (** any other character *)

Definition between (lo c hi : N) : bool := (lo <=? c) && (c <=? hi).
Definition decimal_digit (c : byte) : bool := between 48 (bval c) 57.
Definition word_char (c : byte) : bool :=
  decimal_digit c || between 65 (bval c) 90 || between 97 (bval c) 122 || (bval c =? 95).
Definition blank (c : byte) : bool := (bval c =? 32) || (bval c =? 10).
Definition hex_value (c : byte) : option N :=
  if decimal_digit c then Some (bval c - 48)
  else if between 65 (bval c) 70 then Some (bval c - 55)
  else if between 97 (bval c) 102 then Some (bval c - 87)
  else None.

(** [s] is what follows the opening quote: the bytes that it says, up to the closing quote, and the rest.  [u] is the value so
    far of a character that is given by its number. *)
Fixpoint unquote (u : option N) (s : bytes) : option (bytes * bytes) :=
  let next p r := let* (t, rest) := unquote None r in Some (p ++ t, rest) in
  match u, s with
  | Some v, c :: r =>
      if bval c =? 125 then next (encode_char v) r  (* closing brace *)
      else let* d := hex_value c in unquote (Some (16 * v + d)) r
  | None, x22 :: r => Some ([], r)
  | None, x5c :: c :: r =>  (* backslash *)
      match c with
      | x30 => next [x00] r
      | x74 => next [x09] r
      | x72 => next [x0d] r
      | x6e => next [x0a] r
      | x5c => next [x5c] r
      | x22 => next [x22] r
      | x27 => next [x27] r
      | x78 => match r with
               | h :: l :: r => let* h := hex_value h in let* l := hex_value l in next [byte_of (16 * h + l)] r
               | _ => None
               end
      | x75 => match r with
               | x7b :: r => unquote (Some 0) r
               | _ => None
               end
      | _ => None
      end
  | None, c :: r => next [c] r
  | _, [] => None
  end.

(** The word at the start of a text. *)
Fixpoint word (s : bytes) : bytes * bytes :=
  match s with
  | c :: r => if word_char c then let '(w, r) := word r in (c :: w, r) else ([], s)
  | [] => ([], [])
  end.

Fixpoint tokens (fuel : nat) (s : bytes) : option (list token) :=
  match fuel, s with
  | O, _ => None
  | _, [] => Some []
  | S fuel, c :: r =>
      if blank c then tokens fuel r
      else if word_char c then let '(w, r) := word s in let* ts := tokens fuel r in Some (TWord w :: ts)
      else if bval c =? 34 then
        let* (t, r) := unquote None r in let* ts := tokens fuel r in Some (TText t :: ts)
      else let* ts := tokens fuel r in Some (TSign c :: ts)
  end.

(** ** Values *)

Inductive value : Type :=
| VNumber (n : N)
| VName (w : bytes)
| VText (s : bytes)
| VTuple (w : bytes) (fields : list value)
| VRecord (w : bytes) (fields : list (bytes * value))
| VList (items : list value)
| VSet (items : list value)
| VMap (items : list (value * value)).

(** A word that starts with a digit is a number. *)
Fixpoint horner (acc : N) (w : bytes) : option N :=
  match w with
  | [] => Some acc
  | c :: w => if decimal_digit c then horner (10 * acc + (bval c - 48)) w else None
  end.
Definition of_word (w : bytes) : option value :=
  match w with
  | c :: _ => if decimal_digit c then let* n := horner 0 w in Some (VNumber n) else Some (VName w)
  | [] => None
  end.

(** The sign [c] is next. *)
Definition sign (c : byte) (ts : list token) : option (list token) :=
  match ts with TSign d :: r => if Byte.eqb c d then Some r else None | _ => None end.

(** [item] reads one item; a list of them has a comma behind each, up to [close]. *)
Fixpoint items {A} (item : list token -> option (A * list token)) (close : byte) (fuel : nat) (ts : list token)
  : option (list A * list token) :=
  match fuel with
  | O => None
  | S fuel =>
      match sign close ts with
      | Some r => Some ([], r)
      | None =>
          let* (a, r) := item ts in
          let* r := sign x2c r in
          let* (l, r) := items item close fuel r in Some (a :: l, r)
      end
  end.

(** A name, a colon and what [v] reads; a value, perhaps with a colon and another. *)
Definition named {A} (v : list token -> option (A * list token)) (ts : list token) : option ((bytes * A) * list token) :=
  match ts with
  | TWord f :: r => let* r := sign x3a r in let* (a, r) := v r in Some ((f, a), r)
  | _ => None
  end.
Definition entry {A} (v : list token -> option (A * list token)) (ts : list token) : option ((A * option A) * list token) :=
  let* (k, r) := v ts in
  match sign x3a r with
  | Some r => let* (a, r) := v r in Some ((k, Some a), r)
  | None => Some ((k, None), r)
  end.

(** Braces without a name: a map if every entry has two parts (and there is an entry), a set if none has. *)
Definition braces (l : list (value * option value)) : option value :=
  if forallb (fun '(_, v) => match v with Some _ => false | None => true end) l then Some (VSet (map fst l))
  else if forallb (fun '(_, v) => match v with Some _ => true | None => false end) l
       then Some (VMap (flat_map (fun '(k, v) => match v with Some v => [(k, v)] | None => [] end) l))
       else None.

Fixpoint parse (fuel : nat) (ts : list token) : option (value * list token) :=
  match fuel with
  | O => None
  | S fuel =>
      match ts with
      | [] => None
      | TText s :: r => Some (VText s, r)
      | TWord w :: r =>
          match sign x28 r, sign x7b r with
          | Some r, _ => let* (l, r) := items (parse fuel) x29 fuel r in Some (VTuple w l, r)
          | _, Some r => let* (l, r) := items (named (parse fuel)) x7d fuel r in Some (VRecord w l, r)
          | None, None => let* v := of_word w in Some (v, r)
          end
      | TSign _ :: _ =>
          match sign x5b ts, sign x7b ts with
          | Some r, _ => let* (l, r) := items (parse fuel) x5d fuel r in Some (VList l, r)
          | _, Some r => let* (l, r) := items (entry (parse fuel)) x7d fuel r in let* v := braces l in Some (v, r)
          | None, None => None
          end
      end
  end.

(** A text that is one value, with blanks in any places. *)
Definition read_text (s : bytes) : option value :=
  let* ts := tokens (S (length s)) s in
  let* (v, r) := parse (S (length ts)) ts in
  match r with [] => Some v | _ => None end.

(** ** The value that stands for a diagnosis *)

Definition name (s : string) : bytes := String.list_byte_of_string s.
Arguments name s%string_scope.

Definition v_option {A} (f : A -> value) (o : option A) : value :=
  match o with None => VName (name "None") | Some a => VTuple (name "Some") [f a] end.
Definition v_unit (w : bytes) (n : N) : value := VTuple w [VNumber n].

(** A member is named by the number of its argument and by the argument. *)
Definition v_member (reference : N -> option bytes) (i : N) : value :=
  VRecord (name "MdDeviceId") [(name "internal_index", VNumber i); (name "user_reference", v_option VText (reference i))].
Definition v_uuid (u : array_uuid) : value :=
  let bytes b := VList (map (fun x => VNumber (bval x)) b) in
  match u with UuidShort b => VTuple (name "Short") [bytes b] | UuidLong b => VTuple (name "Long") [bytes b] end.

Definition raid5_name (a : raid5_alg) : bytes :=
  match a with
  | R5LeftAsymmetric => name "LeftAsymmetric" | R5RightAsymmetric => name "RightAsymmetric"
  | R5LeftSymmetric => name "LeftSymmetric" | R5RightSymmetric => name "RightSymmetric"
  | R5Parity0 => name "Parity0" | R5ParityN => name "ParityN"
  end.
Definition raid6_name (a : raid6_alg) : bytes :=
  match a with
  | R6LeftAsymmetric => name "LeftAsymmetric" | R6RightAsymmetric => name "RightAsymmetric"
  | R6LeftSymmetric => name "LeftSymmetric" | R6RightSymmetric => name "RightSymmetric"
  | R6Parity0 => name "Parity0" | R6ParityN => name "ParityN"
  | R6Rotating0Restart => name "Rotating0Restart" | R6RotatingNRestart => name "RotatingNRestart"
  | R6RotatingNContinue => name "RotatingNContinue" | R6LeftAsymmetric6 => name "LeftAsymmetric6"
  | R6RightAsymmetric6 => name "RightAsymmetric6" | R6LeftSymmetric6 => name "LeftSymmetric6"
  | R6RightSymmetric6 => name "RightSymmetric6" | R6Parity06 => name "Parity06"
  end.
Definition v_algorithm (a : md_algorithm) : value :=
  match a with
  | AlgUnsupported level layout => VRecord (name "Unsupported") [(name "level", VNumber level); (name "layout", VNumber layout)]
  | AlgRaid5 a => VTuple (name "Raid5") [VName (raid5_name a)]
  | AlgRaid6 a => VTuple (name "Raid6") [VName (raid6_name a)]
  end.
Definition v_reshape (r : reshape_status) : value :=
  VRecord (name "ReshapeStatus")
    [(name "new_algorithm", v_algorithm (rs_algorithm r)); (name "reshape_position", v_unit (name "SectorNumber") (rs_position r));
     (name "delta_devices", v_unit (name "DeviceCount") (rs_delta_devices r));
     (name "new_chunk_size", v_unit (name "SectorCount") (rs_chunk_size r)); (name "new_offset", VNumber (rs_offset r))].

(** An empty map cannot be told from an empty set. *)
Definition v_map (l : list (value * value)) : value := match l with [] => VSet [] | _ => VMap l end.
Definition v_groups {K} (f : K -> value) (reference : N -> option bytes) (l : list (K * list N)) : value :=
  v_map (map (fun '(k, l) => (f k, VList (map (v_member reference) l))) l).

(** The twelve questions that a diagnosis answers, each under its name. *)
Definition v_diagnosis (reference : N -> option bytes) (d : diagnosis) : value :=
  let members l := VSet (map (v_member reference) l) in
  VRecord (name "Diagnosis")
    [(name "device_too_small_problem", v_option members (dg_too_small d));
     (name "missing_superblock_problem", v_option members (dg_missing d));
     (name "array_uuid_problem", v_option (v_groups v_uuid reference) (dg_uuid d));
     (name "array_name_problem", v_option (v_groups VText reference) (dg_name d));
     (name "algorithm_problem", v_option (v_groups v_algorithm reference) (dg_algorithm d));
     (name "size_problem", v_option (v_groups (v_unit (name "SectorCount")) reference) (dg_size d));
     (name "chunk_size_problem", v_option (v_groups (v_unit (name "SectorCount")) reference) (dg_chunk_size d));
     (name "device_count_problem", v_option (v_groups (v_unit (name "DeviceCount")) reference) (dg_device_count d));
     (name "reshape_problem", v_option (v_groups (v_option v_reshape) reference) (dg_reshape d));
     (name "event_count_problem", v_option (v_groups (v_unit (name "MetadataEventCount")) reference) (dg_event_count d));
     (name "device_role_index_problem", v_option (v_groups VNumber reference) (dg_role_index d));
     (name "device_roles_problem", v_option (v_groups (fun l => VList (map (v_unit (name "MdDeviceRole")) l)) reference) (dg_roles d))].

(** ** Lines *)

(** The lines of a text, without the line ends. *)
Fixpoint lines (s : bytes) : list bytes :=
  match s with
  | [] => []
  | c :: r =>
      if bval c =? 10 then [] :: lines r
      else match lines r with [] => [[c]] | l :: ls => (c :: l) :: ls end
  end.

(** ** What a diagnosis is about *)

(** The twelve questions, and whether there is a problem. *)
Definition questions (d : diagnosis) : list (bytes * bool) :=
  let some {A} (o : option A) := match o with Some _ => true | None => false end in
  [(name "device_too_small_problem", some (dg_too_small d)); (name "missing_superblock_problem", some (dg_missing d));
   (name "array_uuid_problem", some (dg_uuid d)); (name "array_name_problem", some (dg_name d));
   (name "algorithm_problem", some (dg_algorithm d)); (name "size_problem", some (dg_size d));
   (name "chunk_size_problem", some (dg_chunk_size d)); (name "device_count_problem", some (dg_device_count d));
   (name "reshape_problem", some (dg_reshape d)); (name "event_count_problem", some (dg_event_count d));
   (name "device_role_index_problem", some (dg_role_index d)); (name "device_roles_problem", some (dg_roles d))].

(** The members that it names. *)
Definition in_set (o : option (list N)) (i : N) : Prop := match o with Some l => In i l | None => False end.
Definition in_groups {K} (o : option (list (K * list N))) (i : N) : Prop :=
  match o with Some l => exists k m, In (k, m) l /\ In i m | None => False end.
Definition names_member (d : diagnosis) (i : N) : Prop :=
  in_set (dg_too_small d) i \/ in_set (dg_missing d) i \/ in_groups (dg_uuid d) i \/ in_groups (dg_name d) i \/
  in_groups (dg_algorithm d) i \/ in_groups (dg_size d) i \/ in_groups (dg_chunk_size d) i \/ in_groups (dg_device_count d) i \/
  in_groups (dg_reshape d) i \/ in_groups (dg_event_count d) i \/ in_groups (dg_role_index d) i \/ in_groups (dg_roles d) i.

(** ** Quoting of paths

    What is assumed of it: it stays on one line, and a colon and a blank behind it show where it ends. *)
Definition quoting (quote : bytes -> bytes) : Prop :=
  (forall p, Forall (fun c => bval c <> 10) (quote p)) /\
  (forall p p' r r', quote p ++ name ": " ++ r = quote p' ++ name ": " ++ r' -> p = p').
