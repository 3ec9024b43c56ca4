(** Model of the text that the program prints: [{:#?}] of a [Diagnosis], and the lines for paths that cannot be used.

    The derived [Debug] implementations are written out type by type; the builders that they use
    ([Formatter::debug_struct] and its relatives, with the flag [#]) are those of the standard library
    (core/src/fmt/builders.rs). *)

From Coq Require Import Strings.String Permutation.
From Verif Require Import Base Raid Io Superblock Device Array Ext4String Main.

(** A string literal. *)
Definition lit (s : string) : bytes := String.list_byte_of_string s.
Arguments lit s%string_scope.

(** ** Numbers *)

Definition digit_char (n : N) : byte := byte_of (if n <? 10 then 48 + n else 87 + n).
Definition upper_digit_char (n : N) : byte := byte_of (if n <? 10 then 48 + n else 55 + n).
Fixpoint numeral (base : N) (fuel : nat) (n : N) : bytes :=
  match fuel with
  | O => []
  | S fuel => if n <? base then [digit_char n] else numeral base fuel (n / base) ++ [digit_char (n mod base)]
  end.
(** [Debug] of unsigned integers; [{:x}]; [{:02X}] of a byte. *)
Definition debug_uint (n : N) : bytes := numeral 10 (S (N.to_nat (N.log2 n))) n.
Definition lower_hex (n : N) : bytes := numeral 16 (S (N.to_nat (N.log2 n))) n.
Definition upper_hex_byte (b : byte) : bytes := [upper_digit_char (bval b / 16); upper_digit_char (bval b mod 16)].

(** ** Builders (core/src/fmt/builders.rs) *)

Definition newline : byte := x0a.

(** [PadAdapter]: four spaces at the start of every line.  How the text is cut into calls of [write_str] does not matter. *)
Fixpoint pad (on_newline : bool) (s : bytes) : bytes :=
  match s with
  | [] => []
  | c :: s => (if on_newline then lit "    " else []) ++ c :: pad (Byte.eqb c newline) s
  end.

(** [DebugTuple] with at least one field, [DebugStruct] with at least one field. *)
Definition debug_tuple (name : bytes) (fields : list bytes) : bytes :=
  name ++ lit "(" ++ [newline] ++ flat_map (fun v => pad true (v ++ lit "," ++ [newline])) fields ++ lit ")".
Definition debug_struct (name : bytes) (fields : list (bytes * bytes)) : bytes :=
  name ++ lit " {" ++ [newline] ++ flat_map (fun '(f, v) => pad true (f ++ lit ": " ++ v ++ lit "," ++ [newline])) fields ++ lit "}".
(** [DebugInner], which is [DebugList] and [DebugSet], and [DebugMap]. *)
Definition debug_inner (open close : bytes) (items : list bytes) : bytes :=
  open ++ match items with [] => [] | _ => [newline] end ++ flat_map (fun v => pad true (v ++ lit "," ++ [newline])) items ++ close.
Definition debug_list (items : list bytes) : bytes := debug_inner (lit "[") (lit "]") items.
Definition debug_set (items : list bytes) : bytes := debug_inner (lit "{") (lit "}") items.
Definition debug_map (items : list (bytes * bytes)) : bytes :=
  lit "{" ++ match items with [] => [] | _ => [newline] end ++
  flat_map (fun '(k, v) => pad true (k ++ lit ": " ++ v ++ lit "," ++ [newline])) items ++ lit "}".

Definition debug_option {A} (f : A -> bytes) (o : option A) : bytes :=
  match o with None => lit "None" | Some a => debug_tuple (lit "Some") [f a] end.

(** ** [Debug] of [OsString] on Unix (core/src/str/lossy.rs, [Utf8Chunks::debug])

    [plain] says which characters [char::escape_debug] leaves as they are (printable ones that do not extend a grapheme);
    it depends on the tables of Unicode characters and is a parameter. *)
Definition escape_debug (plain : N -> bool) (v : N) (raw : bytes) : bytes :=
  if v =? 0x00 then lit "\0" else if v =? 0x09 then lit "\t" else if v =? 0x0d then lit "\r" else if v =? 0x0a then lit "\n"
  else if v =? 0x5c then lit "\\" else if v =? 0x22 then [x5c; x22] else if v =? 0x27 then lit "\'"
  else if plain v then raw else lit "\u{" ++ lower_hex v ++ lit "}".
Definition escape_byte (b : byte) : bytes := lit "\x" ++ upper_hex_byte b.

(** The characters of a string, and the bytes that belong to none. *)
Fixpoint debug_os_inner (plain : N -> bool) (bs : bytes) : bytes :=
  match bs with
  | [] => []
  | b0 :: t0 =>
      match utf8_width b0, t0 with
      | 1, _ => escape_debug plain (bval b0) [b0] ++ debug_os_inner plain t0
      | 2, b1 :: t1 =>
          if continuation b1 then
            escape_debug plain ((bval b0 - 0xc0) * 64 + (bval b1 - 0x80)) [b0; b1] ++ debug_os_inner plain t1
          else escape_byte b0 ++ debug_os_inner plain t0
      | 3, b1 :: t1 =>
          if second_of_three b0 b1 then
            match t1 with
            | b2 :: t2 =>
                if continuation b2 then
                  escape_debug plain ((bval b0 - 0xe0) * 4096 + (bval b1 - 0x80) * 64 + (bval b2 - 0x80)) [b0; b1; b2] ++
                  debug_os_inner plain t2
                else escape_byte b0 ++ escape_byte b1 ++ debug_os_inner plain t1
            | [] => escape_byte b0 ++ escape_byte b1 ++ debug_os_inner plain t1
            end
          else escape_byte b0 ++ debug_os_inner plain t0
      | 4, b1 :: t1 =>
          if second_of_four b0 b1 then
            match t1 with
            | b2 :: t2 =>
                if continuation b2 then
                  match t2 with
                  | b3 :: t3 =>
                      if continuation b3 then
                        escape_debug plain
                          ((bval b0 - 0xf0) * 262144 + (bval b1 - 0x80) * 4096 + (bval b2 - 0x80) * 64 + (bval b3 - 0x80))
                          [b0; b1; b2; b3] ++ debug_os_inner plain t3
                      else escape_byte b0 ++ escape_byte b1 ++ escape_byte b2 ++ debug_os_inner plain t2
                  | [] => escape_byte b0 ++ escape_byte b1 ++ escape_byte b2 ++ debug_os_inner plain t2
                  end
                else escape_byte b0 ++ escape_byte b1 ++ debug_os_inner plain t1
            | [] => escape_byte b0 ++ escape_byte b1 ++ debug_os_inner plain t1
            end
          else escape_byte b0 ++ debug_os_inner plain t0
      | _, _ => escape_byte b0 ++ debug_os_inner plain t0
      end
  end.
Definition debug_os (plain : N -> bool) (s : bytes) : bytes := [x22] ++ debug_os_inner plain s ++ [x22].

(** ** Derived implementations *)

Section Debug.
  Variable plain : N -> bool.
  (** The identifiers by their index: the sets and lists of a [Diagnosis] hold references to identifiers. *)
  Variable ids : list device_id.

  (** src/md/device/id.rs 6-10. *)
  Definition debug_device_id (i : device_id) : bytes :=
    debug_struct (lit "MdDeviceId")
      [(lit "internal_index", debug_uint (id_index i)); (lit "user_reference", debug_option (debug_os plain) (id_reference i))].
  Definition id_at (i : N) : device_id :=
    match find (fun d => id_index d =? i) ids with Some d => d | None => DeviceId i None end.
  (** [Rc<MdDeviceId>]. *)
  Definition debug_rc (i : N) : bytes := debug_device_id (id_at i).

  (** src/md/superblock/array_uuid.rs 6-10; an array of bytes is a list of numbers. *)
  Definition debug_u8s (b : bytes) : bytes := debug_list (map (fun x => debug_uint (bval x)) b).
  Definition debug_uuid (u : array_uuid) : bytes :=
    match u with
    | UuidShort b => debug_tuple (lit "Short") [debug_u8s b]
    | UuidLong b => debug_tuple (lit "Long") [debug_u8s b]
    end.

  (** src/md/raid5/algorithm.rs 3-17. *)
  Definition debug_raid5 (a : raid5_alg) : bytes :=
    match a with
    | R5LeftAsymmetric => lit "LeftAsymmetric"
    | R5RightAsymmetric => lit "RightAsymmetric"
    | R5LeftSymmetric => lit "LeftSymmetric"
    | R5RightSymmetric => lit "RightSymmetric"
    | R5Parity0 => lit "Parity0"
    | R5ParityN => lit "ParityN"
    end.
  (** src/md/raid6/algorithm.rs 5-35. *)
  Definition debug_raid6 (a : raid6_alg) : bytes :=
    match a with
    | R6LeftAsymmetric => lit "LeftAsymmetric"
    | R6RightAsymmetric => lit "RightAsymmetric"
    | R6LeftSymmetric => lit "LeftSymmetric"
    | R6RightSymmetric => lit "RightSymmetric"
    | R6Parity0 => lit "Parity0"
    | R6ParityN => lit "ParityN"
    | R6Rotating0Restart => lit "Rotating0Restart"
    | R6RotatingNRestart => lit "RotatingNRestart"
    | R6RotatingNContinue => lit "RotatingNContinue"
    | R6LeftAsymmetric6 => lit "LeftAsymmetric6"
    | R6RightAsymmetric6 => lit "RightAsymmetric6"
    | R6LeftSymmetric6 => lit "LeftSymmetric6"
    | R6RightSymmetric6 => lit "RightSymmetric6"
    | R6Parity06 => lit "Parity06"
    end.
  (** src/md/algorithm.rs 6-11. *)
  Definition debug_algorithm (a : md_algorithm) : bytes :=
    match a with
    | AlgUnsupported level layout => debug_struct (lit "Unsupported") [(lit "level", debug_uint level); (lit "layout", debug_uint layout)]
    | AlgRaid5 a => debug_tuple (lit "Raid5") [debug_raid5 a]
    | AlgRaid6 a => debug_tuple (lit "Raid6") [debug_raid6 a]
    end.

  (** src/md/units/sector_count.rs 7-11, sector_number.rs 9-11, device_count.rs 5-9, metadata_event_count.rs 5-9 and
      src/md/superblock/role.rs 5-6. *)
  Definition debug_sector_count (n : N) : bytes := debug_tuple (lit "SectorCount") [debug_uint n].
  Definition debug_sector_number (n : N) : bytes := debug_tuple (lit "SectorNumber") [debug_uint n].
  Definition debug_device_count (n : N) : bytes := debug_tuple (lit "DeviceCount") [debug_uint n].
  Definition debug_event_count (n : N) : bytes := debug_tuple (lit "MetadataEventCount") [debug_uint n].
  Definition debug_role (n : N) : bytes := debug_tuple (lit "MdDeviceRole") [debug_uint n].

  (** src/md/superblock/reshape_status.rs 4-11. *)
  Definition debug_reshape (r : reshape_status) : bytes :=
    debug_struct (lit "ReshapeStatus")
      [(lit "new_algorithm", debug_algorithm (rs_algorithm r)); (lit "reshape_position", debug_sector_number (rs_position r));
       (lit "delta_devices", debug_device_count (rs_delta_devices r)); (lit "new_chunk_size", debug_sector_count (rs_chunk_size r));
       (lit "new_offset", debug_uint (rs_offset r))].

  (** [HashSet<Rc<MdDeviceId>>] and [HashMap<K, Vec<Rc<MdDeviceId>>>], in the order of the list. *)
  Definition debug_ids (l : list N) : bytes := debug_set (map debug_rc l).
  Definition debug_by {K} (f : K -> bytes) (l : list (K * list N)) : bytes :=
    debug_map (map (fun '(k, l) => (f k, debug_list (map debug_rc l))) l).

  (** src/md/diagnosis/diagnosis.rs 9-23. *)
  Definition debug_diagnosis (d : diagnosis) : bytes :=
    debug_struct (lit "Diagnosis")
      [(lit "device_too_small_problem", debug_option debug_ids (dg_too_small d));
       (lit "missing_superblock_problem", debug_option debug_ids (dg_missing d));
       (lit "array_uuid_problem", debug_option (debug_by debug_uuid) (dg_uuid d));
       (lit "array_name_problem", debug_option (debug_by (debug_os plain)) (dg_name d));
       (lit "algorithm_problem", debug_option (debug_by debug_algorithm) (dg_algorithm d));
       (lit "size_problem", debug_option (debug_by debug_sector_count) (dg_size d));
       (lit "chunk_size_problem", debug_option (debug_by debug_sector_count) (dg_chunk_size d));
       (lit "device_count_problem", debug_option (debug_by debug_device_count) (dg_device_count d));
       (lit "reshape_problem", debug_option (debug_by (debug_option debug_reshape)) (dg_reshape d));
       (lit "event_count_problem", debug_option (debug_by debug_event_count) (dg_event_count d));
       (lit "device_role_index_problem", debug_option (debug_by debug_uint) (dg_role_index d));
       (lit "device_roles_problem", debug_option (debug_by (fun l => debug_list (map debug_role l))) (dg_roles d))].
End Debug.

(** ** src/main.rs 37-46 *)

(** [Display] of [io::Error]: [strerror] is the text of the operating system for an error number; the other kinds are the
    texts of [io::ErrorKind].  ([UnexpectedEof] is not among the errors of [open_path]; that of [read_exact] has another text.) *)
Definition display_error (strerror : N -> bytes) (e : ekind) : bytes :=
  match e with
  | InvalidInput => lit "invalid input parameter"
  | InvalidData => lit "invalid data"
  | UnexpectedEof => lit "unexpected end of file"
  | Unsupported => lit "unsupported"
  | OsError n => strerror n ++ lit " (os error " ++ debug_uint n ++ lit ")"
  end.

(** [os_display::Quotable::maybe_quote] is the parameter [quote]. *)
Definition stdout (plain : N -> bool) (strerror : N -> bytes) (quote : bytes -> bytes) (p : printed) : bytes :=
  match p with
  | PrDiagnosis ids d => debug_diagnosis plain ids d ++ [newline]
  | PrErrors l => flat_map (fun '(path, e) => quote path ++ lit ": " ++ display_error strerror e ++ [newline]) l
  end.

(** Hash sets and hash maps are printed in the order of their iteration, which is any. *)
Definition reordered {A} (a b : option (list A)) : Prop :=
  match a, b with None, None => True | Some a, Some b => Permutation a b | _, _ => False end.
Definition iterated (d d' : diagnosis) : Prop :=
  reordered (dg_too_small d) (dg_too_small d') /\ reordered (dg_missing d) (dg_missing d') /\
  reordered (dg_uuid d) (dg_uuid d') /\ reordered (dg_name d) (dg_name d') /\
  reordered (dg_algorithm d) (dg_algorithm d') /\ reordered (dg_size d) (dg_size d') /\
  reordered (dg_chunk_size d) (dg_chunk_size d') /\ reordered (dg_device_count d) (dg_device_count d') /\
  reordered (dg_reshape d) (dg_reshape d') /\ reordered (dg_event_count d) (dg_event_count d') /\
  reordered (dg_role_index d) (dg_role_index d') /\ reordered (dg_roles d) (dg_roles d').
Definition prints (plain : N -> bool) (strerror : N -> bytes) (quote : bytes -> bytes) (p : printed) (out : bytes) : Prop :=
  match p with
  | PrDiagnosis ids d => exists d', iterated d d' /\ out = stdout plain strerror quote (PrDiagnosis ids d')
  | PrErrors _ => out = stdout plain strerror quote p
  end.
