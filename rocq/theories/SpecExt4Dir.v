(** Specification of directories: blocks as sequences of records, their encoding, and what listing them must give. *)

From Verif Require Import Base SpecMd SpecCrc.

(** ** A record: inode number, length of the record, length of the name, type, name *)
Definition rec_inode (e : bytes) : N := uint_le e 0 4.
Definition rec_length (e : bytes) : N := uint_le e 4 2.
Definition rec_name_length (e : bytes) : N := uint_le e 6 1.
Definition rec_type (e : bytes) : N := uint_le e 7 1.
Definition rec_name (e : bytes) : bytes := window e 8 (rec_name_length e).

(** [e] is the record at offset [o] of a block whose first [limit] bytes are for records. *)
Definition record_at (b : bytes) (limit o : N) (e : bytes) : Prop :=
  e = window b o (rec_length (window b o 8)) /\ o + 8 <= limit /\
  8 + rec_name_length (window b o 8) <= rec_length (window b o 8) /\ o + rec_length (window b o 8) <= limit.

(** [records b limit o es]: from offset [o] on the block has the records [es], one behind the other, and no record behind
    them. *)
Inductive records (b : bytes) (limit : N) : N -> list bytes -> Prop :=
| records_end o : (forall e, ~ record_at b limit o e) -> records b limit o []
| records_cons o e es : record_at b limit o e -> records b limit (o + len e) es -> records b limit o (e :: es).

(** ** Checksums: the last twelve bytes of a block look like an unused record and hold the checksum of the rest.
    Without a seed there are no checksums. *)
Definition dir_limit (seed : option N) (b : bytes) : N := match seed with Some _ => len b - 12 | None => len b end.
Definition dir_tail_ok (seed : option N) (b : bytes) : Prop :=
  match seed with
  | None => True
  | Some sd =>
      let o := len b - 12 in
      uint_le b o 4 = 0 /\ uint_le b (o + 4) 2 = 12 /\ uint_le b (o + 6) 1 = 0 /\ uint_le b (o + 7) 1 = 0xde /\
      is_crc sd (bits_of (window b 0 o)) (uint_le b (o + 8) 4)
  end.

(** ** Encoding a list of files *)
Record dirent : Type := Dirent { de_inode : N; de_name : bytes; de_type : byte }.

(** Each file with as many zero bytes of padding as its record shall have. *)
Definition encode_record (d : dirent * N) : bytes :=
  let '(Dirent ino name ty, pad) := d in
  to_le 4 ino ++ to_le 2 (8 + len name + pad) ++ to_le 1 (len name) ++ [ty] ++ name ++ zeros pad.
Definition dirent_ok (d : dirent * N) : Prop :=
  let '(Dirent ino name ty, pad) := d in
  ino < 2 ^ 32 /\ len name <= 255 /\ ~ In x00 name /\ 8 + len name + pad < 2 ^ 16.
(** The tail for a checksum. *)
Definition encode_tail (checksum : N) : bytes := to_le 4 0 ++ to_le 2 12 ++ to_le 1 0 ++ [xde] ++ to_le 4 checksum.

(** ** What listing a directory gives, from the results of reading the blocks of its file *)
Inductive listing (seed : option N) (bs : N)
  : list (bytes * bytes * res N) -> list (res (option bytes)) -> Prop :=
| listing_stop calls : listing seed bs calls []
| listing_block buf b calls es rs :
    dir_tail_ok seed b -> records b (dir_limit seed b) 0 es -> listing seed bs calls rs ->
    listing seed bs ((buf, b, Ok bs) :: calls) (map (fun e => Ok (Some e)) es ++ rs)
| listing_part buf b calls es more :
    dir_tail_ok seed b -> records b (dir_limit seed b) 0 (es ++ more) ->
    listing seed bs ((buf, b, Ok bs) :: calls) (map (fun e => Ok (Some e)) es)
| listing_bad buf b calls rs :
    ~ dir_tail_ok seed b -> listing seed bs calls rs -> listing seed bs ((buf, b, Ok bs) :: calls) (Err InvalidData :: rs)
| listing_short buf b k calls rs :
    k <> 0 -> k <> bs -> listing seed bs calls rs ->
    listing seed bs ((buf, b, Ok k) :: calls) (Err InvalidData :: rs)
| listing_error buf b e calls rs :
    listing seed bs calls rs -> listing seed bs ((buf, b, Err e) :: calls) (Err e :: rs)
| listing_end buf b calls n : listing seed bs ((buf, b, Ok 0) :: calls) (repeat (Ok None) n)
| listing_panic buf b : listing seed bs [(buf, b, Panic)] [Panic].
