(** Byte order marks and code pages, without the decoders. *)
From Verif Require Export SpecField.
Open Scope Z_scope.

(** The encodings that use a byte order mark: the mark, and the encoding of what follows it.
    "utf-16" and "utf-32" understand the marks of both byte orders. *)
Inductive marked_as : codec -> list Z -> codec -> Prop :=
| marked_utf8 : marked_as Utf8Sig [239; 187; 191] Utf8
| marked_utf16_le : forall e, marked_as (Utf16Bom e) [255; 254] (Utf16 Little)
| marked_utf16_be : forall e, marked_as (Utf16Bom e) [254; 255] (Utf16 Big)
| marked_utf32_le : forall e, marked_as (Utf32Bom e) [255; 254; 0; 0] (Utf32 Little)
| marked_utf32_be : forall e, marked_as (Utf32Bom e) [0; 0; 254; 255] (Utf32 Big).

(** The encoding it is on this machine, apart from the mark. *)
Definition unmarked (cd : codec) : codec :=
  match cd with Utf8Sig => Utf8 | Utf16Bom e => Utf16 e | Utf32Bom e => Utf32 e | _ => cd end.

(** The encodings of either byte order. *)
Definition two_orders (cd : codec) : Prop :=
  match cd with Utf16Bom _ | Utf32Bom _ => True | _ => False end.

(** A text whose first character cannot be taken for a mark. *)
Definition no_mark_first (t : list Z) : Prop :=
  hd_error t <> Some 65279 /\ hd_error t <> Some 65534.

(** The size of the null-terminated text is not limited. *)
Definition unlimited (c : fconf) (d : dict) : Prop :=
  c_size c = SNone /\ c_factory c = None /\ c_default c = VUndefined /\ oget d (c_name c) = None.

(** [p] is all the field gets to read: the data end there, or its size is used up. *)
Definition cut_after (c : fconf) (d : dict) (s : stream) (p : list Z) : Prop :=
  (rest s = p /\ unlimited c d)
  \/ (exists m, declared_size c d m /\ zlen p <= m /\ rest s = p)
  \/ (declared_size c d (zlen p) /\ exists more, rest s = p ++ more).

(** The characters of the bytes of a code page: NUL, then those of the table. *)
Definition assigned (t : list (option Z)) (b cp : Z) : Prop :=
  nth_error (Some 0 :: firstn 255 t) (Z.to_nat b) = Some (Some cp) /\ 0 <= b.
