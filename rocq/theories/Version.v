(** /repo/binobj/__init__.py: version numbers.  Text is ASCII (a list of code points); the
    interpreter's limit on the length of numerals is not modelled. *)
From Verif Require Export Uuid FieldModel.
Open Scope Z_scope.

(** __init__.py:15-21 *)
Record version := mkVersion { major : Z; minor : Z; patch : Z; suffix : option (list Z) }.

(** [s.partition(sep)] for a one-character separator: what is before and after the first one. *)
Fixpoint partition (sep : Z) (s : list Z) : list Z * list Z :=
  match s with
  | [] => ([], [])
  | ch :: s' => if ch =? sep then ([], s')
                else let '(before, after) := partition sep s' in (ch :: before, after)
  end.

(** [s.split(sep)] for a one-character separator: the first piece and the others. *)
Fixpoint split (sep : Z) (s : list Z) : list Z * list (list Z) :=
  match s with
  | [] => ([], [])
  | ch :: s' => let '(piece, pieces) := split sep s' in
                if ch =? sep then ([], piece :: pieces) else (ch :: piece, pieces)
  end.

(** Decimal digits with single underscores between them. *)
Fixpoint dec_value (s : list Z) (acc : Z) (prev_digit : bool) : option Z :=
  match s with
  | [] => if prev_digit then Some acc else None
  | ch :: s' =>
    if ch =? 95 then (if prev_digit then dec_value s' acc false else None)
    else if (48 <=? ch) && (ch <=? 57) then dec_value s' (acc * 10 + (ch - 48)) true
    else None
  end.

(** [int(s)]: optional whitespace and sign. *)
Definition int_base10 (s : list Z) : res Z :=
  let s := strip is_space s in
  let '(neg, s) := match s with
                   | 43 :: s' => (false, s')
                   | 45 :: s' => (true, s')
                   | _ => (false, s)
                   end in
  match dec_value s 0 false with
  | Some v => Ok (if neg then - v else v)
  | None => Raise EValueErr
  end.

(** __init__.py:23-29 [VersionInfo.from_string]; the unpacking of too few pieces is a
    ValueError. *)
Definition version_of_string (s : list Z) : res version :=
  let '(base_version, suffix) := partition 45 s in
  match split 46 base_version with
  | (_, []) => Raise EValueErr
  | (ma, mi :: possibly_patch) =>
    let pa := match possibly_patch with p :: _ => p | [] => [48] end in
    do ma <- int_base10 ma;
    do mi <- int_base10 mi;
    do pa <- int_base10 pa;
    Ok (mkVersion ma mi pa (match suffix with [] => None | _ => Some suffix end))
  end.

(** __init__.py:31-36 [VersionInfo.__str__] *)
Definition version_text (v : version) : list Z :=
  let base := int_text (major v) ++ [46] ++ int_text (minor v) ++ [46] ++ int_text (patch v) in
  match suffix v with
  | Some (ch :: s) => base ++ [45] ++ ch :: s
  | _ => base
  end.
