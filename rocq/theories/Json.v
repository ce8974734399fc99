(** What becomes of a value that is written with Python's [json.dumps] and read with [json.loads], both
    with default arguments.  binobj does not use [json] itself; its change log (docs/source/CHANGELOG.rst,
    0.2.1) says that [Struct.to_dict] (structures.py:401-442) gives something that can be written so.
    The functions describe CPython's standard library; both halves are in one function because
    [json.loads] accepts everything that [json.dumps] writes. *)
From Verif Require Export StructModel.

(** [sys.get_int_max_str_digits()] is 4300: [int.__repr__] refuses longer numbers. *)
Definition digit_limit : Z := 10 ^ 4300.

(** [json.loads] makes every ["NaN"] the same float. *)
Definition json_nan : Z := 9221120237041090560.
Definition json_float (bits : Z) : Z :=
  match classify binary64 bits with FNan => json_nan | _ => bits end.

(** json/decoder.py [py_scanstring]: an escaped high surrogate followed by an escaped low one is one
    character. *)
Definition high_surrogate (cp : Z) : bool := (55296 <=? cp) && (cp <=? 56319).
Definition low_surrogate (cp : Z) : bool := (56320 <=? cp) && (cp <=? 57343).
Fixpoint json_text (s : list Z) : list Z :=
  match s with
  | [] => []
  | hi :: r =>
    match r with
    | lo :: r' =>
      if high_surrogate hi && low_surrogate lo
      then (65536 + (hi - 55296) * 1024 + (lo - 56320)) :: json_text r'
      else hi :: json_text r
    | [] => [hi]
    end
  end.

(** [json.loads(json.dumps(v))]; json/encoder.py [JSONEncoder.default] raises TypeError for everything
    that is not of the types below. *)
Fixpoint json_round (v : value) : res value :=
  match v with
  | VNone => Ok VNone
  | VInt z => if Z.abs z <? digit_limit then Ok (VInt z) else Raise EValueErr
  | VFloat bits => Ok (VFloat (json_float bits))
  | VStr s => Ok (VStr (json_text s))
  | VList l =>
    do l' <- (fix go (l : list value) : res (list value) :=
                match l with
                | [] => Ok []
                | x :: l => do x' <- json_round x; do l' <- go l; Ok (x' :: l')
                end) l;
    Ok (VList l')
  | VDict d =>
    do d' <- (fix go (d : dict) : res dict :=
                match d with
                | [] => Ok []
                | (k, x) :: d => do x' <- json_round x; do d' <- go d; Ok ((k, x') :: d')
                end) d;
    Ok (VDict d')
  | _ => Raise ETypeErr
  end.
