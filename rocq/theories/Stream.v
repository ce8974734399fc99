(** Input streams and /repo/binobj/helpers.py.

    A stream is an [io.BytesIO] opened for reading: its contents and the position.
    The position may lie beyond the end (BytesIO allows seeking there). *)
From Verif Require Export PyInt.

Record stream := mkStream { s_data : list Z; s_pos : nat }.

Definition rest (s : stream) : list Z := skipn (s_pos s) (s_data s).

(** [stream.tell()] *)
Definition tell (s : stream) : Z := Z.of_nat (s_pos s).

(** [stream.seek(p)] (absolute): ValueError for a negative target. *)
Definition seek (s : stream) (p : Z) : stream * res unit :=
  if p <? 0 then (s, Raise EValueErr)
  else (mkStream (s_data s) (Z.to_nat p), Ok tt).

(** [stream.seek(n, os.SEEK_CUR)] with [n >= 0] *)
Definition advance (s : stream) (n : nat) : stream :=
  mkStream (s_data s) (s_pos s + n).

(** [stream.read(n)]: at most [n] bytes; everything that is left if [n < 0]. *)
Definition read (s : stream) (n : Z) : list Z * stream :=
  let k := if n <? 0 then length (rest s)
           else Z.to_nat (Z.min n (Z.of_nat (length (rest s)))) in
  (firstn k (rest s), advance s k).

(** Loaders: the stream after the call (also when it raises) and the outcome. *)
Definition loader (A : Type) := stream -> stream * res A.

Definition lret {A} (a : A) : loader A := fun s => (s, Ok a).
Definition lraise {A} (e : exn) : loader A := fun s => (s, Raise e).
Definition llift {A} (r : res A) : loader A := fun s => (s, r).
Definition lbind {A B} (m : loader A) (k : A -> loader B) : loader B :=
  fun s => match m s with
           | (s', Ok a) => k a s'
           | (s', Raise e) => (s', Raise e)
           | (s', OOF) => (s', OOF)
           end.
Notation "'ldo' x <- m ; k" := (lbind m (fun x => k))
  (at level 200, x pattern, m at level 100, k at level 200, right associativity).

(** helpers.py:19-52 [read_int].  [endian] is already resolved (helpers.py:44-45 replaces
    None by [sys.byteorder]).  [field=None] in the error. *)
Definition read_int (n : Z) (signed : bool) (e : endian) : loader Z := fun s =>
  let offset := tell s in
  let '(data, s') := read s n in
  if zlen data <? n then (s', Raise (EUnexpectedEOF None n offset))
  else (s', Ok (py_from_bytes data e signed)).

(** Dumpers: bytes appended to the stream (also when it raises) and the outcome. *)
Definition dumped (A : Type) := (list Z * res A)%type.

Definition dret {A} (a : A) : dumped A := ([], Ok a).
Definition draise {A} (e : exn) : dumped A := ([], Raise e).
(** [stream.write(bs)] *)
Definition dwrite (bs : list Z) : dumped unit := (bs, Ok tt).
Definition dlift {A} (r : res A) : dumped A := ([], r).
Definition dbind {A B} (m : dumped A) (k : A -> dumped B) : dumped B :=
  match m with
  | (out, Ok a) => let '(out', r) := k a in (out ++ out', r)
  | (out, Raise e) => (out, Raise e)
  | (out, OOF) => (out, OOF)
  end.
Notation "'ddo' x <- m ; k" := (dbind m (fun x => k))
  (at level 200, x pattern, m at level 100, k at level 200, right associativity).

(** helpers.py:55-88 [write_int] ([endian] already resolved). *)
Definition write_int (v n : Z) (signed : bool) (e : endian) : dumped unit :=
  ddo bs <- dlift (py_to_bytes v n e signed); dwrite bs.

(** helpers.py:91-108 [iter_bytes], driven to exhaustion: the list of one-byte strings it
    yields and the stream afterwards.  The generator is modelled by the state of its loop:
    [iter_next] is one [next()] call with [n_read] bytes yielded so far. *)
Definition iter_next (max_bytes : option Z) (n_read : Z) (s : stream)
  : option (Z * stream) :=
  if match max_bytes with None => true | Some m => n_read <? m end then
    let '(this_byte, s') := read s 1 in
    match this_byte with
    | b :: _ => Some (b, s')
    | [] => None
    end
  else None.

(** All the bytes [iter_bytes] yields.  [fuel] bounds the loop; [None] if it is exhausted. *)
Fixpoint iter_bytes_all (fuel : nat) (max_bytes : option Z) (n_read : Z) (s : stream)
  : option (list Z * stream) :=
  match fuel with
  | O => None
  | S fuel' =>
    match iter_next max_bytes n_read s with
    | None => Some ([], s)
    | Some (b, s') =>
      match iter_bytes_all fuel' max_bytes (n_read + 1) s' with
      | None => None
      | Some (bs, s'') => Some (b :: bs, s'')
      end
    end
  end.

(** helpers.py:111-126 [peek_bytes]; the [finally: stream.seek(here)] restores the
    position (it cannot fail: [here] is a valid position). *)
Definition peek_bytes (count : Z) (short_read_okay : bool) : loader (list Z) := fun s =>
  let '(data, _) := read s count in
  if negb short_read_okay && (zlen data <? count) then (s, Raise EEOF)
  else (s, Ok data).
