(** Words for text in any encoding (C104). *)
From Verif Require Export SpecCustom Encodings.

(** For these bytes, one at a time, the decoder gives out these pieces of text. *)
Inductive gives (co : coding) : co_state co -> list Z -> list (list Z) -> co_state co -> Prop :=
| gives_nil st : gives co st [] [] st
| gives_cons st b out st1 bs outs st2 : co_step co st b = Ok (out, st1) -> gives co st1 bs outs st2 ->
    gives co st (b :: bs) (out :: outs) st2.

(** The bytes a StringZ field may look at. *)
Definition allowed (lim : option Z) (data : list Z) : list Z :=
  match lim with None => data | Some m => firstn (Z.to_nat m) data end.

(** The limit is the size of the field, if it can be told. *)
Definition limit_is (c : fconf) (co : coding) (d : dict) (lim : option Z) : Prop :=
  match lim with
  | Some m => x_get_expected_size c co true d = Ok m
  | None => exists name, x_get_expected_size c co true d = Raise (EUndefinedSize name)
  end.

(** The field has no size and no default, and its value is not known yet. *)
Definition no_limit (c : fconf) (d : dict) : Prop :=
  c_size c = SNone /\ default_of c = Ok VUndefined /\ oget d (c_name c) = None.

(** The field has this size. *)
Definition of_size (c : fconf) (d : dict) (n : Z) : Prop :=
  match c_size c with SInt m => n = m | SRef name => dget d name = Some (VInt n) | SNone => False end.

(** Each character has its own bytes, which are recognised as soon as they are complete. *)
Definition own_bytes (enc : Z -> option (list Z)) (dec : list Z -> word) : Prop :=
  forall cp w, enc cp = Some w ->
    w <> [] /\ dec w = WChar cp /\ forall p q, w = p ++ q -> p <> [] -> q <> [] -> dec p = WMore.

(** No character is listed twice, and none of the byte strings is the beginning of another. *)
Definition starts (a b : list Z) : Prop := exists r, b = a ++ r.
Fixpoint prefix_free (t : list (Z * list Z)) : Prop :=
  match t with
  | [] => True
  | e :: t' => snd e <> [] /\ (forall e', In e' t' -> fst e' <> fst e /\ ~ starts (snd e) (snd e') /\ ~ starts (snd e') (snd e))
               /\ prefix_free t'
  end.

(** RFC 2152: characters that are written as they are. *)
Definition as_is (cp : Z) : Prop := cp = 9 \/ cp = 10 \/ cp = 13 \/ 32 <= cp <= 125 /\ cp <> 43 /\ cp <> 92.

(** The last character, not counting plus signs, is written as it is. *)
Inductive plain_end : list Z -> Prop :=
| plain_nil : plain_end []
| plain_char t cp : as_is cp -> plain_end (t ++ [cp])
| plain_plus t : plain_end t -> plain_end (t ++ [43]).

Definition unicode (cp : Z) : Prop := 0 <= cp <= 1114111 /\ ~ 55296 <= cp <= 57343.
Definition without_nul (t : list Z) : Prop := Forall (fun cp => cp <> 0) t.

(** In this data the text ends after [n] bytes: with the first piece that is nothing but a NUL. *)
Definition finds (co : coding) (st : co_state co) (data t : list Z) (n : nat) : Prop :=
  (exists bs suf outs st', data = bs ++ suf /\ gives co st bs (outs ++ [[0]]) st' /\ ~ In [0] outs
     /\ t = concat outs /\ n = length bs)
  \/ (exists outs st', gives co st data outs st' /\ ~ In [0] outs /\ co_stop co st' = Ok [0]
     /\ t = concat outs /\ n = length data).
