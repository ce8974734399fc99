(** C109: loading with [present] functions that answer differently each time. *)
From Coq Require Import String Lia.
From Verif Require Import SpecMoodLoads MoodLoadProofs MoodLoadWitness Samples.
Open Scope list_scope.
Open Scope Z_scope.

(** If they do not, loading is as elsewhere in this model. *)
Theorem C109_steady E mood n cid ctx t s : (forall t c, mood t c = c) -> well_formed (cls E cid) ->
  snd (t_struct_from_stream E mood n cid ctx [] t s) = struct_from_stream E n cid ctx [] s.
Proof. exact (steady_load E mood n cid ctx t s). Qed.
Print Assumptions C109_steady.
Theorem C109_steady_partial_load E mood n cid last ctx t s : (forall t c, mood t c = c) ->
  snd (t_partial_load E mood n cid last ctx t s) = partial_load E n cid last ctx s.
Proof. exact (steady_partial E mood n cid last ctx t s). Qed.
Print Assumptions C109_steady_partial_load.

(** Whatever they answer, each is asked once, at its turn, and the answer decides whether the field is
    read; what has been read is what is validated and kept, except for discarded fields. *)
Theorem C109_asked_once E mood n cid ctx t s s' vals : well_formed (cls E cid) ->
  snd (t_struct_from_stream E mood n cid ctx [] t s) = (s', Ok vals)
  <-> exists d, taken_in_turn E mood n ctx t (k_comps (cls E cid)) [] s d s' /\ validated E n cid d
        /\ vals = filter (fun kv => negb (discarded (k_comps (cls E cid)) (fst kv))) d.
Proof. exact (struct_taken E mood n cid ctx t s s' vals). Qed.
Print Assumptions C109_asked_once.

Theorem C109_calls E mood n cid ctx t s t' s' vals : well_formed (cls E cid) ->
  t_struct_from_stream E mood n cid ctx [] t s = (t', (s', Ok vals)) -> t' = (t + length (k_comps (cls E cid)))%nat.
Proof. exact (struct_calls E mood n cid ctx t s t' s' vals). Qed.
Print Assumptions C109_calls.

(** Every field gets a value, the data is not changed, and the stream only moves forward. *)
Theorem C109_all_fields E mood n ctx t fs d s d' s' : taken_in_turn E mood n ctx t fs d s d' s' ->
  (exists new, d' = d ++ new /\ dkeys new = map fst fs) /\ forward s s'.
Proof. exact (fun H => conj (taken_values E mood n ctx t fs d s d' s' H) (taken_forward E mood n ctx t fs d s d' s' H)). Qed.
Print Assumptions C109_all_fields.

(** Also when it fails, loading does what it does with the functions as they are, each at its turn. *)
Theorem C109_outcomes E mood n cid ctx t s : well_formed (cls E cid) ->
  snd (t_struct_from_stream E mood n cid ctx [] t s)
  = (ldo results <- load_fields E (do_load E n) n (in_turn mood t (k_comps (cls E cid))) ctx [];
     ldo vals <- llift (struct_init E cid results);
     ldo _ <- llift (validate_contents E n cid vals);
     lret (delete_discard (k_comps (cls E cid)) vals)) s.
Proof. exact (struct_in_turn E mood n cid ctx t s). Qed.
Print Assumptions C109_outcomes.

Theorem C109_partial_load E mood n cid last ctx t s : snd (t_partial_load E mood n cid last ctx t s)
  = (if match last with
        | Some l => match assoc (k_comps (cls E cid)) l with Some _ => false | None => true end
        | None => false
        end
     then (s, Raise EValueErr)
     else (ldo result <- partial_load_fields E n (in_turn mood t (k_comps (cls E cid))) last ctx []; llift (struct_init E cid result)) s).
Proof. exact (partial_load_in_turn E mood n cid last ctx t s). Qed.
Print Assumptions C109_partial_load.

(** Unlike what is dumped (C98_validated_refuted), what is loaded has been accepted by all validators. *)
Theorem C109_accepted E mood n cid ctx t s s' vals name f v vs : well_formed (cls E cid) ->
  snd (t_struct_from_stream E mood n cid ctx [] t s) = (s', Ok vals) -> In (name, f) (k_comps (cls E cid)) ->
  dget vals name = Some v -> In (name, vs) (k_fvals (cls E cid)) ->
  accepts (conf f) v /\ exists d, vals = filter (fun kv => negb (discarded (k_comps (cls E cid)) (fst kv))) d
    /\ Forall (fun q => run_struct E n cid d (q v) = Ok tt) vs /\ Forall (fun q => run_struct E n cid d q = Ok tt) (k_svals (cls E cid)).
Proof. exact (taken_accepted E mood n cid ctx t s s' vals name f v vs). Qed.
Print Assumptions C109_accepted.

(** But the same data need not give the same values again, nor need they be dumped as the same data. *)
Theorem C109_same_load_refuted :
  ~ (forall E mood n cid ctx t t' s, moody mood -> well_formed (cls E cid) ->
       snd (t_struct_from_stream E mood n cid ctx [] t s) = snd (t_struct_from_stream E mood n cid ctx [] t' s)).
Proof. exact same_load_refuted. Qed.
Print Assumptions C109_same_load_refuted.
Theorem C109_same_bytes_refuted :
  ~ (forall E mood n cid ctx t t' data vals out, moody mood -> well_formed (cls E cid) ->
       t_struct_from_stream E mood n cid ctx [] t (mkStream data 0) = (t', (mkStream data (length data), Ok vals)) ->
       t_struct_to_stream E mood n cid vals ctx t' = (out, Ok tt) -> out = data).
Proof. exact same_bytes_refuted. Qed.
Print Assumptions C109_same_bytes_refuted.

(** The hypotheses can be met. *)
Example C109_shy : moody shy_mood /\ well_formed (cls shy_env 0)
  /\ t_struct_from_stream shy_env shy_mood 5 0 VNone [] 0 (mkStream [1; 2] 0)
     = (2%nat, (mkStream [1; 2] 2, Ok [("x"%string, VInt 1); ("y"%string, VInt 2)]))
  /\ t_struct_from_stream shy_env shy_mood 5 0 VNone [] 2 (mkStream [1; 2] 0)
     = (4%nat, (mkStream [1; 2] 1, Ok [("x"%string, VNotPresent); ("y"%string, VInt 1)]))
  /\ snd (t_struct_from_stream shy_env shy_mood 5 0 VNone [] 0 (mkStream [0; 2] 0)) = (mkStream [0; 2] 2, Raise (EValidation None))
  /\ t_partial_load shy_env shy_mood 5 0 None VNone 2 (mkStream [1] 0) = (4%nat, (mkStream [1] 1, Ok [("x"%string, VNotPresent); ("y"%string, VInt 1)])).
Proof.
  destruct shy_loads as (H1 & H2 & H3 & H4 & _).
  exact (conj shy_moody (conj shy_wf (conj H1 (conj H2 (conj H3 H4))))).
Qed.
