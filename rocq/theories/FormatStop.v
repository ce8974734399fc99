(** Dumps that stop at a field, and whole WAV files. *)
From Verif Require Export FormatMore VarintsMore.
From Coq Require Import String ZArith List Lia.
Import ListNotations.
Open Scope string_scope.
Open Scope list_scope.
Open Scope Z_scope.

Lemma dump_fields_stop E n ctx d pre : forall nf post parts v e,
  Forall2 (field_part E n ctx d) pre parts ->
  run_dict d (compute_value_for_dump (conf (snd nf)) ctx) = Ok v -> v <> VNotPresent ->
  field_to_stream E n (snd nf) v ctx d = ([], Raise e) ->
  dump_fields (do_dump E n) (pre ++ nf :: post) ctx d = (concat parts, Raise e).
Proof.
  induction pre as [|[nm0 f0] pre IH]; intros [nm f] post parts v e Hp Hv Hne Hf; inversion Hp; subst.
  - cbn [app dump_fields concat snd] in *. rewrite Hv, dbind_ok.
    replace (is_not_present v) with false by (destruct v; cbn; congruence).
    unfold field_to_stream in Hf. rewrite Hf. reflexivity.
  - cbn [app dump_fields concat]. destruct H1 as (w & Hw & Hor). cbn [snd] in *. rewrite Hw, dbind_ok.
    specialize (IH (nm, f) post _ v e H3 Hv Hne Hf). destruct Hor as [[-> ->]|[Hwn Hwf]].
    + cbn [is_not_present]. rewrite dbind_dret. exact IH.
    + replace (is_not_present w) with false by (destruct w; cbn; congruence).
      unfold field_to_stream in Hwf. rewrite Hwf. cbn [dbind]. rewrite IH. reflexivity.
Qed.

Lemma dump_stop E n cid vals ctx all pre nf post parts v e : validated E n cid vals ->
  to_dict E n cid vals false = Ok all -> k_comps (cls E cid) = pre ++ nf :: post ->
  Forall2 (field_part E n ctx all) pre parts ->
  run_dict all (compute_value_for_dump (conf (snd nf)) ctx) = Ok v -> v <> VNotPresent ->
  field_to_stream E n (snd nf) v ctx all = ([], Raise e) ->
  struct_to_stream E n cid vals ctx = (concat parts, Raise e).
Proof.
  intros Hv Ha Hk Hp Hr Hne Hf. unfold struct_to_stream, struct_to_stream_with.
  apply validate_contents_iff in Hv. rewrite Hv, dbind_ok, Ha, dbind_ok. unfold comps. rewrite Hk.
  eapply dump_fields_stop; eauto.
Qed.

Lemma raise_more E n m cid vals ctx bs e : struct_to_stream E n cid vals ctx = (bs, Raise e) -> (n <= m)%nat ->
  struct_to_stream E m cid vals ctx = (bs, Raise e).
Proof.
  intros H Hle. pose proof (struct_to_stream_mono E n m cid vals ctx Hle) as Hm. rewrite H in Hm.
  destruct Hm as [Hm|Hm]; [discriminate|auto].
Qed.

(** More audio than the size field can say. *)
Lemma wav_too_long audio n ctx : 2 ^ 32 <= zlen audio -> (5 <= n)%nat ->
  struct_to_stream WAV n 2 [("audio_data", VBytes audio)] ctx = (text "data", Raise (EUnserializable (Some "size"))).
Proof.
  intros Hlen Hn. apply (raise_more _ 5); auto. change (text "data") with (concat [text "data"]).
  eapply (dump_stop _ _ _ _ _ [("audio_data", VBytes audio); ("chunk_id", VBytes (text "data")); ("size", VInt (zlen audio))]
            [("chunk_id", Field (cf "chunk_id" (bv "data") false (SInt 4) None 0 (Some 0)) KBytes)]).
  - valid wav_data_is.
  - reflexivity.
  - rewrite wav_data_is. reflexivity.
  - constructor; [|constructor]. put.
  - reflexivity.
  - discriminate.
  - cbn [snd]. rewrite (LeafProofs.int_to_stream _ _ _ _ _ 4); [|reflexivity|exact (Forall_nil _)].
    destruct (py_to_bytes (zlen audio) 4 Little false) as [bs| |] eqn:Hb; [|reflexivity|reflexivity].
    apply int_form_iff in Hb. destruct Hb as (Hz & _ & Hi & _). rewrite Hz in Hi. unfold int_range in Hi.
    change (8 * 4) with 32 in Hi. lia.
Qed.

(** ** A whole file: the three structs one after another *)

Lemma wav_file size format channels rate bits audio h f d n ctx pre suf :
  pieces (wav_header_pieces size) h ->
  pieces (wav_format_pieces format channels rate (rate * channels * bits / 8) (channels * bits / 8) bits) f ->
  pieces (wav_data_pieces audio) d -> bytes_ok (h ++ f ++ d ++ suf) -> (9 <= n)%nat ->
  struct_to_stream WAV n 0 [("size", VInt size)] ctx = (h, Ok tt)
  /\ struct_to_stream WAV n 1 [("audio_format", VInt format); ("n_channels", VInt channels); ("sample_rate", VInt rate);
                               ("bits_per_sample", VInt bits)] ctx = (f, Ok tt)
  /\ struct_to_stream WAV n 2 [("audio_data", VBytes audio)] ctx = (d, Ok tt)
  /\ exists s1 s2, struct_from_stream WAV n 0 ctx [] (at_data pre (h ++ f ++ d) suf) = (s1, Ok (wav_header_values size))
     /\ struct_from_stream WAV n 1 ctx [] s1
        = (s2, Ok (wav_format_values format channels rate (rate * channels * bits / 8) (channels * bits / 8) bits))
     /\ struct_from_stream WAV n 2 ctx [] s2 = (after_data pre (h ++ f ++ d) suf, Ok (wav_data_values audio)).
Proof.
  intros Hh Hf Hd Hb Hn. split; [apply (wav_header_written size); auto; lia|].
  split; [apply wav_format_written; auto|]. split; [apply (wav_data_written audio); auto; lia|].
  assert (Hr : next_bytes (at_data pre (h ++ f ++ d) suf) (h ++ f ++ d) (after_data pre (h ++ f ++ d) suf)).
  { rewrite next_iff, <- advance_at, (rest_advance_app _ _ suf) by apply rest_at. rewrite rest_at. auto. }
  apply next_app in Hr. destruct Hr as (s1 & H1 & Hr). apply next_app in Hr. destruct Hr as (s2 & H2 & H3).
  assert (B0 : bytes_ok (rest (at_data pre (h ++ f ++ d) suf))) by (rewrite rest_at, <- !app_assoc; auto).
  destruct (next_ok _ _ _ H1 B0) as [_ B1]. destruct (next_ok _ _ _ H2 B1) as [_ B2].
  destruct n as [|n]; [lia|]. exists s1, s2. split; [|split].
  - apply wav_header_read; eauto.
  - apply wav_format_read; eauto 12.
  - apply wav_data_read; eauto.
Qed.

Lemma pieces_range ps : Forall sizes_ok ps -> (exists bs, pieces ps bs) <-> Forall in_range ps.
Proof.
  intros Hs. split; [|apply pieces_ex; auto]. intros [bs H]. induction H as [|p ps b bs Hp _ IH]; [constructor|].
  inversion Hs; subst. constructor; auto. destruct p as [k z|k z|raw]; cbn in *; auto.
  - destruct Hp as [Hz (_ & Hi & _)]. rewrite Hz in Hi. auto.
  - destruct Hp as [Hz (_ & Hi & _)]. rewrite Hz in Hi. auto.
Qed.
