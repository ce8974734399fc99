(** The cpio entries of the examples. *)
From Verif Require Export FormatMore.
From Verif Require Import TimeProofs SpecNum.
From Coq Require Import String ZArith List Lia Bool.
Import ListNotations.
Open Scope string_scope.
Open Scope list_scope.
Open Scope Z_scope.

(** A two-byte field with a default. *)
Definition word (name : string) (default : Z) (i off : Z) : string * field :=
  (name, Field (mkConf (Some name) VUndefined (VInt default) None false VUndefined (SInt 2) [] (fun _ _ => QRet true)
                  VNotPresent None (Some i) (Some off)) (KInt false Little)).

Definition time_conf : fconf :=
  mkConf (Some "modified_time") VUndefined VUndefined (Some (inl NOW)) false VUndefined (SInt 4) [] (fun _ _ => QRet true)
    VNotPresent None (Some 8) (Some 16).

Definition padding_conf : fconf :=
  mkConf (Some "_filename_padding") (hv "00") (hv "00") None true VUndefined (SInt 1) [] odd_name VNotPresent None
    (Some 12) None.

Definition cpio_class : classdef :=
  mkClass "CPIOFileHeader"
    [("magic", Field (cf "magic" (VInt 29127) true (SInt 2) None 0 (Some 0)) (KInt false Little));
     word "device_id" 0 1 2; word "inumber" 0 2 4; word "mode" 420 3 6; word "owner_uid" 0 4 8;
     word "owner_gid" 0 5 10; word "n_links" 0 6 12; word "device_version" 0 7 14;
     ("modified_time", Field time_conf (KTime ResS true true Little));
     ("name_size", Field (cf "name_size" VUndefined false (SInt 2) (Some name_size) 9 (Some 20)) (KInt false Little));
     ("file_size", Field (cf "file_size" VUndefined false (SInt 4) (Some (length_of "data")) 10 (Some 22)) (KInt false Little));
     ("filename", Field (cf "filename" VUndefined false SNone None 11 (Some 26)) (KStringZ Utf8 None));
     ("_filename_padding", Field padding_conf KBytes);
     ("data", Field (cf "data" VUndefined false (SRef "file_size") None 13 None) KBytes)]
    [("magic", []); ("device_id", []); ("inumber", []); ("mode", []); ("owner_uid", []); ("owner_gid", []);
     ("n_links", []); ("device_version", []); ("modified_time", []); ("name_size", []); ("file_size", []);
     ("filename", []); ("_filename_padding", []); ("data", [])] [] 14 [("endian", Little)].

Lemma cpio_is : cls CPIO 0 = cpio_class.
Proof. reflexivity. Qed.

Lemma encode_name t name : encode Utf8 t = Ok name -> encode Utf8 (t ++ [0]) = Ok (name ++ [0]).
Proof. intros H. apply (encode_app Utf8 t [0] name [0]); auto. Qed.

Definition name_conf : fconf := cf "name_size" VUndefined false (SInt 2) (Some name_size) 9 (Some 20).

(** Asking for the size of the name. *)
Lemma run_name_size mem get keys ctx t name : mem "name_size" = false -> get "filename" = Ok (VStr t) ->
  encode Utf8 t = Ok name ->
  run_q mem get keys (compute_value_for_dump name_conf ctx) = Ok (VInt (zlen name + 1)).
Proof.
  intros Hm Hg He. apply encode_name in He. unfold compute_value_for_dump, stored_or_fallback.
  cbn [name_conf cf c_name]. cbn [qbind run_q]. rewrite Hm. unfold fallback_value.
  cbn [name_conf cf c_default c_compute c_present is_undefined negb]. unfold name_size. cbn [qbind run_q]. rewrite Hg, He.
  cbn [qbind is_not_present c_present negb is_undefined run_q]. unfold zlen. rewrite app_length. do 2 f_equal. cbn [length]. lia.
Qed.

Lemma get_name_size vals t name n : struct_mem vals "name_size" = false -> dget vals "name_size" = None ->
  dget vals "filename" = Some (VStr t) -> encode Utf8 t = Ok name ->
  struct_get CPIO (S (S n)) 0 vals "name_size" = Ok (VInt (zlen name + 1)).
Proof.
  intros Hm Hn Hf He.
  change (struct_get CPIO (S (S n)) 0 vals "name_size") with
    (match dget vals "name_size" with
     | Some v => Ok v
     | None => run_q (struct_mem vals) (struct_get CPIO (S n) 0 vals) (struct_keys vals) (compute_value_for_dump name_conf VNone)
     end).
  rewrite Hn. apply (run_name_size _ _ _ _ t); auto.
  change (struct_get CPIO (S n) 0 vals "filename") with
    (match dget vals "filename" with
     | Some v => Ok v
     | None => run_q (struct_mem vals) (struct_get CPIO n 0 vals) (struct_keys vals)
                 (compute_value_for_dump (cf "filename" VUndefined false SNone None 11 (Some 26)) VNone)
     end).
  rewrite Hf. auto.
Qed.

(** The padding. *)
Definition padding (name : list Z) : list Z := if Z.odd (zlen name + 1) then [0] else [].
Definition padding_value (name : list Z) : value := if Z.odd (zlen name + 1) then VBytes [0] else VNotPresent.

Lemma odd_mod z : (z mod 2 =? 1) = Z.odd z.
Proof. rewrite Zmod_odd. destruct (Z.odd z); reflexivity. Qed.

Lemma run_padding mem get keys ctx k : mem "_filename_padding" = false -> get "name_size" = Ok (VInt k) ->
  run_q mem get keys (compute_value_for_dump padding_conf ctx) = Ok (if Z.odd k then VBytes [0] else VNotPresent).
Proof.
  intros Hm Hg. unfold compute_value_for_dump, stored_or_fallback.
  cbn [padding_conf c_name]. cbn [qbind run_q]. rewrite Hm. unfold fallback_value.
  change (c_default padding_conf) with (VBytes [0]). cbn [is_undefined negb]. unfold default_query.
  cbn [padding_conf c_factory c_present]. change (c_default padding_conf) with (VBytes [0]).
  cbn [qbind is_not_present]. unfold odd_name. cbn [qbind run_q]. rewrite Hg, odd_mod. cbn [qbind].
  destruct (Z.odd k); reflexivity.
Qed.

Lemma possible_cons E n cid vals nm f fs dct v : run_struct E n cid vals (compute_value_for_dump (conf f) VNone) = Ok v ->
  possible_values E n cid vals ((nm, f) :: fs) dct = possible_values E n cid vals fs (dset dct (cname f) v).
Proof. intros H. cbn [possible_values]. rewrite H. auto. Qed.

Ltac possible := erewrite possible_cons; [|reflexivity]; cbn [dset cname conf c_name name_of cf].

Lemma to_dict_minimal s data t name : encode Utf8 t = Ok name ->
  to_dict CPIO 5 0 (cpio_minimal s data t) false
  = Ok (cpio_minimal s data t ++
        [("device_id", VInt 0); ("inumber", VInt 0); ("mode", VInt 420); ("owner_uid", VInt 0); ("owner_gid", VInt 0);
         ("n_links", VInt 0); ("device_version", VInt 0); ("name_size", VInt (zlen name + 1)); ("file_size", VInt (zlen data))]).
Proof.
  intros He. unfold to_dict, to_dict_whatever_possible, comps. rewrite cpio_is.
  assert (Hp : possible_values CPIO 5 0 (cpio_minimal s data t) (k_comps cpio_class) []
    = Ok [("magic", VInt 29127); ("device_id", VInt 0); ("inumber", VInt 0); ("mode", VInt 420); ("owner_uid", VInt 0); ("owner_gid", VInt 0);
         ("n_links", VInt 0); ("device_version", VInt 0); ("modified_time", VTime (s * 1000000) true);
         ("name_size", VInt (zlen name + 1)); ("file_size", VInt (zlen data)); ("filename", VStr t);
         ("_filename_padding", padding_value name); ("data", VBytes data)]).
  { cbn [k_comps cpio_class]. unfold word. do 9 possible.
    erewrite possible_cons; [|apply (run_name_size _ _ _ _ t name); [reflexivity|reflexivity|exact He]]. cbn [dset cname conf c_name name_of cf].
    do 2 possible.
    erewrite possible_cons; [|apply (run_padding _ _ _ _ (zlen name + 1)); [reflexivity|]; apply (get_name_size _ t name); [reflexivity|reflexivity|reflexivity|exact He]].
    cbn [dset cname conf c_name name_of padding_conf]. 
    possible. reflexivity. }
  rewrite Hp. reflexivity.
Qed.

Lemma to_dict_given e t name : encode Utf8 t = Ok name ->
  to_dict CPIO 5 0 (cpio_given e t) false
  = Ok (cpio_given e t ++ [("name_size", VInt (zlen name + 1)); ("file_size", VInt (zlen (e_contents e)))]).
Proof.
  intros He. unfold to_dict, to_dict_whatever_possible, comps. rewrite cpio_is.
  assert (Hp : possible_values CPIO 5 0 (cpio_given e t) (k_comps cpio_class) []
    = Ok [("magic", VInt 29127); ("device_id", VInt (e_device e)); ("inumber", VInt (e_inumber e)); ("mode", VInt (e_mode e));
         ("owner_uid", VInt (e_uid e)); ("owner_gid", VInt (e_gid e)); ("n_links", VInt (e_links e));
         ("device_version", VInt (e_version e)); ("modified_time", VTime (e_seconds e * 1000000) true);
         ("name_size", VInt (zlen name + 1)); ("file_size", VInt (zlen (e_contents e))); ("filename", VStr t);
         ("_filename_padding", padding_value name); ("data", VBytes (e_contents e))]).
  { cbn [k_comps cpio_class]. unfold word. do 9 possible.
    erewrite possible_cons; [|apply (run_name_size _ _ _ _ t name); [reflexivity|reflexivity|exact He]]. cbn [dset cname conf c_name name_of cf].
    do 2 possible.
    erewrite possible_cons; [|apply (run_padding _ _ _ _ (zlen name + 1)); [reflexivity|]; apply (get_name_size _ t name); [reflexivity|reflexivity|reflexivity|exact He]].
    cbn [dset cname conf c_name name_of padding_conf].
    possible. reflexivity. }
  rewrite Hp. reflexivity.
Qed.

Lemma to_dict_loaded e t k :
  to_dict CPIO 5 0 (cpio_attributes e t k) false = Ok (cpio_attributes e t k).
Proof.
  unfold to_dict, to_dict_whatever_possible, comps. rewrite cpio_is.
  assert (Hp : possible_values CPIO 5 0 (cpio_attributes e t k) (k_comps cpio_class) []
    = Ok [("magic", VInt 29127); ("device_id", VInt (e_device e)); ("inumber", VInt (e_inumber e)); ("mode", VInt (e_mode e));
         ("owner_uid", VInt (e_uid e)); ("owner_gid", VInt (e_gid e)); ("n_links", VInt (e_links e));
         ("device_version", VInt (e_version e)); ("modified_time", VTime (e_seconds e * 1000000) true);
         ("name_size", VInt k); ("file_size", VInt (zlen (e_contents e))); ("filename", VStr t);
         ("_filename_padding", if Z.odd k then VBytes [0] else VNotPresent); ("data", VBytes (e_contents e))]).
  { cbn [k_comps cpio_class]. unfold word. do 12 possible.
    erewrite possible_cons; [|apply (run_padding _ _ _ _ k); reflexivity].
    cbn [dset cname conf c_name name_of padding_conf].
    possible. reflexivity. }
  rewrite Hp. reflexivity.
Qed.

(** What the components see when they are written. *)
Record seen (e : cpio) (t name : list Z) (d : dict) : Prop := {
  n_magic : dget d "magic" = None;
  n_padding : dget d "_filename_padding" = None;
  n_device : dget d "device_id" = Some (VInt (e_device e));
  n_inumber : dget d "inumber" = Some (VInt (e_inumber e));
  n_mode : dget d "mode" = Some (VInt (e_mode e));
  n_uid : dget d "owner_uid" = Some (VInt (e_uid e));
  n_gid : dget d "owner_gid" = Some (VInt (e_gid e));
  n_links : dget d "n_links" = Some (VInt (e_links e));
  n_version : dget d "device_version" = Some (VInt (e_version e));
  n_time : dget d "modified_time" = Some (VTime (e_seconds e * 1000000) true);
  n_name_size : dget d "name_size" = Some (VInt (zlen name + 1));
  n_file_size : dget d "file_size" = Some (VInt (zlen (e_contents e)));
  n_filename : dget d "filename" = Some (VStr t);
  n_data : dget d "data" = Some (VBytes (e_contents e)) }.

Lemma stored_value d c name v ctx : c_name c = Some name -> dget d name = Some v -> v <> VNotPresent -> v <> VUndefined ->
  (forall ctx so, c_present c ctx so = QRet true) -> run_dict d (compute_value_for_dump c ctx) = Ok v.
Proof.
  intros Hn Hg Hv Hu Hp. unfold compute_value_for_dump, stored_or_fallback, run_dict. rewrite Hn. cbn [qbind run_q].
  unfold dmem, dget_res. rewrite Hg. cbn [qbind run_q]. unfold dget_res. rewrite Hg. cbn [qbind].
  replace (is_not_present v) with false by (destruct v; cbn; congruence). rewrite Hp. cbn [qbind negb].
  replace (is_undefined v) with false by (destruct v; cbn; congruence). auto.
Qed.

Lemma signed4_datetime s b aware : zlen b = 4 /\ int_form true Little s b -> is_datetime aware (s * 1000000).
Proof.
  intros [Hz (_ & H & _)]. rewrite Hz in H. unfold int_range in H. unfold is_datetime.
  change (2 ^ (8 * 4 - 1)) with 2147483648 in H. destruct aware; lia.
Qed.

Lemma cpio_parts e t name d bs n ctx : seen e t name d -> encode Utf8 t = Ok name -> pieces (cpio_pieces e name) bs ->
  exists parts, Forall2 (field_part CPIO n ctx d) (k_comps cpio_class) parts /\ bs = concat parts.
Proof.
  intros Hd He Hp. unfold cpio_pieces in Hp. cut_pieces Hp. cbn [k_comps cpio_class].
  assert (Hi : forall nm c z b, c_name c = Some nm -> dget d nm = Some (VInt z) ->
    (forall ctx so, c_present c ctx so = QRet true) -> c_validators c = [] ->
    forall k, c_size c = SInt k -> zlen b = k /\ int_form false Little z b ->
    field_part CPIO n ctx d (nm, Field c (KInt false Little)) b).
  { intros nm c z b' Hn Hg Hpr Hv k Hk Hf. exists (VInt z). cbn [snd conf]. split.
    - apply (stored_value _ _ nm); auto; discriminate.
    - right. split; [discriminate|]. apply (int_writes _ _ _ _ _ k); auto. }
  destruct Hd.
  apply parts_cons.
  { exists (VInt 29127). cbn [snd]. split.
    - unfold compute_value_for_dump, stored_or_fallback, run_dict. cbn [conf cf c_name qbind run_q]. unfold dmem.
      rewrite n_magic0. reflexivity.
    - right. split; [discriminate|]. eapply int_writes; [reflexivity|reflexivity|eassumption]. }
  do 7 (apply parts_cons; [eapply Hi; [reflexivity|eassumption|reflexivity|reflexivity|reflexivity|eassumption]|]).
  apply parts_cons.
  { eexists. cbn [snd]. split.
    - eapply (stored_value _ _ "modified_time"); [reflexivity|exact n_time0|discriminate|discriminate|reflexivity].
    - right. split; [discriminate|].
      rewrite (seconds_stored _ _ time_conf true true Little 4 (e_seconds e) true ctx d eq_refl (Forall_nil _) (Forall_nil _));
        [|eapply signed4_datetime; eassumption].
      eapply int_writes; [reflexivity|reflexivity|eassumption]. }
  do 2 (apply parts_cons; [eapply Hi; [reflexivity|eassumption|reflexivity|reflexivity|reflexivity|eassumption]|]).
  apply parts_cons.
  { eexists. cbn [snd]. split.
    - eapply (stored_value _ _ "filename"); [reflexivity|exact n_filename0|discriminate|discriminate|reflexivity].
    - right. split; [discriminate|]. rewrite stringz_to_stream; [|reflexivity|exact (Forall_nil _)].
      rewrite (encode_name _ _ He). reflexivity. }
  apply parts_cons.
  { exists (padding_value name). cbn [snd]. split.
    - unfold run_dict. cbn [conf]. apply run_padding; unfold dmem, dget_res; [rewrite n_padding0|rewrite n_name_size0]; auto.
    - unfold padding_value. destruct (Z.odd (zlen name + 1)); [|left; auto]. right. split; [discriminate|].
      apply bytes_writes; [reflexivity|]. left. reflexivity. }
  apply parts_cons; [|apply parts_nil].
  eexists. cbn [snd]. split.
  - eapply (stored_value _ _ "data"); [reflexivity|exact n_data0|discriminate|discriminate|reflexivity].
  - right. split; [discriminate|]. apply bytes_writes; [reflexivity|]. right. eexists. split; [reflexivity|]. auto.
Qed.

Lemma get_ok E n cid vals name f v : assoc (comps E cid) name = Some f -> oget vals (name_of f) = Some v ->
  struct_get E n cid vals name = Ok v.
Proof. intros H1 H2. destruct n; cbn [struct_get]; rewrite H1, H2; auto. Qed.

Lemma cpio_valid vals : (forall nm f, In (nm, f) (k_comps cpio_class) -> exists v, struct_get CPIO 5 0 vals nm = Ok v) ->
  validated CPIO 5 0 vals.
Proof.
  intros Hg. unfold validated. rewrite cpio_is. split; [|exact (Forall_nil _)]. intros nm vs Hin.
  assert (vs = [] /\ exists f, assoc (k_comps cpio_class) nm = Some f /\ c_validators (conf f) = [] /\ In (nm, f) (k_comps cpio_class))
    as (-> & f & Ha & Hv & Hf).
  { cbn in Hin. repeat (destruct Hin as [Hin|Hin]; [injection Hin as <- <-; split; [reflexivity|]; eexists; split; [reflexivity|]; split; [reflexivity|]; cbn; auto 20|]). contradiction. }
  destruct (Hg nm f Hf) as [v Hv']. exists f, v. split; [exact Ha|]. split; [exact Hv'|]. split; [unfold accepts; rewrite Hv|]; exact (Forall_nil _).
Qed.

Lemma get_padding vals k n : struct_mem vals "_filename_padding" = false -> dget vals "_filename_padding" = None ->
  struct_get CPIO n 0 vals "name_size" = Ok (VInt k) ->
  exists v, struct_get CPIO (S n) 0 vals "_filename_padding" = Ok v.
Proof.
  intros Hm Hn Hg. eexists.
  change (struct_get CPIO (S n) 0 vals "_filename_padding") with
    (match dget vals "_filename_padding" with
     | Some v => Ok v
     | None => run_q (struct_mem vals) (struct_get CPIO n 0 vals) (struct_keys vals) (compute_value_for_dump padding_conf VNone)
     end).
  rewrite Hn. apply (run_padding _ _ _ _ k); auto.
Qed.

Ltac next_name Hin := destruct Hin as [Hin|Hin]; [injection Hin as <- _|].

Lemma given_valid e t name : encode Utf8 t = Ok name -> validated CPIO 5 0 (cpio_given e t).
Proof.
  intros He. apply cpio_valid. intros nm f Hin. cbn in Hin. do 9 (next_name Hin; [eexists; reflexivity|]).
  next_name Hin. { eexists. apply (get_name_size _ t name); auto. }
  do 2 (next_name Hin; [eexists; reflexivity|]).
  next_name Hin. { eapply get_padding; [reflexivity|reflexivity|]. apply (get_name_size _ t name); auto. }
  next_name Hin; [eexists; reflexivity|]. contradiction.
Qed.

Lemma minimal_valid s data t name : encode Utf8 t = Ok name -> validated CPIO 5 0 (cpio_minimal s data t).
Proof.
  intros He. apply cpio_valid. intros nm f Hin. cbn in Hin. do 9 (next_name Hin; [eexists; reflexivity|]).
  next_name Hin. { eexists. apply (get_name_size _ t name); auto. }
  do 2 (next_name Hin; [eexists; reflexivity|]).
  next_name Hin. { eapply get_padding; [reflexivity|reflexivity|]. apply (get_name_size _ t name); auto. }
  next_name Hin; [eexists; reflexivity|]. contradiction.
Qed.

Lemma loaded_valid e t k : validated CPIO 5 0 (cpio_attributes e t k).
Proof.
  apply cpio_valid. intros nm f Hin. cbn in Hin. do 12 (next_name Hin; [eexists; reflexivity|]).
  next_name Hin. { eapply get_padding; reflexivity. }
  next_name Hin; [eexists; reflexivity|]. contradiction.
Qed.

Lemma cpio_written e t name bs n ctx : encode Utf8 t = Ok name -> pieces (cpio_pieces e name) bs -> (5 <= n)%nat ->
  struct_to_stream CPIO n 0 (cpio_given e t) ctx = (bs, Ok tt)
  /\ struct_to_stream CPIO n 0 (cpio_attributes e t (zlen name + 1)) ctx = (bs, Ok tt).
Proof.
  intros He Hp Hn. split; apply (lift_dump _ 5); auto.
  - eapply dump_parts; [eapply given_valid; eauto|eapply to_dict_given; eauto|].
    rewrite cpio_is. apply (cpio_parts e t name); auto. constructor; reflexivity.
  - eapply dump_parts; [apply loaded_valid|apply to_dict_loaded|].
    rewrite cpio_is. apply (cpio_parts e t name); auto. constructor; reflexivity.
Qed.

Lemma cpio_minimal_written s data t name bs n ctx : encode Utf8 t = Ok name ->
  pieces (cpio_pieces (minimal s data) name) bs -> (5 <= n)%nat ->
  struct_to_stream CPIO n 0 (cpio_minimal s data t) ctx = (bs, Ok tt).
Proof.
  intros He Hp Hn. apply (lift_dump _ 5); auto.
  eapply dump_parts; [eapply minimal_valid; eauto|eapply to_dict_minimal; eauto|].
  rewrite cpio_is. apply (cpio_parts (minimal s data) t name); auto. constructor; reflexivity.
Qed.

Lemma next_at s bs s' : next_bytes s bs s' -> bs <> [] ->
  exists pre suf, s = at_data pre bs suf /\ s' = after_data pre bs suf.
Proof.
  intros (Hr & Hd & Hp) Hb. destruct s as [dt p], s' as [dt' p']. cbn [s_data s_pos] in *. subst.
  unfold rest in Hr. cbn [s_data s_pos] in Hr.
  assert (Hlt : (p < length dt)%nat).
  { destruct (Nat.lt_ge_cases p (length dt)); auto. rewrite skipn_all2 in Hr by auto. destruct bs; [congruence|discriminate]. }
  exists (firstn p dt), (skipn (p + length bs) dt). unfold at_data, after_data.
  rewrite firstn_length_le by lia. rewrite <- Hr, firstn_skipn. auto.
Qed.

Lemma loads_time ctx fs d s d' s' e b s1 n : zlen b = 4 /\ int_form true Little (e_seconds e) b -> next_bytes s b s1 ->
  dmem d "modified_time" = false ->
  loads CPIO n ctx fs (d ++ [("modified_time", VTime (e_seconds e * 1000000) true)]) s1 d' s' ->
  loads CPIO n ctx (("modified_time", Field time_conf (KTime ResS true true Little)) :: fs) d s d' s'.
Proof.
  intros Hf Hn Hd Hl. apply loads_iff. exists (VTime (e_seconds e * 1000000) true), s1. rewrite Hd. split; auto.
  pose proof (signed4_datetime _ _ true Hf) as Ht.
  destruct (next_at _ _ _ Hn) as (pre & suf & -> & ->). { intros ->. destruct Hf as [Hz _]. discriminate. }
  destruct (seconds_roundtrip CPIO n time_conf true true Little 4 (e_seconds e) true ctx d) as [Hok _]; try reflexivity; auto.
  { lia. } { exact (Forall_nil _). }
  destruct Hok as (bs & Hw & _ & Hr). { destruct Hf as [Hz (_ & Hi & _)]. rewrite Hz in Hi. auto. }
  assert (bs = b) as ->.
  { rewrite (seconds_stored _ _ time_conf true true Little 4 (e_seconds e) true ctx d eq_refl (Forall_nil _) (Forall_nil _) Ht) in Hw.
    rewrite (int_writes CPIO n time_conf true Little 4 (e_seconds e) b ctx d eq_refl eq_refl Hf) in Hw. congruence. }
  apply Hr; auto. split; [intros ? ? ?; reflexivity|]. split; [reflexivity|]. split; [reflexivity|exact (Forall_nil _)].
Qed.

Lemma loads_name ctx fs d s d' s' t name s1 n : encode Utf8 t = Ok name -> Forall (fun cp => cp <> 0) t ->
  next_bytes s (name ++ [0]) s1 -> dget d "filename" = None ->
  loads CPIO n ctx fs (d ++ [("filename", VStr t)]) s1 d' s' ->
  loads CPIO n ctx (("filename", Field (cf "filename" VUndefined false SNone None 11 (Some 26)) (KStringZ Utf8 None)) :: fs) d s d' s'.
Proof.
  intros He Hz Hn Hd Hl. apply loads_iff. exists (VStr t), s1. unfold dmem. rewrite Hd. split; auto.
  destruct (next_at _ _ _ Hn) as (pre & suf & -> & ->). { destruct name; discriminate. }
  apply stringz_load_prefix; auto.
  - split; [intros ? ? ?; reflexivity|]. split; [reflexivity|]. split; [reflexivity|exact (Forall_nil _)].
  - apply encode_name. auto.
Qed.

Lemma loads_padding ctx fs d s d' s' name s1 n : next_bytes s (if Z.odd (zlen name + 1) then [0] else []) s1 ->
  dget d "_filename_padding" = None -> dget d "name_size" = Some (VInt (zlen name + 1)) ->
  loads CPIO (S n) ctx fs (d ++ [("_filename_padding", padding_value name)]) s1 d' s' ->
  loads CPIO (S n) ctx (("_filename_padding", Field padding_conf KBytes) :: fs) d s d' s'.
Proof.
  intros Hn Hd Hk Hl. apply loads_iff. exists (padding_value name), s1. unfold dmem. rewrite Hd. split; auto.
  assert (Hp : run_dict d (c_present padding_conf ctx (Some s)) = Ok (Z.odd (zlen name + 1))).
  { unfold run_dict. cbn [c_present padding_conf]. unfold odd_name. cbn [run_q]. unfold dget_res. rewrite Hk, odd_mod. auto. }
  unfold padding_value in *. unfold field_from_stream, field_from_stream_with. destruct (Z.odd (zlen name + 1)).
  - rewrite from_stream_present by auto. unfold checked. cbn [conf].
    replace (do_load CPIO (S n) (Field padding_conf KBytes) ctx d s) with (s1, Ok (VBytes [0])); [reflexivity|].
    symmetry. rewrite do_load_leaf by auto. rewrite (ges_declared _ _ _ _ 1) by (left; reflexivity).
    apply next_iff in Hn. destruct Hn as [Hr ->]. apply (bytes_load_eq padding_conf _ [0] _ _ Hr).
  - apply next_nil in Hn. subst. unfold from_stream_with. cbn [conf]. rewrite Hp. reflexivity.
Qed.

Ltac give_words :=
  repeat match goal with
  | |- loads _ (S ?n) _ ((?nm, Field ?c (KInt ?sg ?e)) :: _) ?d ?s _ _ =>
    let sz := eval cbn in (c_size c) in
    match sz with SInt ?k =>
      apply (loads_int _ n _ nm c sg e k); [side..|];
      do 3 eexists; split; [|split; [|split; [eassumption|split; [assumption|]]]];
      [eassumption | first [left; reflexivity | right; reflexivity] | cbn [app]]
    end
  end.

Lemma cpio_loaded e t name n ctx s s' : encode Utf8 t = Ok name -> Forall (fun cp => cp <> 0) t ->
  (exists bs, pieces (cpio_pieces e name) bs /\ next_bytes s bs s') -> bytes_ok (rest s) -> (5 <= n)%nat ->
  struct_from_stream CPIO n 0 ctx [] s = (s', Ok (cpio_attributes e t (zlen name + 1))).
Proof.
  intros He Ht H Hb Hle.
  assert (H5 : struct_from_stream CPIO 5 0 ctx [] s = (s', Ok (cpio_attributes e t (zlen name + 1)))).
  { rewrite struct_load_iff by (rewrite ?cpio_is; first [wf | constructor]). rewrite cpio_is.
    unfold cpio_pieces in H. split_pieces H. subst.
    exists ([("magic", VInt 29127); ("device_id", VInt (e_device e)); ("inumber", VInt (e_inumber e)); ("mode", VInt (e_mode e));
         ("owner_uid", VInt (e_uid e)); ("owner_gid", VInt (e_gid e)); ("n_links", VInt (e_links e));
         ("device_version", VInt (e_version e)); ("modified_time", VTime (e_seconds e * 1000000) true);
         ("name_size", VInt (zlen name + 1)); ("file_size", VInt (zlen (e_contents e))); ("filename", VStr t);
         ("_filename_padding", padding_value name); ("data", VBytes (e_contents e))]).
    split; [|split; [intros x []|split; [|reflexivity]]].
    2: { apply cpio_valid. intros nm f Hin. cbn in Hin. repeat (next_name Hin; [eexists; reflexivity|]). contradiction. }
    cbn [k_comps cpio_class]. unfold word. give_words.
    eapply loads_time; [eassumption|eassumption|reflexivity|]. cbn [app]. give_words.
    eapply loads_name; [eassumption|eassumption|eassumption|reflexivity|]. cbn [app].
    eapply loads_padding; [eassumption|reflexivity|reflexivity|]. cbn [app]. give. }
  pose proof (struct_from_stream_mono CPIO 5 n 0 ctx [] Hle s) as Hm. rewrite H5 in Hm.
  destruct Hm as [Hm|Hm]; [discriminate|auto].
Qed.
