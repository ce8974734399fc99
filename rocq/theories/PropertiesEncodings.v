(** C104: String and StringZ with any text encoding. *)
From Coq Require Import Lia.
From Verif Require Import SpecEncodings EncodingProofs CustomProofs Samples.

(** For the encodings modelled in Codecs.v, these fields are the library's. *)
Theorem C104_builtin_string E n c cd pad v ctx d s :
  let f := builtin E n (Field c (KString cd pad)) in let x := x_string c (coding_of cd) pad in
  u_conf x = u_conf f /\ u_size_for x v = u_size_for f v
  /\ (forall bs k, u_pad x bs k = u_pad f bs k)
  /\ u_dump x v ctx d = u_dump f v ctx d /\ u_load x ctx d s = u_load f ctx d s.
Proof. exact (builtin_string E n c cd pad v ctx d s). Qed.
Print Assumptions C104_builtin_string.

Theorem C104_builtin_stringz E n c cd pad v ctx d s :
  let f := builtin E n (Field c (KStringZ cd pad)) in let x := x_stringz c (coding_of cd) pad in
  u_conf x = u_conf f /\ u_size_for x v = u_size_for f v
  /\ (forall bs k, u_pad x bs k = u_pad f bs k)
  /\ u_dump x v ctx d = u_dump f v ctx d /\ u_load x ctx d s = u_load f ctx d s.
Proof. exact (builtin_stringz E n c cd pad v ctx d s). Qed.
Print Assumptions C104_builtin_stringz.

(** StringZ stops exactly at the first byte for which the decoder gives out a NUL and nothing
    else; a NUL given out together with other characters is not noticed. *)
Theorem C104_where_it_ends c co pad ctx d lim s s' v : limit_is c co d lim ->
  u_load (x_stringz c co pad) ctx d s = (s', Ok v)
  <-> exists t n, finds co (co_start co) (allowed lim (rest s)) t n /\ v = VStr t /\ s' = advance s n.
Proof. exact (stringz_iff c co pad ctx d lim s s' v). Qed.
Print Assumptions C104_where_it_ends.

(** If each character has its own bytes, StringZ loads what it dumped. *)
Theorem C104_own_bytes enc dec c pad ctx d ctx' dl t : own_bytes enc dec ->
  c_size c = SNone -> no_limit c dl -> without_nul t ->
  undoes (x_stringz c (word_coding enc dec) pad) ctx d ctx' dl (VStr t) (VStr t).
Proof. exact (fun H => words_undone enc dec H c pad ctx d ctx' dl t). Qed.
Print Assumptions C104_own_bytes.

Theorem C104_own_bytes_text enc dec t bs : own_bytes enc dec ->
  co_encode (word_coding enc dec) t = Ok bs -> co_decode (word_coding enc dec) bs = Ok t.
Proof. exact (fun H => words_decode enc dec H t bs). Qed.
Print Assumptions C104_own_bytes_text.

Theorem C104_tables t : prefix_free t -> own_bytes (table_enc t) (table_dec t).
Proof. exact (table_own t). Qed.
Print Assumptions C104_tables.

(** String writes the text in its encoding, filled up to the field's size, and loads what the
    encoding makes of these bytes. *)
Theorem C104_string_dump c co pad ctx d t n out : of_size c d n ->
  u_dump (x_string c co pad) (VStr t) ctx d = (out, Ok tt)
  <-> exists bs, co_encode co t = Ok bs /\ (zlen bs = n /\ out = bs
        \/ zlen bs < n /\ exists b, pad = Some b /\ out = bs ++ repeat b (Z.to_nat (n - zlen bs))).
Proof. exact (string_dump_iff c co pad ctx d t n out). Qed.
Print Assumptions C104_string_dump.

Theorem C104_string_load c co pad ctx d n bs pre suf : of_size c d n -> zlen bs = n ->
  u_load (x_string c co pad) ctx d (at_data pre bs suf)
  = (after_data pre bs suf, match co_decode co bs with Ok t => Ok (VStr t) | Raise e => Raise e | OOF => OOF end).
Proof. exact (string_load c co pad ctx d n bs pre suf). Qed.
Print Assumptions C104_string_load.

Theorem C104_string_roundtrip c co pad ctx d ctx' dl t bs n : of_size c d n -> of_size c dl n ->
  co_encode co t = Ok bs -> zlen bs = n -> co_decode co bs = Ok t ->
  undoes (x_string c co pad) ctx d ctx' dl (VStr t) (VStr t).
Proof. exact (string_undone c co pad ctx d ctx' dl t bs n). Qed.
Print Assumptions C104_string_roundtrip.

(** A field that is undone in this sense round-trips through [to_stream] and [from_stream], and
    in structs by C95. *)
Theorem C104_fields eqv f ctx d ctx' dl t out pre suf :
  undoes f ctx d ctx' dl (VStr t) (VStr t) -> shows_up f ctx' dl true -> accepts (u_conf f) (VStr t) ->
  c_const (u_conf f) = VUndefined -> c_null (u_conf f) = VUndefined ->
  u_to_stream f (VStr t) ctx d = (out, Ok tt) ->
  u_from_stream eqv f ctx' dl (at_data pre out suf) = (after_data pre out suf, Ok (VStr t)).
Proof. exact (undone_field eqv f ctx d ctx' dl t out pre suf). Qed.
Print Assumptions C104_fields.

(** "utf-7": the text survives, ... *)
Theorem C104_utf7_text t : Forall unicode t -> co_decode utf7 (u7_encode None t) = Ok t.
Proof. exact (utf7_decodes t). Qed.
Print Assumptions C104_utf7_text.

(** ... but StringZ loads back exactly the texts whose last character is written as it is, ... *)
Theorem C104_utf7_stringz c pad ctx dl t pre suf : no_limit c dl -> Forall unicode t -> without_nul t ->
  u_load (x_stringz c utf7 pad) ctx dl (at_data pre (u7_encode None (t ++ [0])) suf)
  = (after_data pre (u7_encode None (t ++ [0])) suf, Ok (VStr t)) <-> plain_end t.
Proof. exact (utf7_iff c pad ctx dl t pre suf). Qed.
Print Assumptions C104_utf7_stringz.

Theorem C104_utf7_roundtrip c pad ctx d ctx' dl t : c_size c = SNone -> no_limit c dl ->
  Forall unicode t -> without_nul t -> plain_end t ->
  undoes (x_stringz c utf7 pad) ctx d ctx' dl (VStr t) (VStr t).
Proof. exact (utf7_undone c pad ctx d ctx' dl t). Qed.
Print Assumptions C104_utf7_roundtrip.

(** ... and takes the data that follows as part of any other text, or fails. *)
Theorem C104_utf7_more c pad ctx dl t pre suf s' v : no_limit c dl -> Forall unicode t -> without_nul t -> ~ plain_end t ->
  u_load (x_stringz c utf7 pad) ctx dl (at_data pre (u7_encode None (t ++ [0])) suf) = (s', Ok v) ->
  exists more, v = VStr (t ++ 0 :: more).
Proof. exact (utf7_lost c pad ctx dl t pre suf s' v). Qed.
Print Assumptions C104_utf7_more.

Theorem C104_utf7_alone c pad ctx dl t pre : no_limit c dl -> Forall unicode t -> without_nul t -> ~ plain_end t ->
  u_load (x_stringz c utf7 pad) ctx dl (at_data pre (u7_encode None (t ++ [0])) [])
  = (after_data pre (u7_encode None (t ++ [0])) [], Raise (EDeserialization (c_name c))).
Proof. exact (utf7_raises c pad ctx dl t pre). Qed.
Print Assumptions C104_utf7_alone.

(** ** Examples *)

(** Some of "shift_jis": NUL, 'a', the backslash, a kana and two kanji whose second byte
    is the backslash's; some of "gb18030", with up to four bytes. *)
Definition sjis_some : list (Z * list Z) :=
  [(0, [0]); (97, [97]); (92, [92]); (12363, [130; 169]); (34920, [149; 92]); (33021, [148; 92]); (65393, [177])].
Definition gb_some : list (Z * list Z) := [(0, [0]); (97, [97]); (12363, [164; 171]); (202, [129; 48; 135; 56])].
Definition sjis : coding := table_coding sjis_some.
Definition gb : coding := table_coding gb_some.

Definition pair_fs : list (string * ufield) :=
  [("a"%string, x_stringz (basic "a" SNone) sjis None); ("b"%string, x_string (basic "b" (SInt 6)) gb None)].
Definition pair_E : env := [class_of "P" [named "a" (Field (basic "a" SNone) KBytes); named "b" (Field (basic "b" (SInt 6)) KBytes)]].
Definition pair_vals : dict := [("a"%string, VStr [34920; 97; 33021]); ("b"%string, VStr [12363; 202])].
Definition pair_bytes : list Z := [149; 92; 97; 148; 92; 0; 164; 171; 129; 48; 135; 56].

Example C104_nonvacuous :
  prefix_free sjis_some /\ prefix_free gb_some
  /\ u_struct_to_stream pair_E 9 pair_fs 0 pair_vals VNone = (pair_bytes, Ok tt)
  /\ to_dict pair_E 9 0 pair_vals false = Ok pair_vals
  /\ all_restored (py_eq [] 9) VNone pair_vals VNone pair_fs [] pair_vals
  /\ u_struct_from_stream (py_eq [] 9) pair_E 9 pair_fs 0 VNone [] (at_data [5] pair_bytes [6])
     = (after_data [5] pair_bytes [6], Ok pair_vals).
Proof.
  assert (H1 : prefix_free sjis_some) by (apply prefix_freeb_ok; vm_compute; reflexivity).
  assert (H2 : prefix_free gb_some) by (apply prefix_freeb_ok; vm_compute; reflexivity).
  split; [exact H1|]. split; [exact H2|]. split; [vm_compute; reflexivity|]. split; [vm_compute; reflexivity|].
  split; [|vm_compute; reflexivity].
  eapply all_restored_cons; [intros []|reflexivity| |].
  - apply restores_value; [repeat split; discriminate|discriminate| |intros s; reflexivity|constructor|left; reflexivity|left; reflexivity].
    apply (C104_own_bytes (table_enc sjis_some) (table_dec sjis_some)); [apply C104_tables, H1|reflexivity| |repeat constructor; discriminate].
    repeat split; reflexivity.
  - eapply all_restored_cons; [intros [H|[]]; discriminate|reflexivity| |constructor].
    apply restores_value; [repeat split; discriminate|discriminate| |intros s; reflexivity|constructor|left; reflexivity|left; reflexivity].
    eapply (C104_string_roundtrip _ gb None _ _ _ _ [12363; 202] [164; 171; 129; 48; 135; 56] 6); reflexivity.
Qed.

(** "é" and then "x": the first field takes both. *)
Definition seven : ufield := x_stringz (basic "a" SNone) utf7 None.

Theorem C104_utf7_refuted : exists t rest, Forall unicode t /\ without_nul t
  /\ u_dump seven (VStr t) VNone [] = ([43; 65; 79; 107; 65; 65; 65; 45], Ok tt)
  /\ u_load seven VNone [] (at_data [] [43; 65; 79; 107; 65; 65; 65; 45] rest)
     = (after_data [] ([43; 65; 79; 107; 65; 65; 65; 45] ++ rest) [], Ok (VStr (t ++ [0; 120]))).
Proof.
  exists [233], [120; 43; 65; 65; 65; 45]. split; [repeat constructor; unfold unicode; lia|]. split; [repeat constructor; discriminate|].
  split; vm_compute; reflexivity.
Qed.
Print Assumptions C104_utf7_refuted.

Example C104_utf7_nonvacuous :
  no_limit (basic "a" SNone) [] /\ plain_end [233; 97; 43] /\ ~ plain_end [97; 233]
  /\ Forall unicode [233; 97; 43] /\ without_nul [233; 97; 43]
  /\ u7_encode None ([233; 97; 43] ++ [0]) = [43; 65; 79; 107; 45; 97; 43; 45; 43; 65; 65; 65; 45].
Proof.
  split; [repeat split; reflexivity|]. split; [apply (plain_plus [233; 97]), (plain_char [233] 97); unfold as_is; lia|].
  split; [intros H; apply plain_end_iff in H; vm_compute in H; discriminate|].
  split; [repeat constructor; unfold unicode; lia|]. split; [repeat constructor; discriminate|]. vm_compute. reflexivity.
Qed.
