(** C85: the file formats of the project's examples (tests/full_examples/), with the classes
    declared there, against descriptions of the formats that know nothing of the library.

    Vocabulary: SpecFormat.v ([pieces], [next_bytes], the [..._pieces] of each format and the
    attributes of the structs).  [WAV], [BMP] and [CPIO] are the classes of the examples,
    made by the model of the declarations (ConformFull.v). *)
From Verif Require Import FormatMore FormatBmp FormatCpio FormatStop FormatWitness.
From Coq Require Import String ZArith List.
Import ListNotations.
Open Scope string_scope.
Open Scope list_scope.
Open Scope Z_scope.

(** Bytes of every format exist exactly as far as its numbers fit into their fields. *)
Theorem C85_in_range : forall ps, Forall sizes_ok ps -> (exists bs, pieces ps bs) <-> Forall in_range ps.
Proof. exact pieces_range. Qed.
Print Assumptions C85_in_range.

(** ** WAV *)

(** The data chunk is read exactly from bytes of that form, and nothing else is. *)
Theorem C85_wav_data_read : forall n ctx s s' vals, bytes_ok (rest s) ->
  struct_from_stream WAV (S n) 2 ctx [] s = (s', Ok vals)
  <-> exists audio, vals = wav_data_values audio
      /\ exists bs, pieces (wav_data_pieces audio) bs /\ next_bytes s bs s'.
Proof. exact wav_data_read. Qed.
Print Assumptions C85_wav_data_read.

(** It is written in that form, from the audio alone or as it was read. *)
Theorem C85_wav_data_written : forall audio bs n ctx vals, pieces (wav_data_pieces audio) bs -> (5 <= n)%nat ->
  vals = [("audio_data", VBytes audio)] \/ vals = wav_data_values audio ->
  struct_to_stream WAV n 2 vals ctx = (bs, Ok tt).
Proof. exact wav_data_written. Qed.
Print Assumptions C85_wav_data_written.

(** Audio of 4 GiB and more does not fit; only the name of the chunk has been written then. *)
Theorem C85_wav_too_long : forall audio n ctx, 2 ^ 32 <= zlen audio -> (5 <= n)%nat ->
  struct_to_stream WAV n 2 [("audio_data", VBytes audio)] ctx = (text "data", Raise (EUnserializable (Some "size"))).
Proof. exact wav_too_long. Qed.
Print Assumptions C85_wav_too_long.

(** The format chunk.  The computed rates are not checked when they are read. *)
Theorem C85_wav_format_read : forall n ctx s s' vals, bytes_ok (rest s) ->
  struct_from_stream WAV (S n) 1 ctx [] s = (s', Ok vals)
  <-> exists format channels rate byte_rate alignment bits,
      vals = wav_format_values format channels rate byte_rate alignment bits
      /\ exists bs, pieces (wav_format_pieces format channels rate byte_rate alignment bits) bs /\ next_bytes s bs s'.
Proof. exact wav_format_read. Qed.
Print Assumptions C85_wav_format_read.

Theorem C85_wav_format_written : forall format channels rate bits bs n ctx,
  pieces (wav_format_pieces format channels rate (rate * channels * bits / 8) (channels * bits / 8) bits) bs ->
  (9 <= n)%nat ->
  struct_to_stream WAV n 1 [("audio_format", VInt format); ("n_channels", VInt channels); ("sample_rate", VInt rate);
                            ("bits_per_sample", VInt bits)] ctx = (bs, Ok tt).
Proof. exact wav_format_written. Qed.
Print Assumptions C85_wav_format_written.

(** What was read is written as it was, right or wrong. *)
Theorem C85_wav_format_rewritten : forall format channels rate br al bits bs n ctx,
  pieces (wav_format_pieces format channels rate br al bits) bs -> (9 <= n)%nat ->
  struct_to_stream WAV n 1 (wav_format_values format channels rate br al bits) ctx = (bs, Ok tt).
Proof. exact wav_format_rewritten. Qed.
Print Assumptions C85_wav_format_rewritten.

Theorem C85_wav_header_read : forall n ctx s s' vals, bytes_ok (rest s) ->
  struct_from_stream WAV (S n) 0 ctx [] s = (s', Ok vals)
  <-> exists size, vals = wav_header_values size
      /\ exists bs, pieces (wav_header_pieces size) bs /\ next_bytes s bs s'.
Proof. exact wav_header_read. Qed.
Print Assumptions C85_wav_header_read.

(** A whole file: the three structs written one after another, and read back one after
    another from any place of a stream. *)
Theorem C85_wav_file : forall size format channels rate bits audio h f d n ctx pre suf,
  pieces (wav_header_pieces size) h ->
  pieces (wav_format_pieces format channels rate (rate * channels * bits / 8) (channels * bits / 8) bits) f ->
  pieces (wav_data_pieces audio) d -> bytes_ok (h ++ f ++ d ++ suf) -> (9 <= n)%nat ->
  struct_to_stream WAV n 0 [("size", VInt size)] ctx = (h, Ok tt)
  /\ struct_to_stream WAV n 1 [("audio_format", VInt format); ("n_channels", VInt channels); ("sample_rate", VInt rate);
                               ("bits_per_sample", VInt bits)] ctx = (f, Ok tt)
  /\ struct_to_stream WAV n 2 [("audio_data", VBytes audio)] ctx = (d, Ok tt)
  /\ exists s1 s2, struct_from_stream WAV n 0 ctx [] (at_data pre (h ++ f ++ d) suf) = (s1, Ok (wav_header_values size))
     /\ struct_from_stream WAV n 1 ctx [] s1
        = (s2, Ok (wav_format_values format channels rate (rate * channels * bits / 8) (channels * bits / 8) bits))
     /\ struct_from_stream WAV n 2 ctx [] s2 = (after_data pre (h ++ f ++ d) suf, Ok (wav_data_values audio)).
Proof. exact wav_file. Qed.
Print Assumptions C85_wav_file.

(** ** Bitmaps *)

(** A header is read exactly from bytes of the form of the format; the magic number, the
    reserved bytes and the size of the header are checked and dropped. *)
Theorem C85_bmp_read : forall n ctx s s' vals, bytes_ok (rest s) ->
  struct_from_stream BMP (S n) 0 ctx [] s = (s', Ok vals)
  <-> exists h, vals = bmp_attributes h /\ exists bs, pieces (bmp_pieces h) bs /\ next_bytes s bs s'.
Proof. exact bmp_read. Qed.
Print Assumptions C85_bmp_read.

Theorem C85_bmp_written : forall h bs n ctx vals, pieces (bmp_pieces h) bs -> (5 <= n)%nat ->
  vals = bmp_given h \/ vals = bmp_attributes h ->
  struct_to_stream BMP n 0 vals ctx = (bs, Ok tt).
Proof. exact bmp_written. Qed.
Print Assumptions C85_bmp_written.

(** Every header has 54 bytes, and writing what was read gives the bytes that were read. *)
Theorem C85_bmp_rewritten : forall n ctx ctx' s s' vals, bytes_ok (rest s) -> (5 <= n)%nat ->
  struct_from_stream BMP n 0 ctx [] s = (s', Ok vals) ->
  exists bs, next_bytes s bs s' /\ zlen bs = 54 /\ struct_to_stream BMP n 0 vals ctx' = (bs, Ok tt).
Proof. exact bmp_rewritten. Qed.
Print Assumptions C85_bmp_rewritten.

(** ** cpio *)

(** An entry is written in the form of the format: from all its attributes, as it was read,
    or from the name, the time and the contents. *)
Theorem C85_cpio_written : forall e t name bs n ctx, encode Utf8 t = Ok name -> pieces (cpio_pieces e name) bs ->
  (5 <= n)%nat ->
  struct_to_stream CPIO n 0 (cpio_given e t) ctx = (bs, Ok tt)
  /\ struct_to_stream CPIO n 0 (cpio_attributes e t (zlen name + 1)) ctx = (bs, Ok tt).
Proof. exact cpio_written. Qed.
Print Assumptions C85_cpio_written.

Theorem C85_cpio_defaults : forall s data t name bs n ctx, encode Utf8 t = Ok name ->
  pieces (cpio_pieces (minimal s data) name) bs -> (5 <= n)%nat ->
  struct_to_stream CPIO n 0 (cpio_minimal s data t) ctx = (bs, Ok tt).
Proof. exact cpio_minimal_written. Qed.
Print Assumptions C85_cpio_defaults.

(** An entry of the format is read, whatever the length of its name. *)
Theorem C85_cpio_read : forall e t name n ctx s s', encode Utf8 t = Ok name -> Forall (fun cp => cp <> 0) t ->
  (exists bs, pieces (cpio_pieces e name) bs /\ next_bytes s bs s') -> bytes_ok (rest s) -> (5 <= n)%nat ->
  struct_from_stream CPIO n 0 ctx [] s = (s', Ok (cpio_attributes e t (zlen name + 1))).
Proof. exact cpio_loaded. Qed.
Print Assumptions C85_cpio_read.

(** ** Concrete files *)
Example C85_range_example :
  Forall in_range (wav_data_pieces [1; 2; 3])
  /\ Forall in_range (wav_format_pieces 1 2 44100 (44100 * 2 * 16 / 8) (2 * 16 / 8) 16)
  /\ Forall in_range (bmp_pieces an_image) /\ Forall in_range (cpio_pieces an_entry (text "abcd")).
Proof. exact range_examples. Qed.

Example C85_example :
  pieces (wav_data_pieces [1; 2; 3]) (text "data" ++ [3; 0; 0; 0] ++ [1; 2; 3])
  /\ pieces (wav_format_pieces 1 2 44100 (44100 * 2 * 16 / 8) (2 * 16 / 8) 16)
       (text "fmt " ++ [16; 0; 0; 0; 1; 0; 2; 0; 68; 172; 0; 0; 16; 177; 2; 0; 4; 0; 16; 0])
  /\ pieces (wav_header_pieces 39) (text "RIFF" ++ [39; 0; 0; 0] ++ text "WAVE")
  /\ pieces (bmp_pieces an_image) (firstn 54 bmp_file)
  /\ encode Utf8 (text "abcd") = Ok (text "abcd") /\ Forall (fun cp => cp <> 0) (text "abcd")
  /\ pieces (cpio_pieces an_entry (text "abcd"))
       ([199; 113; 128; 0; 255; 127; 164; 1; 0; 0; 0; 0; 1; 0; 0; 0; 251; 255; 255; 255; 5; 0; 3; 0; 0; 0]
        ++ text "abcd" ++ [0; 0] ++ [48; 49; 50]).
Proof. exact file_examples. Qed.
