(** Concrete files in the formats of the examples. *)
From Verif Require Export FormatMore FormatBmp FormatCpio FormatStop.
From Coq Require Import String ZArith List Lia.
Import ListNotations.
Open Scope string_scope.
Open Scope list_scope.
Open Scope Z_scope.

(** [bs] in pieces: each one is computed. *)
Fixpoint put_pieces (ps : list piece) : option (list Z) :=
  match ps with
  | [] => Some []
  | p :: ps' =>
    match match p with
          | Unsigned k z => py_to_bytes z k Little false
          | Signed k z => py_to_bytes z k Little true
          | Raw b => Ok b
          end, put_pieces ps' with
    | Ok b, Some bs => Some (b ++ bs)
    | _, _ => None
    end
  end.

Lemma put_pieces_ok ps : forall bs, put_pieces ps = Some bs -> pieces ps bs.
Proof.
  induction ps as [|p ps IH]; intros bs H; cbn [put_pieces] in H.
  - injection H as <-. constructor.
  - destruct (match p with Unsigned k z => py_to_bytes z k Little false | Signed k z => py_to_bytes z k Little true
              | Raw b => Ok b end) as [b| |] eqn:Hb; try discriminate.
    destruct (put_pieces ps) as [r|]; try discriminate. injection H as <-. constructor; auto.
    destruct p as [k z|k z|raw]; cbn [piece_form].
    + apply int_form_iff. auto.
    + apply int_form_iff. auto.
    + congruence.
Qed.

(** The bitmap of the tests. *)
Definition an_image : bmp :=
  {| b_file_size := 14454; b_pixels := 54; b_width := 80; b_height := 60; b_bits := 24; b_compression := 0;
     b_bitmap_size := 14400; b_v_resolution := 2835; b_h_resolution := 2835; b_palette := 0; b_important := 0 |}.

Definition an_entry : cpio :=
  {| e_device := 128; e_inumber := 32767; e_mode := 420; e_uid := 0; e_gid := 0; e_links := 1; e_version := 0;
     e_seconds := -5; e_contents := [48; 49; 50] |}.

Lemma range_examples :
  Forall in_range (wav_data_pieces [1; 2; 3])
  /\ Forall in_range (wav_format_pieces 1 2 44100 (44100 * 2 * 16 / 8) (2 * 16 / 8) 16)
  /\ Forall in_range (bmp_pieces an_image) /\ Forall in_range (cpio_pieces an_entry (text "abcd")).
Proof.
  split; [|split; [|split]]; repeat constructor; cbn; lia.
Qed.

Lemma file_examples :
  pieces (wav_data_pieces [1; 2; 3]) (text "data" ++ [3; 0; 0; 0] ++ [1; 2; 3])
  /\ pieces (wav_format_pieces 1 2 44100 (44100 * 2 * 16 / 8) (2 * 16 / 8) 16)
       (text "fmt " ++ [16; 0; 0; 0; 1; 0; 2; 0; 68; 172; 0; 0; 16; 177; 2; 0; 4; 0; 16; 0])
  /\ pieces (wav_header_pieces 39) (text "RIFF" ++ [39; 0; 0; 0] ++ text "WAVE")
  /\ pieces (bmp_pieces an_image) (firstn 54 bmp_file)
  /\ encode Utf8 (text "abcd") = Ok (text "abcd") /\ Forall (fun cp => cp <> 0) (text "abcd")
  /\ pieces (cpio_pieces an_entry (text "abcd"))
       ([199; 113; 128; 0; 255; 127; 164; 1; 0; 0; 0; 0; 1; 0; 0; 0; 251; 255; 255; 255; 5; 0; 3; 0; 0; 0]
        ++ text "abcd" ++ [0; 0] ++ [48; 49; 50]).
Proof.
  split; [apply put_pieces_ok; reflexivity|]. split; [apply put_pieces_ok; reflexivity|].
  split; [apply put_pieces_ok; reflexivity|]. split; [apply put_pieces_ok; reflexivity|].
  split; [reflexivity|]. split; [repeat constructor; discriminate|]. apply put_pieces_ok; reflexivity.
Qed.
