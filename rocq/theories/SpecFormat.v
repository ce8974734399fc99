(** The file formats of the project's examples (tests/full_examples/), written down from the
    descriptions of the formats: a file is a sequence of pieces. *)
From Coq Require Import String ZArith List Ascii.
From Verif Require Export SpecWire.
Import ListNotations.
Open Scope string_scope.
Open Scope list_scope.
Open Scope Z_scope.

(** An unsigned or signed little-endian integer of so many bytes, or the bytes themselves. *)
Inductive piece := Unsigned (bytes : Z) (z : Z) | Signed (bytes : Z) (z : Z) | Raw (bs : list Z).

Definition piece_form (p : piece) (bs : list Z) : Prop :=
  match p with
  | Unsigned k z => zlen bs = k /\ int_form false Little z bs
  | Signed k z => zlen bs = k /\ int_form true Little z bs
  | Raw b => bs = b
  end.

Inductive pieces : list piece -> list Z -> Prop :=
| pieces_nil : pieces [] []
| pieces_cons : forall p ps b bs, piece_form p b -> pieces ps bs -> pieces (p :: ps) (b ++ bs).

(** A piece whose number fits. *)
Definition in_range (p : piece) : Prop :=
  match p with
  | Unsigned k z => int_range false k z
  | Signed k z => int_range true k z
  | Raw _ => True
  end.

(** The number of bytes makes sense. *)
Definition sizes_ok (p : piece) : Prop := match p with Unsigned k _ | Signed k _ => 0 <= k | Raw _ => True end.

(** [bs] comes next in the stream [s], which it leaves at [s']. *)
Definition next_bytes (s : stream) (bs : list Z) (s' : stream) : Prop :=
  rest s = bs ++ rest s' /\ s_data s' = s_data s /\ s_pos s' = (s_pos s + length bs)%nat.

(** The bytes of an ASCII text. *)
Definition text (s : string) : list Z := map (fun a => Z.of_nat (nat_of_ascii a)) (list_ascii_of_string s).

(** The data chunk of a WAV file: its name, the length of the audio data, and the data. *)
Definition wav_data_pieces (audio : list Z) : list piece :=
  [Raw (text "data"); Unsigned 4 (zlen audio); Raw audio].

(** The format chunk. *)
Definition wav_format_pieces (format channels rate byte_rate alignment bits : Z) : list piece :=
  [Raw (text "fmt "); Unsigned 4 16; Unsigned 2 format; Unsigned 2 channels; Unsigned 4 rate;
   Unsigned 4 byte_rate; Unsigned 2 alignment; Unsigned 2 bits].

(** The file header; [size] is the size of the rest of the file. *)
Definition wav_header_pieces (size : Z) : list piece :=
  [Raw (text "RIFF"); Unsigned 4 size; Raw (text "WAVE")].

(** The header of a Windows bitmap. *)
Record bmp := { b_file_size : Z; b_pixels : Z; b_width : Z; b_height : Z; b_bits : Z; b_compression : Z;
  b_bitmap_size : Z; b_v_resolution : Z; b_h_resolution : Z; b_palette : Z; b_important : Z }.

Definition bmp_pieces (h : bmp) : list piece :=
  [Raw (text "BM"); Unsigned 4 (b_file_size h); Raw [0; 0; 0; 0]; Unsigned 4 (b_pixels h); Unsigned 4 40;
   Signed 4 (b_width h); Signed 4 (b_height h); Unsigned 2 1; Unsigned 2 (b_bits h);
   Unsigned 4 (b_compression h); Unsigned 4 (b_bitmap_size h); Signed 4 (b_v_resolution h);
   Signed 4 (b_h_resolution h); Unsigned 4 (b_palette h); Unsigned 4 (b_important h)].

(** An entry of an old binary cpio archive.  The name is followed by a null byte, and by
    another one if that leaves an odd number of bytes. *)
Record cpio := { e_device : Z; e_inumber : Z; e_mode : Z; e_uid : Z; e_gid : Z; e_links : Z;
  e_version : Z; e_seconds : Z; e_contents : list Z }.

Definition cpio_pieces (e : cpio) (name : list Z) : list piece :=
  [Unsigned 2 29127; Unsigned 2 (e_device e); Unsigned 2 (e_inumber e); Unsigned 2 (e_mode e);
   Unsigned 2 (e_uid e); Unsigned 2 (e_gid e); Unsigned 2 (e_links e); Unsigned 2 (e_version e);
   Signed 4 (e_seconds e); Unsigned 2 (zlen name + 1); Unsigned 4 (zlen (e_contents e));
   Raw (name ++ [0]); Raw (if Z.odd (zlen name + 1) then [0] else []); Raw (e_contents e)].

(** ** The attributes of the structs *)
Definition wav_data_values (audio : list Z) : dict :=
  [("chunk_id", VBytes (text "data")); ("size", VInt (zlen audio)); ("audio_data", VBytes audio)].

Definition wav_format_values (format channels rate byte_rate alignment bits : Z) : dict :=
  [("chunk_id", VBytes (text "fmt ")); ("size", VInt 16); ("audio_format", VInt format);
   ("n_channels", VInt channels); ("sample_rate", VInt rate); ("byte_rate", VInt byte_rate);
   ("block_alignment", VInt alignment); ("bits_per_sample", VInt bits)].

Definition wav_header_values (size : Z) : dict :=
  [("riff_header", VBytes (text "RIFF")); ("size", VInt size); ("file_format", VBytes (text "WAVE"))].

(** The attributes of a header. *)
Definition bmp_attributes (h : bmp) : dict :=
  [("file_size", VInt (b_file_size h)); ("pixels_offset", VInt (b_pixels h));
   ("image_width", VInt (b_width h)); ("image_height", VInt (b_height h)); ("n_color_planes", VInt 1);
   ("n_bits_per_pixel", VInt (b_bits h)); ("compression_method", VInt (b_compression h));
   ("bitmap_size", VInt (b_bitmap_size h)); ("v_resolution", VInt (b_v_resolution h));
   ("h_resolution", VInt (b_h_resolution h)); ("n_palette_colors", VInt (b_palette h));
   ("n_important_colors", VInt (b_important h))].

(** What the user gives: everything but the constants. *)
Definition bmp_given (h : bmp) : dict :=
  [("file_size", VInt (b_file_size h)); ("pixels_offset", VInt (b_pixels h));
   ("image_width", VInt (b_width h)); ("image_height", VInt (b_height h));
   ("n_bits_per_pixel", VInt (b_bits h)); ("compression_method", VInt (b_compression h));
   ("bitmap_size", VInt (b_bitmap_size h)); ("v_resolution", VInt (b_v_resolution h));
   ("h_resolution", VInt (b_h_resolution h)); ("n_palette_colors", VInt (b_palette h));
   ("n_important_colors", VInt (b_important h))].

(** The attributes of an entry; [t] is the file name, [k] its size as stored. *)
Definition cpio_attributes (e : cpio) (t : list Z) (k : Z) : dict :=
  [("device_id", VInt (e_device e)); ("inumber", VInt (e_inumber e)); ("mode", VInt (e_mode e));
   ("owner_uid", VInt (e_uid e)); ("owner_gid", VInt (e_gid e)); ("n_links", VInt (e_links e));
   ("device_version", VInt (e_version e)); ("modified_time", VTime (e_seconds e * 1000000) true);
   ("name_size", VInt k); ("file_size", VInt (zlen (e_contents e))); ("filename", VStr t);
   ("data", VBytes (e_contents e))].

(** Everything but the sizes, and only what has no default. *)
Definition cpio_given (e : cpio) (t : list Z) : dict :=
  [("device_id", VInt (e_device e)); ("inumber", VInt (e_inumber e)); ("mode", VInt (e_mode e));
   ("owner_uid", VInt (e_uid e)); ("owner_gid", VInt (e_gid e)); ("n_links", VInt (e_links e));
   ("device_version", VInt (e_version e)); ("modified_time", VTime (e_seconds e * 1000000) true);
   ("filename", VStr t); ("data", VBytes (e_contents e))].

Definition cpio_minimal (seconds : Z) (contents : list Z) (t : list Z) : dict :=
  [("filename", VStr t); ("data", VBytes contents); ("modified_time", VTime (seconds * 1000000) true)].

Definition minimal (s : Z) (contents : list Z) : cpio :=
  {| e_device := 0; e_inumber := 0; e_mode := 420; e_uid := 0; e_gid := 0; e_links := 0; e_version := 0;
     e_seconds := s; e_contents := contents |}.
