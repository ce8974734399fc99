(** Conformance of the model to the project's own test suite, part 7: the file formats of
    full_examples/ (bmp_test.py, cpio_test.py, fat_test.py, wav_test.py).

    The bitmap is cut off a few bytes after its header; the WAV file has 64 bytes of audio
    instead of 64000. *)
From Verif Require Import Conform.
From Coq Require Import ZArith List String.
Import ListNotations.
Open Scope string_scope.
Open Scope list_scope.
Open Scope Z_scope.

(** Abbreviations for the declarations. *)
Definition native (c : int_class) (l : list (kwargs -> kwargs)) : item := field_is (int_ c any_endian l).
Definition le (c : int_class) (l : list (kwargs -> kwargs)) : item := field_is (int_ c little l).

(** ---------------------------------------------------------------- bmp_test.py *)

Definition bmp_body : namespace :=
  [("magic", field_is (Bytes_ [const_ (bv "BM"); discard_]));
   ("file_size", native UInt32 []);
   ("_reserved", field_is (Bytes_ [const_ (hv "00 00 00 00"); discard_]));
   ("pixels_offset", native UInt32 []);
   ("header_size", native UInt32 [const_ (VInt 40); discard_]);
   ("image_width", native Int32 []);
   ("image_height", native Int32 []);
   ("n_color_planes", native UInt16 [const_ (VInt 1)]);
   ("n_bits_per_pixel", native UInt16 []);
   ("compression_method", native UInt32 []);
   ("bitmap_size", native UInt32 []);
   ("v_resolution", native Int32 []);
   ("h_resolution", native Int32 []);
   ("n_palette_colors", native UInt32 []);
   ("n_important_colors", native UInt32 [])].
Definition BMP : env := class_in [] "SimpleBMPFileHeader" [] None bmp_body.
(** The first 60 bytes of tests/data/test_image.bmp, which is 14454 bytes long *)
Definition bmp_file : list Z := 
  hx "42 4d 76 38 00 00 00 00 00 00 36 00 00 00 28 00 00 00 50 00 00 00 3c 00" ++
  hx "00 00 01 00 18 00 00 00 00 00 40 38 00 00 13 0b 00 00 13 0b 00 00 00 00" ++
  hx "00 00 00 00 00 00 6b 6c 6b 6d 6c 6c".
Definition bmp_values : dict :=
  [("file_size", VInt 14454); ("pixels_offset", VInt 54); ("image_width", VInt 80);
   ("image_height", VInt 60); ("n_color_planes", VInt 1); ("n_bits_per_pixel", VInt 24);
   ("compression_method", VInt 0); ("bitmap_size", VInt 14400); ("v_resolution", VInt 2835);
   ("h_resolution", VInt 2835); ("n_palette_colors", VInt 0); ("n_important_colors", VInt 0)].

Example test_basic_bmp__loads :
  struct_from_bytes BMP fuel 0 bmp_file VNone false [] = Ok bmp_values.
Proof. vm_compute. reflexivity. Qed.

Example test_basic_bmp__load :
  struct_from_stream BMP fuel 0 VNone [] (mkStream bmp_file 0) = (mkStream bmp_file 54, Ok bmp_values).
Proof. vm_compute. reflexivity. Qed.

Example test_basic_bmp__dumps :
  then_ (struct_init BMP 0 bmp_values) (fun v => struct_to_bytes BMP fuel 0 v VNone) =
    Ok (firstn 54 bmp_file).
Proof. vm_compute. reflexivity. Qed.

(** ---------------------------------------------------------------- cpio_test.py *)

(** [len((all_fields["filename"] + "\0").encode("utf-8"))] *)
Definition name_size : query value :=
  QGet "filename" (fun r => match r with
                            | inl (VStr l) =>
                              match encode Utf8 (l ++ [0]) with
                              | Ok bs => QRet (VInt (zlen bs))
                              | Raise e => QRaise e
                              | OOF => QRaise EUnicodeErr
                              end
                            | inl _ => QRaise ETypeErr
                            | inr e => QRaise e
                            end).
(** [len(all_fields[name])] *)
Definition length_of (name : string) : query value :=
  QGet name (fun r => match r with
                      | inl v => match py_len v with
                                 | Some z => QRet (VInt z)
                                 | None => QRaise ETypeErr
                                 end
                      | inr e => QRaise e
                      end).
(** [lambda f, *_: f["name_size"] % 2] *)
Definition odd_name : value -> option stream -> query bool :=
  fun _ _ => QGet "name_size" (fun r => match r with
                                        | inl (VInt z) => QRet (z mod 2 =? 1)
                                        | inl _ => QRaise ETypeErr
                                        | inr e => QRaise e
                                        end).
(** Some time at which the factory is called *)
Definition NOW : value := VTime 1732584193123456 true.
Definition u16 (l : list (kwargs -> kwargs)) : item := native UInt16 l.
Definition zero : list (kwargs -> kwargs) := [default_ (VInt 0)].
Definition cpio_body : namespace :=
  [("magic", u16 [const_ (VInt 29127); discard_]);
   ("device_id", u16 zero); ("inumber", u16 zero); ("mode", u16 [default_ (VInt 420)]);
   ("owner_uid", u16 zero); ("owner_gid", u16 zero); ("n_links", u16 zero);
   ("device_version", u16 zero);
   ("modified_time",
    field_is (XTime Timestamp32 ResS true None true (kw [factory_ (inl NOW)])));
   ("name_size", computed_is (int_ UInt16 any_endian []) name_size);
   ("file_size", computed_is (int_ UInt32 any_endian []) (length_of "data"));
   ("filename", field_is (StringZ_ Utf8 []));
   ("_filename_padding", field_is (Bytes_ [const_ (hv "00"); discard_; present_ odd_name]));
   ("data", field_is (Bytes_ [size_of_ "file_size"]))].
Definition CPIO : env := class_in [] "CPIOFileHeader" [] (Some [("endian", Little)]) cpio_body.

(** 0xC0FFEE seconds *)
Definition cpio_dump (filename : string) : res (list Z) :=
  then_ (struct_init CPIO 0 [("filename", sv filename); ("data", bv "0123456789");
                             ("modified_time", VTime 12648430000000 true)])
        (fun v => struct_to_bytes CPIO fuel 0 v VNone).
Definition cpio_start : list Z := hx "c7 71 00 00 00 00 a4 01 00 00 00 00 00 00 00 00 ee ff c0 00".

Example test_dump__padding_null_behaves :
  cpio_dump "evenlength.txt" =
    Ok (cpio_start ++ hx "0f 00 0a 00 00 00" ++ b "evenlength.txt" ++ hx "00 00" ++ b "0123456789") /\
  cpio_dump "oddlength.txt" =
    Ok (cpio_start ++ hx "0e 00 0a 00 00 00" ++ b "oddlength.txt" ++ hx "00" ++ b "0123456789").
Proof. vm_compute. auto. Qed.

Definition cpio_other : list Z := hx "c7 71 80 00 ff 7f a4 01 00 00 00 00 01 00 00 00 0d f0 ad 0b".
(** 0xBADF00D seconds *)
Definition cpio_values (filename : string) (name_size : Z) : dict :=
  [("device_id", VInt 128); ("inumber", VInt 32767); ("mode", VInt 420); ("owner_uid", VInt 0);
   ("owner_gid", VInt 0); ("n_links", VInt 1); ("device_version", VInt 0);
   ("modified_time", VTime 195948557000000 true); ("name_size", VInt name_size);
   ("file_size", VInt 10); ("filename", sv filename); ("data", bv "0123456789")].
Definition cpio_load (data : list Z) : res dict :=
  then_ (struct_from_bytes CPIO fuel 0 data VNone true []) (fun v => to_dict CPIO fuel 0 v false).
(** dict equality does not look at the order *)
Definition same_dict (r : res dict) (d : dict) : res bool :=
  then_ r (fun v => py_eq CPIO fuel (VDict v) (VDict d)).

Example test_load__padding_null_behaves :
  same_dict (cpio_load (cpio_other ++ hx "0f 00 0a 00 00 00" ++ b "evenlength.txt" ++ hx "00 00" ++
                        b "0123456789")) (cpio_values "evenlength.txt" 15) = Ok true /\
  same_dict (cpio_load (cpio_other ++ hx "0e 00 0a 00 00 00" ++ b "oddlength.txt" ++ hx "00" ++
                        b "0123456789")) (cpio_values "oddlength.txt" 14) = Ok true.
Proof. vm_compute. auto. Qed.

(** ---------------------------------------------------------------- fat_test.py *)

Definition padded (default : string) : item :=
  field_is (XString Ascii (Some 32) (kw [size_ 8; default_ (sv default)])).
(** Some outcome of [random.randrange] *)
Definition fat_body : namespace :=
  [("jump", field_is (Bytes_ [const_ (hv "eb 3c 90")]));
   ("oem_name", padded "mkdosfs");
   ("bytes_per_sector", native UInt16 [default_ (VInt 512)]);
   ("sectors_per_cluster", native UInt8 []);
   ("reserved_sectors", native UInt16 [default_ (VInt 1)]);
   ("num_fats", native UInt8 [default_ (VInt 2)]);
   ("max_root_entries", native UInt16 [default_ (VInt 240)]);
   ("total_logical_sectors_16", native UInt16 []);
   ("media_descriptor", native UInt8 []);
   ("sectors_per_fat", native UInt16 []);
   ("sectors_per_track", native UInt16 []);
   ("num_heads", native UInt16 []);
   ("num_hidden_sectors", native UInt32 [default_ (VInt 0)]);
   ("total_logical_sectors_32", native UInt32 []);
   ("drive_number", native UInt8 []);
   ("_reserved", field_is (Bytes_ [const_ (hv "00"); discard_]));
   ("_ex_boot_signature", field_is (Bytes_ [const_ (hv "29"); discard_]));
   ("volume_id", native UInt32 [factory_ (inl (VInt 4))]);
   ("volume_label", field_is (String_ Latin1 [size_ 11]));
   ("fs_type", padded "FAT12");
   ("boot_code", field_is (Bytes_ [size_ 448; default_ (VBytes (repeat 204 448))]));
   ("boot_signature", field_is (Bytes_ [const_ (hv "55 aa")]))].
Definition FAT : env := class_in [] "FAT12BootSector" [] None fat_body.

(** 0xDEADBEEF *)
Example test_fat12__basic :
  then_ (struct_init FAT 0
           [("sectors_per_cluster", VInt 1); ("total_logical_sectors_16", VInt 1440);
            ("media_descriptor", VInt 240); ("sectors_per_fat", VInt 4);
            ("sectors_per_track", VInt 36); ("num_heads", VInt 2);
            ("total_logical_sectors_32", VInt 0); ("drive_number", VInt 0);
            ("volume_id", VInt 3735928559); ("volume_label", sv "abcdefghijk")])
        (fun v => struct_to_bytes FAT fuel 0 v VNone) =
  Ok (hx "eb 3c 90" ++ b "mkdosfs " ++ hx "00 02 01 01 00 02 f0 00 a0 05 f0 04" ++
      hx "00 24 00 02 00 00 00 00 00 00 00 00 00 00 00 29 ef" ++
      hx "be ad de" ++ b "abcdefghijkFAT12   " ++ repeat 204 448 ++ hx "55 aa").
Proof. vm_compute. reflexivity. Qed.

(** ---------------------------------------------------------------- wav_test.py *)

(** [a * b * ... // 8] *)
Fixpoint product (names : list string) (acc : Z) : query value :=
  match names with
  | [] => QRet (VInt (acc / 8))
  | x :: names' => QGet x (fun r => match r with
                                    | inl (VInt z) => product names' (acc * z)
                                    | inl _ => QRaise ETypeErr
                                    | inr e => QRaise e
                                    end)
  end.
(** Class 0 is WAVFileHeader, 1 WAVFormatChunk, 2 WAVDataChunk. *)
Definition wav_header : namespace :=
  [("riff_header", field_is (Bytes_ [const_ (bv "RIFF")])); ("size", le UInt32 []);
   ("file_format", field_is (Bytes_ [const_ (bv "WAVE")]))].
Definition wav_format : namespace :=
  [("chunk_id", field_is (Bytes_ [const_ (bv "fmt ")])); ("size", native UInt32 [const_ (VInt 16)]);
   ("audio_format", native UInt16 []); ("n_channels", native UInt16 []);
   ("sample_rate", native UInt32 []);
   ("byte_rate", computed_is (int_ UInt32 any_endian [])
                   (product ["sample_rate"; "n_channels"; "bits_per_sample"] 1));
   ("block_alignment", computed_is (int_ UInt16 any_endian [])
                         (product ["n_channels"; "bits_per_sample"] 1));
   ("bits_per_sample", native UInt16 [])].
Definition wav_data : namespace :=
  [("chunk_id", field_is (Bytes_ [const_ (bv "data")]));
   ("size", computed_is (int_ UInt32 little []) (length_of "audio_data"));
   ("audio_data", field_is (Bytes_ [size_of_ "size"]))].
Definition WAV : env :=
  class_in (class_in (class_in [] "WAVFileHeader" [] None wav_header)
                     "WAVFormatChunk" [] (Some [("endian", Little)]) wav_format)
           "WAVDataChunk" [] None wav_data.

(** What the module [wave] writes for 64 bytes of 16-bit mono audio sampled at 8kHz *)
Definition wav_file : list Z :=
  hx "52 49 46 46 64 00 00 00 57 41 56 45 66 6d 74 20 10 00 00 00 01 00 01 00" ++
  hx "40 1f 00 00 80 3e 00 00 02 00 10 00 64 61 74 61 40 00 00 00" ++ repeat 0 64.
Definition wav_load (cid : nat) (pos : nat) : stream * res dict :=
  struct_from_stream WAV fuel cid VNone [] (mkStream wav_file pos).

Example test_wav__basic_read :
  wav_load 0 0 =
    (mkStream wav_file 12,
     Ok [("riff_header", bv "RIFF"); ("size", VInt 100); ("file_format", bv "WAVE")]) /\
  wav_load 1 12 =
    (mkStream wav_file 36,
     Ok [("chunk_id", bv "fmt "); ("size", VInt 16); ("audio_format", VInt 1);
         ("n_channels", VInt 1); ("sample_rate", VInt 8000); ("byte_rate", VInt 16000);
         ("block_alignment", VInt 2); ("bits_per_sample", VInt 16)]) /\
  wav_load 2 36 =
    (mkStream wav_file 108,
     Ok [("chunk_id", bv "data"); ("size", VInt 64); ("audio_data", VBytes (repeat 0 64))]).
Proof. vm_compute. auto. Qed.

Definition wav_values : dict :=
  [("audio_format", VInt 1); ("n_channels", VInt 1); ("sample_rate", VInt 8000);
   ("bits_per_sample", VInt 16)].
Definition wav_audio : dict := [("audio_data", VBytes (repeat 0 64))].
(** The same file, written.  (test_wav__basic_write has 24kHz and more audio; the RIFF size
    the format asks for, four bytes more than the two chunks, is used here.) *)
Example test_wav__basic_write :
  struct_len WAV fuel 1 wav_values = Ok 24 /\ struct_len WAV fuel 2 wav_audio = Ok 72 /\
  then_ (struct_to_bytes WAV fuel 0 [("size", VInt (4 + 24 + 72))] VNone) (fun h =>
  then_ (struct_to_bytes WAV fuel 1 wav_values VNone) (fun f =>
  then_ (struct_to_bytes WAV fuel 2 wav_audio VNone) (fun d => Ok (h ++ f ++ d)))) = Ok wav_file.
Proof. vm_compute. auto. Qed.
