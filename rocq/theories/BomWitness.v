(** Byte order marks and code pages: concrete fields. *)
From Verif Require Export BomProofs CanonLeaf.
Open Scope Z_scope.

(** The code page "ibm500" (encodings/cp500.py). *)
Definition ibm500 : list (option Z) :=
  [Some 1; Some 2; Some 3; Some 156; Some 9; Some 134; Some 127; Some 151; Some 141; Some 142; Some 11; Some
   12; Some 13; Some 14; Some 15; Some 16; Some 17; Some 18; Some 19; Some 157; Some 133; Some 8; Some 135;
   Some 24; Some 25; Some 146; Some 143; Some 28; Some 29; Some 30; Some 31; Some 128; Some 129; Some 130;
   Some 131; Some 132; Some 10; Some 23; Some 27; Some 136; Some 137; Some 138; Some 139; Some 140; Some 5;
   Some 6; Some 7; Some 144; Some 145; Some 22; Some 147; Some 148; Some 149; Some 150; Some 4; Some 152; Some
   153; Some 154; Some 155; Some 20; Some 21; Some 158; Some 26; Some 32; Some 160; Some 226; Some 228; Some
   224; Some 225; Some 227; Some 229; Some 231; Some 241; Some 91; Some 46; Some 60; Some 40; Some 43; Some
   33; Some 38; Some 233; Some 234; Some 235; Some 232; Some 237; Some 238; Some 239; Some 236; Some 223; Some
   93; Some 36; Some 42; Some 41; Some 59; Some 94; Some 45; Some 47; Some 194; Some 196; Some 192; Some 193;
   Some 195; Some 197; Some 199; Some 209; Some 166; Some 44; Some 37; Some 95; Some 62; Some 63; Some 248;
   Some 201; Some 202; Some 203; Some 200; Some 205; Some 206; Some 207; Some 204; Some 96; Some 58; Some 35;
   Some 64; Some 39; Some 61; Some 34; Some 216; Some 97; Some 98; Some 99; Some 100; Some 101; Some 102; Some
   103; Some 104; Some 105; Some 171; Some 187; Some 240; Some 253; Some 254; Some 177; Some 176; Some 106;
   Some 107; Some 108; Some 109; Some 110; Some 111; Some 112; Some 113; Some 114; Some 170; Some 186; Some
   230; Some 184; Some 198; Some 164; Some 181; Some 126; Some 115; Some 116; Some 117; Some 118; Some 119;
   Some 120; Some 121; Some 122; Some 161; Some 191; Some 208; Some 221; Some 222; Some 174; Some 162; Some
   163; Some 165; Some 183; Some 169; Some 167; Some 182; Some 188; Some 189; Some 190; Some 172; Some 124;
   Some 175; Some 168; Some 180; Some 215; Some 123; Some 65; Some 66; Some 67; Some 68; Some 69; Some 70;
   Some 71; Some 72; Some 73; Some 173; Some 244; Some 246; Some 242; Some 243; Some 245; Some 125; Some 74;
   Some 75; Some 76; Some 77; Some 78; Some 79; Some 80; Some 81; Some 82; Some 185; Some 251; Some 252; Some
   249; Some 250; Some 255; Some 92; Some 247; Some 83; Some 84; Some 85; Some 86; Some 87; Some 88; Some 89;
   Some 90; Some 178; Some 212; Some 214; Some 210; Some 211; Some 213; Some 48; Some 49; Some 50; Some 51;
   Some 52; Some 53; Some 54; Some 55; Some 56; Some 57; Some 179; Some 219; Some 220; Some 217; Some 218;
   Some 159].

(** The code page "cp875" (encodings/cp875.py): seven bytes stand for the character 26. *)
Definition cp875 : list (option Z) :=
  [Some 1; Some 2; Some 3; Some 156; Some 9; Some 134; Some 127; Some 151; Some 141; Some 142; Some 11; Some
   12; Some 13; Some 14; Some 15; Some 16; Some 17; Some 18; Some 19; Some 157; Some 133; Some 8; Some 135;
   Some 24; Some 25; Some 146; Some 143; Some 28; Some 29; Some 30; Some 31; Some 128; Some 129; Some 130;
   Some 131; Some 132; Some 10; Some 23; Some 27; Some 136; Some 137; Some 138; Some 139; Some 140; Some 5;
   Some 6; Some 7; Some 144; Some 145; Some 22; Some 147; Some 148; Some 149; Some 150; Some 4; Some 152; Some
   153; Some 154; Some 155; Some 20; Some 21; Some 158; Some 26; Some 32; Some 913; Some 914; Some 915; Some
   916; Some 917; Some 918; Some 919; Some 920; Some 921; Some 91; Some 46; Some 60; Some 40; Some 43; Some
   33; Some 38; Some 922; Some 923; Some 924; Some 925; Some 926; Some 927; Some 928; Some 929; Some 931; Some
   93; Some 36; Some 42; Some 41; Some 59; Some 94; Some 45; Some 47; Some 932; Some 933; Some 934; Some 935;
   Some 936; Some 937; Some 938; Some 939; Some 124; Some 44; Some 37; Some 95; Some 62; Some 63; Some 168;
   Some 902; Some 904; Some 905; Some 160; Some 906; Some 908; Some 910; Some 911; Some 96; Some 58; Some 35;
   Some 64; Some 39; Some 61; Some 34; Some 901; Some 97; Some 98; Some 99; Some 100; Some 101; Some 102; Some
   103; Some 104; Some 105; Some 945; Some 946; Some 947; Some 948; Some 949; Some 950; Some 176; Some 106;
   Some 107; Some 108; Some 109; Some 110; Some 111; Some 112; Some 113; Some 114; Some 951; Some 952; Some
   953; Some 954; Some 955; Some 956; Some 180; Some 126; Some 115; Some 116; Some 117; Some 118; Some 119;
   Some 120; Some 121; Some 122; Some 957; Some 958; Some 959; Some 960; Some 961; Some 963; Some 163; Some
   940; Some 941; Some 942; Some 970; Some 943; Some 972; Some 973; Some 971; Some 974; Some 962; Some 964;
   Some 965; Some 966; Some 967; Some 968; Some 123; Some 65; Some 66; Some 67; Some 68; Some 69; Some 70;
   Some 71; Some 72; Some 73; Some 173; Some 969; Some 912; Some 944; Some 8216; Some 8213; Some 125; Some 74;
   Some 75; Some 76; Some 77; Some 78; Some 79; Some 80; Some 81; Some 82; Some 177; Some 189; Some 26; Some
   903; Some 8217; Some 166; Some 92; Some 26; Some 83; Some 84; Some 85; Some 86; Some 87; Some 88; Some 89;
   Some 90; Some 178; Some 167; Some 26; Some 26; Some 171; Some 172; Some 48; Some 49; Some 50; Some 51; Some
   52; Some 53; Some 54; Some 55; Some 56; Some 57; Some 179; Some 169; Some 26; Some 26; Some 187; Some 159].

(** The code page "cp1252" (encodings/cp1252.py): five bytes are not assigned. *)
Definition cp1252 : list (option Z) :=
  [Some 1; Some 2; Some 3; Some 4; Some 5; Some 6; Some 7; Some 8; Some 9; Some 10; Some 11; Some 12; Some 13;
   Some 14; Some 15; Some 16; Some 17; Some 18; Some 19; Some 20; Some 21; Some 22; Some 23; Some 24; Some 25;
   Some 26; Some 27; Some 28; Some 29; Some 30; Some 31; Some 32; Some 33; Some 34; Some 35; Some 36; Some 37;
   Some 38; Some 39; Some 40; Some 41; Some 42; Some 43; Some 44; Some 45; Some 46; Some 47; Some 48; Some 49;
   Some 50; Some 51; Some 52; Some 53; Some 54; Some 55; Some 56; Some 57; Some 58; Some 59; Some 60; Some 61;
   Some 62; Some 63; Some 64; Some 65; Some 66; Some 67; Some 68; Some 69; Some 70; Some 71; Some 72; Some 73;
   Some 74; Some 75; Some 76; Some 77; Some 78; Some 79; Some 80; Some 81; Some 82; Some 83; Some 84; Some 85;
   Some 86; Some 87; Some 88; Some 89; Some 90; Some 91; Some 92; Some 93; Some 94; Some 95; Some 96; Some 97;
   Some 98; Some 99; Some 100; Some 101; Some 102; Some 103; Some 104; Some 105; Some 106; Some 107; Some 108;
   Some 109; Some 110; Some 111; Some 112; Some 113; Some 114; Some 115; Some 116; Some 117; Some 118; Some
   119; Some 120; Some 121; Some 122; Some 123; Some 124; Some 125; Some 126; Some 127; Some 8364; None; Some
   8218; Some 402; Some 8222; Some 8230; Some 8224; Some 8225; Some 710; Some 8240; Some 352; Some 8249; Some
   338; None; Some 381; None; None; Some 8216; Some 8217; Some 8220; Some 8221; Some 8226; Some 8211; Some
   8212; Some 732; Some 8482; Some 353; Some 8250; Some 339; None; Some 382; Some 376; Some 160; Some 161;
   Some 162; Some 163; Some 164; Some 165; Some 166; Some 167; Some 168; Some 169; Some 170; Some 171; Some
   172; Some 173; Some 174; Some 175; Some 176; Some 177; Some 178; Some 179; Some 180; Some 181; Some 182;
   Some 183; Some 184; Some 185; Some 186; Some 187; Some 188; Some 189; Some 190; Some 191; Some 192; Some
   193; Some 194; Some 195; Some 196; Some 197; Some 198; Some 199; Some 200; Some 201; Some 202; Some 203;
   Some 204; Some 205; Some 206; Some 207; Some 208; Some 209; Some 210; Some 211; Some 212; Some 213; Some
   214; Some 215; Some 216; Some 217; Some 218; Some 219; Some 220; Some 221; Some 222; Some 223; Some 224;
   Some 225; Some 226; Some 227; Some 228; Some 229; Some 230; Some 231; Some 232; Some 233; Some 234; Some
   235; Some 236; Some 237; Some 238; Some 239; Some 240; Some 241; Some 242; Some 243; Some 244; Some 245;
   Some 246; Some 247; Some 248; Some 249; Some 250; Some 251; Some 252; Some 253; Some 254; Some 255].

Lemma page_in t b cp : page_char t b = Some cp -> In b (map Z.of_nat (seq 0 256)).
Proof.
  intros H. unfold page_char in H. assert (0 <= b < 256).
  { destruct (b =? 0) eqn:Hb; [lia|]. destruct ((1 <=? b) && (b <=? 255)) eqn:Hr; [lia|discriminate]. }
  apply in_map_iff. exists (Z.to_nat b). split; [lia|]. apply in_seq. lia.
Qed.

Lemma one_form_check t :
  forallb (fun a => forallb (fun b => match page_char t a, page_char t b with
    | Some x, Some y => negb (x =? y) || (a =? b) | _, _ => true end) (map Z.of_nat (seq 0 256)))
    (map Z.of_nat (seq 0 256)) = true -> one_form (Charmap t).
Proof.
  intros H a b cp Ha Hb. rewrite forallb_forall in H. specialize (H a (page_in _ _ _ Ha)). cbn beta in H.
  rewrite forallb_forall in H. specialize (H b (page_in _ _ _ Hb)). cbn beta in H. rewrite Ha, Hb in H.
  rewrite Z.eqb_refl in H. apply Z.eqb_eq. exact H.
Qed.

Lemma ibm500_one_form : one_form (Charmap ibm500).
Proof. apply one_form_check. vm_compute. reflexivity. Qed.

Lemma page_string_redump E n c t pad bs cps ctx d : one_form (Charmap t) -> bytes_ok bs ->
  declared_size c d (zlen bs) -> accepts c (VStr cps) -> Forall2 (assigned t) bs cps ->
  field_to_stream E n (Field c (KString (Charmap t) pad)) (VStr cps) ctx d = (bs, Ok tt).
Proof.
  intros Ho Hb Hs Ha H. rewrite (LeafMore.string_to_stream E n c _ pad _ cps ctx d Hs Ha).
  apply page_decode in H. unfold encode_and_resize. rewrite (decode_canonical _ _ _ Ho Hb H).
  cbn [bind]. rewrite Z.sub_diag. reflexivity.
Qed.

Definition text_field (sz : sizespec) (k : fkind) : field := Field (basic "x" sz) k.

Lemma bom_samples :
  (* "A" as "utf-16" on a little-endian machine, read on a big-endian one *)
  field_to_stream [] 1 (text_field SNone (KStringZ (Utf16Bom Little) None)) (VStr [65]) VNone []
    = ([255; 254; 65; 0; 0; 0], Ok tt)
  /\ field_from_stream [] 1 (text_field SNone (KStringZ (Utf16Bom Big) None)) VNone []
      (at_data [7] [255; 254; 65; 0; 0; 0] [9])
     = (after_data [7] [255; 254; 65; 0; 0; 0] [9], Ok (VStr [65]))
  /\ field_from_stream [] 1 (text_field SNone (KStringZ Utf8Sig None)) VNone []
      (at_data [] [239; 187; 191; 65; 0] [9]) = (after_data [] [239; 187; 191; 65; 0] [9], Ok (VStr [65]))
  /\ field_from_stream [] 1 (text_field SNone (KStringZ Utf8Sig None)) VNone []
      (at_data [] [65; 0] [9]) = (after_data [] [65; 0] [9], Ok (VStr [65])).
Proof. repeat split. Qed.

Lemma native_differs :
  field_from_stream [] 1 (text_field (SInt 2) (KString (Utf16Bom Little) None)) VNone [] (mkStream [65; 0] 0)
    = (mkStream [65; 0] 2, Ok (VStr [65]))
  /\ field_from_stream [] 1 (text_field (SInt 2) (KString (Utf16Bom Big) None)) VNone [] (mkStream [65; 0] 0)
    = (mkStream [65; 0] 2, Ok (VStr [16640])).
Proof. split; reflexivity. Qed.

Lemma mark_kept :
  field_from_stream [] 1 (text_field (SInt 4) (KString (Utf16 Little) None)) VNone [] (mkStream [255; 254; 65; 0] 0)
    = (mkStream [255; 254; 65; 0] 4, Ok (VStr [65279; 65])).
Proof. reflexivity. Qed.

Lemma page_samples :
  field_to_stream [] 1 (text_field (SInt 5) (KString (Charmap ibm500) None)) (VStr [72; 101; 108; 108; 111]) VNone []
    = ([200; 133; 147; 147; 150], Ok tt)
  /\ field_from_stream [] 1 (text_field (SInt 5) (KString (Charmap ibm500) None)) VNone []
       (mkStream [200; 133; 147; 147; 150] 0)
     = (mkStream [200; 133; 147; 147; 150] 5, Ok (VStr [72; 101; 108; 108; 111]))
  /\ field_from_stream [] 1 (text_field (SInt 1) (KString (Charmap cp1252) None)) VNone [] (mkStream [129] 0)
     = (mkStream [129] 1, Raise EUnicodeDecode)
  /\ field_to_stream [] 1 (text_field (SInt 1) (KString (Charmap cp1252) None)) (VStr [256]) VNone []
     = ([], Raise EUnicodeEncode).
Proof. repeat split; vm_compute; reflexivity. Qed.

Lemma page_rewritten :
  field_from_stream [] 1 (text_field (SInt 1) (KString (Charmap cp875) None)) VNone [] (mkStream [63] 0)
    = (mkStream [63] 1, Ok (VStr [26]))
  /\ field_to_stream [] 1 (text_field (SInt 1) (KString (Charmap cp875) None)) (VStr [26]) VNone []
    = ([253], Ok tt).
Proof. split; vm_compute; reflexivity. Qed.

Lemma cut_samples :
  cut_after (basic "x" SNone) [] (mkStream [7; 239; 187] 1) [239; 187]
  /\ field_from_stream [] 1 (text_field SNone (KStringZ Utf8Sig None)) VNone [] (mkStream [7; 239; 187] 1)
     = (mkStream [7; 239; 187] 3, Raise (EDeserialization (Some "x"%string)))
  /\ field_from_stream [] 1 (text_field SNone (KStringZ (Utf16Bom Little) None)) VNone [] (mkStream [255] 0)
     = (mkStream [255] 1, Raise EUnicodeDecode)
  /\ field_from_stream [] 1 (text_field (SInt 2) (KStringZ Utf8 None)) VNone [] (mkStream [65; 195; 169; 0] 0)
     = (mkStream [65; 195; 169; 0] 2, Raise EUnicodeDecode).
Proof. split; [left; repeat split|]. repeat split; reflexivity. Qed.
