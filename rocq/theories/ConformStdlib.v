(** Answers of CPython 3.11's own library that the model of it must reproduce: written by
    tools/gen_stdlib_vectors.py.  Nothing of /repo was run. *)
From Coq Require Import String.
From Verif Require Import Tac.
From Verif Require Import StructModel Version LocalTime.
Open Scope list_scope.
Open Scope Z_scope.

Definition oz_eqb (a b : option Z) : bool :=
  match a, b with Some x, Some y => x =? y | None, None => true | _, _ => false end.
Definition exn_eqb (a b : exn) : bool :=
  match a, b with
  | EUnicodeEncode, EUnicodeEncode | EUnicodeDecode, EUnicodeDecode | EUnicodeErr, EUnicodeErr
  | EOverflow, EOverflow | EValueErr, EValueErr | EOSErr, EOSErr
  | EDeserialization None, EDeserialization None => true
  | _, _ => false
  end.
Definition res_eqb {A} (eqb : A -> A -> bool) (a b : res A) : bool :=
  match a, b with Ok x, Ok y => eqb x y | Raise x, Raise y => exn_eqb x y | _, _ => false end.

Definition cp1252 : list (option Z) := [Some 1;Some 2;Some 3;Some 4;Some 5;Some 6;Some 7;Some 8;Some 9;Some 10;Some 11;Some 12;Some 13;Some 14;Some 15;Some 16;Some 17;Some 18;Some 19;Some 20;Some 21;Some 22;Some 23;Some 24;Some 25;Some 26;Some 27;Some 28;Some 29;Some 30;Some 31;Some 32;Some 33;Some 34;Some 35;Some 36;Some 37;Some 38;Some 39;Some 40;Some 41;Some 42;Some 43;Some 44;Some 45;Some 46;Some 47;Some 48;Some 49;Some 50;Some 51;Some 52;Some 53;Some 54;Some 55;Some 56;Some 57;Some 58;Some 59;Some 60;Some 61;Some 62;Some 63;Some 64;Some 65;Some 66;Some 67;Some 68;Some 69;Some 70;Some 71;Some 72;Some 73;Some 74;Some 75;Some 76;Some 77;Some 78;Some 79;Some 80;Some 81;Some 82;Some 83;Some 84;Some 85;Some 86;Some 87;Some 88;Some 89;Some 90;Some 91;Some 92;Some 93;Some 94;Some 95;Some 96;Some 97;Some 98;Some 99;Some 100;Some 101;Some 102;Some 103;Some 104;Some 105;Some 106;Some 107;Some 108;Some 109;Some 110;Some 111;Some 112;Some 113;Some 114;Some 115;Some 116;Some 117;Some 118;Some 119;Some 120;Some 121;Some 122;Some 123;Some 124;Some 125;Some 126;Some 127;Some 8364;None;Some 8218;Some 402;Some 8222;Some 8230;Some 8224;Some 8225;Some 710;Some 8240;Some 352;Some 8249;Some 338;None;Some 381;None;None;Some 8216;Some 8217;Some 8220;Some 8221;Some 8226;Some 8211;Some 8212;Some 732;Some 8482;Some 353;Some 8250;Some 339;None;Some 382;Some 376;Some 160;Some 161;Some 162;Some 163;Some 164;Some 165;Some 166;Some 167;Some 168;Some 169;Some 170;Some 171;Some 172;Some 173;Some 174;Some 175;Some 176;Some 177;Some 178;Some 179;Some 180;Some 181;Some 182;Some 183;Some 184;Some 185;Some 186;Some 187;Some 188;Some 189;Some 190;Some 191;Some 192;Some 193;Some 194;Some 195;Some 196;Some 197;Some 198;Some 199;Some 200;Some 201;Some 202;Some 203;Some 204;Some 205;Some 206;Some 207;Some 208;Some 209;Some 210;Some 211;Some 212;Some 213;Some 214;Some 215;Some 216;Some 217;Some 218;Some 219;Some 220;Some 221;Some 222;Some 223;Some 224;Some 225;Some 226;Some 227;Some 228;Some 229;Some 230;Some 231;Some 232;Some 233;Some 234;Some 235;Some 236;Some 237;Some 238;Some 239;Some 240;Some 241;Some 242;Some 243;Some 244;Some 245;Some 246;Some 247;Some 248;Some 249;Some 250;Some 251;Some 252;Some 253;Some 254;Some 255].
Definition cp500 : list (option Z) := [Some 1;Some 2;Some 3;Some 156;Some 9;Some 134;Some 127;Some 151;Some 141;Some 142;Some 11;Some 12;Some 13;Some 14;Some 15;Some 16;Some 17;Some 18;Some 19;Some 157;Some 133;Some 8;Some 135;Some 24;Some 25;Some 146;Some 143;Some 28;Some 29;Some 30;Some 31;Some 128;Some 129;Some 130;Some 131;Some 132;Some 10;Some 23;Some 27;Some 136;Some 137;Some 138;Some 139;Some 140;Some 5;Some 6;Some 7;Some 144;Some 145;Some 22;Some 147;Some 148;Some 149;Some 150;Some 4;Some 152;Some 153;Some 154;Some 155;Some 20;Some 21;Some 158;Some 26;Some 32;Some 160;Some 226;Some 228;Some 224;Some 225;Some 227;Some 229;Some 231;Some 241;Some 91;Some 46;Some 60;Some 40;Some 43;Some 33;Some 38;Some 233;Some 234;Some 235;Some 232;Some 237;Some 238;Some 239;Some 236;Some 223;Some 93;Some 36;Some 42;Some 41;Some 59;Some 94;Some 45;Some 47;Some 194;Some 196;Some 192;Some 193;Some 195;Some 197;Some 199;Some 209;Some 166;Some 44;Some 37;Some 95;Some 62;Some 63;Some 248;Some 201;Some 202;Some 203;Some 200;Some 205;Some 206;Some 207;Some 204;Some 96;Some 58;Some 35;Some 64;Some 39;Some 61;Some 34;Some 216;Some 97;Some 98;Some 99;Some 100;Some 101;Some 102;Some 103;Some 104;Some 105;Some 171;Some 187;Some 240;Some 253;Some 254;Some 177;Some 176;Some 106;Some 107;Some 108;Some 109;Some 110;Some 111;Some 112;Some 113;Some 114;Some 170;Some 186;Some 230;Some 184;Some 198;Some 164;Some 181;Some 126;Some 115;Some 116;Some 117;Some 118;Some 119;Some 120;Some 121;Some 122;Some 161;Some 191;Some 208;Some 221;Some 222;Some 174;Some 162;Some 163;Some 165;Some 183;Some 169;Some 167;Some 182;Some 188;Some 189;Some 190;Some 172;Some 124;Some 175;Some 168;Some 180;Some 215;Some 123;Some 65;Some 66;Some 67;Some 68;Some 69;Some 70;Some 71;Some 72;Some 73;Some 173;Some 244;Some 246;Some 242;Some 243;Some 245;Some 125;Some 74;Some 75;Some 76;Some 77;Some 78;Some 79;Some 80;Some 81;Some 82;Some 185;Some 251;Some 252;Some 249;Some 250;Some 255;Some 92;Some 247;Some 83;Some 84;Some 85;Some 86;Some 87;Some 88;Some 89;Some 90;Some 178;Some 212;Some 214;Some 210;Some 211;Some 213;Some 48;Some 49;Some 50;Some 51;Some 52;Some 53;Some 54;Some 55;Some 56;Some 57;Some 179;Some 219;Some 220;Some 217;Some 218;Some 159].

Definition encode_ascii_vectors : list (list Z * res (list Z)) :=
 [([0], Ok [0]);
  ([1114111;580], Raise EUnicodeEncode);
  ([1114111;65534;65535], Raise EUnicodeEncode);
  ([124], Ok [124]);
  ([127], Ok [127]);
  ([128], Raise EUnicodeEncode);
  ([129;170], Raise EUnicodeEncode);
  ([142;128;65534], Raise EUnicodeEncode);
  ([145;56319], Raise EUnicodeEncode);
  ([157], Raise EUnicodeEncode);
  ([181;288], Raise EUnicodeEncode);
  ([183;1114111], Raise EUnicodeEncode);
  ([186;65535], Raise EUnicodeEncode);
  ([2047;525], Raise EUnicodeEncode);
  ([2047;529;65], Raise EUnicodeEncode);
  ([2047], Raise EUnicodeEncode);
  ([2048], Raise EUnicodeEncode);
  ([255;587;106], Raise EUnicodeEncode);
  ([255;8364;8364], Raise EUnicodeEncode);
  ([255], Raise EUnicodeEncode);
  ([264], Raise EUnicodeEncode);
  ([413;65534], Raise EUnicodeEncode);
  ([441], Raise EUnicodeEncode);
  ([474;21], Raise EUnicodeEncode);
  ([49;383], Raise EUnicodeEncode);
  ([55296], Raise EUnicodeEncode);
  ([56319], Raise EUnicodeEncode);
  ([56320;2047], Raise EUnicodeEncode);
  ([56320;56320;0], Raise EUnicodeEncode);
  ([56320;57343;65279], Raise EUnicodeEncode);
  ([56320;65279;65535], Raise EUnicodeEncode);
  ([566;309], Raise EUnicodeEncode);
  ([571], Raise EUnicodeEncode);
  ([57343;8364;65], Raise EUnicodeEncode);
  ([599;65279;65534], Raise EUnicodeEncode);
  ([631], Raise EUnicodeEncode);
  ([65279;241;65535], Raise EUnicodeEncode);
  ([65279;521], Raise EUnicodeEncode);
  ([65534], Raise EUnicodeEncode);
  ([65535;1114111], Raise EUnicodeEncode);
  ([65535], Raise EUnicodeEncode);
  ([65536], Raise EUnicodeEncode);
  ([65], Ok [65]);
  ([661;65], Raise EUnicodeEncode);
  ([746], Raise EUnicodeEncode);
  ([8364;2048;648], Raise EUnicodeEncode);
  ([], Ok [])].
Example encode_ascii_agrees : forallb (fun v => res_eqb bytes_eqb (encode (Ascii) (fst v)) (snd v)) encode_ascii_vectors = true.
Proof. vm_compute. reflexivity. Qed.

Definition decode_ascii_vectors : list (list Z * res (list Z)) :=
 [([0;0;254;255;0;0;0;240;191], Raise EUnicodeDecode);
  ([0;0;254;255;0;191;216;0], Raise EUnicodeDecode);
  ([0;0;254;255;52], Raise EUnicodeDecode);
  ([0;0;254;255], Raise EUnicodeDecode);
  ([0], Ok [0]);
  ([113], Ok [113]);
  ([127], Ok [127]);
  ([133;17;55], Raise EUnicodeDecode);
  ([185;127;65], Raise EUnicodeDecode);
  ([194], Raise EUnicodeDecode);
  ([216], Raise EUnicodeDecode);
  ([220;240;65;178], Raise EUnicodeDecode);
  ([237], Raise EUnicodeDecode);
  ([239;187;191;0;237;191;160;208], Raise EUnicodeDecode);
  ([239;187;191;191;128;194;194;194], Raise EUnicodeDecode);
  ([239;187;191;191;244], Raise EUnicodeDecode);
  ([239;187;191;220;216], Raise EUnicodeDecode);
  ([239;187;191], Raise EUnicodeDecode);
  ([239;187;237], Raise EUnicodeDecode);
  ([239;187], Raise EUnicodeDecode);
  ([240;65], Raise EUnicodeDecode);
  ([254;255;0;0;224;220], Raise EUnicodeDecode);
  ([254;255;194;244;160], Raise EUnicodeDecode);
  ([254;255;224;0;224;0], Raise EUnicodeDecode);
  ([254;255;65;224], Raise EUnicodeDecode);
  ([254;255], Raise EUnicodeDecode);
  ([255;254;0;0;141;216;240;128], Raise EUnicodeDecode);
  ([255;254;0;0;191], Raise EUnicodeDecode);
  ([255;254;0;0;240;191], Raise EUnicodeDecode);
  ([255;254;0;0;240;224;216], Raise EUnicodeDecode);
  ([255;254;0;0], Raise EUnicodeDecode);
  ([255;254;128;160], Raise EUnicodeDecode);
  ([255;254;194;128;194;0;194], Raise EUnicodeDecode);
  ([255;254;224;220;240;237;237], Raise EUnicodeDecode);
  ([255;254;65;194;0;160;0], Raise EUnicodeDecode);
  ([29], Ok [29]);
  ([41;0;127], Ok [41;0;127]);
  ([65;240;224;244], Raise EUnicodeDecode);
  ([65;59], Ok [65;59]);
  ([65], Ok [65]);
  ([70], Ok [70]);
  ([79], Ok [79]);
  ([], Ok [])].
Example decode_ascii_agrees : forallb (fun v => res_eqb bytes_eqb (decode (Ascii) (fst v)) (snd v)) decode_ascii_vectors = true.
Proof. vm_compute. reflexivity. Qed.

Definition iterdecode_ascii_vectors : list (list Z * (list Z + exn) * nat) :=
 [([0;0;0;0;0;0], inl [], 1%nat);
  ([0;0;0;0;0], inl [], 1%nat);
  ([0;0;0;0], inl [], 1%nat);
  ([0;0;254;255;160;160;0;0;0;0], inl [], 1%nat);
  ([0;0;254;255;194;194;0;237;0], inl [], 1%nat);
  ([0;0;254;255;216;184;216;0], inl [], 1%nat);
  ([0;0;254;255;220;240;191;0;194;0;0;0;0;0], inl [], 1%nat);
  ([0;0;254;255;244;191;220;216;0;0;0;0;0], inl [], 1%nat);
  ([0;0;254;255;65;237;237;220;0], inl [], 1%nat);
  ([0;179;0;0;0;0;0], inl [], 1%nat);
  ([0], inl [], 1%nat);
  ([119], inr (EDeserialization None), 1%nat);
  ([11;0;0;0;0;0], inl [11], 2%nat);
  ([127;0;0;0;0], inl [127], 2%nat);
  ([14;65], inr (EDeserialization None), 2%nat);
  ([216;0], inr EUnicodeDecode, 1%nat);
  ([226;0], inr EUnicodeDecode, 1%nat);
  ([227;127;0;0;0;0], inr EUnicodeDecode, 1%nat);
  ([237;0;0;0;0;0], inr EUnicodeDecode, 1%nat);
  ([239;187;0;0;0;0;0;0], inr EUnicodeDecode, 1%nat);
  ([239;187;0], inr EUnicodeDecode, 1%nat);
  ([239;187;191;194;0;0], inr EUnicodeDecode, 1%nat);
  ([239;187;191;220;194;160;240;0], inr EUnicodeDecode, 1%nat);
  ([239;187;191;220;224;224;194;0], inr EUnicodeDecode, 1%nat);
  ([239;187;191;224;240;244;0;194;0], inr EUnicodeDecode, 1%nat);
  ([239;187;191;224;65;0], inr EUnicodeDecode, 1%nat);
  ([239;187;194;160;0;0;0;0], inr EUnicodeDecode, 1%nat);
  ([239;187;220;0], inr EUnicodeDecode, 1%nat);
  ([239;187;240;244], inr EUnicodeDecode, 1%nat);
  ([239;187;244;216;0;0;0;0;0;0], inr EUnicodeDecode, 1%nat);
  ([244;240], inr EUnicodeDecode, 1%nat);
  ([245;0], inr EUnicodeDecode, 1%nat);
  ([254;255;0;0;0;0;0], inr EUnicodeDecode, 1%nat);
  ([254;255;0], inr EUnicodeDecode, 1%nat);
  ([254;255;194;224;244;0;216;0], inr EUnicodeDecode, 1%nat);
  ([254;255;216;0;0;0;0;0], inr EUnicodeDecode, 1%nat);
  ([254;255;220;0;240;191;0], inr EUnicodeDecode, 1%nat);
  ([254;255;224;220;237;159;220;0;0;0;0;0], inr EUnicodeDecode, 1%nat);
  ([254;255;49;191;0], inr EUnicodeDecode, 1%nat);
  ([255;254;0;0;0;191;216;244;128], inr EUnicodeDecode, 1%nat);
  ([255;254;0;0;128;191;0], inr EUnicodeDecode, 1%nat);
  ([255;254;0;0;191;6;128;224;0], inr EUnicodeDecode, 1%nat);
  ([255;254;0;0;76;244;194;0], inr EUnicodeDecode, 1%nat);
  ([255;254;220;244;224], inr EUnicodeDecode, 1%nat);
  ([255;254;65;194;191;0], inr EUnicodeDecode, 1%nat);
  ([255;254], inr EUnicodeDecode, 1%nat);
  ([38;0;0;0;0], inl [38], 2%nat);
  ([3;103;0], inl [3;103], 3%nat);
  ([63;0], inl [63], 2%nat);
  ([65;65;0;0;0;0;0], inl [65;65], 3%nat);
  ([65;88;0;0;0;0;0], inl [65;88], 3%nat);
  ([75;65;0;0;0;0;0], inl [75;65], 3%nat);
  ([79;1], inr (EDeserialization None), 2%nat);
  ([92;65;0], inl [92;65], 3%nat);
  ([], inr (EDeserialization None), 0%nat)].
Example iterdecode_ascii_agrees : forallb (fun v => let '(bs, r, pos) := v in
  match stringz_loop (S (length bs)) None (Ascii) None 0 [] [] (mkStream bs 0), r with
  | (s, Ok (VStr t)), inl t' => bytes_eqb t t' && Nat.eqb (s_pos s) pos
  | (s, Raise e), inr e' => exn_eqb e e' && Nat.eqb (s_pos s) pos
  | _, _ => false
  end) iterdecode_ascii_vectors = true.
Proof. vm_compute. reflexivity. Qed.

Definition encode_iso_8859_1_vectors : list (list Z * res (list Z)) :=
 [([0;127;129], Ok [0;127;129]);
  ([0;83], Ok [0;83]);
  ([1114111;56319], Raise EUnicodeEncode);
  ([1114111], Raise EUnicodeEncode);
  ([126], Ok [126]);
  ([127;163], Ok [127;163]);
  ([127;182;157], Ok [127;182;157]);
  ([127;255], Ok [127;255]);
  ([128;127], Ok [128;127]);
  ([128], Ok [128]);
  ([129], Ok [129]);
  ([157], Ok [157]);
  ([192;2047;65534], Raise EUnicodeEncode);
  ([2048;324], Raise EUnicodeEncode);
  ([234], Ok [234]);
  ([256;458], Raise EUnicodeEncode);
  ([256;8364], Raise EUnicodeEncode);
  ([293;65;265], Raise EUnicodeEncode);
  ([294], Raise EUnicodeEncode);
  ([331], Raise EUnicodeEncode);
  ([339;287;57], Raise EUnicodeEncode);
  ([363;65279], Raise EUnicodeEncode);
  ([36;65], Ok [36;65]);
  ([374;564;2048], Raise EUnicodeEncode);
  ([509;668], Raise EUnicodeEncode);
  ([516], Raise EUnicodeEncode);
  ([526;56319], Raise EUnicodeEncode);
  ([55296], Raise EUnicodeEncode);
  ([56320;65536;2048], Raise EUnicodeEncode);
  ([56320], Raise EUnicodeEncode);
  ([58;629;0], Raise EUnicodeEncode);
  ([621;65;0], Raise EUnicodeEncode);
  ([634;5], Raise EUnicodeEncode);
  ([65279], Raise EUnicodeEncode);
  ([65534;459;56319], Raise EUnicodeEncode);
  ([65534;65536], Raise EUnicodeEncode);
  ([65534;656], Raise EUnicodeEncode);
  ([65;263], Raise EUnicodeEncode);
  ([668], Raise EUnicodeEncode);
  ([690;55296;56320], Raise EUnicodeEncode);
  ([690;596;255], Raise EUnicodeEncode);
  ([691], Raise EUnicodeEncode);
  ([749;65535], Raise EUnicodeEncode);
  ([766], Raise EUnicodeEncode);
  ([8364;1114111], Raise EUnicodeEncode);
  ([], Ok [])].
Example encode_iso_8859_1_agrees : forallb (fun v => res_eqb bytes_eqb (encode (Latin1) (fst v)) (snd v)) encode_iso_8859_1_vectors = true.
Proof. vm_compute. reflexivity. Qed.

Definition decode_iso_8859_1_vectors : list (list Z * res (list Z)) :=
 [([0;0;254;255;0;0], Ok [0;0;254;255;0;0]);
  ([0;0;254;255;237;224;160;191], Ok [0;0;254;255;237;224;160;191]);
  ([0;0;254;255;244], Ok [0;0;254;255;244]);
  ([0;0;254;255;65;128;194], Ok [0;0;254;255;65;128;194]);
  ([0;0;254;255], Ok [0;0;254;255]);
  ([0], Ok [0]);
  ([127;16], Ok [127;16]);
  ([128;191], Ok [128;191]);
  ([128;65], Ok [128;65]);
  ([129], Ok [129]);
  ([135], Ok [135]);
  ([147;186], Ok [147;186]);
  ([157], Ok [157]);
  ([173], Ok [173]);
  ([177;0], Ok [177;0]);
  ([183;127], Ok [183;127]);
  ([18;128], Ok [18;128]);
  ([190], Ok [190]);
  ([191], Ok [191]);
  ([192], Ok [192]);
  ([199], Ok [199]);
  ([219;174], Ok [219;174]);
  ([224], Ok [224]);
  ([237;0], Ok [237;0]);
  ([239;187;128;0;160;220;216], Ok [239;187;128;0;160;220;216]);
  ([239;187;156], Ok [239;187;156]);
  ([239;187;191;0;15;128], Ok [239;187;191;0;15;128]);
  ([239;187;191;160;244], Ok [239;187;191;160;244]);
  ([239;187;191;194;224;216;224;128], Ok [239;187;191;194;224;216;224;128]);
  ([239;187;191;194], Ok [239;187;191;194]);
  ([239;187;191;224], Ok [239;187;191;224]);
  ([239;187;191], Ok [239;187;191]);
  ([239;187;194;244], Ok [239;187;194;244]);
  ([239;187;244], Ok [239;187;244]);
  ([245], Ok [245]);
  ([246], Ok [246]);
  ([254;255;160;191;216;237;253], Ok [254;255;160;191;216;237;253]);
  ([254;255;237;237;21;240;216], Ok [254;255;237;237;21;240;216]);
  ([254;255;237], Ok [254;255;237]);
  ([255;129], Ok [255;129]);
  ([255;254;0;0;0;194;69;0;240], Ok [255;254;0;0;0;194;69;0;240]);
  ([255;254;0;0;240;244;65;224], Ok [255;254;0;0;240;244;65;224]);
  ([255;254;0;0;65;65;220;65], Ok [255;254;0;0;65;65;220;65]);
  ([255;254;191;216;0], Ok [255;254;191;216;0]);
  ([255;254;216;128;128], Ok [255;254;216;128;128]);
  ([255;254;216;128;244;128], Ok [255;254;216;128;244;128]);
  ([255;254;237;237;0;0], Ok [255;254;237;237;0;0]);
  ([255;254;65;218], Ok [255;254;65;218]);
  ([255;254;65;65;220;224;191], Ok [255;254;65;65;220;224;191]);
  ([255;254], Ok [255;254]);
  ([255], Ok [255]);
  ([36], Ok [36]);
  ([49;157], Ok [49;157]);
  ([54], Ok [54]);
  ([6;126], Ok [6;126]);
  ([76], Ok [76]);
  ([], Ok [])].
Example decode_iso_8859_1_agrees : forallb (fun v => res_eqb bytes_eqb (decode (Latin1) (fst v)) (snd v)) decode_iso_8859_1_vectors = true.
Proof. vm_compute. reflexivity. Qed.

Definition iterdecode_iso_8859_1_vectors : list (list Z * (list Z + exn) * nat) :=
 [([0;0;0;0;0], inl [], 1%nat);
  ([0;0;0;0], inl [], 1%nat);
  ([0;0;254;255;0], inl [], 1%nat);
  ([0;0;254;255;237;0;0;220;0], inl [], 1%nat);
  ([0;0;254;255;240;0], inl [], 1%nat);
  ([0;0;254;255;244;220], inl [], 1%nat);
  ([0;0], inl [], 1%nat);
  ([0;157;65], inl [], 1%nat);
  ([0], inl [], 1%nat);
  ([102], inr (EDeserialization None), 1%nat);
  ([108;157;0;0;0;0], inl [108;157], 3%nat);
  ([127;0;0;0;0], inl [127], 2%nat);
  ([127;0], inl [127], 2%nat);
  ([127;150], inr (EDeserialization None), 2%nat);
  ([127;239;0], inl [127;239], 3%nat);
  ([127], inr (EDeserialization None), 1%nat);
  ([128;253;255;0;0;0;0;0], inl [128;253;255], 4%nat);
  ([129;0], inl [129], 2%nat);
  ([137;0], inl [137], 2%nat);
  ([157;0], inl [157], 2%nat);
  ([157;19;0], inl [157;19], 3%nat);
  ([203;65], inr (EDeserialization None), 2%nat);
  ([208], inr (EDeserialization None), 1%nat);
  ([211], inr (EDeserialization None), 1%nat);
  ([216], inr (EDeserialization None), 1%nat);
  ([220;0], inl [220], 2%nat);
  ([220], inr (EDeserialization None), 1%nat);
  ([237;0;0;0;0;0], inl [237], 2%nat);
  ([237;0], inl [237], 2%nat);
  ([237;237;194;156;191;0;0;0;0], inl [237;237;194;156;191], 6%nat);
  ([239;187;128;220;24;224;0], inl [239;187;128;220;24;224], 7%nat);
  ([239;187;191;0;0;0;0], inl [239;187;191], 4%nat);
  ([239;187;191;0;0], inl [239;187;191], 4%nat);
  ([239;187;191;0;224;0;0;0;0;0], inl [239;187;191], 4%nat);
  ([239;187;191;128;0;244;160], inl [239;187;191;128], 5%nat);
  ([239;187;191;128;65;0], inl [239;187;191;128;65], 6%nat);
  ([239;187;191;220;0;160;191;220], inl [239;187;191;220], 5%nat);
  ([239;187;191;220;191;0;0;0;0;0], inl [239;187;191;220;191], 6%nat);
  ([239;187;191;237;128;160;0], inl [239;187;191;237;128;160], 7%nat);
  ([239;187;191;237;194;220;220;240;0], inl [239;187;191;237;194;220;220;240], 9%nat);
  ([239;187;191;244;244;220;0;0;0;0;0], inl [239;187;191;244;244;220], 7%nat);
  ([239;187;194;82;128;0], inl [239;187;194;82;128], 6%nat);
  ([239;187;20;224;0;0;0;0;0;0], inl [239;187;20;224], 5%nat);
  ([239;187;220;224;244;224;0;0;0;0], inl [239;187;220;224;244;224], 7%nat);
  ([239;187;237;160;194;0;0;0;0;0;0], inl [239;187;237;160;194], 6%nat);
  ([240;0;0;0;0], inl [240], 2%nat);
  ([254;255;0;0;0;0;0], inl [254;255], 3%nat);
  ([254;255;224;220;194;244;0], inl [254;255;224;220;194;244], 7%nat);
  ([254;255;244;65;65;244;191;0], inl [254;255;244;65;65;244;191], 8%nat);
  ([255;0;0;0;0;0], inl [255], 2%nat);
  ([255;0;0;0;0], inl [255], 2%nat);
  ([255;254;0;0;191;216;216;244], inl [255;254], 3%nat);
  ([255;254;0;0;224;244;128], inl [255;254], 3%nat);
  ([255;254;0;0;237;194;128;224;0], inl [255;254], 3%nat);
  ([255;254;128;0], inl [255;254;128], 4%nat);
  ([255;254;220;216;160;0], inl [255;254;220;216;160], 6%nat);
  ([255;254;44;191;0], inl [255;254;44;191], 5%nat);
  ([255;254], inr (EDeserialization None), 2%nat);
  ([255;59;0], inl [255;59], 3%nat);
  ([39;0], inl [39], 2%nat);
  ([3;0], inl [3], 2%nat);
  ([48;0;0;0;0], inl [48], 2%nat);
  ([5;255;0;0;0;0;0], inl [5;255], 3%nat);
  ([65;0;0;0;0;0], inl [65], 2%nat);
  ([65], inr (EDeserialization None), 1%nat);
  ([7;231;147;0], inl [7;231;147], 4%nat);
  ([83;129;255;0], inl [83;129;255], 4%nat);
  ([9;65;244;93;194;0], inl [9;65;244;93;194], 6%nat);
  ([], inr (EDeserialization None), 0%nat)].
Example iterdecode_iso_8859_1_agrees : forallb (fun v => let '(bs, r, pos) := v in
  match stringz_loop (S (length bs)) None (Latin1) None 0 [] [] (mkStream bs 0), r with
  | (s, Ok (VStr t)), inl t' => bytes_eqb t t' && Nat.eqb (s_pos s) pos
  | (s, Raise e), inr e' => exn_eqb e e' && Nat.eqb (s_pos s) pos
  | _, _ => false
  end) iterdecode_iso_8859_1_vectors = true.
Proof. vm_compute. reflexivity. Qed.

Definition encode_utf_8_vectors : list (list Z * res (list Z)) :=
 [([0;56319;65279], Raise EUnicodeEncode);
  ([0;691;2047], Ok [0;202;179;223;191]);
  ([0], Ok [0]);
  ([127;576], Ok [127;201;128]);
  ([127;665;718], Ok [127;202;153;203;142]);
  ([127], Ok [127]);
  ([128;129;129], Ok [194;128;194;129;194;129]);
  ([128;25], Ok [194;128;25]);
  ([128], Ok [194;128]);
  ([164], Ok [194;164]);
  ([2047;17], Ok [223;191;17]);
  ([2047;8364;677], Ok [223;191;226;130;172;202;165]);
  ([2047], Ok [223;191]);
  ([218;127], Ok [195;154;127]);
  ([241], Ok [195;177]);
  ([255;57343;65279], Raise EUnicodeEncode);
  ([256;65535], Ok [196;128;239;191;191]);
  ([256], Ok [196;128]);
  ([267;65;478], Ok [196;139;65;199;158]);
  ([279;594;65536], Ok [196;151;201;146;240;144;128;128]);
  ([283], Ok [196;155]);
  ([296;546], Ok [196;168;200;162]);
  ([351;341;65], Ok [197;159;197;149;65]);
  ([393;65536], Ok [198;137;240;144;128;128]);
  ([409;535], Ok [198;153;200;151]);
  ([477], Ok [199;157]);
  ([49;181], Ok [49;194;181]);
  ([55296;2;263], Raise EUnicodeEncode);
  ([55296;497;241], Raise EUnicodeEncode);
  ([55296;65536], Raise EUnicodeEncode);
  ([55296], Raise EUnicodeEncode);
  ([56319;57343], Raise EUnicodeEncode);
  ([56320;157;354], Raise EUnicodeEncode);
  ([56320], Raise EUnicodeEncode);
  ([57343;1114111;124], Raise EUnicodeEncode);
  ([57343;48], Raise EUnicodeEncode);
  ([585;57343;55296], Raise EUnicodeEncode);
  ([622], Ok [201;174]);
  ([649;255;202], Ok [202;137;195;191;195;138]);
  ([65279;256;55296], Raise EUnicodeEncode);
  ([65279;56320], Raise EUnicodeEncode);
  ([65534;321;56319], Raise EUnicodeEncode);
  ([65536], Ok [240;144;128;128]);
  ([699;255], Ok [202;187;195;191]);
  ([704;731], Ok [203;128;203;155]);
  ([719;202;542], Ok [203;143;195;138;200;158]);
  ([], Ok [])].
Example encode_utf_8_agrees : forallb (fun v => res_eqb bytes_eqb (encode (Utf8) (fst v)) (snd v)) encode_utf_8_vectors = true.
Proof. vm_compute. reflexivity. Qed.

Definition decode_utf_8_vectors : list (list Z * res (list Z)) :=
 [([0;0;254;255;0;240;128;65], Raise EUnicodeDecode);
  ([0;0;254;255;160;160;240;128;224], Raise EUnicodeDecode);
  ([0;0;254;255;65;160;194], Raise EUnicodeDecode);
  ([0;0;254;255;65;244], Raise EUnicodeDecode);
  ([0;0;254;255], Raise EUnicodeDecode);
  ([0;143;191;191;224;160;128], Raise EUnicodeDecode);
  ([0], Ok [0]);
  ([109;194;240;144;128;128], Raise EUnicodeDecode);
  ([126;239;191;190;8], Ok [126;65534;8]);
  ([127;136;202;175], Raise EUnicodeDecode);
  ([127;224;160;128], Ok [127;2048]);
  ([128;160;216], Raise EUnicodeDecode);
  ([138;198;167], Raise EUnicodeDecode);
  ([147;244;143;191;191], Raise EUnicodeDecode);
  ([156;0], Raise EUnicodeDecode);
  ([157;194;128], Raise EUnicodeDecode);
  ([17;196;156;128], Raise EUnicodeDecode);
  ([194;128], Ok [128]);
  ([194;129;195;191], Ok [129;255]);
  ([194;129], Ok [129]);
  ([194;157], Ok [157]);
  ([194;181;0;189;194;161], Raise EUnicodeDecode);
  ([194;200;146], Raise EUnicodeDecode);
  ([194;254], Raise EUnicodeDecode);
  ([195;156], Ok [220]);
  ([195;170;200;179;197;185], Ok [234;563;377]);
  ([195;191;195;178;203;149], Ok [255;242;725]);
  ([195;191;200;146], Ok [255;530]);
  ([195;191], Ok [255]);
  ([196;128;196;128], Ok [256;256]);
  ([197;163], Ok [355]);
  ([197;92;142;244;143;191;191;194;128], Raise EUnicodeDecode);
  ([198;138;224;160;55;128;202;148], Raise EUnicodeDecode);
  ([198;141], Ok [397]);
  ([200;154;239;191;190;196;128], Ok [538;65534;256]);
  ([200;237], Raise EUnicodeDecode);
  ([201;192], Raise EUnicodeDecode);
  ([202;104;144], Raise EUnicodeDecode);
  ([202;182], Ok [694]);
  ([202;186;201;184;239;191;190], Ok [698;632;65534]);
  ([203;196;128;239;191;191], Raise EUnicodeDecode);
  ([223;191], Ok [2047]);
  ([223;195;145], Raise EUnicodeDecode);
  ([223;220], Raise EUnicodeDecode);
  ([224;128], Raise EUnicodeDecode);
  ([224;160;191], Ok [2111]);
  ([224;160], Raise EUnicodeDecode);
  ([228;0], Raise EUnicodeDecode);
  ([22;198;162;119], Ok [22;418;119]);
  ([239;187;0;194;191;216;194], Raise EUnicodeDecode);
  ([239;187;0;220], Raise EUnicodeDecode);
  ([239;187;191;194;128;160;191], Raise EUnicodeDecode);
  ([239;187;191;244;0;240;220;0], Raise EUnicodeDecode);
  ([239;187;191], Ok [65279]);
  ([239;187;200;128], Raise EUnicodeDecode);
  ([239;187;240;128], Raise EUnicodeDecode);
  ([239;191;190;215;239;191;190], Raise EUnicodeDecode);
  ([239;191;190], Ok [65534]);
  ([239;191;191;196;143], Ok [65535;271]);
  ([239;191;226;130;172], Raise EUnicodeDecode);
  ([239;240;191;226;130;172], Raise EUnicodeDecode);
  ([240;159;144;128;128], Raise EUnicodeDecode);
  ([240;254;128;128;194;128;239;187;191], Raise EUnicodeDecode);
  ([254;255;0;191;237], Raise EUnicodeDecode);
  ([254;255;128;128;220;220;36], Raise EUnicodeDecode);
  ([254;255;237;224;216;224;224], Raise EUnicodeDecode);
  ([254;255;65;0;220;160], Raise EUnicodeDecode);
  ([255;254;0;0;160], Raise EUnicodeDecode);
  ([255;254;0;0;191;194;191;128], Raise EUnicodeDecode);
  ([255;254;0;0;191], Raise EUnicodeDecode);
  ([255;254;0;0;194;237], Raise EUnicodeDecode);
  ([255;254;0;0;220;128], Raise EUnicodeDecode);
  ([255;254;0;0;224;160;65;220;220], Raise EUnicodeDecode);
  ([255;254;0;0;240], Raise EUnicodeDecode);
  ([255;254;128;191], Raise EUnicodeDecode);
  ([255;254;128;65], Raise EUnicodeDecode);
  ([255;254;160;128;237;194;237], Raise EUnicodeDecode);
  ([255;254;160], Raise EUnicodeDecode);
  ([255;254;244;220;220;240], Raise EUnicodeDecode);
  ([255;254], Raise EUnicodeDecode);
  ([46;203;136], Ok [46;712]);
  ([59;196;182], Ok [59;310]);
  ([65;65;160;65], Raise EUnicodeDecode);
  ([82], Ok [82]);
  ([86;239;187;191], Ok [86;65279]);
  ([97;240;128;201;146], Raise EUnicodeDecode);
  ([98], Ok [98]);
  ([], Ok [])].
Example decode_utf_8_agrees : forallb (fun v => res_eqb bytes_eqb (decode (Utf8) (fst v)) (snd v)) decode_utf_8_vectors = true.
Proof. vm_compute. reflexivity. Qed.

Definition iterdecode_utf_8_vectors : list (list Z * (list Z + exn) * nat) :=
 [([0;0;0;0;0], inl [], 1%nat);
  ([0;0;0;0], inl [], 1%nat);
  ([0;0;254;255;0;0;0;0;0], inl [], 1%nat);
  ([0;0;254;255;160;191;0], inl [], 1%nat);
  ([0;0;254;255;194;160;191], inl [], 1%nat);
  ([0;0;254;255;194;220;224;128], inl [], 1%nat);
  ([0;0;254;255;220;194;0;0;0;0;0], inl [], 1%nat);
  ([0;0;254;255;65;128;237;146;160;0], inl [], 1%nat);
  ([0;0;254;255], inl [], 1%nat);
  ([0;237;184;240;0], inl [], 1%nat);
  ([0;54;0], inl [], 1%nat);
  ([0], inl [], 1%nat);
  ([109;195;191;0;0;0;0], inl [109;255], 4%nat);
  ([111;0;0;0;0;0;0], inl [111], 2%nat);
  ([127;142;203;159;0], inr EUnicodeDecode, 2%nat);
  ([127;203;176;244;143;191;191], inr (EDeserialization None), 7%nat);
  ([129;65;199;139;0], inr EUnicodeDecode, 1%nat);
  ([165;127;0], inr EUnicodeDecode, 1%nat);
  ([191;0], inr EUnicodeDecode, 1%nat);
  ([191;191;0;0;0;0;0], inr EUnicodeDecode, 1%nat);
  ([191], inr EUnicodeDecode, 1%nat);
  ([192;127;0], inr EUnicodeDecode, 1%nat);
  ([194;0], inr EUnicodeDecode, 2%nat);
  ([194;128;0;0;0;0], inl [128], 3%nat);
  ([194;128;245;187;191], inr EUnicodeDecode, 3%nat);
  ([194;129;196;128;194;171], inr (EDeserialization None), 6%nat);
  ([194;129;65;194;128], inr (EDeserialization None), 5%nat);
  ([194;142;194;170], inr (EDeserialization None), 4%nat);
  ([194;157;0;0;0;0;0], inl [157], 3%nat);
  ([194;159;0], inl [159], 3%nat);
  ([194;220;65], inr EUnicodeDecode, 2%nat);
  ([194;237;196;170;0], inr EUnicodeDecode, 2%nat);
  ([194;245;0], inr EUnicodeDecode, 2%nat);
  ([195;134;194;189], inr (EDeserialization None), 4%nat);
  ([195;138], inr (EDeserialization None), 2%nat);
  ([195;139;65;0;0;0;0;0], inl [203;65], 4%nat);
  ([195;191;194;157;199;172;0], inl [255;157;492], 7%nat);
  ([195;191;244;143;191;191], inr (EDeserialization None), 6%nat);
  ([196;128;198;161;0], inl [256;417], 5%nat);
  ([196;128;239;187;191;199;154;0], inl [256;65279;474], 8%nat);
  ([196;141;223;191;0], inl [269;2047], 5%nat);
  ([196;148;196;128;191], inr EUnicodeDecode, 5%nat);
  ([196;176;224;160;128;202;155], inr (EDeserialization None), 7%nat);
  ([197;0], inr EUnicodeDecode, 2%nat);
  ([197;167;239;187;219;191;0], inr EUnicodeDecode, 5%nat);
  ([197;174;200;129;53;0], inl [366;513;53], 6%nat);
  ([198;154;196;187;0], inl [410;315], 5%nat);
  ([198;167;195;138;239;191;191;0], inl [423;202;65535], 8%nat);
  ([199;162], inr (EDeserialization None), 2%nat);
  ([199;190;196;162;173;0], inr EUnicodeDecode, 5%nat);
  ([199;244;0], inr EUnicodeDecode, 2%nat);
  ([199], inr EUnicodeDecode, 1%nat);
  ([200;138;195;0], inr EUnicodeDecode, 4%nat);
  ([200;245;198;184;0;0;0;0], inr EUnicodeDecode, 2%nat);
  ([201;127], inr EUnicodeDecode, 2%nat);
  ([201;142;194;129;220;165;0;0;0;0;0], inl [590;129;1829], 7%nat);
  ([201;150;2], inr (EDeserialization None), 3%nat);
  ([201;167;196;128;239;191;191;0], inl [615;256;65535], 8%nat);
  ([201;239;0], inr EUnicodeDecode, 2%nat);
  ([202;74;179;0], inr EUnicodeDecode, 2%nat);
  ([202], inr EUnicodeDecode, 1%nat);
  ([203;153;65;195;191], inr (EDeserialization None), 5%nat);
  ([203;185;0;0;0;0;0], inl [761], 3%nat);
  ([220;0;0;0;0], inr EUnicodeDecode, 2%nat);
  ([223;187;191;0], inr EUnicodeDecode, 3%nat);
  ([223;191;203;171], inr (EDeserialization None), 4%nat);
  ([223;191;65;0], inl [2047;65], 4%nat);
  ([224;124;160;128], inr EUnicodeDecode, 2%nat);
  ([224;160;128;0], inl [2048], 4%nat);
  ([224;160;128;201;189;0;0;0;0], inl [2048;637], 6%nat);
  ([224;193;128;197;162;0], inr EUnicodeDecode, 2%nat);
  ([226;130;172;0], inl [8364], 4%nat);
  ([226;244;172;195;191], inr EUnicodeDecode, 2%nat);
  ([237;128;160;128], inr EUnicodeDecode, 4%nat);
  ([239;187;0;0;0;0;0], inr EUnicodeDecode, 3%nat);
  ([239;187;0;0;0;0], inr EUnicodeDecode, 3%nat);
  ([239;187;0], inr EUnicodeDecode, 3%nat);
  ([239;187;128], inr (EDeserialization None), 3%nat);
  ([239;187;160;128;244], inr EUnicodeDecode, 4%nat);
  ([239;187;191;0;0;216], inl [65279], 4%nat);
  ([239;187;191;160;160;216;128;0], inr EUnicodeDecode, 4%nat);
  ([239;187;191;195;191;237;191;190;0], inr EUnicodeDecode, 8%nat);
  ([239;187;191;216;191;0], inl [65279;1599], 6%nat);
  ([239;187;191;244;143;191;191;0;0;0;0], inl [65279;1114111], 8%nat);
  ([239;187;191], inr (EDeserialization None), 3%nat);
  ([239;187;216;65;216], inr EUnicodeDecode, 3%nat);
  ([239;187;240;191;0], inr EUnicodeDecode, 3%nat);
  ([239;187;65;0;191;191;0], inr EUnicodeDecode, 3%nat);
  ([239;191;174;191;240;144;128;128], inr EUnicodeDecode, 4%nat);
  ([239;191;190;197;186], inr (EDeserialization None), 5%nat);
  ([239;191;190;226;130;162;172;194;177], inr EUnicodeDecode, 7%nat);
  ([239;191;190;239;187;191], inr (EDeserialization None), 6%nat);
  ([239;191;190;239;191], inr EUnicodeDecode, 5%nat);
  ([239;191;191;239;191;191;0;0;0;0;0], inl [65535;65535], 7%nat);
  ([239;191;191;239;191;239;187;191;0], inr EUnicodeDecode, 6%nat);
  ([239;191], inr EUnicodeDecode, 2%nat);
  ([240;0], inr EUnicodeDecode, 2%nat);
  ([240;144;128;128;203;135;0;0;0;0;0], inl [65536;711], 7%nat);
  ([244;143;191;191;201;163;0], inl [1114111;611], 7%nat);
  ([250;65;0], inr EUnicodeDecode, 1%nat);
  ([254;255;0;0;0;0;0], inr EUnicodeDecode, 1%nat);
  ([254;255;0], inr EUnicodeDecode, 1%nat);
  ([254;255;160;160;0;237], inr EUnicodeDecode, 1%nat);
  ([254;255;31;0;0], inr EUnicodeDecode, 1%nat);
  ([254;255], inr EUnicodeDecode, 1%nat);
  ([255;254;0;0;0;224;0;0;0;0;0;0], inr EUnicodeDecode, 1%nat);
  ([255;254;0;0;160;0;237;240], inr EUnicodeDecode, 1%nat);
  ([255;254;0;0;216;0;240;191;0;0;0;0;0], inr EUnicodeDecode, 1%nat);
  ([255;254;0;0;216;220;0;160], inr EUnicodeDecode, 1%nat);
  ([255;254;0;0;65;244;65;220;0], inr EUnicodeDecode, 1%nat);
  ([255;254;128;0], inr EUnicodeDecode, 1%nat);
  ([255;254;237;194;0], inr EUnicodeDecode, 1%nat);
  ([34;202;178;0;0;0;0], inl [34;690], 4%nat);
  ([35;223;191;0;0;0;0], inl [35;2047], 4%nat);
  ([40;65;0], inl [40;65], 3%nat);
  ([55;191;223;191;0], inr EUnicodeDecode, 2%nat);
  ([61;0], inl [61], 2%nat);
  ([62;198;158;0], inl [62;414], 4%nat);
  ([73;194;157;0;0;0;0;0], inl [73;157], 4%nat);
  ([7;156;194;128;0], inr EUnicodeDecode, 2%nat);
  ([89;239;191;191;202;149;0;0;0;0;0], inl [89;65535;661], 7%nat);
  ([90;127;0], inl [90;127], 3%nat);
  ([], inr (EDeserialization None), 0%nat)].
Example iterdecode_utf_8_agrees : forallb (fun v => let '(bs, r, pos) := v in
  match stringz_loop (S (length bs)) None (Utf8) None 0 [] [] (mkStream bs 0), r with
  | (s, Ok (VStr t)), inl t' => bytes_eqb t t' && Nat.eqb (s_pos s) pos
  | (s, Raise e), inr e' => exn_eqb e e' && Nat.eqb (s_pos s) pos
  | _, _ => false
  end) iterdecode_utf_8_vectors = true.
Proof. vm_compute. reflexivity. Qed.

Definition encode_utf_16_le_vectors : list (list Z * res (list Z)) :=
 [([0;131], Ok [0;0;131;0]);
  ([1114111;136], Ok [255;219;255;223;136;0]);
  ([1114111;157], Ok [255;219;255;223;157;0]);
  ([1114111], Ok [255;219;255;223]);
  ([126;0;65535], Ok [126;0;0;0;255;255]);
  ([127;2048;99], Ok [127;0;0;8;99;0]);
  ([127;414], Ok [127;0;158;1]);
  ([128;363], Ok [128;0;107;1]);
  ([128], Ok [128;0]);
  ([129;2047], Ok [129;0;255;7]);
  ([129;65279], Ok [129;0;255;254]);
  ([129], Ok [129;0]);
  ([176;1114111], Ok [176;0;255;219;255;223]);
  ([196;65279], Ok [196;0;255;254]);
  ([2047], Ok [255;7]);
  ([236;127;754], Ok [236;0;127;0;242;2]);
  ([255;1114111;65], Ok [255;0;255;219;255;223;65;0]);
  ([255;56319;169], Raise EUnicodeEncode);
  ([257;256;589], Ok [1;1;0;1;77;2]);
  ([296;757], Ok [40;1;245;2]);
  ([339;129;0], Ok [83;1;129;0;0;0]);
  ([34], Ok [34;0]);
  ([354;531;232], Ok [98;1;19;2;232;0]);
  ([370;240;300], Ok [114;1;240;0;44;1]);
  ([391], Ok [135;1]);
  ([438;56319], Raise EUnicodeEncode);
  ([478], Ok [222;1]);
  ([495;65;338], Ok [239;1;65;0;82;1]);
  ([511;536;65], Ok [255;1;24;2;65;0]);
  ([55296;2048;424], Raise EUnicodeEncode);
  ([55296], Raise EUnicodeEncode);
  ([56319], Raise EUnicodeEncode);
  ([56320;65279;382], Raise EUnicodeEncode);
  ([572], Ok [60;2]);
  ([57343;57343;70], Raise EUnicodeEncode);
  ([590;129;733], Ok [78;2;129;0;221;2]);
  ([64;8364], Ok [64;0;172;32]);
  ([65534], Ok [254;255]);
  ([65;65536], Ok [65;0;0;216;0;220]);
  ([682;0], Ok [170;2;0;0]);
  ([690;651], Ok [178;2;139;2]);
  ([719;124;0], Ok [207;2;124;0;0;0]);
  ([71;57343;274], Raise EUnicodeEncode);
  ([727;0;675], Ok [215;2;0;0;163;2]);
  ([8364;556;65536], Ok [172;32;44;2;0;216;0;220]);
  ([8364;565], Ok [172;32;53;2]);
  ([], Ok [])].
Example encode_utf_16_le_agrees : forallb (fun v => res_eqb bytes_eqb (encode (Utf16 Little) (fst v)) (snd v)) encode_utf_16_le_vectors = true.
Proof. vm_compute. reflexivity. Qed.

Definition decode_utf_16_le_vectors : list (list Z * res (list Z)) :=
 [([0;0;0], Raise EUnicodeDecode);
  ([0;0;254;255;194;191;237;237], Ok [0;65534;49090;60909]);
  ([0;0;254;255;220], Raise EUnicodeDecode);
  ([0;0;254;255;240;237;65], Raise EUnicodeDecode);
  ([0;0;254;255;244;0;0;65;166], Raise EUnicodeDecode);
  ([0;0;254;255;247;128], Ok [0;65534;33015]);
  ([0;0;254;58], Ok [0;15102]);
  ([0;0;80;0], Ok [0;80]);
  ([0;1], Ok [256]);
  ([0;216;0;220;65;0], Ok [65536;65]);
  ([0], Raise EUnicodeDecode);
  ([122;2], Ok [634]);
  ([127;0;255;7], Ok [127;2047]);
  ([128;0;244;244;224], Raise EUnicodeDecode);
  ([128;0], Ok [128]);
  ([129;0;129;0], Ok [129;129]);
  ([129;0;47;0;23;0], Ok [129;47;23]);
  ([129;0], Ok [129]);
  ([133;2;0;216;0;220], Ok [645;65536]);
  ([157;0;163;2], Ok [157;675]);
  ([157;0], Ok [157]);
  ([160;1;255;219;255;223], Ok [416;1114111]);
  ([172;157;2], Raise EUnicodeDecode);
  ([172;32;0;1;129;0], Ok [8364;256;129]);
  ([172;32;1], Raise EUnicodeDecode);
  ([17;180;2], Raise EUnicodeDecode);
  ([191;0], Ok [191]);
  ([191;1], Ok [447]);
  ([193;255;255;254;144;1], Ok [65473;65279;400]);
  ([194;115;1], Raise EUnicodeDecode);
  ([197;1;145;2;255;255], Ok [453;657;65535]);
  ([201;2;143;2;0;1], Ok [713;655;256]);
  ([203;244], Ok [62667]);
  ([205;1;216;7;255;7], Ok [461;2008;2047]);
  ([209;191], Ok [49105]);
  ([216;1;128;0], Ok [472;128]);
  ([220;216;0;237;0], Raise EUnicodeDecode);
  ([222;2;0;216;0;216], Raise EUnicodeDecode);
  ([223;1], Ok [479]);
  ([233], Raise EUnicodeDecode);
  ([236;2;155;2;255;219;255;223], Ok [748;667;1114111]);
  ([237;0;254;255;164;2], Ok [237;65534;676]);
  ([239;187;0;194], Ok [48111;49664]);
  ([239;187;101], Raise EUnicodeDecode);
  ([239;187;191;0;224], Raise EUnicodeDecode);
  ([239;187;191;128;0;128;240], Raise EUnicodeDecode);
  ([239;187;191;128;244;128], Ok [48111;32959;33012]);
  ([239;187;191;194;194;240;191;240], Ok [48111;49855;61634;61631]);
  ([239;187;191;216;194;220;191], Raise EUnicodeDecode);
  ([239;187;191;237;191;191;244], Raise EUnicodeDecode);
  ([239;187;191;65;216;0;237;240], Ok [48111;16831;216;61677]);
  ([239;187;191], Raise EUnicodeDecode);
  ([239;187;194;237], Ok [48111;60866]);
  ([239;187;220;0;90;244;0], Raise EUnicodeDecode);
  ([239;187;224;160;128;240], Ok [48111;41184;61568]);
  ([239;187;224;240;0], Raise EUnicodeDecode);
  ([239;1], Ok [495]);
  ([245;2], Ok [757]);
  ([246;1;191;1], Ok [502;447]);
  ([251;2], Ok [763]);
  ([254;1], Ok [510]);
  ([254;255;0;194;220], Raise EUnicodeDecode);
  ([254;255;160;244;216;194;237], Raise EUnicodeDecode);
  ([254;255], Ok [65534]);
  ([255;0;73;1;65;0], Ok [255;329;65]);
  ([255;0;86;0;101;244], Ok [255;86;62565]);
  ([255;0], Ok [255]);
  ([255;219;223], Raise EUnicodeDecode);
  ([255;254;0;0;0], Raise EUnicodeDecode);
  ([255;254;0;0;160;240;237;0], Ok [65279;0;61600;237]);
  ([255;254;0;0;191;216;194;244], Raise EUnicodeDecode);
  ([255;254;0;0;220;191;224;194;194], Raise EUnicodeDecode);
  ([255;254;0;0;220;61;240;216;112], Raise EUnicodeDecode);
  ([255;254;0;0;220], Raise EUnicodeDecode);
  ([255;254;0;0;240;160], Ok [65279;0;41200]);
  ([255;254;0;0;65;237], Ok [65279;0;60737]);
  ([255;254;0;0], Ok [65279;0]);
  ([255;254;0;8], Ok [65279;2048]);
  ([255;254;128;244;183], Raise EUnicodeDecode);
  ([255;254;220;128;224;224], Ok [65279;32988;57568]);
  ([255;254;244;240;191;65], Ok [65279;61684;16831]);
  ([2], Raise EUnicodeDecode);
  ([37;1;145;1;216;255], Ok [293;401;65496]);
  ([41;2;62;1;0;216;0;220], Ok [553;318;65536]);
  ([4;2;0;8;254;255], Ok [516;2048;65534]);
  ([55;2], Ok [567]);
  ([57;255;254], Raise EUnicodeDecode);
  ([60;0], Ok [60]);
  ([62;0], Ok [62]);
  ([64;0;1], Raise EUnicodeDecode);
  ([64;2;216;0], Ok [576;216]);
  ([65;0;255;219;255;223;255;246;254], Raise EUnicodeDecode);
  ([95;0;0;8], Ok [95;2048]);
  ([], Ok [])].
Example decode_utf_16_le_agrees : forallb (fun v => res_eqb bytes_eqb (decode (Utf16 Little) (fst v)) (snd v)) decode_utf_16_le_vectors = true.
Proof. vm_compute. reflexivity. Qed.

Definition iterdecode_utf_16_le_vectors : list (list Z * (list Z + exn) * nat) :=
 [([0;0;0;0;0;0], inl [], 2%nat);
  ([0;0;0;0], inl [], 2%nat);
  ([0;0;0], inl [], 2%nat);
  ([0;0;254;255;0;0;0;0;0;0;0], inl [], 2%nat);
  ([0;0;254;255;0;0], inl [], 2%nat);
  ([0;0;254;255;128;128;0;0;0;0;0;0;0], inl [], 2%nat);
  ([0;0;254;255;216], inl [], 2%nat);
  ([0;0;254;255;240;237;240;140], inl [], 2%nat);
  ([0;0;254;255;85;216;194;0;0], inl [], 2%nat);
  ([0;0], inl [], 2%nat);
  ([0;122;2], inr EUnicodeDecode, 3%nat);
  ([0;134;0;0], inl [34304], 4%nat);
  ([0;143;0;129;0;0;0], inl [36608;33024], 6%nat);
  ([0;1;0;0], inl [256], 4%nat);
  ([0;1;19;2;150;255;0;0;0;0;0;0], inl [256;531;65430], 8%nat);
  ([0;1;70;192;0;0;0], inl [256;49222], 6%nat);
  ([0;8;254;255;0;0], inl [2048;65534], 6%nat);
  ([0], inr EUnicodeDecode, 1%nat);
  ([10;2;51;1;92;255;7;0;0], inr EUnicodeDecode, 9%nat);
  ([116;240;0;0], inl [61556], 4%nat);
  ([127;0;161;1;0;216;0;220], inr (EDeserialization None), 8%nat);
  ([128;0;129;0;0;0;0;0;0;0], inl [128;129], 6%nat);
  ([128;0;255;255;131;220], inr EUnicodeDecode, 6%nat);
  ([128;240;237;1;0;0], inl [61568;493], 6%nat);
  ([129;0;0;0], inl [129], 4%nat);
  ([129;0;0;112;216;0;220], inr EUnicodeDecode, 7%nat);
  ([129;0;129;169;0;0;0;0;0], inl [129;43393], 6%nat);
  ([129;0;172;32;192;0;0;0;0;0;0;0], inl [129;8364;192], 8%nat);
  ([129;0;216;0;220], inr EUnicodeDecode, 5%nat);
  ([129;0;89;128;0;0;0;0], inl [129;32857], 6%nat);
  ([129;0;8;17;1], inr EUnicodeDecode, 5%nat);
  ([129;237;0;0], inl [60801], 4%nat);
  ([144;2;196;254;0;0], inl [656;65220], 6%nat);
  ([152;245;0;0;0;0;0;0], inl [62872], 4%nat);
  ([157;0;219;255;223;0;0], inr EUnicodeDecode, 7%nat);
  ([157;128;0;1;0;0], inl [32925;256], 6%nat);
  ([157;164;0;0;0], inl [42141], 4%nat);
  ([157;205;0;0;0;0;0], inl [52637], 4%nat);
  ([165;16;2;0;0], inr EUnicodeDecode, 5%nat);
  ([168;1;108;1;0;0;0;0], inl [424;364], 6%nat);
  ([171;0], inr (EDeserialization None), 2%nat);
  ([175;65;0;0;0], inl [16815], 4%nat);
  ([179;237;247;0;0;0], inl [60851;247], 6%nat);
  ([180;175;0;0;0], inl [44980], 4%nat);
  ([192;0;0;0;0], inl [192], 4%nat);
  ([193;0;0;0;0;0;0;0], inl [193], 4%nat);
  ([195;1;0;0;0;0], inl [451], 4%nat);
  ([199;63;2;170;1;0;0], inr EUnicodeDecode, 7%nat);
  ([1;0;0;0;0;0;0], inl [1], 4%nat);
  ([1;0;0;0;0], inl [1], 4%nat);
  ([1;0;65;0;101;0], inr (EDeserialization None), 6%nat);
  ([200;0;255;254;0;0;0;0], inl [200;65279], 6%nat);
  ([202;142;1;0;1;0;0;0;0;0;0], inl [36554;1;1], 8%nat);
  ([205;2;255;216;0;220], inr (EDeserialization None), 6%nat);
  ([224;0], inr (EDeserialization None), 2%nat);
  ([226;2;255;255;228;2], inr (EDeserialization None), 6%nat);
  ([238;193;0;0], inl [49646], 4%nat);
  ([239;187;0;0], inl [48111], 4%nat);
  ([239;187;128;65;160;160;0;0;0;0;0;0], inl [48111;16768;41120], 8%nat);
  ([239;187;191;0;0;0;0], inl [48111;191], 6%nat);
  ([239;187;191;160;240;160;240;0;0], inr EUnicodeDecode, 9%nat);
  ([239;187;191;191;220;65;216;0], inr (EDeserialization None), 8%nat);
  ([239;187;191;194;0;0;0;0;0;0;0], inl [48111;49855], 6%nat);
  ([239;187;191;216;0;0;0;0], inr EUnicodeDecode, 6%nat);
  ([239;187;191;240;237;239], inr (EDeserialization None), 6%nat);
  ([239;187;191;244;0;0;0;0], inl [48111;62655], 6%nat);
  ([239;187;191;244;244;0;0;0], inl [48111;62655;244], 8%nat);
  ([239;187;191], inr EUnicodeDecode, 3%nat);
  ([239;187;216;65;0;0;0;0], inl [48111;16856], 6%nat);
  ([239;187;240;128;224;128;65;0;0], inr EUnicodeDecode, 9%nat);
  ([239;187], inr (EDeserialization None), 2%nat);
  ([240;1], inr (EDeserialization None), 2%nat);
  ([244;0;220;0;0;0;0;0;0], inl [244;220], 6%nat);
  ([244;191;224;0;240], inr EUnicodeDecode, 5%nat);
  ([244;2;38;0;0;0], inl [756;38], 6%nat);
  ([246;2;98;2], inr (EDeserialization None), 4%nat);
  ([251;1;157;0;67;1], inr (EDeserialization None), 6%nat);
  ([254;255;0;0;65;216;0;0;0], inl [65534], 4%nat);
  ([254;255;0;0], inl [65534], 4%nat);
  ([254;255;0;128;240;0;0;0;0;0;0], inl [65534;32768;240], 8%nat);
  ([254;255;157;0;255;7;0;0], inl [65534;157;2047], 8%nat);
  ([254;255;216;240;128;244;0;0;0;0;0;0], inl [65534;61656;62592], 8%nat);
  ([254;255;237;128;194;194;194], inr EUnicodeDecode, 7%nat);
  ([254;255;244;0;220;220;128;0;0], inr EUnicodeDecode, 6%nat);
  ([254;2;157;0], inr (EDeserialization None), 4%nat);
  ([254;30;0;0;0], inl [7934], 4%nat);
  ([255;0;0;0], inl [255], 4%nat);
  ([255;0;255;254;191;255;0;0], inl [255;65279;65471], 8%nat);
  ([255;0;90;220;0;216;0;220;0;0], inr EUnicodeDecode, 4%nat);
  ([255;219;255;128], inr EUnicodeDecode, 4%nat);
  ([255;219;255;223;129;0;0;0], inl [1114111;129], 8%nat);
  ([255;254;0;0;0;0;0;0], inl [65279], 4%nat);
  ([255;254;0;0;0;102;216], inl [65279], 4%nat);
  ([255;254;0;0;155;244;0;0;224;0;0], inl [65279], 4%nat);
  ([255;254;0;0;191;0;0], inl [65279], 4%nat);
  ([255;254;0;0;191;220;160;0;0], inl [65279], 4%nat);
  ([255;254;0;0;191;244], inl [65279], 4%nat);
  ([255;254;0;0;244;220;224;128;0;0;0], inl [65279], 4%nat);
  ([255;254;0;0], inl [65279], 4%nat);
  ([255;254;41;1;0;0], inl [65279;297], 6%nat);
  ([255;254;7;0;0], inr EUnicodeDecode, 5%nat);
  ([255;255;0;0;0;0;0;0], inl [65535], 4%nat);
  ([255;255;0;0;0], inl [65535], 4%nat);
  ([255;7;0;0;0;0;0;0], inl [2047], 4%nat);
  ([255;7;255;255;223;0;0;0;0], inl [2047;65535;223], 8%nat);
  ([255;84;157;0;220;2;0;0], inl [21759;157;732], 8%nat);
  ([35;1;0;0], inl [291], 4%nat);
  ([54;1;1;0;0], inr EUnicodeDecode, 5%nat);
  ([56;239;0;0], inl [61240], 4%nat);
  ([64;1;129;0;0;0;0;0;0;0], inl [320;129], 6%nat);
  ([65;0;199;1;0;0;0;0], inl [65;455], 6%nat);
  ([65;0], inr (EDeserialization None), 2%nat);
  ([71;0;255;255;0;0], inl [71;65535], 6%nat);
  ([76;0;255;255;0;0], inl [76;65535], 6%nat);
  ([82;2;255;0;0;0;0;0], inl [594;255], 6%nat);
  ([85;131;1;0;0], inr EUnicodeDecode, 5%nat);
  ([8;1;129;0;112;0;0], inr EUnicodeDecode, 7%nat);
  ([94;1;0;0], inl [350], 4%nat);
  ([], inr (EDeserialization None), 0%nat)].
Example iterdecode_utf_16_le_agrees : forallb (fun v => let '(bs, r, pos) := v in
  match stringz_loop (S (length bs)) None (Utf16 Little) None 0 [] [] (mkStream bs 0), r with
  | (s, Ok (VStr t)), inl t' => bytes_eqb t t' && Nat.eqb (s_pos s) pos
  | (s, Raise e), inr e' => exn_eqb e e' && Nat.eqb (s_pos s) pos
  | _, _ => false
  end) iterdecode_utf_16_le_vectors = true.
Proof. vm_compute. reflexivity. Qed.

Definition encode_utf_16_be_vectors : list (list Z * res (list Z)) :=
 [([100;556;617], Ok [0;100;2;44;2;105]);
  ([1114111;8364;166], Ok [219;255;223;255;32;172;0;166]);
  ([127;455;742], Ok [0;127;1;199;2;230]);
  ([127], Ok [0;127]);
  ([128], Ok [0;128]);
  ([129;65536], Ok [0;129;216;0;220;0]);
  ([129], Ok [0;129]);
  ([135;749], Ok [0;135;2;237]);
  ([157;383;255], Ok [0;157;1;127;0;255]);
  ([157;92], Ok [0;157;0;92]);
  ([2047], Ok [7;255]);
  ([2048;309;65534], Ok [8;0;1;53;255;254]);
  ([246;8364;0], Ok [0;246;32;172;0;0]);
  ([255;614], Ok [0;255;2;102]);
  ([255], Ok [0;255]);
  ([256;326;8364], Ok [1;0;1;70;32;172]);
  ([256;614;31], Ok [1;0;2;102;0;31]);
  ([256;83;567], Ok [1;0;0;83;2;55]);
  ([256], Ok [1;0]);
  ([296], Ok [1;40]);
  ([305;65535], Ok [1;49;255;255]);
  ([326], Ok [1;70]);
  ([341;117], Ok [1;85;0;117]);
  ([43], Ok [0;43]);
  ([462;2048], Ok [1;206;8;0]);
  ([55296;56319], Raise EUnicodeEncode);
  ([56320], Raise EUnicodeEncode);
  ([57343], Raise EUnicodeEncode);
  ([579;56319;0], Raise EUnicodeEncode);
  ([581;256], Ok [2;69;1;0]);
  ([628], Ok [2;116]);
  ([638;255;274], Ok [2;126;0;255;1;18]);
  ([65279;679;55296], Raise EUnicodeEncode);
  ([65279], Ok [254;255]);
  ([65534;255], Ok [255;254;0;255]);
  ([65535;16;46], Ok [255;255;0;16;0;46]);
  ([65535;2048], Ok [255;255;8;0]);
  ([676;65279], Ok [2;164;254;255]);
  ([730], Ok [2;218]);
  ([733], Ok [2;221]);
  ([749], Ok [2;237]);
  ([8364;255;157], Ok [32;172;0;255;0;157]);
  ([], Ok [])].
Example encode_utf_16_be_agrees : forallb (fun v => res_eqb bytes_eqb (encode (Utf16 Big) (fst v)) (snd v)) encode_utf_16_be_vectors = true.
Proof. vm_compute. reflexivity. Qed.

Definition decode_utf_16_be_vectors : list (list Z * res (list Z)) :=
 [([0;0;226], Raise EUnicodeDecode);
  ([0;0;254;255;194;0], Ok [0;65279;49664]);
  ([0;0;254;255;194;220;160;244;0], Raise EUnicodeDecode);
  ([0;0;254;255;224;33;191], Raise EUnicodeDecode);
  ([0;0;254;255;240], Raise EUnicodeDecode);
  ([0;0;254;255], Ok [0;65279]);
  ([0;0;255;254], Ok [0;65534]);
  ([0;0], Ok [0]);
  ([0;11;65], Raise EUnicodeDecode);
  ([0;127;2;238;255;254], Ok [127;750;65534]);
  ([0;127;2], Raise EUnicodeDecode);
  ([0;127], Ok [127]);
  ([0;128;129;1;181], Raise EUnicodeDecode);
  ([0;128;1;123;1;0], Ok [128;379;256]);
  ([0;151;0;44], Ok [151;44]);
  ([0;157;0;142], Ok [157;142]);
  ([0;157;0;255;0;31], Ok [157;255;31]);
  ([0;189;238], Raise EUnicodeDecode);
  ([0;194], Ok [194]);
  ([0;214;0;0;255;254], Ok [214;0;65534]);
  ([0;255;0;65;216;0;220;0], Ok [255;65;65536]);
  ([0;255;255;224;0;157], Ok [255;65504;157]);
  ([0;255;255;255;0;157], Ok [255;65535;157]);
  ([0;255;2], Raise EUnicodeDecode);
  ([0;255;8;0;2;7], Ok [255;2048;519]);
  ([0;65;42], Raise EUnicodeDecode);
  ([0;65], Ok [65]);
  ([0;79;2;178], Ok [79;690]);
  ([0;82;46;1;76;1;202], Raise EUnicodeDecode);
  ([0;99;2;19;255;254], Ok [99;531;65534]);
  ([0], Raise EUnicodeDecode);
  ([178;2;120;32;172;1;217], Raise EUnicodeDecode);
  ([194;0;0;128], Ok [49664;128]);
  ([194], Raise EUnicodeDecode);
  ([1;0;254;172], Ok [256;65196]);
  ([1;15;0;127;2;52], Ok [271;127;564]);
  ([1;216;0;3], Ok [472;3]);
  ([1;29;0;68;254;255], Ok [285;68;65279]);
  ([1;35;85;2;78;0;155], Raise EUnicodeDecode);
  ([1;43;254;255], Ok [299;65279]);
  ([1;48;0;157], Ok [304;157]);
  ([1;92], Ok [348]);
  ([216;0;220;0;2;1;0], Raise EUnicodeDecode);
  ([216;0;220;0], Ok [65536]);
  ([216;128;65], Raise EUnicodeDecode);
  ([216;220;0;2;167], Raise EUnicodeDecode);
  ([219;255;223;255;0;193;0;128], Ok [1114111;193;128]);
  ([219;255;223;255], Ok [1114111]);
  ([224;34], Ok [57378]);
  ([237;128;240], Raise EUnicodeDecode);
  ([237;68;7;255], Ok [60740;2047]);
  ([239;187;191;0;237;0;224], Raise EUnicodeDecode);
  ([239;187;191;240;85;0;65;128], Ok [61371;49136;21760;16768]);
  ([239;187;191;244;240;220;237], Raise EUnicodeDecode);
  ([239;187;240;240], Ok [61371;61680]);
  ([239;187;244], Raise EUnicodeDecode);
  ([239;187], Ok [61371]);
  ([244;255;2;94], Ok [62719;606]);
  ([254;255;0;244;244], Raise EUnicodeDecode);
  ([254;255;128;191], Ok [65279;32959]);
  ([254;255;194;65;160;216;244], Raise EUnicodeDecode);
  ([254;255;216;0;191;26;0], Raise EUnicodeDecode);
  ([254;255;244], Raise EUnicodeDecode);
  ([254;255;65], Raise EUnicodeDecode);
  ([254;255], Ok [65279]);
  ([255;254;0;0;194], Raise EUnicodeDecode);
  ([255;254;0;0;1;46], Ok [65534;0;302]);
  ([255;254;0;0;94;224], Ok [65534;0;24288]);
  ([255;254;0;0], Ok [65534;0]);
  ([255;254;183;65;224;216], Ok [65534;46913;57560]);
  ([255;254;244;0], Ok [65534;62464]);
  ([255;254;244;255;1;203], Ok [65534;62719;459]);
  ([255;254], Ok [65534]);
  ([255;255;1;48], Ok [65535;304]);
  ([255], Raise EUnicodeDecode);
  ([2;113], Ok [625]);
  ([2;165], Ok [677]);
  ([2;220], Ok [732]);
  ([2;224;0;241], Ok [736;241]);
  ([2;37;216;0;220;0;0;255], Ok [549;65536;255]);
  ([2;84], Ok [596]);
  ([32;172;216;216;220;0], Ok [8364;286720]);
  ([32;172;219;223;255], Raise EUnicodeDecode);
  ([32;172], Ok [8364]);
  ([65;128], Ok [16768]);
  ([65;65], Ok [16705]);
  ([7;239], Ok [2031]);
  ([7;254], Ok [2046]);
  ([7;255;0;157;0;255], Ok [2047;157;255]);
  ([7;255;216;0;220;0], Ok [2047;65536]);
  ([7;255], Ok [2047]);
  ([8;0;0;128;240;99], Ok [2048;128;61539]);
  ([8;0;1;238], Ok [2048;494]);
  ([8;0], Ok [2048]);
  ([8;81;0], Raise EUnicodeDecode);
  ([], Ok [])].
Example decode_utf_16_be_agrees : forallb (fun v => res_eqb bytes_eqb (decode (Utf16 Big) (fst v)) (snd v)) decode_utf_16_be_vectors = true.
Proof. vm_compute. reflexivity. Qed.

Definition iterdecode_utf_16_be_vectors : list (list Z * (list Z + exn) * nat) :=
 [([0;0;0;0;0;0], inl [], 2%nat);
  ([0;0;0;0;0], inl [], 2%nat);
  ([0;0;0;0], inl [], 2%nat);
  ([0;0;0;143;65;219;255;223;255;0;0], inl [], 2%nat);
  ([0;0;0], inl [], 2%nat);
  ([0;0;254;255;0;0;0;0;0;0], inl [], 2%nat);
  ([0;0;254;255;0;0], inl [], 2%nat);
  ([0;0;254;255;128;224;128;0;0], inl [], 2%nat);
  ([0;0;254;255;160;191;224;0;0;0;0], inl [], 2%nat);
  ([0;0;254;255;240;0;0;0], inl [], 2%nat);
  ([0;0], inl [], 2%nat);
  ([0;107;0;0], inl [107], 4%nat);
  ([0;110;0;0;0;0], inl [110], 4%nat);
  ([0;117;8;0;0;0], inl [117;2048], 6%nat);
  ([0;128;0;0], inl [128], 4%nat);
  ([0;128;255;255], inr (EDeserialization None), 4%nat);
  ([0;129], inr (EDeserialization None), 2%nat);
  ([0;137;0;134;0;0;0;0], inl [137;134], 6%nat);
  ([0;193;255;254;1;176;0;0;0;0;0;0], inl [193;65534;432], 8%nat);
  ([0;226], inr (EDeserialization None), 2%nat);
  ([0;254;0;0;0;0;0;0], inl [254], 4%nat);
  ([0;255;0;128;0;0], inl [255;128], 6%nat);
  ([0;255;219;255;193;255], inr EUnicodeDecode, 6%nat);
  ([0;255;254;255;0;240], inr (EDeserialization None), 6%nat);
  ([0;255;2;91;0;65;0;0], inl [255;603;65], 8%nat);
  ([0;49;1;0;0;129;0;0], inl [49;256;129], 8%nat);
  ([0;65;2;205;142;0;0], inr EUnicodeDecode, 7%nat);
  ([0;65;2;25], inr (EDeserialization None), 4%nat);
  ([0;8;0;23;0;0], inl [8;23], 6%nat);
  ([127;0;157;2;114;0;0], inr EUnicodeDecode, 7%nat);
  ([128;123;0;0], inl [32891], 4%nat);
  ([134;0;255;1;31;0;28], inr EUnicodeDecode, 7%nat);
  ([194;216;0], inr EUnicodeDecode, 3%nat);
  ([1;0;0;0;0;0;0], inl [256], 4%nat);
  ([1;0;0;0], inl [256], 4%nat);
  ([1;0;0], inr EUnicodeDecode, 3%nat);
  ([1;108;0;0;0;0], inl [364], 4%nat);
  ([1;133;0;0;0;0;0;0], inl [389], 4%nat);
  ([1;135;2;235], inr (EDeserialization None), 4%nat);
  ([1;254], inr (EDeserialization None), 2%nat);
  ([1;255;0;0;0;0], inl [511], 4%nat);
  ([1;46;0;215;0;0], inl [302;215], 6%nat);
  ([1;76;32;172;7;255], inr (EDeserialization None), 6%nat);
  ([1;86;98;219;255;223;255], inr EUnicodeDecode, 7%nat);
  ([1;99;0;0;0;0;0;0], inl [355], 4%nat);
  ([209;8;0;0;151;0;0], inl [53512], 4%nat);
  ([216;0;220;0;0;0], inl [65536], 6%nat);
  ([216;160;220;0;0], inr EUnicodeDecode, 5%nat);
  ([216;79;0;0], inr EUnicodeDecode, 4%nat);
  ([219;255;223;255;0;0;0;0;0;0], inl [1114111], 6%nat);
  ([219;255;223;255;8;0], inr (EDeserialization None), 6%nat);
  ([229;255;0;0], inl [58879], 4%nat);
  ([237;220;0;129;0;0;0;0;0;0], inl [60892;129], 6%nat);
  ([239;187;0;0], inl [61371], 4%nat);
  ([239;187;0;224;0], inr EUnicodeDecode, 5%nat);
  ([239;187;191;0;0;0;0;0;0], inl [61371;48896], 6%nat);
  ([239;187;191;0;0;0;0], inl [61371;48896], 6%nat);
  ([239;187;191;128;0;0], inl [61371;49024], 6%nat);
  ([239;187;191;128;191;128;224;0;0], inr EUnicodeDecode, 9%nat);
  ([239;187;191;128;216;0;160;0;0;0;0;0;0], inr EUnicodeDecode, 8%nat);
  ([239;187;191;191;0;0], inl [61371;49087], 6%nat);
  ([239;187;191;216;0;0;0;0;0;0], inl [61371;49112], 6%nat);
  ([239;187;191;216;194;194], inr (EDeserialization None), 6%nat);
  ([239;187;191;237;194;0;0], inr EUnicodeDecode, 7%nat);
  ([239;187;216;224], inr EUnicodeDecode, 4%nat);
  ([239;187;224;65;146;0;0;0;0;0;0], inl [61371;57409;37376], 8%nat);
  ([239;187;224], inr EUnicodeDecode, 3%nat);
  ([239;52;0;0], inl [61236], 4%nat);
  ([240;0;175;0;0], inr EUnicodeDecode, 5%nat);
  ([248;0;157;0;0;0;0], inl [63488;40192], 6%nat);
  ([254;255;0;160;128], inr EUnicodeDecode, 5%nat);
  ([254;255;128;0;0], inr EUnicodeDecode, 5%nat);
  ([254;255;160;65;224;191;194], inr EUnicodeDecode, 7%nat);
  ([254;255;216;244;191;65;194;0;0;0;0], inr EUnicodeDecode, 6%nat);
  ([254;255;220;220;216;237;220;0;0], inr EUnicodeDecode, 4%nat);
  ([254;255;224;160;237;0;0], inr EUnicodeDecode, 7%nat);
  ([254;255;224;244;0;0;0;0;0;0], inl [65279;57588], 6%nat);
  ([254;255;240;0;0;0;0;0;0], inl [65279;61440], 6%nat);
  ([254;255;244;244;128;237], inr (EDeserialization None), 6%nat);
  ([254;255;65;240;65;0;240;0;0;0;0;0;0], inl [65279;16880;16640;61440], 10%nat);
  ([254;92;255], inr EUnicodeDecode, 3%nat);
  ([255;254;0;0;0;0], inl [65534], 4%nat);
  ([255;254;0;0;0], inl [65534], 4%nat);
  ([255;254;0;0;128;0;0;0;0;0;0], inl [65534], 4%nat);
  ([255;254;0;0;128;224;194;194], inl [65534], 4%nat);
  ([255;254;0;0;216;216;0;191;164;0;0], inl [65534], 4%nat);
  ([255;254;0;0], inl [65534], 4%nat);
  ([255;254;0;171;0;0], inl [65534;171], 6%nat);
  ([255;254;191;194;0;0;0;0;0;0], inl [65534;49090], 6%nat);
  ([255;254;191;244;191], inr EUnicodeDecode, 5%nat);
  ([255;254;194;216;0;0], inl [65534;49880], 6%nat);
  ([255;254;197;216], inr (EDeserialization None), 4%nat);
  ([255;254;224;65;235;0;0;0;0], inl [65534;57409;60160], 8%nat);
  ([255;254;2;26;0;0], inl [65534;538], 6%nat);
  ([255;254], inr (EDeserialization None), 2%nat);
  ([255;255;127;2;143], inr EUnicodeDecode, 5%nat);
  ([2;0;0;0;0], inl [512], 4%nat);
  ([2;0], inr (EDeserialization None), 2%nat);
  ([2;124;250;0;3;0;0;0;0], inl [636;64000;768], 8%nat);
  ([2;195;0;127;0;255], inr (EDeserialization None), 6%nat);
  ([2;211;0;0], inl [723], 4%nat);
  ([2;229], inr (EDeserialization None), 2%nat);
  ([32;172;0;0;0;0;0;0], inl [8364], 4%nat);
  ([32;172;0;0;0;0], inl [8364], 4%nat);
  ([44;0;0], inr EUnicodeDecode, 3%nat);
  ([65;0;0], inr EUnicodeDecode, 3%nat);
  ([7;255;216;0;220;0], inr (EDeserialization None), 6%nat);
  ([7;255;2;0;0;0;0;0;0], inl [2047;512], 6%nat);
  ([8;0;0;182;0;7;255;0;0;0;0;0;0], inl [2048;182;7;65280], 10%nat);
  ([8;0;0;65;1;0;0;0], inl [2048;65;256], 8%nat);
  ([8;245;2;13;0;0;0;0;0;0], inl [2293;525], 6%nat);
  ([], inr (EDeserialization None), 0%nat)].
Example iterdecode_utf_16_be_agrees : forallb (fun v => let '(bs, r, pos) := v in
  match stringz_loop (S (length bs)) None (Utf16 Big) None 0 [] [] (mkStream bs 0), r with
  | (s, Ok (VStr t)), inl t' => bytes_eqb t t' && Nat.eqb (s_pos s) pos
  | (s, Raise e), inr e' => exn_eqb e e' && Nat.eqb (s_pos s) pos
  | _, _ => false
  end) iterdecode_utf_16_be_vectors = true.
Proof. vm_compute. reflexivity. Qed.

Definition encode_utf_32_le_vectors : list (list Z * res (list Z)) :=
 [([127], Ok [127;0;0;0]);
  ([128;497;368], Ok [128;0;0;0;241;1;0;0;112;1;0;0]);
  ([128;56319;281], Raise EUnicodeEncode);
  ([129], Ok [129;0;0;0]);
  ([139], Ok [139;0;0;0]);
  ([157;129], Ok [157;0;0;0;129;0;0;0]);
  ([185;56319;1114111], Raise EUnicodeEncode);
  ([2047;57343;65279], Raise EUnicodeEncode);
  ([2047], Ok [255;7;0;0]);
  ([2048;57343], Raise EUnicodeEncode);
  ([2048;71;255], Ok [0;8;0;0;71;0;0;0;255;0;0;0]);
  ([2048;765;65534], Ok [0;8;0;0;253;2;0;0;254;255;0;0]);
  ([2048], Ok [0;8;0;0]);
  ([256;329], Ok [0;1;0;0;73;1;0;0]);
  ([256], Ok [0;1;0;0]);
  ([285;138;255], Ok [29;1;0;0;138;0;0;0;255;0;0;0]);
  ([299;113], Ok [43;1;0;0;113;0;0;0]);
  ([302], Ok [46;1;0;0]);
  ([402], Ok [146;1;0;0]);
  ([405], Ok [149;1;0;0]);
  ([440;296], Ok [184;1;0;0;40;1;0;0]);
  ([484;2048;65], Ok [228;1;0;0;0;8;0;0;65;0;0;0]);
  ([493], Ok [237;1;0;0]);
  ([55296;255;621], Raise EUnicodeEncode);
  ([561;2048;234], Ok [49;2;0;0;0;8;0;0;234;0;0;0]);
  ([56319], Raise EUnicodeEncode);
  ([619;256;129], Ok [107;2;0;0;0;1;0;0;129;0;0;0]);
  ([65279;8364], Ok [255;254;0;0;172;32;0;0]);
  ([65534;609;601], Ok [254;255;0;0;97;2;0;0;89;2;0;0]);
  ([65534;65], Ok [254;255;0;0;65;0;0;0]);
  ([65534], Ok [254;255;0;0]);
  ([65535], Ok [255;255;0;0]);
  ([65536;65279;65279], Ok [0;0;1;0;255;254;0;0;255;254;0;0]);
  ([65536;65536;256], Ok [0;0;1;0;0;0;1;0;0;1;0;0]);
  ([65536], Ok [0;0;1;0]);
  ([687], Ok [175;2;0;0]);
  ([73;763;55296], Raise EUnicodeEncode);
  ([745;129], Ok [233;2;0;0;129;0;0;0]);
  ([8364;282;2047], Ok [172;32;0;0;26;1;0;0;255;7;0;0]);
  ([8364;65535], Ok [172;32;0;0;255;255;0;0]);
  ([91;57343], Raise EUnicodeEncode);
  ([], Ok [])].
Example encode_utf_32_le_agrees : forallb (fun v => res_eqb bytes_eqb (encode (Utf32 Little) (fst v)) (snd v)) encode_utf_32_le_vectors = true.
Proof. vm_compute. reflexivity. Qed.

Definition decode_utf_32_le_vectors : list (list Z * res (list Z)) :=
 [([0;0;0;0], Ok [0]);
  ([0;0;0;22;2;0;0], Raise EUnicodeDecode);
  ([0;0;0], Raise EUnicodeDecode);
  ([0;0;254;255;0;0], Raise EUnicodeDecode);
  ([0;0;254;255;160;194;244;216], Raise EUnicodeDecode);
  ([0;0;254;255;191;220], Raise EUnicodeDecode);
  ([0;0;254;255;240;0;216], Raise EUnicodeDecode);
  ([0;0;254;255;240;244], Raise EUnicodeDecode);
  ([0;0;254;255;65;194;220], Raise EUnicodeDecode);
  ([0;0;254;255], Raise EUnicodeDecode);
  ([0;1;0;0;169;1;0;254], Raise EUnicodeDecode);
  ([0], Raise EUnicodeDecode);
  ([104;0;0;0], Ok [104]);
  ([104;1;0;0;255;254;0;0], Ok [360;65279]);
  ([108;41;2;0;0], Raise EUnicodeDecode);
  ([10;1;0;0;0;8;254;0], Raise EUnicodeDecode);
  ([122;0;0;0;129;0;0], Raise EUnicodeDecode);
  ([127;0;0;0;0;8;0], Raise EUnicodeDecode);
  ([127;0;0;0;90;2;0;0], Ok [127;602]);
  ([127;0;0;0], Ok [127]);
  ([127;26;0;0;0], Raise EUnicodeDecode);
  ([128;0;0;0;201;2;0;0], Ok [128;713]);
  ([129;0;0;0;224;255;0;0], Ok [129;65504]);
  ([129;0;0;0;33;1;0;0;230;0;0;0], Ok [129;289;230]);
  ([129;0;0], Raise EUnicodeDecode);
  ([136;2;0;0;26;2;0;0;162;1;0], Raise EUnicodeDecode);
  ([157;0;0;0;203;2;0;0;0;1;0;0], Ok [157;715;256]);
  ([157;0;0;0], Ok [157]);
  ([16;1;0;0;255;254;0;0;255;255;16;0], Ok [272;65279;1114111]);
  ([16;2;0;0], Ok [528]);
  ([172;32;0;0;109;2;0;0;145;2;0;0], Ok [8364;621;657]);
  ([172;32;0], Raise EUnicodeDecode);
  ([183;1;0;0;244;1;0;0;0;0;0], Raise EUnicodeDecode);
  ([185;2;0;0], Ok [697]);
  ([187;2;0;0], Ok [699]);
  ([190;2;0;0;222;1;0;0;131;1;0;0], Ok [702;478;387]);
  ([196;1;0;0;5;2;0;0], Ok [452;517]);
  ([208;1;0;0;128;0;0;0;201;0;0;0], Ok [464;128;201]);
  ([209;1;0;0;129;0;0;0], Ok [465;129]);
  ([209;2;0;0;255;255;16;0;255;254;0;0], Ok [721;1114111;65279]);
  ([216;0;0;0;65;0;0;0], Ok [216;65]);
  ([219;0;0], Raise EUnicodeDecode);
  ([224;1;0;0;0;8;0;0], Ok [480;2048]);
  ([237;128], Raise EUnicodeDecode);
  ([239;187;0], Raise EUnicodeDecode);
  ([239;187;128;244;240], Raise EUnicodeDecode);
  ([239;187;191;0;0], Raise EUnicodeDecode);
  ([239;187;191;185;194], Raise EUnicodeDecode);
  ([239;187;191;191;191;216], Raise EUnicodeDecode);
  ([239;187;191;191;194;65], Raise EUnicodeDecode);
  ([239;187;191;216;65;224], Raise EUnicodeDecode);
  ([239;187;194;244;224;216;224], Raise EUnicodeDecode);
  ([239;187;251;240;65;167], Raise EUnicodeDecode);
  ([23;2;0;0;120;2;0], Raise EUnicodeDecode);
  ([240;0;0;0;149;2;0;0;153;2;0;0], Ok [240;661;665]);
  ([240;0;0;0;65;0;0;0], Ok [240;65]);
  ([241;2;0;0], Ok [753]);
  ([251;1;0;0;255;7;0;0;136;1;0;0], Ok [507;2047;392]);
  ([254;1;0;0;32;2;0;0;255;255;16;0], Ok [510;544;1114111]);
  ([254;255;0;0;254;254;255;0;0], Raise EUnicodeDecode);
  ([254;255;0;0], Ok [65534]);
  ([254;255;216], Raise EUnicodeDecode);
  ([254;255;220;240;216], Raise EUnicodeDecode);
  ([254;255;224;194;128;160;65], Raise EUnicodeDecode);
  ([254;255;65], Raise EUnicodeDecode);
  ([255;0;0;0;254;255;0], Raise EUnicodeDecode);
  ([255;0;0;0;67;0;0;0], Ok [255;67]);
  ([255;146;255;0;0;129;0;0;0], Raise EUnicodeDecode);
  ([255;254;0;0], Ok [65279]);
  ([255;254;0;244], Raise EUnicodeDecode);
  ([255;254;224], Raise EUnicodeDecode);
  ([255;254;244;194;216;128;194], Raise EUnicodeDecode);
  ([255;254], Raise EUnicodeDecode);
  ([255;255;0;0;0;0;0], Raise EUnicodeDecode);
  ([255;255;0;0;170;1;128;0;255;254;0;0], Raise EUnicodeDecode);
  ([255;255;16;0], Ok [1114111]);
  ([38;1;0;0], Ok [294]);
  ([42;1;0], Raise EUnicodeDecode);
  ([50;2;0;0], Ok [562]);
  ([52;0;224;0], Raise EUnicodeDecode);
  ([56;2;0;0;2;0;0], Raise EUnicodeDecode);
  ([5;1;244;0], Raise EUnicodeDecode);
  ([65;0;0;0;102;0;0;0], Ok [65;102]);
  ([65;0;0;0;183;1;0;0], Ok [65;439]);
  ([6;2;0;0;0;0;0;0], Ok [518;0]);
  ([72;2;0;0;32;0;0;84;1;0;0], Raise EUnicodeDecode);
  ([75;0;0;0], Ok [75]);
  ([76;1;0;0], Ok [332]);
  ([92;2;0;0;172;32;16;0;0;0;0;1;0], Raise EUnicodeDecode);
  ([94;1;0;0;65;0;0;0], Ok [350;65]);
  ([98;0;0], Raise EUnicodeDecode);
  ([], Ok [])].
Example decode_utf_32_le_agrees : forallb (fun v => res_eqb bytes_eqb (decode (Utf32 Little) (fst v)) (snd v)) decode_utf_32_le_vectors = true.
Proof. vm_compute. reflexivity. Qed.

Definition iterdecode_utf_32_le_vectors : list (list Z * (list Z + exn) * nat) :=
 [([0;0;0;0;0;0;0;0;0;0;0;0], inl [], 4%nat);
  ([0;0;0;0;0;0;0;0], inl [], 4%nat);
  ([0;0;0;0;0;0;0], inl [], 4%nat);
  ([0;0;0;0;128;0;0;0;0;0;0;0], inl [], 4%nat);
  ([0;0;0;0], inl [], 4%nat);
  ([0;0;0;211;2;0;0;157;0;0;0;0;0;0;0], inr EUnicodeDecode, 4%nat);
  ([0;0;0;255;255;0;0;0;0;0;0;0;0;0;0], inr EUnicodeDecode, 4%nat);
  ([0;0;1;0;0;0;0;0;0;0;0;0], inl [65536], 8%nat);
  ([0;0;1;0;129;0;0;0;224;0;0;0;0;0;0;0], inl [65536;129;224], 16%nat);
  ([0;0;1;0;255;254;0;0;0;0;0;0], inl [65536;65279], 12%nat);
  ([0;0;254;255;0;0;0;0], inr EUnicodeDecode, 4%nat);
  ([0;0;254;255;128;160;160;163;160], inr EUnicodeDecode, 4%nat);
  ([0;0;254;255;224;194;240;0;0;0;0;0], inr EUnicodeDecode, 4%nat);
  ([0;0;254;255;240;237;160;191;237;0;0;0;0], inr EUnicodeDecode, 4%nat);
  ([0;0;254;255;244;17;0;244;0;0;0;0], inr EUnicodeDecode, 4%nat);
  ([0;1;0;0;0;2;0;0;157;0;0;0], inr (EDeserialization None), 12%nat);
  ([0;1;0;245;0;0;0;0], inr EUnicodeDecode, 4%nat);
  ([0;8;0;0;142;0;0;0;0;0;0], inr EUnicodeDecode, 11%nat);
  ([101;1;0;0;0;0;1;0;253;65;0;0;0;0;0;0;0], inl [357;65536;16893], 16%nat);
  ([104;0;0;0;139;1;0;0;254;255;0;0;0;0;0;0;0;0;0;0], inl [104;395;65534], 16%nat);
  ([105;134;2;0;0;254;255;0;0;254;255;0;0], inr EUnicodeDecode, 8%nat);
  ([108;0;0;0;191;255;0;0;0;0;0;0], inl [108;65471], 12%nat);
  ([108;2;0;0;91;0;0;0;0;0;0;0], inl [620;91], 12%nat);
  ([10;242;1;0;0;0;0;0;0], inl [127498], 8%nat);
  ([111;1;0;0;0;0;0;0], inl [367], 8%nat);
  ([120;0;0;0;126;0;0;0;223;1;0;239], inr EUnicodeDecode, 12%nat);
  ([123;1;0;0;0;0;0;0;0;0;0;0], inl [379], 8%nat);
  ([127;0;0;0;254;255;0;0], inr (EDeserialization None), 8%nat);
  ([128;0;0;0;0;0;1;0;0;0;0;0;0;0;0], inl [128;65536], 12%nat);
  ([128;0;0;0;108;2;0;0;0;8;0;0;0;0;0;0;0;0;0;0], inl [128;620;2048], 16%nat);
  ([128;0;0;0;255;254;0;0;152;2;0;0;0;0;0;0], inl [128;65279;664], 16%nat);
  ([128;0;0;0;4;2;0;240], inr EUnicodeDecode, 8%nat);
  ([129;0;0;0;0;0;0;0], inl [129], 8%nat);
  ([129;0;0;0;0;1;0], inr EUnicodeDecode, 7%nat);
  ([129;0;0;0;0;8;0;0;193;191;0;0], inr (EDeserialization None), 12%nat);
  ([12;2;0;0;0;0;0;0;0;0;0;0], inl [524], 8%nat);
  ([133;2;0;0;202;1;0;0;0;0;0;0;0;0;0;0;0;0;0;0], inl [645;458], 12%nat);
  ([135;254;255;0;0;128;0;0;0], inr EUnicodeDecode, 4%nat);
  ([157;0;0;0;195;2;0;0;255;255;139;0;0;0;0;0;0], inr EUnicodeDecode, 12%nat);
  ([157;0;0;0;208;0;0;0], inr (EDeserialization None), 8%nat);
  ([157;0;0;0;255;255;16;0], inr (EDeserialization None), 8%nat);
  ([157;0;0], inr EUnicodeDecode, 3%nat);
  ([157;1;0;0;172;32;0;0;0;0;0;0], inl [413;8364], 12%nat);
  ([161;2;192;0;0;0;0;0], inr EUnicodeDecode, 4%nat);
  ([169;0;0;237;255;255;16;0;131;2;0;0], inr EUnicodeDecode, 4%nat);
  ([172;32;0;0;70;2;0;43;0], inr EUnicodeDecode, 8%nat);
  ([177;1;0;0;0;0;0;0], inl [433], 8%nat);
  ([177;254;0;0;101;2;0;0;0;0;0;0], inl [65201;613], 12%nat);
  ([187;0;0;157;0;0;0;0;0;0;0], inr EUnicodeDecode, 4%nat);
  ([188;0;0;240;0;0;0;0], inr EUnicodeDecode, 4%nat);
  ([188;2;0;0;0;0;0;0], inl [700], 8%nat);
  ([192;0;0;0], inr (EDeserialization None), 4%nat);
  ([192;255;16;0], inr (EDeserialization None), 4%nat);
  ([197;2;0;0;0;0;0;0;0;0;0;0], inl [709], 8%nat);
  ([199;1;0;0;239;2;0;0;0;0;0;0], inl [455;751], 12%nat);
  ([199;1;0;0;255;255;0;0;0;0;0;0], inl [455;65535], 12%nat);
  ([216;194;224;0;0;0;0;0;0], inr EUnicodeDecode, 4%nat);
  ([216;2;0;0;0;0;0;0], inl [728], 8%nat);
  ([220;0;0;0;0;0;0;0], inl [220], 8%nat);
  ([220;2;0;0;0;0;0;0], inl [732], 8%nat);
  ([226;0;0;0;176;220;0;0;0;0;0;0], inr EUnicodeDecode, 8%nat);
  ([237;0;0], inr EUnicodeDecode, 3%nat);
  ([239;187;0;0;160;191;224;0;0;0;0], inr EUnicodeDecode, 8%nat);
  ([239;187;128;128;0;0;0;0], inr EUnicodeDecode, 4%nat);
  ([239;187;128;191;160;65;220;0;0;0;0;0;0;0;0], inr EUnicodeDecode, 4%nat);
  ([239;187;191;0;0;0;0], inr EUnicodeDecode, 4%nat);
  ([239;187;191;0;240;65;159;0;0;0;0], inr EUnicodeDecode, 4%nat);
  ([239;187;191;0;244;65;0;0;0;0], inr EUnicodeDecode, 4%nat);
  ([239;187;191;128;0;0;0;0], inr EUnicodeDecode, 4%nat);
  ([239;187;191;152;65], inr EUnicodeDecode, 4%nat);
  ([239;187;191;237;0;0;0;0;0], inr EUnicodeDecode, 4%nat);
  ([239;187;191;65;160;240], inr EUnicodeDecode, 4%nat);
  ([239;187;224;160;216;160;0;0;0;0], inr EUnicodeDecode, 4%nat);
  ([239;187;224;194;128;0;0;0;0;0;0;0;0], inr EUnicodeDecode, 4%nat);
  ([239;187;224;65;191;240;0;0;0;0;0;0;0;0], inr EUnicodeDecode, 4%nat);
  ([239;187;244;244;0;0;0;0], inr EUnicodeDecode, 4%nat);
  ([239;187;65;194;0], inr EUnicodeDecode, 4%nat);
  ([24;0;0;0;0;0;0;0], inl [24], 8%nat);
  ([254;255;0;0;0;0;0;0], inl [65534], 8%nat);
  ([254;255;0;0;0;0], inr EUnicodeDecode, 6%nat);
  ([254;255;0;239;0;0;0;0], inr EUnicodeDecode, 4%nat);
  ([254;255;0;65;224;220;0;0;0;0;0], inr EUnicodeDecode, 4%nat);
  ([254;255;128;244], inr EUnicodeDecode, 4%nat);
  ([254;255;240;237;160;65;216;0;0;0;0], inr EUnicodeDecode, 4%nat);
  ([255;0;0;0;16;2;0;0;0;0;0], inr EUnicodeDecode, 11%nat);
  ([255;254;0;0;0;0], inr EUnicodeDecode, 6%nat);
  ([255;254;0;0;0;237;240;128;0;0;0;0;0;0;0;0;0], inr EUnicodeDecode, 8%nat);
  ([255;254;0;0;0;246;0;0;0;0], inr EUnicodeDecode, 10%nat);
  ([255;254;0;0;224;0;0;0;0], inr EUnicodeDecode, 9%nat);
  ([255;254;0;0;233;0;0;0;122;2;0;0;0;0;0;0], inl [65279;233;634], 16%nat);
  ([255;254;0;0;65;0;0;0;0], inr EUnicodeDecode, 9%nat);
  ([255;254;220;128;0;0;0;0], inr EUnicodeDecode, 4%nat);
  ([255;254;237;128;240;65;0;0;0;0;0;0;0;0], inr EUnicodeDecode, 4%nat);
  ([255;254;237;216;244;0;0;0;0], inr EUnicodeDecode, 4%nat);
  ([255;254;244;0;194;0;0;0;0], inr EUnicodeDecode, 4%nat);
  ([255;255;0;0;0;0;0;0;0;0;0;0], inl [65535], 8%nat);
  ([255;255;16;115;0;0;0;0;0], inr EUnicodeDecode, 4%nat);
  ([255;7;0;0;0;0;0;0], inl [2047], 8%nat);
  ([255;7;0;0;180;148;1;0;0;179;1;0;0], inr EUnicodeDecode, 13%nat);
  ([255;7;0;0;65;0;0;0;0;0;0], inr EUnicodeDecode, 11%nat);
  ([255;7;0;0;81;2;0;0;225;2;0;0], inr (EDeserialization None), 12%nat);
  ([27;1;0;0;104;2;0;0;83;2;0;0;0;0;0;0], inl [283;616;595], 16%nat);
  ([27;2;0;180;1;0;0;0;0;0;0;0;0;0;0], inr EUnicodeDecode, 4%nat);
  ([2;0;0;66;0;0;0;230;2;0;0;0;0;0;0], inr EUnicodeDecode, 4%nat);
  ([38;216;0;0;0;0;0;0;0;0], inr EUnicodeDecode, 4%nat);
  ([46;1;0;0;255;254;0;0;255;255;16;0;0;0;0;0], inl [302;65279;1114111], 16%nat);
  ([47;2;0;0;0;0;0;0], inl [559], 8%nat);
  ([52;1;0;52;2;0;0;255;255;16;0;0;0;0;0;0;0;0;0], inr EUnicodeDecode, 4%nat);
  ([53;1;0;141;0;185;1;0;0], inr EUnicodeDecode, 4%nat);
  ([5;0;0;0;0;8;0;0;254;255;0;0;0;0;0;0;0;0;0;0], inl [5;2048;65534], 16%nat);
  ([65;0;0;0;0;0;0], inr EUnicodeDecode, 7%nat);
  ([65;0;0;0;255;237;16;0;0;0;0;0], inl [65;1109503], 12%nat);
  ([65;0;0;22;0;0;0;0;0;0;0;0;0], inr EUnicodeDecode, 4%nat);
  ([67;1;0;0;0;0;0;0], inl [323], 8%nat);
  ([67;1;0;0;254;0;0;0;0;0;0], inr EUnicodeDecode, 11%nat);
  ([72;2;0;0;0;0;0;0], inl [584], 8%nat);
  ([77;1;0;0;253;1;0;0;0;0;0;0], inl [333;509], 12%nat);
  ([84;0;0;0], inr (EDeserialization None), 4%nat);
  ([84;1;0;0;20;56;1;0;0;0;0;0;0], inl [340;79892], 12%nat);
  ([85;192;0;0;173;2;0;0;30;1;0;0;0;0;0;0;0;0;0;0], inl [49237;685;286], 16%nat);
  ([85;222;0;0;0;0;0;0;0], inr EUnicodeDecode, 4%nat);
  ([89;0;0;0;174;2;0;0;76;255;0;0;0;0;0;0;0;0;0;0;0], inl [89;686;65356], 16%nat);
  ([93;0;0;0;77;1;0;0;0;0;0;0;0;0;0;0], inl [93;333], 12%nat);
  ([96;2;192;0;0;128;0;0;0;0;0;0;0], inr EUnicodeDecode, 4%nat);
  ([], inr (EDeserialization None), 0%nat)].
Example iterdecode_utf_32_le_agrees : forallb (fun v => let '(bs, r, pos) := v in
  match stringz_loop (S (length bs)) None (Utf32 Little) None 0 [] [] (mkStream bs 0), r with
  | (s, Ok (VStr t)), inl t' => bytes_eqb t t' && Nat.eqb (s_pos s) pos
  | (s, Raise e), inr e' => exn_eqb e e' && Nat.eqb (s_pos s) pos
  | _, _ => false
  end) iterdecode_utf_32_le_vectors = true.
Proof. vm_compute. reflexivity. Qed.

Definition encode_utf_32_be_vectors : list (list Z * res (list Z)) :=
 [([0;57343], Raise EUnicodeEncode);
  ([0], Ok [0;0;0;0]);
  ([125;551], Ok [0;0;0;125;0;0;2;39]);
  ([125], Ok [0;0;0;125]);
  ([128;0], Ok [0;0;0;128;0;0;0;0]);
  ([128;1114111;56320], Raise EUnicodeEncode);
  ([13;2047;2047], Ok [0;0;0;13;0;0;7;255;0;0;7;255]);
  ([142], Ok [0;0;0;142]);
  ([2048;0;56320], Raise EUnicodeEncode);
  ([2048;65536], Ok [0;0;8;0;0;1;0;0]);
  ([2048], Ok [0;0;8;0]);
  ([255;2048], Ok [0;0;0;255;0;0;8;0]);
  ([255;65534], Ok [0;0;0;255;0;0;255;254]);
  ([255;663;538], Ok [0;0;0;255;0;0;2;151;0;0;2;26]);
  ([256;255;157], Ok [0;0;1;0;0;0;0;255;0;0;0;157]);
  ([256;544], Ok [0;0;1;0;0;0;2;32]);
  ([274;256], Ok [0;0;1;18;0;0;1;0]);
  ([325;132;451], Ok [0;0;1;69;0;0;0;132;0;0;1;195]);
  ([397;2048], Ok [0;0;1;141;0;0;8;0]);
  ([400;256;437], Ok [0;0;1;144;0;0;1;0;0;0;1;181]);
  ([456;56319], Raise EUnicodeEncode);
  ([477;282;251], Ok [0;0;1;221;0;0;1;26;0;0;0;251]);
  ([487;743], Ok [0;0;1;231;0;0;2;231]);
  ([491;65279], Ok [0;0;1;235;0;0;254;255]);
  ([534;55296;56320], Raise EUnicodeEncode);
  ([539;8364;65536], Ok [0;0;2;27;0;0;32;172;0;1;0;0]);
  ([56319], Raise EUnicodeEncode);
  ([56320], Raise EUnicodeEncode);
  ([570], Ok [0;0;2;58]);
  ([57343;141;42], Raise EUnicodeEncode);
  ([627;121;56320], Raise EUnicodeEncode);
  ([65534;407], Ok [0;0;255;254;0;0;1;151]);
  ([65536], Ok [0;1;0;0]);
  ([65], Ok [0;0;0;65]);
  ([704;0;0], Ok [0;0;2;192;0;0;0;0;0;0;0;0]);
  ([71;499], Ok [0;0;0;71;0;0;1;243]);
  ([97], Ok [0;0;0;97]);
  ([], Ok [])].
Example encode_utf_32_be_agrees : forallb (fun v => res_eqb bytes_eqb (encode (Utf32 Big) (fst v)) (snd v)) encode_utf_32_be_vectors = true.
Proof. vm_compute. reflexivity. Qed.

Definition decode_utf_32_be_vectors : list (list Z * res (list Z)) :=
 [([0;0;0;0;0;0;230], Raise EUnicodeDecode);
  ([0;0;0;0;0;1;0;0], Ok [0;65536]);
  ([0;0;0;127], Ok [127]);
  ([0;0;0;128;0;0;0;128], Ok [128;128]);
  ([0;0;0;128;0;2;82], Raise EUnicodeDecode);
  ([0;0;0;12;0;0;0;33;0;1;0;0], Ok [12;33;65536]);
  ([0;0;0;191;0;0;1;50], Ok [191;306]);
  ([0;0;0;22;0;0;1;0;0;0;1;21], Ok [22;256;277]);
  ([0;0;0;239;0;0;0;129;0;0;1;242], Ok [239;129;498]);
  ([0;0;0;240], Ok [240]);
  ([0;0;0;251], Ok [251]);
  ([0;0;0;255;0;0;0;255;0;0;0;255], Ok [255;255;255]);
  ([0;0;0;46;0;0;7;255;0;0;2;23], Ok [46;2047;535]);
  ([0;0;0;61;0;0;128;0;0;0;127], Raise EUnicodeDecode);
  ([0;0;0;65], Ok [65]);
  ([0;0;0;70;0;0;2;62;0;0;2;156], Ok [70;574;668]);
  ([0;0;0;78], Ok [78]);
  ([0;0;0;84;0;1;0], Raise EUnicodeDecode);
  ([0;0;1;125;0;1;0;0;0;0;0;240], Ok [381;65536;240]);
  ([0;0;1;128], Ok [384]);
  ([0;0;1;152;0;0;0;127], Ok [408;127]);
  ([0;0;1;189;0;0;207], Raise EUnicodeDecode);
  ([0;0;1;193], Ok [449]);
  ([0;0;1;224], Ok [480]);
  ([0;0;1;237;0;0;0;127], Ok [493;127]);
  ([0;0;1;29], Ok [285]);
  ([0;0;1;37;0;0;1;116], Ok [293;372]);
  ([0;0;1;69;0;0;0;0;0;0;1;0], Ok [325;0;256]);
  ([0;0;1;8], Ok [264]);
  ([0;0;254;255;0;0;0;127], Ok [65279;127]);
  ([0;0;254;255;216], Raise EUnicodeDecode);
  ([0;0;254;255;240], Raise EUnicodeDecode);
  ([0;0;254;255;244], Raise EUnicodeDecode);
  ([0;0;254;255], Ok [65279]);
  ([0;0;255;254;0;0;1;71], Ok [65534;327]);
  ([0;0;255;255;0;0;65], Raise EUnicodeDecode);
  ([0;0;255;255;0;0;75;255;255], Raise EUnicodeDecode);
  ([0;0;2;122;0;0;0;68], Ok [634;68]);
  ([0;0;2;124;0;0;0;253], Ok [636;253]);
  ([0;0;2;125], Ok [637]);
  ([0;0;2;136;0;0;0;86;0;0;0;128], Ok [648;86;128]);
  ([0;0;2;138;0;0;0;128], Ok [650;128]);
  ([0;0;2;150;0;0;1;200;0;0;2;128], Ok [662;456;640]);
  ([0;0;2;16;0;0;2;155;0;0;0;127], Ok [528;667;127]);
  ([0;0;2;1;0;0;0;8;0], Raise EUnicodeDecode);
  ([0;0;2;209;0;1;0;0], Ok [721;65536]);
  ([0;0;2;45;0;0;0;157;0;0;0;127], Ok [557;157;127]);
  ([0;0;43], Raise EUnicodeDecode);
  ([0;0;75;1;253], Raise EUnicodeDecode);
  ([0;0;76], Raise EUnicodeDecode);
  ([0;0;8;0;0;224;0;83], Raise EUnicodeDecode);
  ([0;130;0;1;34], Raise EUnicodeDecode);
  ([0;16;255;255;0;0;1;0;0;0;1;14], Ok [1114111;256;270]);
  ([0;16;255;255;0;1;0;0], Ok [1114111;65536]);
  ([0;192;1;139], Raise EUnicodeDecode);
  ([0;1;0;0;0;0;2;230;0;0;0;255], Ok [65536;742;255]);
  ([0;1;0;0;0;0;8;0;0;0;85;0;0], Raise EUnicodeDecode);
  ([0;220;1;19;0;0;0;129;0;0;7;255], Raise EUnicodeDecode);
  ([0;254;2;144;0;16;255;255;0;0;2;229], Raise EUnicodeDecode);
  ([0;255;1;143], Raise EUnicodeDecode);
  ([0;2;238;0;0;2;59;0;0;0;157], Raise EUnicodeDecode);
  ([0;8;0], Raise EUnicodeDecode);
  ([128;0;1;243], Raise EUnicodeDecode);
  ([160;170;244;194;160], Raise EUnicodeDecode);
  ([204;0;0;0;129], Raise EUnicodeDecode);
  ([224;0;0;127;0;0;255;255;0;0;254;255], Raise EUnicodeDecode);
  ([239;187;0;0;237;160;237], Raise EUnicodeDecode);
  ([239;187;191;191;240;224;237], Raise EUnicodeDecode);
  ([239;187;191;191], Raise EUnicodeDecode);
  ([239;187;191;244;160;0;191], Raise EUnicodeDecode);
  ([239;187;194;216;133], Raise EUnicodeDecode);
  ([239;187;224], Raise EUnicodeDecode);
  ([239;187;244], Raise EUnicodeDecode);
  ([254;255;0;0;194], Raise EUnicodeDecode);
  ([254;255;0;160;216;240], Raise EUnicodeDecode);
  ([254;255;113;244;224;35], Raise EUnicodeDecode);
  ([254;255;220;0;216;224;160], Raise EUnicodeDecode);
  ([254;255;237;220], Raise EUnicodeDecode);
  ([254;255], Raise EUnicodeDecode);
  ([255;0;0;0], Raise EUnicodeDecode);
  ([255;0;1;0;0;0;254;255], Raise EUnicodeDecode);
  ([255;254;0;0;0;216], Raise EUnicodeDecode);
  ([255;254;0;0;216;194;128;160], Raise EUnicodeDecode);
  ([255;254;0;0;220;224], Raise EUnicodeDecode);
  ([255;254;0;0], Raise EUnicodeDecode);
  ([255;254;191;73], Raise EUnicodeDecode);
  ([255;254;193;244;197;224], Raise EUnicodeDecode);
  ([255;254;197;160;160], Raise EUnicodeDecode);
  ([255;254;222;128;0;240], Raise EUnicodeDecode);
  ([255;254;240;39], Raise EUnicodeDecode);
  ([255;254;240], Raise EUnicodeDecode);
  ([255;254;244;244;0], Raise EUnicodeDecode);
  ([255;254;244;76], Raise EUnicodeDecode);
  ([255;254;65;237;224], Raise EUnicodeDecode);
  ([], Ok [])].
Example decode_utf_32_be_agrees : forallb (fun v => res_eqb bytes_eqb (decode (Utf32 Big) (fst v)) (snd v)) decode_utf_32_be_vectors = true.
Proof. vm_compute. reflexivity. Qed.

Definition iterdecode_utf_32_be_vectors : list (list Z * (list Z + exn) * nat) :=
 [([0;0;0;0;0;0;0;0], inl [], 4%nat);
  ([0;0;0;0], inl [], 4%nat);
  ([0;0;0;105;0;0;0;0], inl [105], 8%nat);
  ([0;0;0;127;0;0;1;39;0;0;0;0;0;0;0;0], inl [127;295], 12%nat);
  ([0;0;0;127;0;0;220;255;0;0;0;65], inr EUnicodeDecode, 8%nat);
  ([0;0;0;128;245;0;0;0;0;0;0;0;0;0;0;0], inr EUnicodeDecode, 8%nat);
  ([0;0;0;129;0;0;0;157], inr (EDeserialization None), 8%nat);
  ([0;0;0;157;0;0;0;0;0;0;0], inl [157], 8%nat);
  ([0;0;0;211;0;0;1;110;0;0;0;0], inl [211;366], 12%nat);
  ([0;0;0;218;0;0;0;32;0;0;0;0;0;0;0;0], inl [218;32], 12%nat);
  ([0;0;0;224], inr (EDeserialization None), 4%nat);
  ([0;0;0;244;0;0;0;0], inl [244], 8%nat);
  ([0;0;0;24;0;0;7;255;0;0;0;0], inl [24;2047], 12%nat);
  ([0;0;0;255], inr (EDeserialization None), 4%nat);
  ([0;0;0;58;0;0;0;0], inl [58], 8%nat);
  ([0;0;0;83;0;0;0;128;0;0;7;255;0;0;0;0], inl [83;128;2047], 16%nat);
  ([0;0;128;0;0;0;0], inr EUnicodeDecode, 7%nat);
  ([0;0;1;110;0;0;1;58;0;244;1;98;0;0;0;0], inr EUnicodeDecode, 12%nat);
  ([0;0;1;116;0;0;1;0;0;0;0;0], inl [372;256], 12%nat);
  ([0;0;1;124;0;0;0;0], inl [380], 8%nat);
  ([0;0;1;26;0;0;254;255;0;0;1;18;0;0;0;0;0;0;0;0], inl [282;65279;274], 16%nat);
  ([0;0;1;47;0;0;0;0], inl [303], 8%nat);
  ([0;0;1;76;51;0;0;0;162;0;0;0;0;0;0;0;0], inr EUnicodeDecode, 8%nat);
  ([0;0;1;97;0;0;0;0], inl [353], 8%nat);
  ([0;0;211;2;246;0;0;254;255;0;0;0;0], inr EUnicodeDecode, 8%nat);
  ([0;0;214], inr EUnicodeDecode, 3%nat);
  ([0;0;224;129;0;0;0;128;0;0;0;128], inr (EDeserialization None), 12%nat);
  ([0;0;254;104;0;0;0;0], inl [65128], 8%nat);
  ([0;0;254;255;128;216;191;0;0;0;0], inr EUnicodeDecode, 8%nat);
  ([0;0;254;255;160;160;237;216;194], inr EUnicodeDecode, 8%nat);
  ([0;0;254;255;182;0;191;244;220;0;0;0;0], inr EUnicodeDecode, 8%nat);
  ([0;0;254;255;191;244;0;191], inr EUnicodeDecode, 8%nat);
  ([0;0;254;255;224;160;160;0], inr EUnicodeDecode, 8%nat);
  ([0;0;254;255;60;160], inr EUnicodeDecode, 6%nat);
  ([0;0;254;255], inr (EDeserialization None), 4%nat);
  ([0;0;255;0;0;0;129;0;0;0;0], inr EUnicodeDecode, 11%nat);
  ([0;0;255;237], inr (EDeserialization None), 4%nat);
  ([0;0;255;254;0;0;0;0], inl [65534], 8%nat);
  ([0;0;255;254;0;0;2], inr EUnicodeDecode, 7%nat);
  ([0;0;255;255;0;0;2;208;0;0;2;116;0;0;0;0;0;0;0;0], inl [65535;720;628], 16%nat);
  ([0;0;2;117;0;0;255;255;0;0;0;0], inl [629;65535], 12%nat);
  ([0;0;2;140;0;0;1;158;0;0;0;0], inl [652;414], 12%nat);
  ([0;0;2;143;1;0;0;0;0;1;178], inr EUnicodeDecode, 8%nat);
  ([0;0;2;196;0;0;0;0], inl [708], 8%nat);
  ([0;0;2;244;0;0;0;0], inl [756], 8%nat);
  ([0;0;2;38;31;0;0;0;216;0;0;0;0;0;0;0;0], inr EUnicodeDecode, 8%nat);
  ([0;0;2;59;237;0;255;255;0;0;7;255], inr EUnicodeDecode, 8%nat);
  ([0;0;2;60;0;0;0;0], inl [572], 8%nat);
  ([0;0;2;70;0;0;0;0], inl [582], 8%nat);
  ([0;0;2;83;0;0;7;255;0;0;251;2;170;0;0;0;0], inr EUnicodeDecode, 16%nat);
  ([0;0;2;91;0;0;0;0], inl [603], 8%nat);
  ([0;0;32;172;0;252;16;255;255;0;0;0;0], inr EUnicodeDecode, 8%nat);
  ([0;0;37;0;0;1;148;0;0;0;0;0;0;0;0], inl [9472;103424], 12%nat);
  ([0;0;7;255;0;0;0;254;11;0;0;0;15], inr EUnicodeDecode, 12%nat);
  ([0;0;7;255;0;0;2;216;198;0;0;1;191], inr EUnicodeDecode, 12%nat);
  ([0;0;8;0;0;0;0;65;0;0;0;0], inl [2048;65], 12%nat);
  ([0;0;8;0;0;0;1;0], inr (EDeserialization None), 8%nat);
  ([0;0;8;0;0;0;1;180;0;0;0;0;0;0;0;0], inl [2048;436], 12%nat);
  ([0;0;8;0;0;94;0;2;193;0;0;0;0;0;0;0;0], inr EUnicodeDecode, 8%nat);
  ([0;0;8;48;0;0;0;0;0], inl [2096], 8%nat);
  ([0;144;0;1;91], inr EUnicodeDecode, 4%nat);
  ([0;16;0;32;172;0;0;2;44;0;0;0;0], inr EUnicodeDecode, 8%nat);
  ([0;16;255;255;0;0;1;214;0;0;0;65;0;0;0;0], inl [1114111;470;65], 16%nat);
  ([0;16;255;255;0;0;1;92;0;0;0;0], inl [1114111;348], 12%nat);
  ([0;1;0;0;0;0;2;222;244;0;2;209;0;0;0;0], inr EUnicodeDecode, 12%nat);
  ([0;1;0;0;0;0;2;247;0;0;0;0;0;0;0;0], inl [65536;759], 12%nat);
  ([0;1;193;0;0;0;0;0], inl [114944], 8%nat);
  ([0;1;56;0;0;255;254;0;0;0;0], inr EUnicodeDecode, 8%nat);
  ([0;1;85;0;0;8;0], inr EUnicodeDecode, 7%nat);
  ([0;216;0;127;0;0;2;203;0;0;0;0], inr EUnicodeDecode, 4%nat);
  ([0;237;0;126], inr EUnicodeDecode, 4%nat);
  ([0;254;0;0;0;0;8;0;0;0;0;211;0;0;0;0;0;0;0;0], inr EUnicodeDecode, 4%nat);
  ([0;254;255;0;0;0;0], inr EUnicodeDecode, 4%nat);
  ([0;254;255;0;0;2;231], inr EUnicodeDecode, 4%nat);
  ([0;255;255;0;0;0;152;0;0;0;0;0;0;0;0], inr EUnicodeDecode, 4%nat);
  ([0;61;0;157;0;0;0;0], inr EUnicodeDecode, 4%nat);
  ([16;160;224;240;194;0;0;0;0;0;0;0;0], inr EUnicodeDecode, 4%nat);
  ([191;0;0;0;0;0;0;0], inr EUnicodeDecode, 4%nat);
  ([191;0;2;61;0;0;0;0], inr EUnicodeDecode, 4%nat);
  ([205;0;0;0;127;0;0;0;0], inr EUnicodeDecode, 4%nat);
  ([216;0;0;0;0], inr EUnicodeDecode, 4%nat);
  ([220;0;237;216;0;0;0;0], inr EUnicodeDecode, 4%nat);
  ([221;0;0;0], inr EUnicodeDecode, 4%nat);
  ([224;0;255;255;0;0;255;255], inr EUnicodeDecode, 4%nat);
  ([237;240;0], inr EUnicodeDecode, 3%nat);
  ([239;187;191;0;0;0;0], inr EUnicodeDecode, 4%nat);
  ([239;187;191;128;0;0;0;0], inr EUnicodeDecode, 4%nat);
  ([239;187;191;191;224;191;220;240;0;0;0;0], inr EUnicodeDecode, 4%nat);
  ([239;187;191], inr EUnicodeDecode, 3%nat);
  ([239;187;224;106;240;128;194;0;0;0;0;0;0;0;0], inr EUnicodeDecode, 4%nat);
  ([239;187;240;160;224;0;128], inr EUnicodeDecode, 4%nat);
  ([239;187;240;216;128;191], inr EUnicodeDecode, 4%nat);
  ([239;187;65;160;37], inr EUnicodeDecode, 4%nat);
  ([239;187], inr EUnicodeDecode, 2%nat);
  ([244;0;0;7], inr EUnicodeDecode, 4%nat);
  ([254;255;0;0;0;0;0], inr EUnicodeDecode, 4%nat);
  ([254;255;0;0;0;0], inr EUnicodeDecode, 4%nat);
  ([254;255;0;216;0;0;0;0], inr EUnicodeDecode, 4%nat);
  ([254;255;194;0;0;0;0;0;0], inr EUnicodeDecode, 4%nat);
  ([254;255;194;194;237;0;0;0;0;0], inr EUnicodeDecode, 4%nat);
  ([254;255;220;220;137;0;0;0;0], inr EUnicodeDecode, 4%nat);
  ([254;255;240;194;244;237;224;0;0;0;0;0;0;0;0], inr EUnicodeDecode, 4%nat);
  ([255;254;0;0;0;0;0;0;0;0], inr EUnicodeDecode, 4%nat);
  ([255;254;0;0;0;0;0;0], inr EUnicodeDecode, 4%nat);
  ([255;254;0;0;191;0;0;0;0], inr EUnicodeDecode, 4%nat);
  ([255;254;0;0], inr EUnicodeDecode, 4%nat);
  ([255;254;160], inr EUnicodeDecode, 3%nat);
  ([255;254;237;191;244;240;0;0;0;0], inr EUnicodeDecode, 4%nat);
  ([37;0;0;0;255;0;0;0;0;0;0;0;0], inr EUnicodeDecode, 4%nat);
  ([65;220;194;0;0;0;0;0], inr EUnicodeDecode, 4%nat);
  ([65;237;224;128;224;0;0;0;0], inr EUnicodeDecode, 4%nat);
  ([], inr (EDeserialization None), 0%nat)].
Example iterdecode_utf_32_be_agrees : forallb (fun v => let '(bs, r, pos) := v in
  match stringz_loop (S (length bs)) None (Utf32 Big) None 0 [] [] (mkStream bs 0), r with
  | (s, Ok (VStr t)), inl t' => bytes_eqb t t' && Nat.eqb (s_pos s) pos
  | (s, Raise e), inr e' => exn_eqb e e' && Nat.eqb (s_pos s) pos
  | _, _ => false
  end) iterdecode_utf_32_be_vectors = true.
Proof. vm_compute. reflexivity. Qed.

Definition encode_utf_8_sig_vectors : list (list Z * res (list Z)) :=
 [([0;256], Ok [239;187;191;0;196;128]);
  ([0], Ok [239;187;191;0]);
  ([1114111;385], Ok [239;187;191;244;143;191;191;198;129]);
  ([1114111], Ok [239;187;191;244;143;191;191]);
  ([139], Ok [239;187;191;194;139]);
  ([157;55296;567], Raise EUnicodeEncode);
  ([169], Ok [239;187;191;194;169]);
  ([1;55296], Raise EUnicodeEncode);
  ([2047;243], Ok [239;187;191;223;191;195;179]);
  ([2047;55296], Raise EUnicodeEncode);
  ([2047], Ok [239;187;191;223;191]);
  ([205], Ok [239;187;191;195;141]);
  ([255], Ok [239;187;191;195;191]);
  ([257;711;157], Ok [239;187;191;196;129;203;135;194;157]);
  ([28;2047;129], Ok [239;187;191;28;223;191;194;129]);
  ([333], Ok [239;187;191;197;141]);
  ([344;62;0], Ok [239;187;191;197;152;62;0]);
  ([385;1114111], Ok [239;187;191;198;129;244;143;191;191]);
  ([406;191], Ok [239;187;191;198;150;194;191]);
  ([429], Ok [239;187;191;198;173]);
  ([45;65535], Ok [239;187;191;45;239;191;191]);
  ([500], Ok [239;187;191;199;180]);
  ([503;8364], Ok [239;187;191;199;183;226;130;172]);
  ([511;56320;56319], Raise EUnicodeEncode);
  ([525], Ok [239;187;191;200;141]);
  ([528;2048], Ok [239;187;191;200;144;224;160;128]);
  ([551;65536], Ok [239;187;191;200;167;240;144;128;128]);
  ([55296;315;304], Raise EUnicodeEncode);
  ([55296], Raise EUnicodeEncode);
  ([56319;56320;127], Raise EUnicodeEncode);
  ([56320;645;255], Raise EUnicodeEncode);
  ([56320;65;56320], Raise EUnicodeEncode);
  ([56320], Raise EUnicodeEncode);
  ([57343;11], Raise EUnicodeEncode);
  ([57343;2048;129], Raise EUnicodeEncode);
  ([592;8364], Ok [239;187;191;201;144;226;130;172]);
  ([609;481;572], Ok [239;187;191;201;161;199;161;200;188]);
  ([65279;2048], Ok [239;187;191;239;187;191;224;160;128]);
  ([65534;568;65535], Ok [239;187;191;239;191;190;200;184;239;191;191]);
  ([65536;65279;446], Ok [239;187;191;240;144;128;128;239;187;191;198;190]);
  ([65536], Ok [239;187;191;240;144;128;128]);
  ([65;148;2047], Ok [239;187;191;65;194;148;223;191]);
  ([65], Ok [239;187;191;65]);
  ([663;452;255], Ok [239;187;191;202;151;199;132;195;191]);
  ([672], Ok [239;187;191;202;160]);
  ([71], Ok [239;187;191;71]);
  ([737;318;65535], Ok [239;187;191;203;161;196;190;239;191;191]);
  ([8364;574], Ok [239;187;191;226;130;172;200;190]);
  ([], Ok [239;187;191])].
Example encode_utf_8_sig_agrees : forallb (fun v => res_eqb bytes_eqb (encode (Utf8Sig) (fst v)) (snd v)) encode_utf_8_sig_vectors = true.
Proof. vm_compute. reflexivity. Qed.

Definition decode_utf_8_sig_vectors : list (list Z * res (list Z)) :=
 [([0;0;254;255;0;160], Raise EUnicodeDecode);
  ([0;0;254;255;65;18], Raise EUnicodeDecode);
  ([0;0;254;255], Raise EUnicodeDecode);
  ([0;187;191], Raise EUnicodeDecode);
  ([0], Ok [0]);
  ([160;0;237;224], Raise EUnicodeDecode);
  ([187;191;115;226;130;172], Raise EUnicodeDecode);
  ([187;191;196;128], Raise EUnicodeDecode);
  ([187;191;200;147], Raise EUnicodeDecode);
  ([187;191;203;148], Raise EUnicodeDecode);
  ([187;191;55;223;191], Raise EUnicodeDecode);
  ([191], Raise EUnicodeDecode);
  ([220;187;191;195;166;244;143;191;191;194;186], Raise EUnicodeDecode);
  ([220;187;191], Raise EUnicodeDecode);
  ([220;194;194;128;160], Raise EUnicodeDecode);
  ([220], Raise EUnicodeDecode);
  ([224;187;191;224;160;128], Ok [3839;2048]);
  ([224;187;191], Ok [3839]);
  ([239;187;191;0;243;220;224;237], Raise EUnicodeDecode);
  ([239;187;191;0], Ok [0]);
  ([239;187;191;102;130;172;196;172], Raise EUnicodeDecode);
  ([239;187;191;127;122], Ok [127;122]);
  ([239;187;191;128;0;240;128], Raise EUnicodeDecode);
  ([239;187;191;194;104], Raise EUnicodeDecode);
  ([239;187;191;194;128;194;157;197;143], Ok [128;157;335]);
  ([239;187;191;194;129;194;157], Ok [129;157]);
  ([239;187;191;194;129;196;163;195;143], Ok [129;291;207]);
  ([239;187;191;194;129;201;161;196;176], Ok [129;609;304]);
  ([239;187;191;194;129;203;200;153], Raise EUnicodeDecode);
  ([239;187;191;194;165;239;191;191], Ok [165;65535]);
  ([239;187;191;194;192], Raise EUnicodeDecode);
  ([239;187;191;194;223;191], Raise EUnicodeDecode);
  ([239;187;191;194], Raise EUnicodeDecode);
  ([239;187;191;195;131;194;157], Ok [195;157]);
  ([239;187;191;195;150;197;157;200;173], Ok [214;349;557]);
  ([239;187;191;195;152;239;144;191;190], Raise EUnicodeDecode);
  ([239;187;191;195;178;194;129], Ok [242;129]);
  ([239;187;191;195;191;197], Raise EUnicodeDecode);
  ([239;187;191;195;191;239;191;190], Ok [255;65534]);
  ([239;187;191;195;191;240;144;128;128], Ok [255;65536]);
  ([239;187;191;196;128;224;160;196;128], Raise EUnicodeDecode);
  ([239;187;191;196;128], Ok [256]);
  ([239;187;191;198;177;224;223;191], Raise EUnicodeDecode);
  ([239;187;191;198;66;86], Raise EUnicodeDecode);
  ([239;187;191;199;161;195;144], Ok [481;208]);
  ([239;187;191;199;176;240;144;128;128], Ok [496;65536]);
  ([239;187;191;200;143;194;157], Ok [527;157]);
  ([239;187;191;201;178;198;128], Ok [626;384]);
  ([239;187;191;201;182], Ok [630]);
  ([239;187;191;201;202;167], Raise EUnicodeDecode);
  ([239;187;191;202;133;239;191;190;194;192], Raise EUnicodeDecode);
  ([239;187;191;202;166], Ok [678]);
  ([239;187;191;203;171;201;139], Ok [747;587]);
  ([239;187;191;216;128;7], Ok [1536;7]);
  ([239;187;191;223;191], Ok [2047]);
  ([239;187;191;224;119;160;128;194;128], Raise EUnicodeDecode);
  ([239;187;191;224;160;128;195;191], Ok [2048;255]);
  ([239;187;191;224;160;128;239;187;191;198;189], Ok [2048;65279;445]);
  ([239;187;191;224;160], Raise EUnicodeDecode);
  ([239;187;191;226;130;172;201;190], Ok [8364;638]);
  ([239;187;191;239;187;191], Ok [65279]);
  ([239;187;191;239;191;190;196;147], Ok [65534;275]);
  ([239;187;191;239;191;190;244;143;191;191], Ok [65534;1114111]);
  ([239;187;191;239;191;190], Ok [65534]);
  ([239;187;191;239;191;191;239;187;191;223;191], Ok [65535;65279;2047]);
  ([239;187;191;240;144;128;128], Ok [65536]);
  ([239;187;191;244;192;240;216], Raise EUnicodeDecode);
  ([239;187;191;25;201], Raise EUnicodeDecode);
  ([239;187;191;38;224;160;128], Ok [38;2048]);
  ([239;187;191;62;240;144;128;128], Ok [62;65536]);
  ([239;187;191;65], Ok [65]);
  ([239;187;191;88;194;128], Ok [88;128]);
  ([239;187;191], Ok []);
  ([239;187;192], Raise EUnicodeDecode);
  ([239;187;216;216;194;40], Raise EUnicodeDecode);
  ([239;187;224;160;240;244], Raise EUnicodeDecode);
  ([239;187;224;65;160;194;244], Raise EUnicodeDecode);
  ([239;187;224], Raise EUnicodeDecode);
  ([239;187;226;130;172;127], Raise EUnicodeDecode);
  ([239;187;245], Raise EUnicodeDecode);
  ([239;187;255], Raise EUnicodeDecode);
  ([239;187], Raise EUnicodeDecode);
  ([239;191;104], Raise EUnicodeDecode);
  ([239;191;199;164], Raise EUnicodeDecode);
  ([239;191;200;174;240;144;128;128], Raise EUnicodeDecode);
  ([239;191;239;191;190], Raise EUnicodeDecode);
  ([239;191], Raise EUnicodeDecode);
  ([239;195;187;191], Raise EUnicodeDecode);
  ([239;224;191;198;166;0], Raise EUnicodeDecode);
  ([239;245;191], Raise EUnicodeDecode);
  ([239;247;187;191;200;153], Raise EUnicodeDecode);
  ([244;187;191], Raise EUnicodeDecode);
  ([254;255;194], Raise EUnicodeDecode);
  ([254;255;216;224;128;168], Raise EUnicodeDecode);
  ([254;255;237], Raise EUnicodeDecode);
  ([255;187;191], Raise EUnicodeDecode);
  ([255;254;0;0;224;128], Raise EUnicodeDecode);
  ([255;254;128;160;237], Raise EUnicodeDecode);
  ([255;254;237;216;194;0;0], Raise EUnicodeDecode);
  ([255;254;240;240;0;216], Raise EUnicodeDecode);
  ([255;254;240;65;224], Raise EUnicodeDecode);
  ([255;254], Raise EUnicodeDecode);
  ([36;239;187;191;226;130;172;195;191], Ok [36;65279;8364;255]);
  ([49;239;187;191], Ok [49;65279])].
Example decode_utf_8_sig_agrees : forallb (fun v => res_eqb bytes_eqb (decode (Utf8Sig) (fst v)) (snd v)) decode_utf_8_sig_vectors = true.
Proof. vm_compute. reflexivity. Qed.

Definition iterdecode_utf_8_sig_vectors : list (list Z * (list Z + exn) * nat) :=
 [([0;0;254;255;0;160;0;237;0], inl [], 1%nat);
  ([0;0;254;255;0;194;194;194;0;0;0;0;0], inl [], 1%nat);
  ([0;0;254;255;0], inl [], 1%nat);
  ([0;0;254;255;220;173;224;191;0], inl [], 1%nat);
  ([0;0;254;255;224;240;194;244;220;0;0;0;0], inl [], 1%nat);
  ([0;0;254;255;55;0], inl [], 1%nat);
  ([0;0;254;255], inl [], 1%nat);
  ([128;216;240;160;65], inr EUnicodeDecode, 1%nat);
  ([147;239;187;191], inr EUnicodeDecode, 1%nat);
  ([168;239;187;191;197;162;202;160;0], inr EUnicodeDecode, 1%nat);
  ([171;239;187;191;240;144;128;128;226;130;172;0], inr EUnicodeDecode, 1%nat);
  ([187;191;0;0;0;0;0], inr EUnicodeDecode, 1%nat);
  ([187;191;0], inr EUnicodeDecode, 1%nat);
  ([187;191;127], inr EUnicodeDecode, 1%nat);
  ([187;191;194;130], inr EUnicodeDecode, 1%nat);
  ([187;191;202;155;0], inr EUnicodeDecode, 1%nat);
  ([191;216;244;191;0;0;0;0], inr EUnicodeDecode, 1%nat);
  ([216;187;191;0;0;0;0;0], inr EUnicodeDecode, 3%nat);
  ([239;17;187;191;65;35;106], inr EUnicodeDecode, 2%nat);
  ([239;187;0;0;0;0], inr EUnicodeDecode, 3%nat);
  ([239;187;0], inr EUnicodeDecode, 3%nat);
  ([239;187;127;191;65;127;0;0;0;0;0], inr EUnicodeDecode, 3%nat);
  ([239;187;191;0;0;0;0;0], inl [], 4%nat);
  ([239;187;191;0;0;0;0], inl [], 4%nat);
  ([239;187;191;0;203;128;0], inl [], 4%nat);
  ([239;187;191;0;239;191;190;0], inl [], 4%nat);
  ([239;187;191;0;51;201;133;0], inl [], 4%nat);
  ([239;187;191;0], inl [], 4%nat);
  ([239;187;191;106;239;191;190;0], inl [106;65534], 8%nat);
  ([239;187;191;127;0;0;0;0], inl [127], 5%nat);
  ([239;187;191;127;191], inr EUnicodeDecode, 5%nat);
  ([239;187;191;127;224;160], inr EUnicodeDecode, 6%nat);
  ([239;187;191;127;239;191;191;0], inl [127;65535], 8%nat);
  ([239;187;191;127], inr (EDeserialization None), 4%nat);
  ([239;187;191;130;172;196;161;127;0], inr EUnicodeDecode, 4%nat);
  ([239;187;191;155;239;191;191;0;0;0;0], inr EUnicodeDecode, 4%nat);
  ([239;187;191;160;0], inr EUnicodeDecode, 4%nat);
  ([239;187;191;160;244;237;194;0], inr EUnicodeDecode, 4%nat);
  ([239;187;191;189;194;135;0], inr EUnicodeDecode, 4%nat);
  ([239;187;191;194;128;195;169;0;0;0;0], inl [128;233], 8%nat);
  ([239;187;191;194;129;0;0;0;0;0], inl [129], 6%nat);
  ([239;187;191;194;129;239;191;190;0], inl [129;65534], 9%nat);
  ([239;187;191;194;130;226;130;0], inr EUnicodeDecode, 8%nat);
  ([239;187;191;194;136;0;0;0;0;0], inl [136], 6%nat);
  ([239;187;191;194;147;239;191;191;0;0;0;0], inl [147;65535], 9%nat);
  ([239;187;191;195;131;0;0;0;0], inl [195], 6%nat);
  ([239;187;191;195;140], inr (EDeserialization None), 5%nat);
  ([239;187;191;195;141;143;191;191;0], inr EUnicodeDecode, 6%nat);
  ([239;187;191;195;145;194;157;0], inl [209;157], 8%nat);
  ([239;187;191;195;191;198;171;194;138;0;0;0;0], inl [255;427;138], 10%nat);
  ([239;187;191;195;191;244;143;192;191;201;169], inr EUnicodeDecode, 8%nat);
  ([239;187;191;195;191], inr (EDeserialization None), 5%nat);
  ([239;187;191;196;128;0;226;130;172], inl [256], 6%nat);
  ([239;187;191;196;128;197;156], inr (EDeserialization None), 7%nat);
  ([239;187;191;196;148;160;128], inr EUnicodeDecode, 6%nat);
  ([239;187;191;196;176;22], inr (EDeserialization None), 6%nat);
  ([239;187;191;197;150;128;239;191;190], inr EUnicodeDecode, 6%nat);
  ([239;187;191;197;169;239;184;191], inr (EDeserialization None), 8%nat);
  ([239;187;191;198;130;203;0], inr EUnicodeDecode, 7%nat);
  ([239;187;191;198;153], inr (EDeserialization None), 5%nat);
  ([239;187;191;198;188;0], inl [444], 6%nat);
  ([239;187;191;198], inr EUnicodeDecode, 4%nat);
  ([239;187;191;199;136;0;0;0;0], inl [456], 6%nat);
  ([239;187;191;199;174;244;143;191;191;245;139;0], inr EUnicodeDecode, 10%nat);
  ([239;187;191;200;157;0;0;0;0], inl [541], 6%nat);
  ([239;187;191;200;159;0], inl [543], 6%nat);
  ([239;187;191;200;163;196;156;239;191;191;0], inl [547;284;65535], 11%nat);
  ([239;187;191;200;187;201;170;0], inl [571;618], 8%nat);
  ([239;187;191;201;188;196;128;0], inl [636;256], 8%nat);
  ([239;187;191;201;8;154;201;132;0;0;0;0;0], inr EUnicodeDecode, 5%nat);
  ([239;187;191;202;136], inr (EDeserialization None), 5%nat);
  ([239;187;191;202;182;199;181;122;196;158;0], inl [694;501;122;286], 11%nat);
  ([239;187;191;202;87;156;0], inr EUnicodeDecode, 5%nat);
  ([239;187;191;216;160;216;65;0], inr EUnicodeDecode, 7%nat);
  ([239;187;191;223;191;0], inl [2047], 6%nat);
  ([239;187;191;223;191;244;143;191;191;0;0;0;0;0], inl [2047;1114111], 10%nat);
  ([239;187;191;224;128;0], inr EUnicodeDecode, 5%nat);
  ([239;187;191;224;160;128;180;0], inr EUnicodeDecode, 7%nat);
  ([239;187;191;224;160;128;239;191;190;115], inr (EDeserialization None), 10%nat);
  ([239;187;191;239;187;191;196;128;0], inl [65279;256], 9%nat);
  ([239;187;191;239;191;191;0;0;0;0;0], inl [65535], 7%nat);
  ([239;187;191;239;191;191;224;160;128;194;129;0;0;0;0], inl [65535;2048;129], 12%nat);
  ([239;187;191;239;191;191;99;0;0;0;0;0], inl [65535;99], 8%nat);
  ([239;187;191;23;0;237;187;0], inl [23], 5%nat);
  ([239;187;191;240;144;128;128;239;191;191;0], inl [65536;65535], 11%nat);
  ([239;187;191;240;144;128;128;65], inr (EDeserialization None), 8%nat);
  ([239;187;191;244;143;191;191;0], inl [1114111], 8%nat);
  ([239;187;191;244;191;191;127;0], inr EUnicodeDecode, 5%nat);
  ([239;187;191;254;191;201;144;0;0;0;0;0], inr EUnicodeDecode, 4%nat);
  ([239;187;191;255;144], inr EUnicodeDecode, 4%nat);
  ([239;187;191;37;127;202;136;0], inl [37;127;648], 8%nat);
  ([239;187;191;39;244;143;191;191;0;0;0;0;0], inl [39;1114111], 9%nat);
  ([239;187;191;46;194;166;187;191;0;0;0;0;0], inr EUnicodeDecode, 7%nat);
  ([239;187;191;59;220;160;216;0], inr EUnicodeDecode, 8%nat);
  ([239;187;191;65;202;156;123], inr (EDeserialization None), 7%nat);
  ([239;187;191], inr (EDeserialization None), 3%nat);
  ([239;187;194;153;194;156;0], inr EUnicodeDecode, 3%nat);
  ([239;187;198;164;194;157;0;0;0;0], inr EUnicodeDecode, 3%nat);
  ([239;187;204;191], inr EUnicodeDecode, 3%nat);
  ([239;187;244;143;191;191;0], inr EUnicodeDecode, 3%nat);
  ([239;187;244;200;133;0], inr EUnicodeDecode, 3%nat);
  ([239;187;245;239;191;190;0], inr EUnicodeDecode, 3%nat);
  ([239;187;254;0], inr EUnicodeDecode, 3%nat);
  ([239;187;254;81;0;0;0;0;0], inr EUnicodeDecode, 3%nat);
  ([239;187;61;191;15;197;164;0;0;0;0;0], inr EUnicodeDecode, 3%nat);
  ([239;187;65;0], inr EUnicodeDecode, 3%nat);
  ([239;187;67;0;0;0;0], inr EUnicodeDecode, 3%nat);
  ([239;191;200;183;0], inr EUnicodeDecode, 3%nat);
  ([239;216;191;0;0;0;0;0], inr EUnicodeDecode, 2%nat);
  ([239;244;191;200;132], inr EUnicodeDecode, 2%nat);
  ([239;244;191;239;191;191;0], inr EUnicodeDecode, 2%nat);
  ([239;244;191;86;0], inr EUnicodeDecode, 2%nat);
  ([239;245;191;0;0;0;0], inr EUnicodeDecode, 2%nat);
  ([239;245;191;0], inr EUnicodeDecode, 2%nat);
  ([239;255;191;0], inr EUnicodeDecode, 2%nat);
  ([242;239;187;191;0;0;0;0;0], inr EUnicodeDecode, 2%nat);
  ([254;187;191;0], inr EUnicodeDecode, 1%nat);
  ([254;255;191;240;128;191;216;0], inr EUnicodeDecode, 1%nat);
  ([254;255;191;244;224], inr EUnicodeDecode, 1%nat);
  ([254;255;244;161], inr EUnicodeDecode, 1%nat);
  ([255;187;191], inr EUnicodeDecode, 1%nat);
  ([255;254;0;0;0;0], inr EUnicodeDecode, 1%nat);
  ([255;254;0;0;0], inr EUnicodeDecode, 1%nat);
  ([255;254;0;0;160;65;216;31;0], inr EUnicodeDecode, 1%nat);
  ([255;254;0;0;194;0;0], inr EUnicodeDecode, 1%nat);
  ([255;254;0;0;194;244;240;237], inr EUnicodeDecode, 1%nat);
  ([255;254;0;0;237;104;0;0], inr EUnicodeDecode, 1%nat);
  ([255;254;0;0;237;224;244;191;224;0], inr EUnicodeDecode, 1%nat);
  ([255;254;0;216;224;0;0;0;0], inr EUnicodeDecode, 1%nat);
  ([255;254;0], inr EUnicodeDecode, 1%nat);
  ([255;254;128;244;0], inr EUnicodeDecode, 1%nat);
  ([255;254;237;216;240], inr EUnicodeDecode, 1%nat);
  ([255;254;237;65;0;0;0;0], inr EUnicodeDecode, 1%nat);
  ([255;254;240;160;224;191;0;0;0;0;0], inr EUnicodeDecode, 1%nat);
  ([255;254;244;0;160;240;0], inr EUnicodeDecode, 1%nat);
  ([255;254;65;216], inr EUnicodeDecode, 1%nat);
  ([255;254;72;0;135;244;0], inr EUnicodeDecode, 1%nat);
  ([255;254], inr EUnicodeDecode, 1%nat);
  ([94;239;187;191;0;0;0;0;0], inl [94;65279], 5%nat)].
Example iterdecode_utf_8_sig_agrees : forallb (fun v => let '(bs, r, pos) := v in
  match stringz_loop (S (length bs)) None (Utf8Sig) None 0 [] [] (mkStream bs 0), r with
  | (s, Ok (VStr t)), inl t' => bytes_eqb t t' && Nat.eqb (s_pos s) pos
  | (s, Raise e), inr e' => exn_eqb e e' && Nat.eqb (s_pos s) pos
  | _, _ => false
  end) iterdecode_utf_8_sig_vectors = true.
Proof. vm_compute. reflexivity. Qed.

Definition encode_utf_16_vectors : list (list Z * res (list Z)) :=
 [([1114111;87;65], Ok [255;254;255;219;255;223;87;0;65;0]);
  ([1114111], Ok [255;254;255;219;255;223]);
  ([113;65279], Ok [255;254;113;0;255;254]);
  ([126;129;420], Ok [255;254;126;0;129;0;164;1]);
  ([141], Ok [255;254;141;0]);
  ([152;188], Ok [255;254;152;0;188;0]);
  ([157;433;55296], Raise EUnicodeEncode);
  ([157;56320], Raise EUnicodeEncode);
  ([157;642;490], Ok [255;254;157;0;130;2;234;1]);
  ([157], Ok [255;254;157;0]);
  ([165;259;1114111], Ok [255;254;165;0;3;1;255;219;255;223]);
  ([171], Ok [255;254;171;0]);
  ([177], Ok [255;254;177;0]);
  ([18;0], Ok [255;254;18;0;0;0]);
  ([2047], Ok [255;254;255;7]);
  ([2048;65534;517], Ok [255;254;0;8;254;255;5;2]);
  ([237;255], Ok [255;254;237;0;255;0]);
  ([248;94;65], Ok [255;254;248;0;94;0;65;0]);
  ([256;157;579], Ok [255;254;0;1;157;0;67;2]);
  ([256;2047;57343], Raise EUnicodeEncode);
  ([313;276;56320], Raise EUnicodeEncode);
  ([330], Ok [255;254;74;1]);
  ([370;1114111], Ok [255;254;114;1;255;219;255;223]);
  ([470;8364;65279], Ok [255;254;214;1;172;32;255;254]);
  ([476;581;57343], Raise EUnicodeEncode);
  ([547;56320], Raise EUnicodeEncode);
  ([55296], Raise EUnicodeEncode);
  ([56319;157], Raise EUnicodeEncode);
  ([56319], Raise EUnicodeEncode);
  ([56320;0;213], Raise EUnicodeEncode);
  ([56320;157;65535], Raise EUnicodeEncode);
  ([56320], Raise EUnicodeEncode);
  ([57343;463], Raise EUnicodeEncode);
  ([57343], Raise EUnicodeEncode);
  ([65279], Ok [255;254;255;254]);
  ([65534;725], Ok [255;254;254;255;213;2]);
  ([65535;473;331], Ok [255;254;255;255;217;1;75;1]);
  ([65535], Ok [255;254;255;255]);
  ([65536], Ok [255;254;0;216;0;220]);
  ([736;81;128], Ok [255;254;224;2;81;0;128;0]);
  ([767], Ok [255;254;255;2]);
  ([8364;65535], Ok [255;254;172;32;255;255]);
  ([8364], Ok [255;254;172;32]);
  ([90], Ok [255;254;90;0]);
  ([], Ok [255;254])].
Example encode_utf_16_agrees : forallb (fun v => res_eqb bytes_eqb (encode (Utf16Bom Little) (fst v)) (snd v)) encode_utf_16_vectors = true.
Proof. vm_compute. reflexivity. Qed.

Definition decode_utf_16_vectors : list (list Z * res (list Z)) :=
 [([0;0;254;255;145;237;220;216;128], Raise EUnicodeDecode);
  ([0;0;254;255;160;194;191], Raise EUnicodeDecode);
  ([0;0;254;255;237;65;206;194;0], Raise EUnicodeDecode);
  ([0;0;254;255;240], Raise EUnicodeDecode);
  ([0;0;254;255], Ok [0;65534]);
  ([0;254], Ok [65024]);
  ([0], Raise EUnicodeDecode);
  ([11;255;254], Raise EUnicodeDecode);
  ([128;220;194], Raise EUnicodeDecode);
  ([148;255;254], Raise EUnicodeDecode);
  ([168;255;254;169;0;0;8], Raise EUnicodeDecode);
  ([192;254], Ok [65216]);
  ([194], Raise EUnicodeDecode);
  ([198;255;254], Raise EUnicodeDecode);
  ([239;187;160;191;194;65], Ok [48111;49056;16834]);
  ([239;187;191;160;237;224;244;237], Ok [48111;41151;57581;60916]);
  ([239;187;191;237;160], Raise EUnicodeDecode);
  ([239;187;191], Raise EUnicodeDecode);
  ([239;187;224;128], Ok [48111;32992]);
  ([239;187;240;244;0;0;194], Raise EUnicodeDecode);
  ([239;187;244;0;240], Raise EUnicodeDecode);
  ([239;187;244;220;237], Raise EUnicodeDecode);
  ([239;187;63;0], Ok [48111;63]);
  ([239;187;65;0;240], Raise EUnicodeDecode);
  ([239;187], Ok [48111]);
  ([254;0;0], Raise EUnicodeDecode);
  ([254;123;2], Raise EUnicodeDecode);
  ([254;182;0], Raise EUnicodeDecode);
  ([254;195;2], Raise EUnicodeDecode);
  ([254;254], Ok [65278]);
  ([254;255;237], Raise EUnicodeDecode);
  ([254], Raise EUnicodeDecode);
  ([255;0], Ok [255]);
  ([255;122;0], Raise EUnicodeDecode);
  ([255;237], Ok [60927]);
  ([255;244;186;1], Ok [62719;442]);
  ([255;244], Ok [62719]);
  ([255;251;254], Raise EUnicodeDecode);
  ([255;254;0;0;191], Raise EUnicodeDecode);
  ([255;254;0;0;216;184], Ok [0;47320]);
  ([255;254;0;0;255;255], Ok [0;65535]);
  ([255;254;0;0], Ok [0]);
  ([255;254;0;165;0], Raise EUnicodeDecode);
  ([255;254;0;1;128;0], Ok [256;128]);
  ([255;254;0;1;188;0], Ok [256;188]);
  ([255;254;0;216;0;0], Raise EUnicodeDecode);
  ([255;254;0;216;0;220;180;0;254;255], Ok [65536;180;65534]);
  ([255;254;0;216;0;220;254], Raise EUnicodeDecode);
  ([255;254;0;8;192;2], Ok [2048;704]);
  ([255;254;0;8;38;0;72;1], Ok [2048;38;328]);
  ([255;254;0], Raise EUnicodeDecode);
  ([255;254;10;2;211;0], Ok [522;211]);
  ([255;254;127;0;108;2;223], Raise EUnicodeDecode);
  ([255;254;127;0;127;0;172;32], Ok [127;127;8364]);
  ([255;254;127;0;255;0;0;8], Ok [127;255;2048]);
  ([255;254;129;0;65;0;30;2], Ok [129;65;542]);
  ([255;254;129;2], Ok [641]);
  ([255;254;130;0;255;0;65;0], Ok [130;255;65]);
  ([255;254;151;1;0;1], Ok [407;256]);
  ([255;254;156;0;254;255], Ok [156;65534]);
  ([255;254;157;0;157;0;0;1], Ok [157;157;256]);
  ([255;254;157;0;6;0], Ok [157;6]);
  ([255;254;172;32;166;2;172;32], Ok [8364;678;8364]);
  ([255;254;172;32;172;32;0;216;0;220], Ok [8364;8364;65536]);
  ([255;254;192;31;0;79;1;0;8], Raise EUnicodeDecode);
  ([255;254;207;191], Ok [49103]);
  ([255;254;211;0;156;0], Ok [211;156]);
  ([255;254;216;237;216], Raise EUnicodeDecode);
  ([255;254;220;0], Ok [220]);
  ([255;254;222;2;255;255;0;216;0;220], Ok [734;65535;65536]);
  ([255;254;229;0;255;254], Ok [229;65279]);
  ([255;254;240;160;244;0;128], Raise EUnicodeDecode);
  ([255;254;250;2;0;8;255;219;255;223], Ok [762;2048;1114111]);
  ([255;254;254;0], Ok [254]);
  ([255;254;254;214;255;65;0], Raise EUnicodeDecode);
  ([255;254;254;255;157;0;255;219;255;223], Ok [65534;157;1114111]);
  ([255;254;255;152;255], Raise EUnicodeDecode);
  ([255;254;255;192;170;1], Ok [49407;426]);
  ([255;254;255;219;16;255;223], Raise EUnicodeDecode);
  ([255;254;255;219;255;192], Raise EUnicodeDecode);
  ([255;254;255;219;255;223;104;1;64;0], Ok [1114111;360;64]);
  ([255;254;255;219;255;223;255;7;255;254], Ok [1114111;2047;65279]);
  ([255;254;255;245;140;2], Ok [62975;652]);
  ([255;254;255;254;182;129;0], Raise EUnicodeDecode);
  ([255;254;255;254], Ok [65279]);
  ([255;254;255;255;187;1;255;254], Ok [65535;443;65279]);
  ([255;254;255;255], Ok [65535]);
  ([255;254;255;2;190;2;87;2], Ok [767;702;599]);
  ([255;254;255;7;0;1;103;0], Ok [2047;256;103]);
  ([255;254;255], Raise EUnicodeDecode);
  ([255;254;43;2;82;2;254;255], Ok [555;594;65534]);
  ([255;254;50;0], Ok [50]);
  ([255;254;61;32], Ok [8253]);
  ([255;254;65;0;128;160;244], Raise EUnicodeDecode);
  ([255;254;65;0;240;0], Ok [65;240]);
  ([255;254;65;0;255;254], Ok [65;65279]);
  ([255;254;65;0], Ok [65]);
  ([255;254;89;136;0], Raise EUnicodeDecode);
  ([255;254;96;2;157;0], Ok [608;157]);
  ([255;254], Ok []);
  ([255;255;255;7], Ok [65535;2047]);
  ([255;5;1;10;2], Raise EUnicodeDecode);
  ([255], Raise EUnicodeDecode);
  ([36;255;254;0;216;0;220;255;255], Raise EUnicodeDecode);
  ([49;255;254], Raise EUnicodeDecode)].
Example decode_utf_16_agrees : forallb (fun v => res_eqb bytes_eqb (decode (Utf16Bom Little) (fst v)) (snd v)) decode_utf_16_vectors = true.
Proof. vm_compute. reflexivity. Qed.

Definition iterdecode_utf_16_vectors : list (list Z * (list Z + exn) * nat) :=
 [([0;0;254;255;0;20;0], inr EUnicodeErr, 2%nat);
  ([0;0;254;255;0], inr EUnicodeErr, 2%nat);
  ([0;0;254;255;128;220;65;224;0], inr EUnicodeErr, 2%nat);
  ([0;254;178;2;97;2;0], inr EUnicodeErr, 2%nat);
  ([0;255;254;0], inr EUnicodeErr, 2%nat);
  ([104;255;254;85;1;0;216;0;220], inr EUnicodeErr, 2%nat);
  ([128;254;65;0;0], inr EUnicodeErr, 2%nat);
  ([141;255;254;232;2;172;32;0], inr EUnicodeErr, 2%nat);
  ([191;254;0], inr EUnicodeErr, 2%nat);
  ([197;255;254;0;0;0;0;0], inr EUnicodeErr, 2%nat);
  ([207;255;254;48;1;206;1;0], inr EUnicodeErr, 2%nat);
  ([224;220;79;0;0;0;0;0], inr EUnicodeDecode, 2%nat);
  ([224;254;255;7;70;1;0], inr EUnicodeErr, 2%nat);
  ([237;254;255;7;0;0;0;0;0], inr EUnicodeErr, 2%nat);
  ([239;187;0], inr EUnicodeErr, 2%nat);
  ([239;187;160;0;191;65;65;0], inr EUnicodeErr, 2%nat);
  ([239;187;160;0;191;98;0], inr EUnicodeErr, 2%nat);
  ([239;187;191;237;191;0], inr EUnicodeErr, 2%nat);
  ([239;187;191;237;216;0;0;0;0;0], inr EUnicodeErr, 2%nat);
  ([239;187;194;128;194;244;128;0], inr EUnicodeErr, 2%nat);
  ([239;187;224;220;63;0], inr EUnicodeErr, 2%nat);
  ([239;254;0], inr EUnicodeErr, 2%nat);
  ([240;240;160;216;128], inr EUnicodeErr, 2%nat);
  ([244;244;220;0;0;0;0], inr EUnicodeErr, 2%nat);
  ([245;254], inr EUnicodeErr, 2%nat);
  ([254;0;0;0;0;0], inr EUnicodeErr, 2%nat);
  ([254;0;1;50;0], inr EUnicodeErr, 2%nat);
  ([254;255;0;237;240;253;194;0;0;0;0;0], inl [237;61693;49664], 10%nat);
  ([254;255;0;244;128;240;0;0;0;0;0], inl [244;33008], 8%nat);
  ([254;255;160;216;128;110;128;0;0;0;0;0], inl [41176;32878;32768], 10%nat);
  ([254;255;160;65;216;244;0], inr EUnicodeDecode, 7%nat);
  ([254;255;191;0], inr (EDeserialization None), 4%nat);
  ([254;255;191;216;65;0;220;0;0;0;0], inr EUnicodeDecode, 8%nat);
  ([254;255;194;244;65;244;191;0], inr (EDeserialization None), 8%nat);
  ([254;255], inr (EDeserialization None), 2%nat);
  ([254;53;0;93;2;157;0], inr EUnicodeErr, 2%nat);
  ([254;60;1;47;0], inr EUnicodeErr, 2%nat);
  ([254], inr EUnicodeDecode, 1%nat);
  ([255;0;0;0;0], inr EUnicodeErr, 2%nat);
  ([255;0;0], inr EUnicodeErr, 2%nat);
  ([255;0], inr EUnicodeErr, 2%nat);
  ([255;127;0], inr EUnicodeErr, 2%nat);
  ([255;129;0], inr EUnicodeErr, 2%nat);
  ([255;157;0;0;0;0;0], inr EUnicodeErr, 2%nat);
  ([255;160;2;0;0;0;0], inr EUnicodeErr, 2%nat);
  ([255;191;0;8;0], inr EUnicodeErr, 2%nat);
  ([255;191;172;32;55;0;0], inr EUnicodeErr, 2%nat);
  ([255;192;242;2;157;0;0;0;0;0;0], inr EUnicodeErr, 2%nat);
  ([255;193;0;8;0], inr EUnicodeErr, 2%nat);
  ([255;216;129;0;214;0;0], inr EUnicodeDecode, 4%nat);
  ([255;237;0;0;0;0;0], inr EUnicodeErr, 2%nat);
  ([255;239;0;0], inr EUnicodeErr, 2%nat);
  ([255;239], inr EUnicodeErr, 2%nat);
  ([255;254;0;0;0;0;0;0], inl [], 4%nat);
  ([255;254;0;0;0;0;0], inl [], 4%nat);
  ([255;254;0;0;0;0], inl [], 4%nat);
  ([255;254;0;0;0;244;0], inl [], 4%nat);
  ([255;254;0;0;220;65;220;0;0;0;0], inl [], 4%nat);
  ([255;254;0;0;237;0], inl [], 4%nat);
  ([255;254;0;0;255;219;255;223;255;7;0], inl [], 4%nat);
  ([255;254;0;1;0;0;0;0], inl [256], 6%nat);
  ([255;254;0;1;157;237;255;219;255;223;0], inr EUnicodeDecode, 11%nat);
  ([255;254;0;1;255;219;255;223;0;0;0;0;0], inl [256;1114111], 10%nat);
  ([255;254;0;1;98;1;127;0], inr (EDeserialization None), 8%nat);
  ([255;254;0;216;19;0;220;129;0;0;0;0;0;0], inr EUnicodeDecode, 6%nat);
  ([255;254;0;216;220;22;0], inr EUnicodeDecode, 6%nat);
  ([255;254;0;216;220;254;255;0;0;0;0;0], inr EUnicodeDecode, 6%nat);
  ([255;254;0;245;0], inr EUnicodeDecode, 5%nat);
  ([255;254;0;8;0;1;0;0;0;0;0], inl [2048;256], 8%nat);
  ([255;254;0], inr EUnicodeDecode, 3%nat);
  ([255;254;107;255], inr (EDeserialization None), 4%nat);
  ([255;254;120;229;2], inr EUnicodeDecode, 5%nat);
  ([255;254;127;0;128;0;197;193;0], inr EUnicodeDecode, 9%nat);
  ([255;254;128;0;0;216;0], inr EUnicodeDecode, 7%nat);
  ([255;254;128;0;127;0], inr (EDeserialization None), 6%nat);
  ([255;254;128;0;255;255;0], inr EUnicodeDecode, 7%nat);
  ([255;254;128;0], inr (EDeserialization None), 4%nat);
  ([255;254;129;0;255;219;255;223;21;1;0], inr EUnicodeDecode, 11%nat);
  ([255;254;12;0;216;1;0;0;0;0;0], inl [12;472], 8%nat);
  ([255;254;141;2;65;0], inr (EDeserialization None), 6%nat);
  ([255;254;149;1;246;1;0;216;0;220], inr (EDeserialization None), 10%nat);
  ([255;254;150;0], inr (EDeserialization None), 4%nat);
  ([255;254;152;1;255], inr EUnicodeDecode, 5%nat);
  ([255;254;155;2;65], inr EUnicodeDecode, 5%nat);
  ([255;254;157;0;201;1;0], inr EUnicodeDecode, 7%nat);
  ([255;254;157;0], inr (EDeserialization None), 4%nat);
  ([255;254;172;0;0;0;0;0], inl [172], 6%nat);
  ([255;254;172;0;254;255], inr (EDeserialization None), 6%nat);
  ([255;254;172;32;255;0;0;1;0], inr EUnicodeDecode, 9%nat);
  ([255;254;177;1;0], inr EUnicodeDecode, 5%nat);
  ([255;254;177;1], inr (EDeserialization None), 4%nat);
  ([255;254;181;0;224;237;128], inr EUnicodeDecode, 7%nat);
  ([255;254;190;192;0], inr EUnicodeDecode, 5%nat);
  ([255;254;193;0;182;1;157;0;0], inr EUnicodeDecode, 9%nat);
  ([255;254;204;0;0;0;0;0;0], inl [204], 6%nat);
  ([255;254;216;0;128;224;0;0;0;0;0], inl [216;57472], 8%nat);
  ([255;254;21], inr EUnicodeDecode, 3%nat);
  ([255;254;220;0;237;0;154], inr EUnicodeDecode, 7%nat);
  ([255;254;220;237;244], inr EUnicodeDecode, 5%nat);
  ([255;254;221;255;255], inr EUnicodeDecode, 5%nat);
  ([255;254;224;0], inr (EDeserialization None), 4%nat);
  ([255;254;243;0;184;0;157;0], inr (EDeserialization None), 8%nat);
  ([255;254;245;1;0;0;0;0], inl [501], 6%nat);
  ([255;254;251;0;129;191;0], inr EUnicodeDecode, 7%nat);
  ([255;254;254;255;118;1;0;0;0;0;0], inl [65534;374], 8%nat);
  ([255;254;255;0;0;0;0;0], inl [255], 6%nat);
  ([255;254;255;109;7;255;254;0], inr (EDeserialization None), 8%nat);
  ([255;254;255;255;0;65;0;0;0;0;0;0], inl [65535;16640], 8%nat);
  ([255;254;255;255;193;2;127;0;0], inr EUnicodeDecode, 9%nat);
  ([255;254;255;255;254;255;128;0;0], inr EUnicodeDecode, 9%nat);
  ([255;254;255;7;255;255;0;0;0;0], inl [2047;65535], 8%nat);
  ([255;254;255;7;65;0;0], inr EUnicodeDecode, 7%nat);
  ([255;254;32;1;42;1;0], inr EUnicodeDecode, 7%nat);
  ([255;254;32;2;128;0;100;0], inr (EDeserialization None), 8%nat);
  ([255;254;41;1;83;0], inr (EDeserialization None), 6%nat);
  ([255;254;41;2;127;0;212;2;0], inr EUnicodeDecode, 9%nat);
  ([255;254;52;2;254;255;0;0;0;0], inl [564;65534], 8%nat);
  ([255;254;54;1;255;219;255;223;102;2], inr (EDeserialization None), 10%nat);
  ([255;254;58;0;0;0;0;0], inl [58], 6%nat);
  ([255;254;61;0;14;0;0], inr EUnicodeDecode, 7%nat);
  ([255;254;65;0;0;0;0;0;0], inl [65], 6%nat);
  ([255;254;65;0;128;0], inr (EDeserialization None), 6%nat);
  ([255;254;65;196;0;175;1;0], inr (EDeserialization None), 8%nat);
  ([255;254;74;0;255;255;222;0], inr (EDeserialization None), 8%nat);
  ([255;254;95;0], inr (EDeserialization None), 4%nat);
  ([255;254;99;0], inr (EDeserialization None), 4%nat);
  ([255;254;9;0;0], inr EUnicodeDecode, 5%nat);
  ([255;254;9;1;0], inr EUnicodeDecode, 5%nat);
  ([255;254], inr (EDeserialization None), 2%nat);
  ([255;255;109;1;0;0;0;0;0], inr EUnicodeErr, 2%nat);
  ([255;255;142;2;0;0;0;0;0], inr EUnicodeErr, 2%nat);
  ([255;58;254], inr EUnicodeErr, 2%nat);
  ([255], inr EUnicodeDecode, 1%nat);
  ([45;255;254;186;0;235;2;127;0;0], inr EUnicodeErr, 2%nat);
  ([54;255;254;0;0;0;0;0], inr EUnicodeErr, 2%nat);
  ([68;255;254;255;255;255;254;0], inr EUnicodeErr, 2%nat)].
Example iterdecode_utf_16_agrees : forallb (fun v => let '(bs, r, pos) := v in
  match stringz_loop (S (length bs)) None (Utf16Bom Little) None 0 [] [] (mkStream bs 0), r with
  | (s, Ok (VStr t)), inl t' => bytes_eqb t t' && Nat.eqb (s_pos s) pos
  | (s, Raise e), inr e' => exn_eqb e e' && Nat.eqb (s_pos s) pos
  | _, _ => false
  end) iterdecode_utf_16_vectors = true.
Proof. vm_compute. reflexivity. Qed.

Definition encode_utf_32_vectors : list (list Z * res (list Z)) :=
 [([0;198], Ok [255;254;0;0;0;0;0;0;198;0;0;0]);
  ([0;55296], Raise EUnicodeEncode);
  ([0;65279;55296], Raise EUnicodeEncode);
  ([110;56320], Raise EUnicodeEncode);
  ([127;55296;205], Raise EUnicodeEncode);
  ([127], Ok [255;254;0;0;127;0;0;0]);
  ([128;57343;40], Raise EUnicodeEncode);
  ([129;125;533], Ok [255;254;0;0;129;0;0;0;125;0;0;0;21;2;0;0]);
  ([147;65279], Ok [255;254;0;0;147;0;0;0;255;254;0;0]);
  ([152;128;764], Ok [255;254;0;0;152;0;0;0;128;0;0;0;252;2;0;0]);
  ([157;376], Ok [255;254;0;0;157;0;0;0;120;1;0;0]);
  ([157;423;128], Ok [255;254;0;0;157;0;0;0;167;1;0;0;128;0;0;0]);
  ([178], Ok [255;254;0;0;178;0;0;0]);
  ([186;55296;679], Raise EUnicodeEncode);
  ([2047], Ok [255;254;0;0;255;7;0;0]);
  ([2048;127;242], Ok [255;254;0;0;0;8;0;0;127;0;0;0;242;0;0;0]);
  ([255;128;65535], Ok [255;254;0;0;255;0;0;0;128;0;0;0;255;255;0;0]);
  ([268], Ok [255;254;0;0;12;1;0;0]);
  ([31], Ok [255;254;0;0;31;0;0;0]);
  ([326], Ok [255;254;0;0;70;1;0;0]);
  ([328], Ok [255;254;0;0;72;1;0;0]);
  ([337], Ok [255;254;0;0;81;1;0;0]);
  ([338;8364;56320], Raise EUnicodeEncode);
  ([340], Ok [255;254;0;0;84;1;0;0]);
  ([372;322], Ok [255;254;0;0;116;1;0;0;66;1;0;0]);
  ([402], Ok [255;254;0;0;146;1;0;0]);
  ([404;418;30], Ok [255;254;0;0;148;1;0;0;162;1;0;0;30;0;0;0]);
  ([463;396;239], Ok [255;254;0;0;207;1;0;0;140;1;0;0;239;0;0;0]);
  ([498], Ok [255;254;0;0;242;1;0;0]);
  ([56319;0], Raise EUnicodeEncode);
  ([56320], Raise EUnicodeEncode);
  ([57343], Raise EUnicodeEncode);
  ([592;643], Ok [255;254;0;0;80;2;0;0;131;2;0;0]);
  ([633], Ok [255;254;0;0;121;2;0;0]);
  ([65279;127], Ok [255;254;0;0;255;254;0;0;127;0;0;0]);
  ([65279], Ok [255;254;0;0;255;254;0;0]);
  ([65534], Ok [255;254;0;0;254;255;0;0]);
  ([65535;574;37], Ok [255;254;0;0;255;255;0;0;62;2;0;0;37;0;0;0]);
  ([65535], Ok [255;254;0;0;255;255;0;0]);
  ([65536;65279], Ok [255;254;0;0;0;0;1;0;255;254;0;0]);
  ([658;65;255], Ok [255;254;0;0;146;2;0;0;65;0;0;0;255;0;0;0]);
  ([65;158], Ok [255;254;0;0;65;0;0;0;158;0;0;0]);
  ([720;65534;65279], Ok [255;254;0;0;208;2;0;0;254;255;0;0;255;254;0;0]);
  ([72;129], Ok [255;254;0;0;72;0;0;0;129;0;0;0]);
  ([8364;1114111;553], Ok [255;254;0;0;172;32;0;0;255;255;16;0;41;2;0;0]);
  ([8364;1114111], Ok [255;254;0;0;172;32;0;0;255;255;16;0]);
  ([8364], Ok [255;254;0;0;172;32;0;0]);
  ([], Ok [255;254;0;0])].
Example encode_utf_32_agrees : forallb (fun v => res_eqb bytes_eqb (encode (Utf32Bom Little) (fst v)) (snd v)) encode_utf_32_vectors = true.
Proof. vm_compute. reflexivity. Qed.

Definition decode_utf_32_vectors : list (list Z * res (list Z)) :=
 [([0;0;254;255;0;190], Raise EUnicodeDecode);
  ([0;0;254;255;160;65], Raise EUnicodeDecode);
  ([0;0;254;255;216;252;220;0;220], Raise EUnicodeDecode);
  ([0;0;254;255;224], Raise EUnicodeDecode);
  ([0;0;254;255], Ok []);
  ([140;255;254;0;0;65;0;0;0], Raise EUnicodeDecode);
  ([160], Raise EUnicodeDecode);
  ([216;0], Raise EUnicodeDecode);
  ([239;187;191;191;0;237], Raise EUnicodeDecode);
  ([239;187;191;191;160;65], Raise EUnicodeDecode);
  ([239;187;191;224;128;191;191], Raise EUnicodeDecode);
  ([239;187;191], Raise EUnicodeDecode);
  ([239;187;220;224;160;244;224], Raise EUnicodeDecode);
  ([239;187], Raise EUnicodeDecode);
  ([254;0;0], Raise EUnicodeDecode);
  ([254;254;0;0;157;0;0;0;254;255;0;0], Ok [65278;157;65534]);
  ([254;255;0;191;244], Raise EUnicodeDecode);
  ([254;255;237], Raise EUnicodeDecode);
  ([254;255], Raise EUnicodeDecode);
  ([255;0;0;129;0;0;0;56;0;0;0;91;2;0;0], Raise EUnicodeDecode);
  ([255;0;0;211;2;0;0], Raise EUnicodeDecode);
  ([255;0;0], Raise EUnicodeDecode);
  ([255;128;0;0;168;2;0;0], Ok [33023;680]);
  ([255;128;0;0], Ok [33023]);
  ([255;254;0;0;0;0;0;0;127;0;0;0;207;1;0;0], Ok [0;127;463]);
  ([255;254;0;0;0;0;0;0;240;0;0;0;127;0;0;0], Ok [0;240;127]);
  ([255;254;0;0;0;0;0;0], Ok [0]);
  ([255;254;0;0;0;0;0], Raise EUnicodeDecode);
  ([255;254;0;0;0;0;1;0;0;0;1;0], Ok [65536;65536]);
  ([255;254;0;0;0;1;0;0;255;254;0;0;255;254;0;0], Ok [256;65279;65279]);
  ([255;254;0;0;0;8;0;0], Ok [2048]);
  ([255;254;0;0;112;0;0;0;163;0;0;0], Ok [112;163]);
  ([255;254;0;0;127;0;0;0;255;7;0;0;105;2;0;216], Raise EUnicodeDecode);
  ([255;254;0;0;127;0;0;220;255;254;0;0], Raise EUnicodeDecode);
  ([255;254;0;0;128;0;0;0;16;2;0;0;243;2;0;0], Ok [128;528;755]);
  ([255;254;0;0;128;0;0;0;175;2;0;128], Raise EUnicodeDecode);
  ([255;254;0;0;128;0;0;0;20;2;239;0;216;1;0;0], Raise EUnicodeDecode);
  ([255;254;0;0;128;0;0;0;255;0;0], Raise EUnicodeDecode);
  ([255;254;0;0;128;0;0;0], Ok [128]);
  ([255;254;0;0;129;0;0;0;255;179;0;0;0], Raise EUnicodeDecode);
  ([255;254;0;0;129;0;0;0], Ok [129]);
  ([255;254;0;0;132;2;0;254;255;0;0], Raise EUnicodeDecode);
  ([255;254;0;0;155;0;0;0;255;7;0;0], Ok [155;2047]);
  ([255;254;0;0;157;0;0;0;0;0;0;0;10;1;0;0], Ok [157;0;266]);
  ([255;254;0;0;157;0;0;112;250;0;0;0], Raise EUnicodeDecode);
  ([255;254;0;0;165;2;0;0], Ok [677]);
  ([255;254;0;0;172;32;0;0], Ok [8364]);
  ([255;254;0;0;191;216;220], Raise EUnicodeDecode);
  ([255;254;0;0;192;2;0;0;109;2;0;0;255;7;0;0], Ok [704;621;2047]);
  ([255;254;0;0;193;0;0;0], Ok [193]);
  ([255;254;0;0;204;1;0;0], Ok [460]);
  ([255;254;0;0;216;1;0;0], Ok [472]);
  ([255;254;0;0;220;2;0;0;54;1;0;0], Ok [732;310]);
  ([255;254;0;0;244;194;224;65;240], Raise EUnicodeDecode);
  ([255;254;0;0;254;255;0;0;170;1;0;0;246;1;0;0], Ok [65534;426;502]);
  ([255;254;0;0;255;0;0;0;129;0;0;0], Ok [255;129]);
  ([255;254;0;0;255;0;0;0;255;0;0;0;124;2;0;0], Ok [255;255;636]);
  ([255;254;0;0;255;0;191;0;0;0;0;0], Raise EUnicodeDecode);
  ([255;254;0;0;255;254;0;0;101;1;0;0;129;0;0;0], Ok [65279;357;129]);
  ([255;254;0;0;255;254;0;0;255;254;0;0;73;0;87;0;0], Raise EUnicodeDecode);
  ([255;254;0;0;255;254;16;0], Ok [1113855]);
  ([255;254;0;0;255;7;0;0], Ok [2047]);
  ([255;254;0;0;36;0;0;0;157;0;0;0;0;8;0;0], Ok [36;157;2048]);
  ([255;254;0;0;38;2;0;0;0;0;1;0;255;0;0], Raise EUnicodeDecode);
  ([255;254;0;0;39;0;69;0;0], Raise EUnicodeDecode);
  ([255;254;0;0;52;2;0;0;95;2;0;0], Ok [564;607]);
  ([255;254;0;0;55;0;0;0;197;254;255;0;0], Raise EUnicodeDecode);
  ([255;254;0;0;61;0;0;0;191;255;16;0], Ok [61;1114047]);
  ([255;254;0;0;65;0;0;0;172;32;0;0], Ok [65;8364]);
  ([255;254;0;0;65;0;0;0;176;1;0;0], Ok [65;432]);
  ([255;254;0;0;65;1;0;0;157;0;0;0;117;0;0;0], Ok [321;157;117]);
  ([255;254;0;0;71;0;0;0], Ok [71]);
  ([255;254;0;0;94;0;0;0;244;255;16;0], Ok [94;1114100]);
  ([255;254;0;0;95;0;0;0;226;1;0;128;128;0;0;0], Raise EUnicodeDecode);
  ([255;254;0;0;96;2;0;0], Ok [608]);
  ([255;254;0;0], Ok []);
  ([255;254;0;128;0;0;0;255;7;0;0], Raise EUnicodeDecode);
  ([255;254;0;188;2;0;0;129;0;0;0;172;32;0;0], Raise EUnicodeDecode);
  ([255;254;0;216], Raise EUnicodeDecode);
  ([255;254;0;217;0;147;0;0;0], Raise EUnicodeDecode);
  ([255;254;0;224;0;0;1;0;13;1;0;0], Raise EUnicodeDecode);
  ([255;254;0;239;157;0;0;0;91;0;0;0], Raise EUnicodeDecode);
  ([255;254;0;255;165;2;0;0], Raise EUnicodeDecode);
  ([255;254;0;30;0;172;32;0;0], Raise EUnicodeDecode);
  ([255;254;0;37;1;0;0;247;1;0;0], Raise EUnicodeDecode);
  ([255;254;0;48], Raise EUnicodeDecode);
  ([255;254;0;65;0;0;0;172;32;0;0;129;0;0;0], Raise EUnicodeDecode);
  ([255;254;0], Raise EUnicodeDecode);
  ([255;254;128], Raise EUnicodeDecode);
  ([255;254;167;0;0], Raise EUnicodeDecode);
  ([255;254;191;160;244], Raise EUnicodeDecode);
  ([255;254;192;0;255;254;0;0], Raise EUnicodeDecode);
  ([255;254;193;0], Raise EUnicodeDecode);
  ([255;254;216;0;79;0;0;0;3;0;0;0], Raise EUnicodeDecode);
  ([255;254;237;0;255;255;0;0], Raise EUnicodeDecode);
  ([255;254;245;0;129;0;0;0], Raise EUnicodeDecode);
  ([65;220;220;216;194], Raise EUnicodeDecode)].
Example decode_utf_32_agrees : forallb (fun v => res_eqb bytes_eqb (decode (Utf32Bom Little) (fst v)) (snd v)) decode_utf_32_vectors = true.
Proof. vm_compute. reflexivity. Qed.

Definition iterdecode_utf_32_vectors : list (list Z * (list Z + exn) * nat) :=
 [([0;0;254;255;194;0;250;0;0], inr EUnicodeDecode, 8%nat);
  ([0;0;254;255;224;237;237;128;0], inr EUnicodeDecode, 8%nat);
  ([0;0;254;255;65;244;65;194;220;0], inr EUnicodeDecode, 8%nat);
  ([0], inr EUnicodeDecode, 1%nat);
  ([206;255;254;0;0;255;255;16;0;0;0;0;0], inr EUnicodeDecode, 4%nat);
  ([237;254;0;0], inr EUnicodeErr, 4%nat);
  ([239;187;159;198;223;191;0;0;0;0;0], inr EUnicodeDecode, 4%nat);
  ([239;187;191;0;191;0], inr EUnicodeDecode, 4%nat);
  ([239;187;191;0], inr EUnicodeDecode, 4%nat);
  ([239;187;191;160;240;194;0;0;0;0], inr EUnicodeDecode, 4%nat);
  ([239;187;191;194], inr EUnicodeDecode, 4%nat);
  ([239;187;191;237;240;0;244;0], inr EUnicodeDecode, 4%nat);
  ([239;187;191;240;216;220;0;0;0;0;0], inr EUnicodeDecode, 4%nat);
  ([239;187;191;240;244;160;128;0], inr EUnicodeDecode, 4%nat);
  ([239;187;191;53;216;160;128;237;0;0;0;0], inr EUnicodeDecode, 4%nat);
  ([239;187;191;65;216;220;0], inr EUnicodeDecode, 4%nat);
  ([239;187;191;65;244;0;216;0], inr EUnicodeDecode, 4%nat);
  ([239;187;240;220;0;0;0;0;0], inr EUnicodeDecode, 4%nat);
  ([239;187], inr EUnicodeDecode, 2%nat);
  ([240;254;0;0;43;2;0;0;0], inr EUnicodeErr, 4%nat);
  ([254;0;0;0], inr EUnicodeErr, 4%nat);
  ([254;0;0;146;2;0;0;0], inr EUnicodeDecode, 4%nat);
  ([254;0;0], inr EUnicodeDecode, 3%nat);
  ([254;255;0;0;0;0;0], inr EUnicodeErr, 4%nat);
  ([254;255;0;65;0], inr EUnicodeDecode, 4%nat);
  ([254;255;134;224;194;0;0;0;0], inr EUnicodeDecode, 4%nat);
  ([254;255;191;224;194;0;0;0;0], inr EUnicodeDecode, 4%nat);
  ([254;255;191;244;128;191;220;0;0;0;0], inr EUnicodeDecode, 4%nat);
  ([254;255;194;0;0;0;0;0], inr EUnicodeDecode, 4%nat);
  ([254;255;244;128;65], inr EUnicodeDecode, 4%nat);
  ([254;255;244;194;244;0], inr EUnicodeDecode, 4%nat);
  ([254;255;244;237;240;0], inr EUnicodeDecode, 4%nat);
  ([255;0;0;0;0;0;0;0], inr EUnicodeErr, 4%nat);
  ([255;0;0;0;143;1;0;0;199;1;0;0;0], inr EUnicodeErr, 4%nat);
  ([255;0;0;0], inr EUnicodeErr, 4%nat);
  ([255;0;0;156;1;0;0;255;254;0;0;0], inr EUnicodeDecode, 4%nat);
  ([255;0;0], inr EUnicodeDecode, 3%nat);
  ([255;128;0;0;0;8;0;0], inr EUnicodeErr, 4%nat);
  ([255;128;0;0], inr EUnicodeErr, 4%nat);
  ([255;216;0;0;34;1;0;0;0;8;0;0;172;32;0;0;0], inr EUnicodeDecode, 4%nat);
  ([255;237;0;0;99;2;0;0;0;0;0;0;0], inr EUnicodeErr, 4%nat);
  ([255;240;0;0;0], inr EUnicodeErr, 4%nat);
  ([255;254;0;0;0;0;0;0;0], inl [], 8%nat);
  ([255;254;0;0;0;0;0;0;1;0;0], inl [], 8%nat);
  ([255;254;0;0;0;0;0;144;0;0;0;255;255;0;0;0;0;0;0;0], inr EUnicodeDecode, 8%nat);
  ([255;254;0;0;0;0;0], inr EUnicodeDecode, 7%nat);
  ([255;254;0;0;0;0;1;0;141;2;0;0;0], inr EUnicodeDecode, 13%nat);
  ([255;254;0;0;0;1;0;0;129;0;0;0;193;255;16;0], inr (EDeserialization None), 16%nat);
  ([255;254;0;0;0;1;0;0;15;1;0;0;0], inr EUnicodeDecode, 13%nat);
  ([255;254;0;0;0;240;0;237;0], inr EUnicodeDecode, 8%nat);
  ([255;254;0;0;0;8;0;0;0], inr EUnicodeDecode, 9%nat);
  ([255;254;0;0;0;8;0;0;157;0;0;0;129;0;0;0;0], inr EUnicodeDecode, 17%nat);
  ([255;254;0;0;0], inr EUnicodeDecode, 5%nat);
  ([255;254;0;0;100;0;0;0;129;0;0;0], inr (EDeserialization None), 12%nat);
  ([255;254;0;0;113;1;0;0;0], inr EUnicodeDecode, 9%nat);
  ([255;254;0;0;119;0;0;0;244;32;0;0], inr (EDeserialization None), 12%nat);
  ([255;254;0;0;121;0;0;0;0;0;0;0;0;0;0;0], inl [121], 12%nat);
  ([255;254;0;0;127;0;0;0;0;0;0;0;0], inl [127], 12%nat);
  ([255;254;0;0;127;0;0;0;0;1;0;0;129;0;0;0], inr (EDeserialization None), 16%nat);
  ([255;254;0;0;127;0;0;0;204;0;0;0;0], inr EUnicodeDecode, 13%nat);
  ([255;254;0;0;127;0;0;0;255;7;0;0;60;2;0;0;0], inr EUnicodeDecode, 17%nat);
  ([255;254;0;0;127;0;0;0;70;0;0;0;1;0;0;0;0;0;0;0], inl [127;70;1], 20%nat);
  ([255;254;0;0;127;0;0;24;0], inr EUnicodeDecode, 8%nat);
  ([255;254;0;0;128;0;0;0;221;0;0;0], inr (EDeserialization None), 12%nat);
  ([255;254;0;0;128;0;0;0;9;0;0;157;0;0;0;0;0;0;0;0], inr EUnicodeDecode, 12%nat);
  ([255;254;0;0;128;254;0;0], inr (EDeserialization None), 8%nat);
  ([255;254;0;0;129;0;0;0;127;0;0;255;255;0;0;0;0;0;0], inr EUnicodeDecode, 12%nat);
  ([255;254;0;0;129;0;0;0;128;0;0;0;127;0;0;0;0;0;0;0], inl [129;128;127], 20%nat);
  ([255;254;0;0;129;0;0;0;207;0;0;0], inr (EDeserialization None), 12%nat);
  ([255;254;0;0;134;2;0;0;149;2;0;0;0;0;0;0], inl [646;661], 16%nat);
  ([255;254;0;0;139;0;0;0;127;0;0;0], inr (EDeserialization None), 12%nat);
  ([255;254;0;0;149;1;0;0;128;0;0;0;0;0;0;0;0], inl [405;128], 16%nat);
  ([255;254;0;0;155;2;0;0;0], inr EUnicodeDecode, 9%nat);
  ([255;254;0;0;157;0;0;0;220;2;0;0;0;0;0;0;0], inl [157;732], 16%nat);
  ([255;254;0;0;157;0;0;0;255;255;0;0;0;0;0;0], inl [157;65535], 16%nat);
  ([255;254;0;0;157;1;0;0;114;28;2;0;0;0], inr EUnicodeDecode, 14%nat);
  ([255;254;0;0;165;0;0;0;38;0;0;0], inr (EDeserialization None), 12%nat);
  ([255;254;0;0;169;1;0;0;0;8;0;0;127;0;0;0], inr (EDeserialization None), 16%nat);
  ([255;254;0;0;172;32;0;0;146;0;0;0;29;1;0;0;0], inr EUnicodeDecode, 17%nat);
  ([255;254;0;0;172;32;0;254;0;0;0;0;0;0], inr EUnicodeDecode, 8%nat);
  ([255;254;0;0;184;1;0;0;0;0;0;0], inl [440], 12%nat);
  ([255;254;0;0;194;27;191;0;0;0;0;0], inr EUnicodeDecode, 8%nat);
  ([255;254;0;0;1;0;0;0;127;0;0;0;128;0;0;0;0;0;0;0;0], inl [1;127;128], 20%nat);
  ([255;254;0;0;204;0;0;0;157;0;0;249;0;0;0;0;0;0], inr EUnicodeDecode, 12%nat);
  ([255;254;0;0;212;0;0], inr EUnicodeDecode, 7%nat);
  ([255;254;0;0;215;2;0;0;0], inr EUnicodeDecode, 9%nat);
  ([255;254;0;0;21;0;0;0;239;1;0;0;0], inr EUnicodeDecode, 13%nat);
  ([255;254;0;0;222;1;0;0], inr (EDeserialization None), 8%nat);
  ([255;254;0;0;234;2;0;0;116;0;0;0;0;0;0;0;0], inl [746;116], 16%nat);
  ([255;254;0;0;237;224;0], inr EUnicodeDecode, 7%nat);
  ([255;254;0;0;239;32;0;0;27;2;0;0;0;0;0;0;0], inl [8431;539], 16%nat);
  ([255;254;0;0;254;255;0;0;0], inr EUnicodeDecode, 9%nat);
  ([255;254;0;0;254;255;0;0;172;32;0;0;157;0;0;0;0], inr EUnicodeDecode, 17%nat);
  ([255;254;0;0;254;255;0;0;255;255;0;0;0;0;0;0;0], inl [65534;65535], 16%nat);
  ([255;254;0;0;255;0;0;0;0;0;0;0], inl [255], 12%nat);
  ([255;254;0;0;255;0;0;0;115;2;0;0;255;0;0;0], inr (EDeserialization None), 16%nat);
  ([255;254;0;0;255;254;0;0;0;0;0;0;0], inl [65279], 12%nat);
  ([255;254;0;0;255;254;0;0], inr (EDeserialization None), 8%nat);
  ([255;254;0;0;255;255;0;0;255;7;0;0;245;1;0;0;0;0;0;0], inl [65535;2047;501], 20%nat);
  ([255;254;0;0;255;255;16;0;129;0;0;0;0;0;0], inr EUnicodeDecode, 15%nat);
  ([255;254;0;0;255;255;16;0;172;32;0;0], inr (EDeserialization None), 12%nat);
  ([255;254;0;0;255;7;0;0;0], inr EUnicodeDecode, 9%nat);
  ([255;254;0;0;255;7;0;0;89;1;0;0;217;1;0;0;0;0;0;0;0], inl [2047;345;473], 20%nat);
  ([255;254;0;0;255;7;131;0;0;255;255;16;0], inr EUnicodeDecode, 8%nat);
  ([255;254;0;0;36;1;0;0;132;2;122;0;0;129;0;0;0;0], inr EUnicodeDecode, 12%nat);
  ([255;254;0;0;40;1;0], inr EUnicodeDecode, 7%nat);
  ([255;254;0;0;56;0;0;0;255;0;0;0], inr (EDeserialization None), 12%nat);
  ([255;254;0;0;63;194;216], inr EUnicodeDecode, 7%nat);
  ([255;254;0;0;63;2;0;0;0;0;0;0], inl [575], 12%nat);
  ([255;254;0;0;65;2;0;0;255;255;0;0;0], inr EUnicodeDecode, 13%nat);
  ([255;254;0;0;82;2;0;0;0;0;0;0;0], inl [594], 12%nat);
  ([255;254;0;0;88;2;0;0], inr (EDeserialization None), 8%nat);
  ([255;254;0;0;94;2;0;0;167;0;0], inr EUnicodeDecode, 11%nat);
  ([255;254;0;0;95;0;0;0;255;254;0;0;0], inr EUnicodeDecode, 13%nat);
  ([255;254;0;0;96;1;0;0;251;0;0;0;98;1;0;0;0;0;0;0], inl [352;251;354], 20%nat);
  ([255;254;0;0;96;2;255;0;96;2;0;0;0], inr EUnicodeDecode, 8%nat);
  ([255;254;0;0], inr (EDeserialization None), 4%nat);
  ([255;254;0;134;0], inr EUnicodeDecode, 4%nat);
  ([255;254;0;177;0;128;0;0;0;0], inr EUnicodeDecode, 4%nat);
  ([255;254;0;179;0;0;0;0;0], inr EUnicodeDecode, 4%nat);
  ([255;254;0;190;0;140;1;0;0;0], inr EUnicodeDecode, 4%nat);
  ([255;254;0;191;0;0;0;0;0], inr EUnicodeDecode, 4%nat);
  ([255;254;0;193;0;8;0;0], inr EUnicodeDecode, 4%nat);
  ([255;254;0;216;127;0;0;0;157;0;0;0;0], inr EUnicodeDecode, 4%nat);
  ([255;254;0;237;45;0;0;0;0;0;0;0], inr EUnicodeDecode, 4%nat);
  ([255;254;0;244;128;220;0], inr EUnicodeDecode, 4%nat);
  ([255;254;0;245;128;0;0;0;100;1;0;0;178;0;0;0;0], inr EUnicodeDecode, 4%nat);
  ([255;254;0], inr EUnicodeDecode, 3%nat);
  ([255;254;107;0;0;172;32;0;0;0;8;0;0;65;0;0;0;0;0;0;0], inr EUnicodeDecode, 4%nat);
  ([255;254;111;0;0;0;1;0;0;254;255;0;0], inr EUnicodeDecode, 4%nat);
  ([255;254;160;172;237;160], inr EUnicodeDecode, 4%nat);
  ([255;254;191;216;191;0], inr EUnicodeDecode, 4%nat);
  ([255;254;216;0;0;0;0;0;0], inr EUnicodeDecode, 4%nat);
  ([255;254;224;0;0], inr EUnicodeDecode, 4%nat);
  ([255;254;240;0;127;0;0;0;65;0;0;0;255;0;0;0;0], inr EUnicodeDecode, 4%nat);
  ([255;254;254;0;128;0;0;0;0], inr EUnicodeDecode, 4%nat);
  ([255;254], inr EUnicodeDecode, 2%nat);
  ([255;46;254;0;0;0], inr EUnicodeDecode, 4%nat)].
Example iterdecode_utf_32_agrees : forallb (fun v => let '(bs, r, pos) := v in
  match stringz_loop (S (length bs)) None (Utf32Bom Little) None 0 [] [] (mkStream bs 0), r with
  | (s, Ok (VStr t)), inl t' => bytes_eqb t t' && Nat.eqb (s_pos s) pos
  | (s, Raise e), inr e' => exn_eqb e e' && Nat.eqb (s_pos s) pos
  | _, _ => false
  end) iterdecode_utf_32_vectors = true.
Proof. vm_compute. reflexivity. Qed.

Definition encode_cp1252_vectors : list (list Z * res (list Z)) :=
 [([0], Ok [0]);
  ([127;255], Ok [127;255]);
  ([128;750;495], Raise EUnicodeEncode);
  ([129;2048;65534], Raise EUnicodeEncode);
  ([157], Raise EUnicodeEncode);
  ([199], Ok [199]);
  ([2047;55296;586], Raise EUnicodeEncode);
  ([2047;65], Raise EUnicodeEncode);
  ([210], Ok [210]);
  ([250], Ok [250]);
  ([255], Ok [255]);
  ([358], Raise EUnicodeEncode);
  ([399;65535;65536], Raise EUnicodeEncode);
  ([405], Raise EUnicodeEncode);
  ([447;9], Raise EUnicodeEncode);
  ([465], Raise EUnicodeEncode);
  ([473;65534;65], Raise EUnicodeEncode);
  ([507;132;158], Raise EUnicodeEncode);
  ([508;35;57343], Raise EUnicodeEncode);
  ([523], Raise EUnicodeEncode);
  ([546;65], Raise EUnicodeEncode);
  ([55296;65279], Raise EUnicodeEncode);
  ([55296;65], Raise EUnicodeEncode);
  ([560], Raise EUnicodeEncode);
  ([56319], Raise EUnicodeEncode);
  ([56320;2047;2047], Raise EUnicodeEncode);
  ([56320;65279;56319], Raise EUnicodeEncode);
  ([56320;65;3], Raise EUnicodeEncode);
  ([57343;556], Raise EUnicodeEncode);
  ([57343;667;57343], Raise EUnicodeEncode);
  ([57343], Raise EUnicodeEncode);
  ([65279;65534;516], Raise EUnicodeEncode);
  ([65534;65535], Raise EUnicodeEncode);
  ([65534], Raise EUnicodeEncode);
  ([65535;65;0], Raise EUnicodeEncode);
  ([65536;449;757], Raise EUnicodeEncode);
  ([65536;57343;211], Raise EUnicodeEncode);
  ([65536], Raise EUnicodeEncode);
  ([683;661], Raise EUnicodeEncode);
  ([721;65535], Raise EUnicodeEncode);
  ([750], Raise EUnicodeEncode);
  ([8364;328], Raise EUnicodeEncode);
  ([8364;57343], Raise EUnicodeEncode);
  ([8364;644;224], Raise EUnicodeEncode);
  ([88], Ok [88]);
  ([], Ok [])].
Example encode_cp1252_agrees : forallb (fun v => res_eqb bytes_eqb (encode (Charmap cp1252) (fst v)) (snd v)) encode_cp1252_vectors = true.
Proof. vm_compute. reflexivity. Qed.

Definition decode_cp1252_vectors : list (list Z * res (list Z)) :=
 [([0;0;0;0;191], Ok [0;0;0;0;191]);
  ([0;0;254;255;0;65], Ok [0;0;254;255;0;65]);
  ([0;0;254;255;191;191], Ok [0;0;254;255;191;191]);
  ([0;0;254;255;194;128;240], Ok [0;0;254;255;194;8364;240]);
  ([0;0;254;255;220;194;194], Ok [0;0;254;255;220;194;194]);
  ([0;0;254;255;220;194;240;160], Ok [0;0;254;255;220;194;240;160]);
  ([0;0;254;255;224;194;81], Ok [0;0;254;255;224;194;81]);
  ([0;0;254;255;224], Ok [0;0;254;255;224]);
  ([0;0;254;255;237], Ok [0;0;254;255;237]);
  ([0;0;254;255], Ok [0;0;254;255]);
  ([127], Ok [127]);
  ([128;0], Ok [8364;0]);
  ([128;233;160], Ok [8364;233;160]);
  ([191;255;200], Ok [191;255;200]);
  ([194], Ok [194]);
  ([197], Ok [197]);
  ([220], Ok [220]);
  ([239;187;0;160;0;160;220], Ok [239;187;0;160;0;160;220]);
  ([239;187;128;224;160;65], Ok [239;187;8364;224;160;65]);
  ([239;187;128], Ok [239;187;8364]);
  ([239;187;191;0;191;160], Ok [239;187;191;0;191;160]);
  ([239;187;191;191;0;128;128;160], Ok [239;187;191;191;0;8364;8364;160]);
  ([239;187;191;220;240;0;220], Ok [239;187;191;220;240;0;220]);
  ([239;187;191;224;128;0], Ok [239;187;191;224;8364;0]);
  ([239;187;191;240], Ok [239;187;191;240]);
  ([239;187;191;244], Ok [239;187;191;244]);
  ([239;187;191], Ok [239;187;191]);
  ([239;187;237;216;65], Ok [239;187;237;216;65]);
  ([239;187;240;128;128;237;240], Ok [239;187;240;8364;8364;237;240]);
  ([239;187;65], Ok [239;187;65]);
  ([240;0;191;216;244], Ok [240;0;191;216;244]);
  ([244], Ok [244]);
  ([254;255;194;160;128;224], Ok [254;255;194;160;8364;224]);
  ([255;254;0;0;128], Ok [255;254;0;0;8364]);
  ([255;254;0;0;224;224;128], Ok [255;254;0;0;224;224;8364]);
  ([255;254;0;0;240;0;244;128;0], Ok [255;254;0;0;240;0;244;8364;0]);
  ([255;254;0;0;244;216], Ok [255;254;0;0;244;216]);
  ([255;254;0;191;64], Ok [255;254;0;191;64]);
  ([255;254], Ok [255;254]);
  ([255], Ok [255]);
  ([4], Ok [4]);
  ([74], Ok [74]);
  ([], Ok [])].
Example decode_cp1252_agrees : forallb (fun v => res_eqb bytes_eqb (decode (Charmap cp1252) (fst v)) (snd v)) decode_cp1252_vectors = true.
Proof. vm_compute. reflexivity. Qed.

Definition iterdecode_cp1252_vectors : list (list Z * (list Z + exn) * nat) :=
 [([0;0;0;0;0;0], inl [], 1%nat);
  ([0;0;0;0;0], inl [], 1%nat);
  ([0;0;0;0], inl [], 1%nat);
  ([0;0;254;255;0;194;216;65;65;0], inl [], 1%nat);
  ([0;0;254;255;220;0], inl [], 1%nat);
  ([0;0], inl [], 1%nat);
  ([0;128;194], inl [], 1%nat);
  ([0], inl [], 1%nat);
  ([108;128], inr (EDeserialization None), 2%nat);
  ([127;0;0;0;0;0], inl [127], 2%nat);
  ([127;0;0;0;0], inl [127], 2%nat);
  ([127;0], inl [127], 2%nat);
  ([128;0;0;0;0;0], inl [8364], 2%nat);
  ([128;0], inl [8364], 2%nat);
  ([128], inr (EDeserialization None), 1%nat);
  ([164;240;0], inl [164;240], 3%nat);
  ([178], inr (EDeserialization None), 1%nat);
  ([189;0], inl [189], 2%nat);
  ([191;191;220;220;0], inl [191;191;220;220], 5%nat);
  ([1;127;0;0;0;0;0], inl [1;127], 3%nat);
  ([201;127;0], inl [201;127], 3%nat);
  ([204;0;0;0;0;0], inl [204], 2%nat);
  ([220;0], inl [220], 2%nat);
  ([236;237;160;0], inl [236;237;160], 4%nat);
  ([239;0;0;0;0;0], inl [239], 2%nat);
  ([239;187;0;224;237;241;0;0;0;0;0], inl [239;187], 3%nat);
  ([239;187;0], inl [239;187], 3%nat);
  ([239;187;160;65], inr (EDeserialization None), 4%nat);
  ([239;187;191;0;0;233;65;220], inl [239;187;191], 4%nat);
  ([239;187;191;0;240;0;194;240], inl [239;187;191], 4%nat);
  ([239;187;191;0;240;39;0;220], inl [239;187;191], 4%nat);
  ([239;187;191;0], inl [239;187;191], 4%nat);
  ([239;187;191;194;0;0;0;0;0;0], inl [239;187;191;194], 5%nat);
  ([239;187;191;240;0], inl [239;187;191;240], 5%nat);
  ([239;187;191;65;0;240;104;191;0], inl [239;187;191;65], 5%nat);
  ([239;187;191;65;240;191;0], inl [239;187;191;65;240;191], 7%nat);
  ([240;0], inl [240], 2%nat);
  ([240;216;128;0], inl [240;216;8364], 4%nat);
  ([244;128;212;0], inl [244;8364;212], 4%nat);
  ([244;255;0], inl [244;255], 3%nat);
  ([245;0;0;0;0], inl [245], 2%nat);
  ([254;255;0;0;0;0;0;0;0], inl [254;255], 3%nat);
  ([254;255;0;0;0;0;0], inl [254;255], 3%nat);
  ([254;255;160;0;0;0;0], inl [254;255;160], 4%nat);
  ([254;255;160;240;194;0], inl [254;255;160;240;194], 6%nat);
  ([254;255;191;0;128;224;224;0;0;0;0], inl [254;255;191], 4%nat);
  ([254;255;216;0], inl [254;255;216], 4%nat);
  ([254;255;216;244;216;244;0;0;0;0;0], inl [254;255;216;244;216;244], 7%nat);
  ([254;255;224;237;0], inl [254;255;224;237], 5%nat);
  ([255;0;0;0;0], inl [255], 2%nat);
  ([255;254;0;0;0;194;240;224;240;0], inl [255;254], 3%nat);
  ([255;254;0;0;212;216;237;237;0], inl [255;254], 3%nat);
  ([255;254;0;0;216;194;0;0;0;0;0], inl [255;254], 3%nat);
  ([255;254;0;0;224;0;0;0;0], inl [255;254], 3%nat);
  ([255;254;0;0;224;75;0], inl [255;254], 3%nat);
  ([255;254;0;216], inl [255;254], 3%nat);
  ([255;254;160;3;0], inl [255;254;160;3], 5%nat);
  ([255;254;194;0;240;220;0], inl [255;254;194], 4%nat);
  ([255;254;224;0], inl [255;254;224], 4%nat);
  ([255;254;244;244], inr (EDeserialization None), 4%nat);
  ([255;254], inr (EDeserialization None), 2%nat);
  ([255], inr (EDeserialization None), 1%nat);
  ([29;247;174;0;0;0;0;0], inl [29;247;174], 4%nat);
  ([37;127;0;0;0;0;0], inl [37;127], 3%nat);
  ([4], inr (EDeserialization None), 1%nat);
  ([65;0;0;0;0], inl [65], 2%nat);
  ([], inr (EDeserialization None), 0%nat)].
Example iterdecode_cp1252_agrees : forallb (fun v => let '(bs, r, pos) := v in
  match stringz_loop (S (length bs)) None (Charmap cp1252) None 0 [] [] (mkStream bs 0), r with
  | (s, Ok (VStr t)), inl t' => bytes_eqb t t' && Nat.eqb (s_pos s) pos
  | (s, Raise e), inr e' => exn_eqb e e' && Nat.eqb (s_pos s) pos
  | _, _ => false
  end) iterdecode_cp1252_vectors = true.
Proof. vm_compute. reflexivity. Qed.

Definition encode_cp500_vectors : list (list Z * res (list Z)) :=
 [([0;127;65535], Raise EUnicodeEncode);
  ([1114111], Raise EUnicodeEncode);
  ([11], Ok [11]);
  ([128;256;65535], Raise EUnicodeEncode);
  ([128;702;197], Raise EUnicodeEncode);
  ([132;383], Raise EUnicodeEncode);
  ([157;56319;157], Raise EUnicodeEncode);
  ([191], Ok [171]);
  ([2047;135;57343], Raise EUnicodeEncode);
  ([2048;255], Raise EUnicodeEncode);
  ([2048], Raise EUnicodeEncode);
  ([22], Ok [50]);
  ([242], Ok [205]);
  ([255;129;65], Ok [223;33;193]);
  ([255;56319], Raise EUnicodeEncode);
  ([255], Ok [223]);
  ([279;11], Raise EUnicodeEncode);
  ([337;178;151], Raise EUnicodeEncode);
  ([444], Raise EUnicodeEncode);
  ([458], Raise EUnicodeEncode);
  ([47], Ok [97]);
  ([533;65535;255], Raise EUnicodeEncode);
  ([55296;0;127], Raise EUnicodeEncode);
  ([55296;28;157], Raise EUnicodeEncode);
  ([55296;465], Raise EUnicodeEncode);
  ([55296], Raise EUnicodeEncode);
  ([56320;255;0], Raise EUnicodeEncode);
  ([56320;55296], Raise EUnicodeEncode);
  ([56320], Raise EUnicodeEncode);
  ([57343;245], Raise EUnicodeEncode);
  ([592;688;195], Raise EUnicodeEncode);
  ([608;192;635], Raise EUnicodeEncode);
  ([65279;255;2048], Raise EUnicodeEncode);
  ([65279], Raise EUnicodeEncode);
  ([65534;65279;65], Raise EUnicodeEncode);
  ([65534;682], Raise EUnicodeEncode);
  ([65535;0], Raise EUnicodeEncode);
  ([65535;714;755], Raise EUnicodeEncode);
  ([657;56319], Raise EUnicodeEncode);
  ([65;56320], Raise EUnicodeEncode);
  ([65], Ok [193]);
  ([670;65536], Raise EUnicodeEncode);
  ([720], Raise EUnicodeEncode);
  ([744;542;377], Raise EUnicodeEncode);
  ([755;56320;65536], Raise EUnicodeEncode);
  ([8364], Raise EUnicodeEncode);
  ([], Ok [])].
Example encode_cp500_agrees : forallb (fun v => res_eqb bytes_eqb (encode (Charmap cp500) (fst v)) (snd v)) encode_cp500_vectors = true.
Proof. vm_compute. reflexivity. Qed.

Definition decode_cp500_vectors : list (list Z * res (list Z)) :=
 [([0;0;254;255;0;65;191;128], Ok [0;0;218;159;0;160;215;216]);
  ([0;0;254;255;128;191;65;240], Ok [0;0;218;159;216;215;160;48]);
  ([0;0;254;255;194;224;0;237], Ok [0;0;218;159;66;92;0;210]);
  ([0;0;254;255;194;244;194;65;0], Ok [0;0;218;159;66;52;66;160;0]);
  ([0;0;254;255;220;216], Ok [0;0;218;159;252;81]);
  ([0;0;254;255;244;224;220;216;244], Ok [0;0;218;159;52;92;252;81;52]);
  ([0;0], Ok [0;0]);
  ([0], Ok [0]);
  ([108], Ok [37]);
  ([126;75], Ok [61;46]);
  ([139], Ok [187]);
  ([160;244;194], Ok [181;52;66]);
  ([182;139], Ok [182;187]);
  ([193;32;193], Ok [65;128;65]);
  ([193], Ok [65]);
  ([1], Ok [1]);
  ([20;193], Ok [157;65]);
  ([20], Ok [157]);
  ([211;193], Ok [76;65]);
  ([224], Ok [92]);
  ([237], Ok [210]);
  ([239;187;160;191], Ok [213;124;181;215]);
  ([239;187;191;194;220;0;240;220], Ok [213;124;215;66;252;0;48;252]);
  ([239;187;191;224;240;65;216;244], Ok [213;124;215;92;48;160;81;52]);
  ([239;187;191;240;174;224], Ok [213;124;215;48;222;92]);
  ([239;187;191;65;244;160], Ok [213;124;215;160;52;181]);
  ([239;187;224;249;220], Ok [213;124;92;57;252]);
  ([23], Ok [135]);
  ([254;255;0;42;160;237], Ok [218;159;0;138;181;210]);
  ([254;255;0], Ok [218;159;0]);
  ([254;255], Ok [218;159]);
  ([255;254;0;0;128;0;65;240;128], Ok [159;218;0;0;216;0;160;48;216]);
  ([255;254;0], Ok [159;218;0]);
  ([255;254;237;240;0], Ok [159;218;210;48;0]);
  ([255], Ok [159]);
  ([32;249;193], Ok [128;57;65]);
  ([33], Ok [129]);
  ([44], Ok [140]);
  ([55;32], Ok [4;128]);
  ([57;122;233], Ok [153;58;90]);
  ([60;137;0], Ok [20;105;0]);
  ([76;185], Ok [60;190]);
  ([7;61], Ok [127;21]);
  ([7], Ok [127]);
  ([87;20;210], Ok [239;157;75]);
  ([90], Ok [93]);
  ([], Ok [])].
Example decode_cp500_agrees : forallb (fun v => res_eqb bytes_eqb (decode (Charmap cp500) (fst v)) (snd v)) decode_cp500_vectors = true.
Proof. vm_compute. reflexivity. Qed.

Definition iterdecode_cp500_vectors : list (list Z * (list Z + exn) * nat) :=
 [([0;0;0;0;0], inl [], 1%nat);
  ([0;0;0;0], inl [], 1%nat);
  ([0;0;254;255;0;0;0;0;0], inl [], 1%nat);
  ([0;0;254;255;128;0], inl [], 1%nat);
  ([0;0;254;255;128], inl [], 1%nat);
  ([0;0;254;255;191;224;0], inl [], 1%nat);
  ([0;0;254;255;194;244;191;224;0], inl [], 1%nat);
  ([0;0;254;255;216;0;0;237;194;0;0;0;0;0], inl [], 1%nat);
  ([0;0;254;255;216;191;240;237;0], inl [], 1%nat);
  ([0;0;254;255;235;244;128;237], inl [], 1%nat);
  ([0;0;254;255;65;191;128;0], inl [], 1%nat);
  ([0;0], inl [], 1%nat);
  ([0;193], inl [], 1%nat);
  ([0], inl [], 1%nat);
  ([146], inr (EDeserialization None), 1%nat);
  ([182;0;0;0;0], inl [182], 2%nat);
  ([184;0], inl [189], 2%nat);
  ([191;0], inl [215], 2%nat);
  ([192;193], inr (EDeserialization None), 2%nat);
  ([193;0;0;0;0;0], inl [65], 2%nat);
  ([193;20;0;0;0;0;0], inl [65;157], 3%nat);
  ([193;32;0], inl [65;128], 3%nat);
  ([196;7;0;0;0;0;0], inl [68;127], 3%nat);
  ([206;95;0], inl [243;94], 3%nat);
  ([20;0], inl [157], 2%nat);
  ([20], inr (EDeserialization None), 1%nat);
  ([213;0;33], inl [78], 2%nat);
  ([220;0], inl [252], 2%nat);
  ([223;0;0;0;0;0], inl [255], 2%nat);
  ([223;0], inl [255], 2%nat);
  ([237;32;0;0;0;0], inl [210;128], 3%nat);
  ([239;187;0;0;0;0;0], inl [213;124], 3%nat);
  ([239;187;0;244;101;0], inl [213;124], 3%nat);
  ([239;187;128;244;220;244;0], inl [213;124;216;52;252;52], 7%nat);
  ([239;187;191;194;68;160;0;0;0;0;0], inl [213;124;215;66;224;181], 7%nat);
  ([239;187;191;220;220;160;224], inr (EDeserialization None), 7%nat);
  ([239;187;191;244;65;244;0;0;0;0;0], inl [213;124;215;52;160;52], 7%nat);
  ([239;187;191;65;191;244;65;0], inl [213;124;215;160;215;52;160], 8%nat);
  ([239;187;240;0;244;0], inl [213;124;48], 4%nat);
  ([239;187;77;224;0;0;0;0;0;0], inl [213;124;40;92], 5%nat);
  ([239;187], inr (EDeserialization None), 2%nat);
  ([240;103], inr (EDeserialization None), 2%nat);
  ([244;0], inl [52], 2%nat);
  ([254;255;220;240;216;194;224;0], inl [218;159;252;48;81;66;92], 8%nat);
  ([254;255;240;65;237;240;220], inr (EDeserialization None), 7%nat);
  ([255;254;0;0;0;21;160;244;0], inl [159;218], 3%nat);
  ([255;254;0;0;0;220;0], inl [159;218], 3%nat);
  ([255;254;0;0;160;220;156;0;244;0], inl [159;218], 3%nat);
  ([255;254;0;0;2;191;0;0], inl [159;218], 3%nat);
  ([255;254;0;0;65;0], inl [159;218], 3%nat);
  ([255;254;216;216;240;176;0], inl [159;218;81;81;48;162], 7%nat);
  ([255;254;220;160;244], inr (EDeserialization None), 5%nat);
  ([255;254;65;220;191;194;240;0], inl [159;218;160;252;215;66;48], 8%nat);
  ([32;0;0;0;0], inl [128], 2%nat);
  ([32;0], inl [128], 2%nat);
  ([32;210;0], inl [128;75], 3%nat);
  ([33;0], inl [129], 2%nat);
  ([45;225;0], inl [5;247], 3%nat);
  ([47;20], inr (EDeserialization None), 2%nat);
  ([50;193;0;0;0;0;0], inl [22;65], 3%nat);
  ([65;0], inl [160], 2%nat);
  ([7;0;0;0;0;0], inl [127], 2%nat);
  ([7;0], inl [127], 2%nat);
  ([7], inr (EDeserialization None), 1%nat);
  ([], inr (EDeserialization None), 0%nat)].
Example iterdecode_cp500_agrees : forallb (fun v => let '(bs, r, pos) := v in
  match stringz_loop (S (length bs)) None (Charmap cp500) None 0 [] [] (mkStream bs 0), r with
  | (s, Ok (VStr t)), inl t' => bytes_eqb t t' && Nat.eqb (s_pos s) pos
  | (s, Raise e), inr e' => exn_eqb e e' && Nat.eqb (s_pos s) pos
  | _, _ => false
  end) iterdecode_cp500_vectors = true.
Proof. vm_compute. reflexivity. Qed.

Definition uuid_of_hex_vectors : list (list Z * res Z) :=
 [([0;88;48;48;48;48;48;48;48;48;48;120;48;48;48;48;48;48;71;48;48;48;48;48;48;48;48;48;48;98;57;100;48], Raise EValueErr);
  ([100;100;57;51;102;56;56;52;50;101;54;102;103;53;48;56;56;52;102;52;56;51;98;49;53;99;97;57;51;55;53;57], Raise EValueErr);
  ([100;48;100;52;100;53;51;53;53;120;55;101;102;102;48;56;98;98;99;49;100;100;49;50;48;52;57;49;52;52;49;52], Raise EValueErr);
  ([100;48;48;48;48;48;48;48;48;114;48;48;48;95;48;45;48;48;48;48;45;48;48;48;48;45;48;48;48;48;48;48;48;69;52;57;48;48], Raise EValueErr);
  ([100;48;48;48;48;48;48;48;48;48;48;48;48;0;48;48;48;48;48;48;48;48;48;48;48;48;10;48;100;52;52;51], Raise EValueErr);
  ([100;48;48;48;48;48;48;48;48;48;48;48;48;48;48;48;48;48;48;48;48;48;48;48;48;48;51;97;98;57], Raise EValueErr);
  ([100;50;49;99;51;49;56;48;55;99;97;52;57;54;57;56;48;48;101;50;101;48;49;53;55;56;55;52;53;55;49;56], Ok 279284267444721805452289299029744178968);
  ([101;102;50;53;54;57;53;52;55;49;57;54;57;97;52;53;48;51;57;98;48;100;55;52;50;48;98;56;98;99;56], Raise EValueErr);
  ([101;48;55;54;55;102;57;56;48;55;54;50;99;48;102;98;100;100;49;48;53;97;101;101;100;51;99;97;54;100;56;32], Ok 18647646874757150766277561879138969304);
  ([101;52;54;102;51;99;102;50;55;57;101;99;102;52;120;52;97;52;51;102;53;100;48;50;52;50;56;54;102;102;100;57], Raise EValueErr);
  ([101;56;49;102;101;101;99;49;99;52;98;52;97;102;56;100;52;120;51;50;99;49;99;52;99;100;54;97;51;101;48;51], Raise EValueErr);
  ([101;98;101;101;99;48;54;51;99;52;101;48;100;53;48;51;100;57;99;48;102;53;102;56;52;100;50;97;57;51;95;52], Ok 19600515486809336024034058895914871092);
  ([102;49;51;50;55;100;51;97;45;50;102;51;100;45;56;57;56;117;102;45;97;99;10;50;45;53;54;97;51;54;100;97;99;50;56;102], Raise EValueErr);
  ([102;52;56;56;55;99;51;53;54;51;97;53;97;57;100;49;54;52;55;53;98;49;53;31;54;97;49;100;49;54], Raise EValueErr);
  ([102;53;57;101;100;48;52;100;52;56;50;49;50;97;102;100;55;55;52;55;55;54;49;10;97;98;54;101;50;53;53;49;102], Raise EValueErr);
  ([102;53;97;55;101;102;101;48;56;54;43;48;48;57;48;97;55;102;97;48;98;114;54;101;50;98;101;99;49;51;55;32], Raise EValueErr);
  ([102;54;100;50;54;56;102;100;101;100;53;50;50;52;101;56;52;99;100;56;57;102;50;49;101;102;54;48;57;53;51], Raise EValueErr);
  ([102;56;48;53;56;53;51;57;100;56;50;102;50;99;50;54;9;52;55;100;49;97;49;55;56;11;57;0;50;56;48;54], Raise EValueErr);
  ([103;102;101;57;48;53;49;56;98;51;55;56;97;100;56;56;98;56;52;98;51;120;52;51;55;52;102;99;101;56;52;53;99], Raise EValueErr);
  ([103;45;98;57;49;101;48;56;50;99;52;53;54;99;54;48;51;56;97;56;101;100;97;51;55;99;102;98;51;56;55;50;54], Raise EValueErr);
  ([10;48;48;48;48;48;48;48;48;45;48;48;48;48;45;48;48;48;48;45;48;48;48;48;45;48;48;48;48;48;48;48;102;97;100;101;50;125], Raise EValueErr);
  ([117;114;110;58;105;117;117;105;100;58;99;32;52;99;100;98;97;98;45;57;57;123;99;48;45;56;49;50;50;45;55;57;48;98;45;57;50;57;49;98;50;54;98;98;55;99;54], Raise EValueErr);
  ([117;114;110;58;117;117;105;100;10;55;54;99;56;48;57;43;97;45;53;52;100;98;45;54;54;49;98;45;54;49;98;98;45;97;53;100;55;101;101;56;50;53;54;53;52], Raise EValueErr);
  ([117;114;110;58;117;117;105;100;58;100;52;98;98;50;99;101;54;45;55;50;56;49;45;53;99;49;51;45;101;52;100;97;45;51;102;99;98;101;57;97;48;53;101;99;100], Ok 282768205302885794151497349323766652621);
  ([117;114;110;58;117;117;105;100;58;101;100;55;56;97;49;48;55;45;50;56;48;97;45;52;57;48;53;45;48;53;53;54;45;52;48;57;49;98;50;97;97;102;99;101;51], Ok 315653376658984401188836036214298180835);
  ([117;114;110;58;117;117;105;100;58;120;48;48;48;48;48;48;48;45;48;48;48;48;45;48;48;48;48;45;48;48;48;48;45;48;48;48;48;48;48;48;49;57;100;54;56], Raise EValueErr);
  ([117;114;110;58;117;117;105;100;58;48;32;51;50;54;49;102;50;57;45;102;51;49;57;45;53;52;102;101;45;48;99;56;57;45;48;102;56;48;51;51;97;51;52;53;57;100], Raise EValueErr);
  ([117;114;110;58;117;117;105;100;58;48;48;48;0;48;48;48;48;48;45;48;48;117;48;45;48;48;48;48;45;48;48;48;48;45;48;48;48;48;48;48;48;101;56;99;56;48], Raise EValueErr);
  ([117;114;110;58;117;117;105;100;58;48;48;48;48;48;48;11;48;45;48;48;48;48;45;48;48;48;48;45;48;48;48;48;45;48;48;48;48;48;48;48;102;54;55;50;98], Raise EValueErr);
  ([117;114;110;58;117;117;105;100;58;48;48;48;48;48;48;48;45;48;48;48;48;45;48;48;48;48;45;48;48;48;48;45;48;48;48;48;48;48;48;101;53;49;99;57], Raise EValueErr);
  ([117;114;110;58;117;117;105;100;58;48;48;48;48;48;48;48;48;45;48;48;31;48;45;48;48;48;11;48;45;48;71;48;48;48;45;48;48;48;48;48;48;48;51;48;102;98;51], Raise EValueErr);
  ([117;114;110;58;117;117;105;100;58;48;48;48;48;48;48;48;48;45;48;48;48;45;48;48;48;48;45;48;48;48;48;45;48;48;48;48;48;48;48;49;54;51;98;102], Raise EValueErr);
  ([117;114;110;58;117;117;105;100;58;48;48;48;48;48;48;48;48;45;48;48;48;48;45;48;48;48;45;48;48;48;48;45;48;48;48;48;48;48;99;98;101;53;100], Raise EValueErr);
  ([117;114;110;58;117;117;105;100;58;48;48;48;48;48;48;48;48;45;48;48;48;48;45;48;48;48;48;45;48;48;48;48;45;48;48;48;48;48;48;48;48;97;101;100;55;123], Ok 44759);
  ([117;114;110;58;117;117;105;100;58;48;48;48;48;48;48;48;48;45;48;48;48;48;45;48;48;48;48;45;48;48;48;48;45;48;48;48;48;48;48;48;56;55;53;50;54], Ok 554278);
  ([117;114;110;58;117;117;105;100;58;48;48;48;48;48;48;48;48;45;48;48;48;48;45;48;48;48;48;45;48;48;48;48;45;48;48;48;48;48;48;48;57;50;0;56;57], Raise EValueErr);
  ([117;114;110;58;117;117;105;100;58;48;48;48;48;48;48;48;48;45;48;48;48;48;45;48;48;48;48;45;48;48;48;48;45;48;48;48;48;48;48;48;99;51;54;98;54], Ok 800438);
  ([117;114;110;58;117;117;105;100;58;48;48;48;48;48;95;11;48;48;45;48;48;48;48;45;48;48;48;48;45;48;48;48;48;10;48;48;48;48;48;48;48;50;102;57;102;100], Raise EValueErr);
  ([117;114;110;58;117;117;105;100;58;49;99;98;49;100;55;102;98;45;97;48;98;101;45;49;101;57;51;45;99;101;48;52;45;100;54;57;53;53;54;54;101;51;55;98;56], Ok 38141801080019326995699461849107806136);
  ([117;114;110;58;117;117;105;100;58;52;101;100;50;51;102;56;48;45;100;102;49;97;45;50;49;98;54;45;50;57;97;53;45;52;57;57;51;56;97;49;54;32;99;54;98], Raise EValueErr);
  ([117;114;110;58;117;117;105;100;58;53;48;97;97;48;49;51;98;45;55;71;54;55;102;45;49;99;98;102;45;97;52;57;52;45;50;55;101;56;98;52;99;55;100;50;49;56], Raise EValueErr);
  ([117;114;110;58;117;117;105;100;58;53;97;97;48;52;48;49;99;45;99;100;102;57;45;56;50;97;48;45;57;98;51;98;45;98;57;102;53;52;48;101;102;56;50;48;57], Ok 120462587474357251500983445244219458057);
  ([117;114;110;58;117;117;105;100;58;54;101;53;57;101;53;57;101;45;98;99;55;102;45;51;54;101;57;45;55;55;100;51;45;102;51;53;102;49;57;57;54;54;97;101;102], Ok 146681851204936233904670301965616835311);
  ([117;114;110;58;117;117;105;100;58;97;56;100;98;100;51;117;101;45;101;48;99;55;45;100;52;98;102;45;102;48;101;51;117;48;101;51;57;51;49;98;101;48;50;52;49], Raise EValueErr);
  ([117;114;110;58;117;117;105;100;58;97;97;51;95;98;56;48;97;45;48;98;57;48;32;97;49;51;48;45;56;54;57;50;45;101;52;102;54;97;100;117;55;100;97;56;49], Raise EValueErr);
  ([117;114;110;58;117;117;105;100;58;98;48;55;56;49;55;56;52;45;55;102;52;100;45;48;52;57;56;45;57;57;55;101;45;100;49;56;56;100;100;98;57;49;56;52;54], Ok 234567679874105414057658704280994519110);
  ([117;114;110;58;117;117;105;100;71;58;48;48;48;48;48;48;48;48;45;48;48;48;48;45;48;48;48;48;45;48;48;48;48;45;48;48;48;48;48;48;48;49;50;48;56;56], Raise EValueErr);
  ([117;114;110;58;117;117;105;10;100;58;55;100;97;52;48;98;98;100;45;56;102;100;56;45;51;100;51;97;45;54;50;101;51;45;50;53;53;56;50;101;52;54;99;52;50;54], Raise EValueErr);
  ([117;114;110;58;117;117;117;105;100;58;48;51;101;57;56;52;56;57;45;56;48;51;97;45;48;98;102;53;45;31;50;101;98;45;101;100;48;98;53;97;55;97;55;49;48;97], Raise EValueErr);
  ([117;114;31;58;117;117;105;100;58;48;48;48;48;48;48;48;48;45;48;48;48;48;45;48;48;48;48;45;48;48;48;48;45;48;48;48;48;48;48;52;51;101;52;125], Raise EValueErr);
  ([117;48;48;48;48;48;48;100;48;48;48;48;48;48;48;48;48;48;48;48;48;48;48;48;48;48;48;97;99;100;102;32], Raise EValueErr);
  ([123;100;48;101;48;53;99;48;57;45;48;53;57;55;45;54;100;102;56;117;102;98;54;52;45;101;48;101;51;50;102;51;51;54;54;49;49;125], Raise EValueErr);
  ([123;100;99;53;99;50;100;100;49;45;50;98;56;97;45;55;97;50;48;45;101;102;99;54;45;49;100;50;55;49;55;105;102;53;56;51;55;125], Raise EValueErr);
  ([123;102;49;49;56;52;55;52;98;45;49;53;51;48;45;51;49;99;101;45;99;101;52;50;45;51;52;50;102;56;52;100;53;99;123;52;48;50;125], Raise EValueErr);
  ([123;48;48;48;48;48;48;105;48;45;48;48;48;45;48;48;48;48;45;48;48;48;48;45;48;48;48;48;48;48;48;56;52;53;54;52;125], Raise EValueErr);
  ([123;48;48;48;48;48;48;48;48;45;48;48;48;45;48;48;48;48;45;48;48;48;48;45;48;48;48;48;48;48;48;100;99;55;114;48;125], Raise EValueErr);
  ([123;48;48;48;48;48;48;48;48;45;48;48;48;48;45;117;48;48;48;45;48;48;48;48;45;48;48;48;48;48;48;48;57;97;55;48;102;125], Raise EValueErr);
  ([123;48;48;48;48;48;48;48;48;45;48;48;48;48;45;48;48;100;48;45;48;48;48;48;45;48;48;48;48;48;48;48;55;56;99;57;52;125], Ok 3836922767331587230868);
  ([123;48;48;48;48;48;48;48;48;45;48;48;48;48;45;48;48;48;48;45;48;48;110;48;45;48;48;48;48;48;48;48;48;54;48;117;97;125], Raise EValueErr);
  ([123;48;48;48;48;48;48;48;48;48;48;48;48;45;48;45;48;48;45;48;48;48;48;45;48;48;48;48;48;48;48;52;57;99;51;54;125], Raise EValueErr);
  ([123;48;48;48;48;48;48;71;48;45;48;48;48;48;45;48;48;48;45;48;48;48;48;45;48;48;48;48;48;48;43;97;54;54;99;100;125], Raise EValueErr);
  ([123;48;54;51;70;48;65;55;45;56;51;65;32;54;45;51;51;49;53;45;50;55;50;54;45;50;51;69;55;53;52;68;69;66;57;70], Raise EValueErr);
  ([123;48;98;57;56;53;102;100;102;45;98;114;54;101;45;50;97;50;57;45;98;100;49;102;45;102;52;48;98;48;57;99;57;101;99;57;101;125], Raise EValueErr);
  ([123;49;54;48;53;56;54;54;57;31;97;100;32;52;48;45;99;102;56;102;45;48;48;55;100;45;99;55;48;102;49;49;97;102;98;57;52;101;125], Raise EValueErr);
  ([123;50;54;56;49;100;105;97;98;100;45;98;51;102;54;45;100;55;101;100;45;50;100;55;57;45;48;56;53;99;97;49;98;51;48;57;53;51;125], Raise EValueErr);
  ([123;51;51;54;56;48;99;56;97;45;55;51;100;49;45;100;53;53;50;45;101;52;97;51;45;52;31;56;31;99;50;51;100;101;48;97;57;125], Raise EValueErr);
  ([123;52;97;50;56;55;50;100;100;45;53;102;97;52;57;97;53;99;45;52;52;50;54;45;99;98;53;102;57;50;57;53;100;54;100;55;125], Ok 98572893296143968356764113948957333207);
  ([123;53;101;49;99;56;99;49;51;45;50;56;98;99;45;101;99;56;98;45;53;54;53;49;45;48;53;54;49;52;55;99;52;49;45;100;52;97;125], Ok 125095656971108461727186979447569128778);
  ([123;55;50;102;50;101;57;99;57;45;55;52;99;49;45;49;97;49;53;45;98;51;99;57;45;53;100;102;54;52;55;99;100;101;54;99;99;125], Ok 152793269121677861007805841672439195340);
  ([123;57;101;55;50;102;99;50;54;45;50;102;55;100;45;97;54;57;97;45;102;114;99;49;56;45;54;51;52;48;50;97;50;101;117;54;49;101;48;117], Raise EValueErr);
  ([123;57;50;49;98;50;57;57;52;45;52;55;48;51;45;98;100;53;56;45;101;99;57;51;45;49;48;51;48;56;97;101;52;101;54;48;54;125], Ok 194208322726317916261935571315198322182);
  ([123;97;57;56;98;49;49;100;54;45;49;54;49;57;45;54;48;55;98;45;120;102;102;98;100;45;54;102;100;55;54;100;48;100;56;55;98;48;125], Raise EValueErr);
  ([123;98;101;52;101;56;49;100;101;45;54;101;100;97;45;53;56;99;57;45;49;97;49;54;97;52;53;28;52;98;50;55;54;52;49;101;125], Raise EValueErr);
  ([123;98;51;101;54;48;51;97;49;45;51;55;53;101;45;50;97;99;49;45;51;49;57;51;45;52;55;100;57;99;97;54;110;48;56;100;101;125], Raise EValueErr);
  ([32;100;102;50;98;101;101;56;55;48;53;102;50;57;56;97;98;97;99;98;114;53;57;54;53;52;55;57;52;55;55;48;48], Raise EValueErr);
  ([32;100;52;52;50;49;56;97;102;57;99;98;99;57;98;49;101;100;57;53;50;50;99;51;98;102;51;100;53;102;100;120;101], Raise EValueErr);
  ([32;110;52;99;32;52;49;49;48;48;98;56;53;54;50;102;56;57;52;54;56;57;55;98;102;51;50;51;100;100;51;100;99], Raise EValueErr);
  ([32;120;51;100;48;53;51;100;49;55;50;97;53;49;52;56;102;56;55;53;52;56;50;101;55;98;51;51;97;55;56;54], Raise EValueErr);
  ([32;48;101;99;53;49;57;100;51;56;100;56;54;54;52;53;101;56;50;57;50;55;99;51;52;98;101;51;101;50;54;99], Ok 1227037390206401343106162598135194220);
  ([32;48;48;48;48;48;32;48;48;48;48;48;48;48;48;48;48;48;48;48;117;48;48;48;48;48;48;48;48;48;48;54;49], Raise EValueErr);
  ([32;48;48;48;48;48;48;117;48;48;48;48;48;48;48;48;48;125;110;48;48;48;48;48;48;48;48;48;49;98;54;56;98], Raise EValueErr);
  ([32;48;48;48;48;48;48;48;45;48;48;48;48;48;48;48;48;48;48;48;48;48;48;48;48;48;48;100;50;53;53;57], Raise EValueErr);
  ([32;48;48;48;48;48;48;48;48;48;48;48;48;11;48;48;48;48;48;48;48;48;48;48;48;48;48;48;51;52;55;52;51], Raise EValueErr);
  ([32;48;48;48;48;48;48;48;48;48;48;48;48;48;48;48;48;48;48;48;48;48;48;48;48;48;48;55;48;57;50;50], Ok 461090);
  ([32;48;48;48;48;48;48;48;48;48;48;48;48;48;48;48;48;48;48;48;48;48;48;48;48;48;48;55;97;98;50;98], Ok 502571);
  ([32;48;48;48;48;48;48;48;48;48;48;48;48;48;48;48;48;48;48;48;48;48;48;48;48;48;54;71;50;48;101;102], Raise EValueErr);
  ([32;49;100;100;101;102;51;57;102;102;123;54;56;54;57;54;99;98;102;100;56;55;53;102;55;50;55;49;117;101;54;55], Raise EValueErr);
  ([32;49;102;97;120;55;50;10;98;54;101;100;48;57;50;52;55;50;101;52;57;56;54;50;97;57;101;49;48;49;49;102], Raise EValueErr);
  ([32;50;99;58;101;100;48;99;54;49;99;55;53;54;50;49;99;52;102;105;98;102;56;102;101;101;51;56;50;50;101], Raise EValueErr);
  ([32;53;51;51;99;98;101;50;52;45;98;101;57;49;101;114;99;50;99;52;51;57;51;102;57;52;53;49;97;56;54], Raise EValueErr);
  ([32;53;52;56;54;51;99;99;100;51;53;99;49;54;97;101;53;99;53;52;53;50;53;50;98;102;48;110;51;97;56;52], Raise EValueErr);
  ([32;53;55;97;49;55;52;55;100;97;99;97;50;102;53;52;48;11;51;51;57;51;50;57;48;50;117;99;57;55;56;71;48;57], Raise EValueErr);
  ([32;55;54;31;100;51;102;49;52;101;52;51;101;97;97;48;55;50;52;57;97;102;99;56;52;56;101;97;101;54;48;54], Raise EValueErr);
  ([32;56;49;49;50;53;53;95;53;49;102;48;56;49;57;51;100;51;51;57;98;58;31;97;57;56;55;57;54;101;102;100;102], Raise EValueErr);
  ([32;57;53;56;48;97;101;50;101;56;100;102;32;99;52;50;102;55;50;52;54;98;100;101;97;55;56;102;50;49;102;54;102], Raise EValueErr);
  ([32;57;55;48;48;57;56;99;101;100;97;48;49;57;53;56;56;101;97;97;100;56;48;52;98;97;56;57;52;57;50;99], Ok 12544782917390823564123696550354962732);
  ([32;95;48;48;48;48;48;48;48;48;48;48;48;48;48;48;48;48;48;48;48;48;120;48;48;48;48;48;71;100;98;54;54;50], Raise EValueErr);
  ([32;97;100;99;51;54;99;105;53;56;53;51;99;102;55;53;51;50;51;101;101;102;50;49;101;57;49;53;48;100;55;57], Raise EValueErr);
  ([32;97;49;54;123;48;54;97;56;100;49;52;51;56;53;56;57;56;51;56;101;98;55;97;57;55;98;102;100;100;102;52;57], Raise EValueErr);
  ([32;97;98;57;102;52;99;52;100;56;98;53;51;98;55;54;97;50;57;51;55;48;56;100;53;48;53;98;99;56;50;55], Ok 14257819380409104146523727427568125991);
  ([32;98;55;98;100;100;48;49;102;55;99;51;52;52;48;99;49;56;101;51;103;49;100;57;48;51;100;102;52;101;56;98;117;45], Raise EValueErr);
  ([32;99;101;55;56;101;97;98;51;101;50;98;55;49;102;99;49;101;57;100;100;100;102;52;56;99;54;52;99;49;99;100], Ok 17153050193160636830803215976155627981);
  ([32;99;55;98;57;56;98;56;98;53;51;57;55;48;55;54;54;97;57;54;48;49;101;52;50;100;55;57;56;101;57;100], Ok 16592486023346658590521194660329262749);
  ([43;100;48;48;123;48;101;51;101;48;53;97;56;49;53;56;99;53;51;57;52;57;101;98;55;56;54;49;56;98;52;48], Raise EValueErr);
  ([43;100;55;51;99;98;100;53;102;55;97;100;49;101;98;49;51;98;100;53;97;100;49;52;101;56;51;99;54;55;100;102], Ok 17881212365335654885475760060153751519);
  ([43;101;97;56;49;99;97;54;51;54;100;100;52;52;53;100;56;51;43;55;101;99;99;98;101;102;99;97;55;57;57;53], Raise EValueErr);
  ([43;102;101;101;51;102;51;57;102;52;100;99;52;53;55;101;49;51;51;102;100;56;53;97;99;56;99;49;54;10;98;102;10], Raise EValueErr);
  ([43;102;54;51;97;57;52;100;101;54;99;102;100;102;50;28;53;97;102;98;56;102;51;57;55;102;50;100;57;56;50;97], Raise EValueErr);
  ([43;102;98;100;100;55;57;101;98;54;54;52;57;0;57;51;102;53;98;48;54;48;49;50;48;99;101;100;52;125;97;100;50], Raise EValueErr);
  ([43;125;50;54;49;97;97;48;99;120;100;97;101;51;51;97;52;51;98;53;56;48;57;50;98;101;98;54;52;51;52;56], Raise EValueErr);
  ([43;48;117;48;48;48;48;48;48;48;48;48;48;48;48;48;48;48;48;48;48;48;48;48;48;48;48;48;101;57;45;48;102;50], Raise EValueErr);
  ([43;48;48;48;48;117;48;48;48;48;48;48;48;48;48;48;48;48;48;48;48;48;48;48;48;123;48;48;53;56;49;51;100], Raise EValueErr);
  ([43;48;48;48;48;48;48;48;125;48;48;48;48;48;105;48;48;48;48;48;48;48;48;48;48;48;48;48;48;100;100;101;101;97], Raise EValueErr);
  ([43;48;48;48;48;48;48;48;48;48;48;28;48;48;48;48;48;48;48;48;48;48;48;48;48;48;48;50;53;102;102;50], Raise EValueErr);
  ([43;48;48;48;48;48;48;48;48;48;48;48;48;48;48;48;48;48;48;48;48;120;48;48;48;48;48;48;50;97;56;49;48], Raise EValueErr);
  ([43;48;48;48;48;48;48;48;48;48;48;48;48;48;48;48;48;48;48;48;48;48;48;48;48;48;48;53;54;48;49], Raise EValueErr);
  ([43;48;48;48;48;48;48;48;48;48;48;48;48;48;48;48;48;48;48;48;48;48;48;48;48;48;48;54;114;55;102;53;57], Raise EValueErr);
  ([43;48;48;48;48;48;48;48;48;48;48;48;48;48;48;48;48;48;48;48;48;48;48;48;48;48;48;55;56;51;101;54], Ok 492518);
  ([43;48;48;48;48;48;48;48;48;48;48;48;48;48;48;48;48;48;48;48;48;48;48;48;48;48;48;57;57;54;51;56], Ok 628280);
  ([43;49;101;100;100;100;97;56;98;102;54;51;97;99;56;57;102;48;100;98;56;55;114;49;100;53;100;50;56;102;98;53;50], Raise EValueErr);
  ([43;49;50;100;50;52;50;56;52;101;101;102;51;101;101;98;51;103;56;49;54;51;48;53;50;48;53;57;52;102;49;100], Raise EValueErr);
  ([43;49;57;57;53;51;57;57;48;51;99;99;48;48;98;100;52;100;0;97;52;110;55;56;99;49;52;51;50;53;56;56], Raise EValueErr);
  ([43;49;98;52;97;51;101;50;102;51;102;54;101;53;52;99;114;48;54;100;95;97;55;102;50;48;102;31;101;101;99;53], Raise EValueErr);
  ([43;50;55;48;100;55;51;52;52;98;100;100;48;98;99;98;51;52;97;48;48;48;53;97;97;101;50;49;101;102], Raise EValueErr);
  ([43;51;55;51;52;52;51;56;100;53;102;56;100;43;114;97;28;56;100;56;57;50;98;54;48;55;50;97;102;55;56;102;56], Raise EValueErr);
  ([43;51;97;102;55;54;54;97;49;99;50;57;101;117;53;55;57;100;100;51;53;51;99;49;57;57;56;49;100;97;98;53], Raise EValueErr);
  ([43;52;49;50;102;99;54;101;50;99;49;49;100;100;54;55;49;97;50;57;53;10;53;48;97;99;101;101;102;97;102;48;99], Raise EValueErr);
  ([43;52;49;56;53;48;98;98;57;98;99;52;100;54;98;53;51;100;102;98;99;50;97;56;53;98;51;49;99;55;52], Raise EValueErr);
  ([43;53;31;101;55;56;52;50;53;100;56;55;54;54;54;98;101;56;97;49;101;50;54;53;101;101;97;98;55;56;57;102;55], Raise EValueErr);
  ([43;54;100;55;98;100;101;48;99;100;99;52;52;54;51;120;54;99;99;97;48;97;57;48;49;55;54;102;102;54;50;98;102], Raise EValueErr);
  ([43;54;99;54;99;97;45;55;49;102;48;52;97;53;52;50;99;56;50;53;55;48;52;49;97;56;57;57;50;52;48;97;49], Ok 9007548826587953224775245456315924641);
  ([43;55;100;58;100;97;57;99;48;56;101;51;101;48;100;53;48;56;97;51;57;99;49;55;97;56;57;102;51;101;54;48], Raise EValueErr);
  ([43;55;99;56;97;52;51;48;98;56;101;50;55;49;56;102;52;98;49;57;50;49;100;51;100;53;55;97;99;100;54;100], Ok 10346385517547171507739239797311065453);
  ([43;56;54;97;102;48;100;50;99;49;50;54;54;53;50;49;57;97;102;48;48;54;49;98;56;54;102;52;101;102;54;100], Ok 11189091909280046763854039708331208557);
  ([43;56;54;98;120;101;98;57;52;102;110;53;52;57;55;102;97;98;51;51;56;52;101;48;54;52;49;49;43;97;56;57;99], Raise EValueErr);
  ([43;97;101;48;99;98;50;114;57;54;99;52;53;99;52;49;54;52;53;98;55;52;49;100;51;52;53;54;52;101;99;57], Raise EValueErr);
  ([43;98;48;52;52;101;54;48;102;98;54;54;52;97;57;49;52;98;57;55;57;54;100;99;101;55;102;51;102;98;57;101], Ok 14643866852725300146228392131447487390);
  ([43;98;97;57;48;53;99;52;101;97;52;52;56;97;50;53;57;54;50;52;52;97;102;9;98;57;98;49;102;97], Raise EValueErr);
  ([43;98;98;55;49;54;53;52;97;53;97;101;110;49;101;98;100;48;51;57;101;50;55;52;51;101;54;49;52;54;100;100;53], Raise EValueErr);
  ([45;100;49;52;57;97;51;50;98;102;99;53;101;49;49;55;55;53;52;98;49;49;101;97;58;100;98;99;55;52;56;53], Raise EValueErr);
  ([45;100;50;51;53;102;98;53;56;52;54;49;48;101;102;100;50;100;53;56;101;98;101;51;56;98;55;53;97;100;49;55], Raise EValueErr);
  ([45;100;53;98;57;53;97;48;102;48;99;97;54;100;50;100;101;101;54;54;98;101;53;102;100;100;55;48;101;48;49], Raise EValueErr);
  ([45;101;53;49;54;55;53;98;98;57;101;57;53;48;125;56;53;57;98;100;97;0;99;100;54;100;97;49;49;100;54;98;52], Raise EValueErr);
  ([45;101;57;57;48;48;99;53;102;54;51;101;99;55;49;50;53;49;51;101;54;56;101;99;57;102;97;52;53;49;49;98], Raise EValueErr);
  ([45;102;52;53;110;53;100;49;53;98;53;49;56;49;48;100;101;48;53;101;100;97;51;50;48;57;56;101;51;54;100;31;52], Raise EValueErr);
  ([45;102;99;54;51;56;51;51;53;102;57;102;98;53;98;101;53;97;53;100;102;57;48;101;56;51;49;54;48;51;101], Raise EValueErr);
  ([45;48;48;48;120;48;48;48;48;48;48;48;48;48;48;48;48;48;48;48;103;48;48;48;48;48;48;97;56;48;101;53], Raise EValueErr);
  ([45;48;48;48;48;120;48;48;48;48;48;114;48;48;48;48;48;48;48;48;48;48;48;48;48;48;48;55;50;54;99;100], Raise EValueErr);
  ([45;48;48;48;48;48;48;48;11;48;48;48;48;48;48;48;48;48;48;48;48;48;48;48;48;48;48;31;51;55;102;49;57], Raise EValueErr);
  ([45;48;48;48;48;48;48;48;48;48;117;48;48;48;48;48;48;48;48;48;48;48;48;48;48;48;54;43;102;52;100], Raise EValueErr);
  ([45;48;48;48;48;48;48;48;48;48;48;48;48;48;48;48;48;48;120;48;48;48;48;48;48;48;48;48;54;56;53;51;52], Raise EValueErr);
  ([45;48;48;48;48;48;48;48;48;48;48;48;48;48;48;48;48;48;48;48;48;48;48;48;123;48;48;48;97;51;57;98], Raise EValueErr);
  ([45;48;48;48;48;48;48;48;48;48;48;48;48;48;48;48;48;48;48;48;48;48;48;48;48;48;48;48;48;0;57;53], Raise EValueErr);
  ([45;48;48;48;48;48;48;48;48;48;48;48;48;48;48;48;48;48;48;48;48;48;48;48;48;48;48;53;97;101;55], Raise EValueErr);
  ([45;48;48;48;48;48;48;48;48;48;48;48;48;48;48;48;48;48;48;48;48;48;48;48;48;48;53;49;57;55;43;98], Raise EValueErr);
  ([45;48;48;48;48;48;48;48;48;48;48;48;48;48;48;48;48;48;48;48;48;48;48;48;48;48;99;98;49;48;55], Raise EValueErr);
  ([45;50;48;101;49;54;54;48;53;57;102;52;99;52;57;98;99;99;50;97;56;99;50;52;48;54;55;50;56;56;99;105], Raise EValueErr);
  ([45;50;53;56;102;51;101;51;50;45;57;100;56;57;56;57;50;48;49;53;57;102;53;51;55;48;49;97;99;56;49;51], Raise EValueErr);
  ([45;50;99;56;51;57;101;56;102;49;48;52;98;49;102;48;53;52;55;101;56;52;101;54;101;52;54;98;101;57;50;101], Raise EValueErr);
  ([45;51;10;55;55;53;51;57;52;55;54;48;50;101;53;102;102;102;99;97;57;54;52;100;48;50;48;53;99;54;53;55], Raise EValueErr);
  ([45;51;99;97;100;56;98;53;48;49;101;50;101;31;101;101;49;52;100;97;52;52;102;54;48;101;56;54;55;51;48;98;98], Raise EValueErr);
  ([45;52;48;101;51;55;101;54;52;49;48;49;102;48;97;53;57;48;56;50;50;97;97;54;97;55;102;97;11;99;49;102], Raise EValueErr);
  ([45;52;48;97;100;50;54;101;55;51;57;102;97;50;48;50;101;55;102;56;57;97;101;57;57;56;58;57;51;56;55;125;31;57], Raise EValueErr);
  ([45;52;57;48;51;53;53;71;49;57;49;49;50;102;54;100;99;55;54;101;43;98;48;52;49;102;102;102;48;102;55;53;48;54], Raise EValueErr);
  ([45;53;101;110;49;100;55;99;101;102;100;99;57;100;49;98;98;99;56;50;102;53;50;99;98;50;54;50;53;48;56;53;53], Raise EValueErr);
  ([45;53;56;57;97;53;56;110;101;57;50;55;54;98;54;100;53;49;52;54;56;56;97;52;56;97;54;53;101;98;100;100], Raise EValueErr);
  ([45;54;52;48;55;56;54;98;99;49;48;56;50;102;101;52;55;57;50;57;100;54;49;55;97;97;48;53;50;48;57], Raise EValueErr);
  ([45;57;51;102;97;52;101;97;98;99;49;49;55;98;102;99;101;49;54;100;53;55;99;57;100;49;43;102;100;102;31;57], Raise EValueErr);
  ([45;97;98;97;57;98;98;55;98;54;50;97;102;51;97;55;32;52;51;101;53;97;48;52;53;48;52;101;102;54;48;53;56], Raise EValueErr);
  ([45;98;100;56;102;54;98;97;101;100;50;48;102;48;52;97;102;54;102;57;102;98;51;51;101;56;51;56;102;50;55;100], Raise EValueErr);
  ([45;99;51;102;102;71;49;100;98;56;54;9;49;50;56;97;57;56;48;49;102;57;56;56;51;51;98;56;50;52;52], Raise EValueErr);
  ([48;103;48;48;48;48;48;48;95;48;48;48;48;48;48;48;48;48;48;48;48;48;48;48;48;48;52;99;99;54;52], Raise EValueErr);
  ([48;10;58;52;57;100;99;48;101;51;49;57;102;57;54;49;52;97;54;50;99;52;55;53;56;99;50;101;54;54;100], Raise EValueErr);
  ([48;120;100;51;102;105;49;52;101;100;48;101;98;55;57;45;101;97;49;56;51;53;99;0;51;102;57;52;57;52;48;49], Raise EValueErr);
  ([48;120;100;98;52;97;101;54;53;101;50;49;50;102;53;100;102;97;49;54;57;101;53;100;55;97;97;102;57;49;55;54], Ok 1138632161938884915103575342308102518);
  ([48;120;101;55;56;98;53;49;55;52;97;53;100;100;98;100;56;98;100;45;100;49;102;100;55;57;125;51;98;100;99;100], Raise EValueErr);
  ([48;120;105;102;98;55;97;55;52;102;101;101;55;54;54;99;49;57;49;52;101;54;48;48;48;49;48;98;97;54;53;53], Raise EValueErr);
  ([48;120;120;95;57;52;98;100;48;97;54;55;50;56;48;101;100;49;49;98;98;51;101;98;49;97;48;99;50;102;102;49;102], Raise EValueErr);
  ([48;120;48;48;48;11;48;48;48;48;48;48;48;48;48;48;48;48;48;48;120;48;48;48;48;48;55;101;48;48;54], Raise EValueErr);
  ([48;120;48;48;48;48;48;48;48;48;48;48;48;48;48;100;48;48;48;48;48;48;48;48;48;48;48;57;53;52;100;98], Ok 239807672958224782555);
  ([48;120;48;48;48;48;48;48;48;48;48;48;48;48;48;48;0;48;48;48;48;48;48;48;48;48;48;48;53;98;49;99;98], Raise EValueErr);
  ([48;120;48;48;48;48;48;48;48;48;48;48;48;48;48;48;100;48;48;48;48;48;48;48;48;48;48;97;56;99;49;100], Ok 14987979559889701917);
  ([48;120;48;48;48;48;48;48;48;48;48;48;48;48;48;48;48;48;48;28;48;48;48;48;48;48;99;102;52;52;97], Raise EValueErr);
  ([48;120;48;48;48;48;48;48;48;48;48;48;48;48;48;48;48;48;48;48;48;105;48;48;48;48;48;98;54;54;52;57], Raise EValueErr);
  ([48;120;48;48;48;48;48;48;48;48;48;48;48;48;48;48;48;48;48;48;48;48;48;105;48;48;48;48;98;53;101;100;48], Raise EValueErr);
  ([48;120;48;48;48;48;48;48;48;48;48;48;48;48;48;48;48;48;48;48;48;48;48;48;48;100;51;53;99;52], Raise EValueErr);
  ([48;120;48;48;48;48;48;48;48;48;48;48;48;48;48;48;48;48;48;48;48;48;48;48;48;48;48;55;97;50;97;50], Ok 500386);
  ([48;120;48;48;48;48;48;48;48;48;48;48;48;48;48;48;48;48;48;48;48;48;48;48;48;48;99;56;49;102;55], Raise EValueErr);
  ([48;120;48;48;48;48;48;48;48;48;48;48;48;48;48;48;48;48;48;48;71;48;48;48;48;48;48;48;48;53;101;100;97], Raise EValueErr);
  ([48;120;48;48;48;48;48;48;48;48;48;9;48;48;48;48;48;48;48;48;48;48;48;48;48;48;48;48;55;98;55;52;98], Raise EValueErr);
  ([48;120;48;48;48;48;48;48;48;48;58;48;48;48;48;48;48;48;48;48;48;48;48;48;48;48;48;48;102;100;31;54;52], Raise EValueErr);
  ([48;120;48;48;99;50;50;99;97;102;48;50;100;99;99;102;101;48;101;101;52;101;50;55;98;52;102;51;53;55;97], Raise EValueErr);
  ([48;120;48;54;52;53;101;97;52;53;55;52;48;51;54;102;52;49;51;56;56;101;98;55;51;54;48;52;98;56;103;54], Raise EValueErr);
  ([48;120;50;102;57;55;56;55;101;49;51;45;102;99;57;56;54;101;102;99;56;100;98;50;52;57;53;101;100;97;54;49], Raise EValueErr);
  ([48;120;50;48;102;102;56;55;48;57;101;97;100;51;100;57;57;57;98;101;98;53;99;53;56;95;48;100;48;49;54;52], Ok 10708513299577453080526743050977636);
  ([48;120;50;49;50;51;49;99;98;54;54;54;101;52;54;28;97;97;56;100;50;49;101;100;49;56;52;102;51;101;99;49;100], Raise EValueErr);
  ([48;120;50;99;55;49;50;51;57;98;57;98;55;55;52;98;48;102;57;51;102;100;97;53;99;102;51;51;48;56;102;51], Ok 230755795204556424253603463069632755);
  ([48;120;50;99;56;28;55;51;102;51;98;50;101;53;100;56;56;52;98;50;52;97;50;57;55;100;55;50;101;98;102;53], Raise EValueErr);
  ([48;120;51;51;56;97;50;55;53;97;49;53;48;100;97;101;53;52;99;100;49;57;54;53;99;97;117;51;100;54;99;101], Raise EValueErr);
  ([48;120;51;56;56;57;50;52;57;97;50;97;98;55;98;102;55;101;43;97;53;48;55;54;52;99;53;101;50;97;56;56;57], Raise EValueErr);
  ([48;120;52;101;54;99;101;57;57;49;57;52;50;11;98;57;99;101;50;52;99;52;54;53;101;55;97;57;51;52;50;54;98], Raise EValueErr);
  ([48;120;54;52;114;102;52;99;57;53;101;48;52;57;48;51;102;100;97;49;48;51;98;101;49;99;97;102;101;101;48], Raise EValueErr);
  ([48;120;56;55;49;50;55;52;101;98;0;55;54;101;52;97;48;99;99;99;97;102;98;125;52;99;11;49;51;57;52;99;56], Raise EValueErr);
  ([48;120;57;52;101;55;50;53;48;57;98;48;51;52;56;48;97;48;50;49;53;57;50;57;98;101;97;114;56;102;57;45;98], Raise EValueErr);
  ([48;120;57;97;50;54;97;97;98;101;50;57;50;52;50;52;53;98;100;49;57;53;102;48;48;57;55;53;52;49;100;99], Ok 800397975418818143759364333130564060);
  ([48;120;57;97;54;110;101;48;56;57;51;99;54;48;100;98;48;99;97;53;56;102;102;55;123;49;49;50;99;101;56;50;56;98], Raise EValueErr);
  ([48;120;95;100;101;56;48;48;71;101;114;100;51;53;49;100;100;102;56;100;49;57;53;98;49;57;100;54;54;54;54;57], Raise EValueErr);
  ([48;120;95;105;48;48;48;48;48;48;48;48;48;48;48;48;48;48;48;48;48;48;48;48;48;48;48;9;98;97;99;102], Raise EValueErr);
  ([48;120;95;117;48;97;98;48;48;53;101;57;54;98;57;57;102;97;53;97;56;97;50;97;51;52;99;98;54;51;100;99], Raise EValueErr);
  ([48;120;95;48;101;57;49;56;102;97;102;56;99;117;50;98;97;100;98;50;99;53;52;48;101;51;55;48;51;98;99;99;48], Raise EValueErr);
  ([48;120;95;48;48;48;48;48;48;48;48;48;48;48;28;48;48;48;48;48;48;48;48;48;48;48;101;98;99;56;97], Raise EValueErr);
  ([48;120;95;48;48;48;48;48;48;48;48;48;48;48;48;120;48;48;48;48;48;48;48;48;48;48;48;49;48;99;52;50], Raise EValueErr);
  ([48;120;95;48;48;48;48;48;48;48;48;48;48;48;48;48;48;48;48;110;48;48;48;48;48;48;56;55;51;98;98], Raise EValueErr);
  ([48;120;95;48;48;48;48;48;48;48;48;48;48;48;48;48;48;48;48;48;110;48;48;48;48;48;48;99;57;101;52;98], Raise EValueErr);
  ([48;120;95;48;48;48;48;48;48;48;48;48;48;48;48;48;48;48;48;48;48;48;48;48;48;48;48;51;52;99;55], Raise EValueErr);
  ([48;120;95;48;48;48;48;48;48;48;48;48;48;48;48;48;48;48;48;48;48;48;48;48;48;48;48;52;56;57;97;98], Ok 297387);
  ([48;120;95;48;48;48;48;48;48;48;48;48;48;48;48;48;48;48;48;48;48;48;48;48;48;48;48;54;51;57;101;98], Ok 408043);
  ([48;120;95;48;48;48;48;48;48;48;48;48;48;48;48;48;48;48;48;48;48;48;48;48;48;48;48;54;54;56;97;100], Ok 420013);
  ([48;120;95;48;48;48;48;48;48;48;48;48;48;48;48;48;48;48;48;48;48;48;48;48;48;48;48;98;51;110;100;52], Raise EValueErr);
  ([48;120;95;48;48;48;48;48;48;48;48;48;48;48;48;48;48;48;48;48;48;48;48;48;48;48;50;97;50;55;52], Raise EValueErr);
  ([48;120;95;48;48;48;48;48;48;48;48;48;58;48;48;48;48;48;48;48;48;48;48;48;48;48;48;48;102;57;57;56;57], Raise EValueErr);
  ([48;120;95;48;51;56;56;51;49;53;57;57;51;48;52;56;53;55;98;52;101;97;56;57;55;57;99;52;54;49;100;51], Ok 1146200511472726897935610619912659);
  ([48;120;95;50;101;97;51;55;97;51;55;51;55;57;98;51;101;100;49;101;49;57;97;54;71;99;55;53;51;100;57;100], Raise EValueErr);
  ([48;120;95;51;100;56;57;99;48;57;51;55;100;55;54;102;56;56;54;53;50;101;51;102;31;102;57;101;57;45;98;100;100], Raise EValueErr);
  ([48;120;95;51;51;100;100;50;97;52;57;98;52;53;53;55;100;56;48;48;48;99;50;53;54;50;50;52;43;51;52;101], Raise EValueErr);
  ([48;120;95;51;99;49;98;54;53;100;99;110;49;55;51;43;52;102;32;51;48;50;102;56;51;98;50;102;99;48;57;50;97;98], Raise EValueErr);
  ([48;120;95;52;57;57;99;52;51;102;50;57;56;102;53;102;57;97;54;53;52;98;55;49;50;101;99;48;97;57;52;57], Ok 23887944371149451221212140851472713);
  ([48;120;95;52;97;102;101;49;49;53;49;51;57;28;97;98;56;49;54;52;49;97;101;52;53;49;53;51;97;55;56;50], Raise EValueErr);
  ([48;120;95;53;51;100;48;100;50;57;100;49;54;51;57;101;50;100;49;97;100;110;98;97;52;52;52;97;55;102;102;101], Raise EValueErr);
  ([48;120;95;53;56;100;55;56;102;52;56;101;55;55;50;52;100;57;100;99;52;57;54;48;51;98;55;52;52;51;100;53], Ok 28830887112863239579165601100481493);
  ([48;120;95;53;57;57;99;99;99;97;56;97;56;57;52;98;49;98;52;56;52;57;51;97;50;56;57;97;53;99;98;101], Ok 29080918190637850340768623669959870);
  ([48;120;95;54;48;52;99;52;57;99;100;99;100;54;57;99;98;55;97;32;50;55;50;50;50;102;51;54;100;50;99;99], Raise EValueErr);
  ([48;120;95;54;49;49;52;56;50;55;55;49;97;101;55;102;97;52;101;56;57;102;49;97;102;102;101;54;55;99;50], Raise EValueErr);
  ([48;120;95;56;102;56;55;102;102;53;50;54;51;99;51;51;52;56;98;55;56;56;100;98;48;53;57;125;50;55;97;51], Raise EValueErr);
  ([48;120;95;57;55;53;100;53;54;56;99;48;49;48;99;99;56;97;102;28;55;97;57;54;52;49;56;54;100;56;55;51;97;53], Raise EValueErr);
  ([48;120;95;71;49;53;102;102;102;99;52;52;57;99;55;48;31;98;98;99;52;56;55;48;101;55;49;101;52;53;54;55], Raise EValueErr);
  ([48;120;95;97;48;51;100;50;49;52;48;57;52;57;97;99;48;54;52;95;51;53;57;98;105;97;56;50;99;98;102;56], Raise EValueErr);
  ([48;120;95;99;102;53;57;51;56;45;100;101;99;57;51;49;48;57;52;52;48;57;57;57;56;53;100;52;99;102;57;50], Raise EValueErr);
  ([48;120;97;48;54;101;55;101;99;49;49;51;52;54;55;51;53;52;99;50;56;10;52;48;100;56;50;50;48;55;97], Raise EValueErr);
  ([48;120;97;56;53;125;50;55;51;51;56;57;52;114;49;50;50;101;97;53;98;53;48;53;48;57;100;57;99;99;102;99;101], Raise EValueErr);
  ([48;120;99;97;49;54;51;50;98;97;97;101;97;53;48;101;53;98;53;49;54;55;97;50;57;55;98;49;57;57;56;117;52], Raise EValueErr);
  ([48;120;99;99;101;98;56;52;100;10;50;55;53;48;52;102;54;54;98;50;51;102;48;101;52;53;48;97;101;102;54;100;54], Raise EValueErr);
  ([48;48;110;48;48;48;48;48;48;48;48;48;43;48;48;48;48;48;48;48;48;48;48;48;48;48;56;98;49;51;98], Raise EValueErr);
  ([48;48;123;48;125;48;48;48;48;45;48;48;48;48;45;48;48;48;48;45;48;48;48;48;45;48;48;48;48;48;48;48;66;67;70;49;53], Raise EValueErr);
  ([48;48;48;0;48;48;48;48;48;45;48;48;48;48;45;48;48;48;48;45;48;48;48;48;45;48;48;48;123;48;48;48;52;50;56;49;52], Raise EValueErr);
  ([48;48;48;48;48;11;48;48;48;48;48;48;48;48;48;48;48;48;48;48;48;48;48;48;48;48;48;48;48;55;99;101;48], Raise EValueErr);
  ([48;48;48;48;48;48;117;48;48;48;48;48;48;48;48;48;48;48;48;48;48;48;48;48;48;48;48;48;99;101;49;57;51], Raise EValueErr);
  ([48;48;48;48;48;48;48;0;48;48;48;48;48;48;48;48;48;48;48;48;48;48;48;48;48;48;48;48;57;57;99;52;56], Raise EValueErr);
  ([48;48;48;48;48;48;48;48;45;48;48;48;48;45;48;48;28;45;48;48;48;48;45;48;48;48;48;48;48;48;48;49;56;55;67], Raise EValueErr);
  ([48;48;48;48;48;48;48;48;45;48;48;48;48;45;48;48;48;31;45;48;48;48;48;45;48;48;48;48;48;48;48;48;51;51;55;66], Raise EValueErr);
  ([48;48;48;48;48;48;48;48;45;48;48;48;48;45;48;48;48;48;45;48;48;43;48;45;48;48;48;48;48;48;48;53;56;65;66], Raise EValueErr);
  ([48;48;48;48;48;48;48;48;45;48;48;48;48;45;48;48;48;48;45;48;48;48;48;45;117;48;48;48;48;48;48;49;57;54;66;65], Raise EValueErr);
  ([48;48;48;48;48;48;48;48;45;48;48;48;48;45;48;48;48;48;45;48;48;48;48;45;48;48;48;43;48;48;48;48;53;67;9;125;49], Raise EValueErr);
  ([48;48;48;48;48;48;48;48;45;48;48;48;48;45;48;48;48;48;45;48;48;48;48;45;48;48;48;48;48;48;123;48;97;102;51;98;50], Raise EValueErr);
  ([48;48;48;48;48;48;48;48;45;48;48;48;48;45;48;48;48;48;45;48;48;48;48;45;48;48;48;48;48;48;48;50;54;67;53;69], Ok 158814);
  ([48;48;48;48;48;48;48;48;45;48;48;48;48;45;48;48;48;48;45;48;48;48;48;45;48;48;48;48;48;48;48;55;57;49;101;56], Ok 496104);
  ([48;48;48;48;48;48;48;48;45;48;48;48;48;45;48;48;48;48;45;48;48;48;48;45;48;48;48;48;48;48;48;57;57;68;70;54], Ok 630262);
  ([48;48;48;48;48;48;48;48;45;48;48;48;48;45;48;48;48;48;45;48;48;48;48;45;48;48;48;48;48;48;71;66;52;57;53;52], Raise EValueErr);
  ([48;48;48;48;48;48;48;48;45;48;48;48;48;45;48;48;48;48;45;48;48;48;48;48;48;48;48;48;48;48;51;49;54;69;65], Ok 202474);
  ([48;48;48;48;48;48;48;48;45;48;9;48;48;48;45;48;48;48;48;45;48;48;48;48;45;48;48;48;48;48;48;48;53;54;53;99;51], Raise EValueErr);
  ([48;48;48;48;48;48;48;48;48;48;48;48;0;48;48;48;48;48;114;48;48;48;48;48;48;48;48;55;101;56;99;101], Raise EValueErr);
  ([48;48;48;48;48;48;48;48;48;48;48;48;11;48;48;48;48;48;48;48;48;48;48;48;48;48;48;101;56;99], Raise EValueErr);
  ([48;48;48;48;48;48;48;48;48;48;48;48;48;48;32;48;48;48;48;48;48;48;48;48;48;48;48;56;99;52;101], Raise EValueErr);
  ([48;48;48;48;48;48;48;48;48;48;48;48;48;48;48;48;103;48;48;48;48;48;48;48;48;48;102;99;49;102;50;32], Raise EValueErr);
  ([48;48;48;48;48;48;48;48;48;48;48;48;48;48;48;48;48;48;48;48;48;48;10;48;48;48;50;55;49;99;53;32], Raise EValueErr);
  ([48;48;48;48;48;48;48;48;48;48;48;48;48;48;48;48;48;48;48;48;48;48;120;48;48;48;48;48;56;48;52;54;55], Raise EValueErr);
  ([48;48;48;48;48;48;48;48;48;48;48;48;48;48;48;48;48;48;48;48;48;48;48;48;48;48;48;101;52;99;50], Raise EValueErr);
  ([48;48;48;48;48;48;48;48;48;48;48;48;48;48;48;48;48;48;48;48;48;48;48;48;48;48;48;50;52;50;52], Raise EValueErr);
  ([48;48;48;48;48;48;48;48;48;48;48;48;48;48;48;48;48;48;48;48;48;48;48;48;48;48;48;54;55;49;56;57], Ok 422281);
  ([48;48;48;48;48;48;48;48;48;48;48;48;48;48;48;48;48;48;48;48;48;48;48;48;48;48;48;99;51;45;50;101;50], Ok 799458);
  ([48;48;48;48;48;48;48;48;48;48;48;48;48;48;48;48;48;48;48;48;48;48;48;48;48;48;54;102;57;54;50;32], Ok 457058);
  ([48;48;48;48;48;48;48;48;48;48;48;48;48;48;48;48;48;48;48;48;48;48;48;48;48;48;99;98;97;101;56;32], Ok 834280);
  ([48;48;48;48;48;48;48;48;48;48;48;48;48;48;48;48;48;48;48;48;48;48;48;48;48;55;54;48;101;51;32], Raise EValueErr);
  ([48;48;48;48;48;48;48;48;48;48;48;48;48;48;48;48;48;48;48;48;48;48;48;48;48;56;53;57;50], Raise EValueErr);
  ([48;48;48;48;48;48;48;48;71;45;48;48;48;48;45;48;48;48;48;45;48;48;48;48;45;48;48;48;48;95;48;48;55;67;66;50;45], Raise EValueErr);
  ([48;48;48;71;48;48;48;48;48;48;100;48;48;48;48;48;48;48;48;48;48;48;48;48;48;97;48;51;55;102;32], Raise EValueErr);
  ([48;48;66;53;51;56;66;51;45;65;52;50;51;45;50;48;50;68;45;49;67;48;69;45;69;57;66;54;65;51;31;57;49;57;48;69;66], Raise EValueErr);
  ([48;49;101;53;54;49;55;99;54;99;54;57;49;102;99;54;48;56;50;48;49;99;57;50;101;48;49;100;50;48;50], Raise EValueErr);
  ([48;50;49;102;99;99;57;100;45;51;102;52;97;45;51;56;48;100;45;98;54;102;50;45;57;48;52;99;100;97;98;54;98;56;97;11], Ok 176472954009521994841827512400178058);
  ([48;50;99;53;100;55;48;53;101;49;55;50;50;101;48;50;54;100;97;57;101;45;51;49;52;51;50;53;103;48;48;52], Raise EValueErr);
  ([48;53;101;53;51;100;50;54;98;99;49;101;49;54;50;48;48;56;100;51;101;52;53;55;52;50;100;100;52;55;98], Raise EValueErr);
  ([48;56;50;49;100;54;55;100;54;51;54;102;97;102;56;57;53;57;54;48;97;49;51;99;102;49;54;55;28;57;51], Raise EValueErr);
  ([48;88;100;102;100;51;54;51;97;49;55;98;114;54;53;53;100;97;52;51;98;53;97;48;101;97;97;50;99;51;48;101], Raise EValueErr);
  ([48;88;100;57;102;102;98;51;97;101;56;98;52;55;102;49;97;99;50;48;56;102;102;100;49;102;51;49;50;55;102;103], Raise EValueErr);
  ([48;88;48;48;48;48;48;48;48;48;48;48;48;48;48;48;48;48;48;28;48;48;48;48;48;48;48;48;56;50;55;98;55], Raise EValueErr);
  ([48;88;48;48;48;48;48;48;48;48;48;48;48;48;48;48;48;48;48;48;10;48;48;48;48;48;48;114;98;100;97;51], Raise EValueErr);
  ([48;88;48;48;48;48;48;48;48;48;48;48;48;48;48;48;48;48;48;48;48;48;48;48;48;48;48;101;120;51;97;52], Raise EValueErr);
  ([48;88;48;48;48;48;48;48;48;48;48;48;48;48;48;48;48;48;48;48;48;48;48;48;48;48;48;51;56;100;102;102], Ok 232959);
  ([48;88;48;48;48;48;48;48;48;48;48;48;48;48;48;48;48;48;48;48;95;48;48;114;48;48;53;54;100;102;50], Raise EValueErr);
  ([48;88;48;48;48;9;48;48;11;48;125;48;48;48;48;48;48;48;48;48;48;48;48;48;48;48;48;48;48;56;98;51;97], Raise EValueErr);
  ([48;88;50;55;98;51;50;50;99;102;56;57;51;51;54;97;50;56;97;57;48;100;55;48;100;102;54;48;54;56;95;99], Ok 12883305424293755049192093400827532);
  ([48;88;51;101;123;98;51;50;51;49;52;48;53;101;48;100;52;98;98;52;98;102;48;49;98;49;54;102;97;56;54;103;54], Raise EValueErr);
  ([48;88;52;49;53;52;110;50;102;56;48;97;101;102;97;102;56;55;98;100;102;48;101;102;51;54;53;57;98;99;100;100;100], Raise EValueErr);
  ([48;88;52;54;99;51;50;54;52;97;99;55;51;53;52;57;50;57;48;50;49;50;51;102;99;54;97;49;51;55;99;51], Ok 367418883783044151648333145743374275);
  ([48;88;52;55;49;48;54;101;57;54;53;99;48;54;49;100;123;53;53;55;53;55;50;99;53;56;100;102;54;101;52;50], Raise EValueErr);
  ([48;88;52;56;101;52;56;99;53;101;97;100;99;53;54;56;99;52;102;49;56;98;51;99;48;50;98;51;52;97;101;51], Ok 378480884448559495967672089084906211);
  ([48;88;55;48;101;54;97;98;53;99;52;102;102;50;97;56;102;49;98;57;99;99;52;99;98;48;48;54;49;51;52;102], Ok 586215778949802490267990481086845775);
  ([48;88;55;49;98;101;98;98;101;97;49;51;51;54;52;49;50;56;55;53;50;49;100;100;100;100;102;50;50;99;52;50], Ok 590598090948237605346763414132894786);
  ([48;88;56;48;102;56;50;53;48;101;51;54;49;101;52;120;53;98;50;56;48;48;57;53;50;100;54;48;100;57;50;56], Raise EValueErr);
  ([48;88;56;49;97;57;99;55;56;101;53;52;56;49;48;52;102;51;52;54;48;102;53;102;48;99;100;49;57;49;50;49], Ok 673249832427380675056872816345452833);
  ([48;88;57;56;52;100;100;57;49;101;97;56;100;100;99;51;52;49;101;51;102;49;52;49;48;54;53;48;54;51;57], Raise EValueErr);
  ([48;88;97;45;55;51;55;102;48;97;56;97;120;50;55;98;53;49;52;53;51;53;50;102;55;100;48;52;48;52;101;99;50;101], Raise EValueErr);
  ([48;88;97;56;101;56;48;100;55;49;99;57;56;97;55;53;99;100;50;52;100;51;56;100;101;51;52;52;50;53;43;100], Raise EValueErr);
  ([48;88;98;51;51;100;53;54;54;48;71;97;50;100;99;53;57;57;52;56;98;52;50;57;52;101;51;55;100;52;102;101], Raise EValueErr);
  ([48;97;55;50;100;57;98;97;50;99;50;0;57;97;50;49;55;51;52;97;52;114;102;48;55;97;102;51;56;54;51;49;32], Raise EValueErr);
  ([49;101;48;102;56;49;100;99;49;102;101;55;100;101;101;32;50;55;48;53;50;55;51;56;49;55;51;100;55;48;98;57], Raise EValueErr);
  ([49;48;100;57;53;100;54;56;45;51;57;49;49;45;57;99;97;53;45;51;53;57;53;45;100;55;49;50;100;102;48;48;100;97;52;49], Ok 22396270872344689686188013662469413441);
  ([49;49;49;52;99;53;99;55;56;51;48;55;50;48;98;98;50;98;57;51;56;98;49;97;100;53;50;99;100;57;56], Raise EValueErr);
  ([49;50;56;57;101;50;49;49;102;49;56;50;54;28;51;55;48;97;56;49;51;97;55;97;50;99;54;49;53;99;51;32], Raise EValueErr);
  ([49;52;102;55;53;53;56;54;45;52;100;97;97;45;52;100;50;98;45;51;50;102;57;45;100;53;49;55;99;51;110;57;98;100;100;102;50], Raise EValueErr);
  ([49;54;49;97;50;48;98;53;45;97;53;51;54;45;49;51;101;49;45;100;49;55;57;45;54;98;99;101;51;50;48;55;56;51;98;52], Ok 29378679054125189162880150556610364340);
  ([49;56;102;49;52;54;97;49;54;98;51;99;99;48;98;49;50;56;53;99;50;56;100;57;98;54;53;55;54;102;54], Raise EValueErr);
  ([49;97;101;52;49;100;99;97;45;53;101;100;57;45;98;102;102;97;45;97;53;56;101;45;97;102;102;117;101;54;57;53;53;48;50;51], Raise EValueErr);
  ([49;97;98;55;51;99;99;102;101;99;50;56;53;56;55;56;98;102;99;52;100;99;99;98;57;99;49;49;57;101;53], Raise EValueErr);
  ([50;49;55;97;56;100;97;54;99;49;50;53;100;52;55;54;50;52;100;102;100;101;57;55;56;97;54;52;97;99;97], Raise EValueErr);
  ([50;50;97;55;52;51;103;53;51;45;51;99;56;99;45;54;97;57;57;45;98;50;102;101;45;101;102;50;48;99;52;97;101;52;54;99;100], Raise EValueErr);
  ([50;52;56;53;57;99;97;48;51;51;101;100;97;48;97;100;48;52;55;55;54;56;52;98;53;48;99;100;97;56;32], Raise EValueErr);
  ([50;55;50;52;98;99;101;51;102;53;98;56;54;101;56;49;51;52;49;50;98;52;97;102;57;43;102;98;54;52;54], Raise EValueErr);
  ([50;55;52;101;99;52;50;52;52;56;98;54;54;98;97;55;101;57;55;52;54;99;50;98;48;55;57;50;48;50;54;101], Ok 52248869217577055436141925353162670702);
  ([50;56;52;98;53;48;98;52;49;48;99;100;56;102;52;52;57;52;56;98;50;55;54;32;95;54;101;100;52;56;57], Raise EValueErr);
  ([51;101;98;102;57;50;100;57;99;102;51;98;57;56;53;101;48;100;56;48;53;101;56;99;55;102;50;49;51;48;54], Raise EValueErr);
  ([51;102;49;98;97;54;53;51;45;57;102;48;53;45;101;48;55;102;45;99;102;48;101;45;53;99;56;49;99;55;101;98;102;56;56;57], Ok 83884929254777056558581127269166348425);
  ([51;48;99;100;48;57;52;49;53;49;54;57;57;49;99;51;100;52;55;97;51;57;53;95;53;99;97;102;54;52;97], Raise EValueErr);
  ([51;49;49;53;50;55;53;50;45;52;69;69;69;45;49;68;70;52;117;45;54;52;57;65;45;69;52;66;53;53;67;54;65;52;57;69;48], Raise EValueErr);
  ([51;49;53;52;102;53;100;55;100;56;97;98;49;54;101;52;102;98;51;51;99;56;49;50;50;56;100;101;57;57], Raise EValueErr);
  ([51;51;56;50;99;101;100;99;49;49;48;54;54;48;49;48;54;50;56;100;100;102;98;99;100;101;97;51;123;102;32], Raise EValueErr);
  ([51;52;49;99;51;55;48;53;56;55;49;56;54;57;55;53;97;100;49;101;99;50;97;54;101;53;53;101;50;50;49;32], Ok 4329147253958350158910533840816955937);
  ([51;56;56;100;102;57;54;54;56;100;98;48;100;48;53;55;53;71;97;55;54;52;100;99;57;99;48;48;51;55;48;48], Raise EValueErr);
  ([51;99;51;102;102;56;102;51;102;55;55;57;49;101;49;53;55;57;49;53;102;117;51;50;49;56;48;98;101;50;50;32], Raise EValueErr);
  ([52;101;57;57;31;100;100;48;97;52;32;54;56;57;49;50;97;102;102;57;97;56;48;49;101;50;49;57;55;98;95;99;98;55], Raise EValueErr);
  ([52;102;52;53;102;51;98;97;99;55;97;52;98;101;51;98;55;97;55;51;101;48;48;52;98;53;97;102;100;99;32], Raise EValueErr);
  ([52;70;57;53;67;67;65;54;45;53;65;53;110;56;45;54;54;57;68;45;51;56;56;69;45;49;54;48;69;65;70;48;49;70;49;68;49], Raise EValueErr);
  ([52;97;50;55;101;99;52;53;45;48;49;55;45;48;54;101;45;48;49;54;49;45;55;102;57;57;49;98;53;52;56;99;97;97], Raise EValueErr);
  ([52;97;57;98;51;102;97;99;99;100;117;49;57;55;99;99;51;100;51;55;97;97;98;101;102;54;52;48;57;57;48;123], Raise EValueErr);
  ([52;98;51;98;52;56;100;55;52;50;48;55;50;49;54;56;51;97;97;54;102;48;53;55;48;102;101;117;98;49;100;50], Raise EValueErr);
  ([53;54;53;56;102;97;102;52;49;101;98;102;105;56;54;99;52;50;99;54;57;51;98;48;99;49;49;48;53;55;100;71], Raise EValueErr);
  ([53;54;55;50;102;55;97;57;9;53;49;48;100;99;56;56;101;99;55;101;98;101;99;100;101;102;55;100;55;100;57;101], Raise EValueErr);
  ([53;57;49;53;55;102;50;57;54;55;102;99;101;110;98;100;97;98;56;54;101;100;101;52;52;57;52;9;98;97;56], Raise EValueErr);
  ([53;57;49;99;101;49;56;51;45;56;49;54;100;45;97;54;110;48;51;45;52;97;105;55;45;50;101;54;100;51;54;99;56;101;55;57;48], Raise EValueErr);
  ([54;101;53;101;51;56;99;51;100;49;98;49;57;56;48;50;56;100;54;102;54;55;48;55;57;101;100;57;98], Raise EValueErr);
  ([54;52;100;54;99;100;100;55;57;98;56;53;56;50;53;101;56;57;10;53;57;52;100;102;53;51;100;55;51;97;101], Raise EValueErr);
  ([54;53;48;101;49;54;99;105;99;54;57;54;51;50;52;102;100;98;55;49;55;51;55;49;50;51;100;100;98;51;99;56;32], Raise EValueErr);
  ([54;97;100;53;97;52;52;51;57;50;100;98;98;49;99;49;49;100;50;49;97;50;117;56;98;55;53;99;55;57;97;32], Raise EValueErr);
  ([54;98;97;56;99;100;50;100;100;55;56;101;49;48;48;50;98;54;57;101;102;50;56;50;54;97;99;98;56;101;101;57;32], Raise EValueErr);
  ([54;99;56;98;53;55;48;55;45;101;99;48;100;45;53;98;56;52;103;48;52;100;55;45;55;102;56;51;50;101;57;98;98;50;50;51], Raise EValueErr);
  ([55;101;101;100;101;55;57;48;45;99;48;56;52;45;53;97;56;53;45;54;95;56;98;45;51;99;51;102;50;51;99;48;51;53;52], Raise EValueErr);
  ([55;105;102;54;100;97;99;52;45;51;48;98;55;45;49;100;50;50;45;51;57;54;99;45;49;101;57;51;52;101;99;97;48;49;54;98], Raise EValueErr);
  ([55;51;100;56;52;50;52;53;55;57;55;100;102;98;55;52;57;53;102;57;55;57;102;56;99;48;97;101;102;55;56;53], Ok 153984099780085892026638571296405780357);
  ([55;52;101;98;100;56;97;99;55;54;49;49;55;101;55;51;56;57;54;97;48;51;56;49;57;98;57;100;52;51;32], Raise EValueErr);
  ([55;52;28;54;101;54;99;51;51;97;102;97;97;55;50;101;99;48;55;50;100;99;57;102;102;51;48;48;49;32], Raise EValueErr);
  ([55;54;56;55;100;54;101;56;54;102;98;53;57;98;57;48;49;57;48;99;49;55;102;57;54;55;55;51;54;51;102], Raise EValueErr);
  ([55;55;69;50;55;48;65;66;45;65;50;49;67;45;55;48;51;48;45;53;67;68;65;45;48;66;53;52;69;54;105;70;69;48;28;69], Raise EValueErr);
  ([55;56;56;57;100;50;97;55;95;48;97;99;57;58;48;102;99;54;100;98;98;102;56;102;98;54;52;97;98;57;50;57;32], Raise EValueErr);
  ([55;57;45;50;99;101;49;52;99;56;98;50;55;55;51;57;54;102;99;52;51;50;53;54;100;49;50;97;50;55;98;51;32], Ok 10066851134894852254776095700054321075);
  ([55;66;68;67;55;51;52;49;45;57;57;54;68;45;66;51;70;69;45;48;54;48;49;45;52;69;56;48;50;54;66;67;57;66;57;66], Ok 164639686464841127221235606956336257947);
  ([55;71;48;56;49;51;101;99;51;97;102;52;56;50;98;51;57;97;101;49;97;56;100;57;56;48;97;97;56;53;51;101], Raise EValueErr);
  ([55;97;52;52;55;55;57;51;49;56;50;48;51;101;98;57;48;102;49;52;102;52;97;48;50;49;102;55;53;48;48;32], Ok 10157582308305590686314932174650832128);
  ([55;98;97;100;48;51;48;52;45;97;100;100;52;45;49;98;100;100;45;50;52;97;51;45;53;57;55;53;49;97;52;56;52;51;48], Raise EValueErr);
  ([56;48;51;57;99;52;102;101;55;99;52;50;102;71;48;55;51;54;53;55;99;102;51;52;54;97;99;54;98;48;48;98;52], Raise EValueErr);
  ([56;53;54;54;52;52;49;45;68;57;110;54;45;55;68;70;51;32;53;51;66;67;45;55;54;67;48;54;53;68;66;51;51;69;55], Raise EValueErr);
  ([56;56;53;101;56;51;50;100;50;102;52;98;98;53;50;97;99;52;97;54;101;56;49;101;99;48;101;102;51;53;99;32], Ok 11329108994188346528628849379285857116);
  ([56;56;97;52;102;50;99;49;54;99;120;97;51;55;98;48;100;100;56;55;48;54;98;48;99;56;56;56;101;98;48], Raise EValueErr);
  ([56;97;52;102;11;55;52;102;53;56;49;55;100;101;9;102;53;97;57;54;101;52;100;100;49;49;71;48;54;54;49;48;56;99], Raise EValueErr);
  ([57;100;53;100;100;97;100;50;49;48;57;50;49;55;99;57;97;99;54;49;48;98;52;100;54;56;100;100;53], Raise EValueErr);
  ([57;101;101;102;125;49;54;102;98;49;50;50;49;98;53;49;101;102;100;54;45;99;52;57;51;48;97;51;100;54;48;45;102;53], Raise EValueErr);
  ([57;48;49;50;100;101;57;101;45;102;99;51;50;45;99;54;100;55;45;53;54;52;56;45;55;56;97;101;52;54;50;98;56;55;49;48], Ok 191506808027514808286851846474193143568);
  ([57;50;53;56;53;49;53;100;48;55;55;55;98;101;53;98;101;51;51;56;97;101;101;53;51;50;102;49;57;54;32], Raise EValueErr);
  ([57;54;70;69;68;48;57;45;67;68;67;50;45;70;48;51;53;45;67;52;55;65;45;65;53;68;51;52;48;56;48;68;56;71;49], Raise EValueErr);
  ([57;54;98;53;101;102;55;100;45;51;51;57;98;45;53;102;54;56;45;57;0;52;98;45;49;100;52;54;97;97;55;48;98;50;55;53], Raise EValueErr);
  ([57;55;49;49;55;100;101;97;50;51;51;49;51;55;49;97;98;50;53;53;50;57;99;52;48;54;43;57;99;55;49], Raise EValueErr);
  ([57;55;57;53;101;101;49;97;97;125;48;101;50;48;0;54;51;102;54;55;55;49;99;105;53;53;102;53;55;57;56], Raise EValueErr);
  ([58;48;48;48;48;48;48;48;48;48;48;48;48;48;48;48;48;48;48;48;48;110;48;48;48;48;48;48;55;55;102;56;99], Raise EValueErr);
  ([68;52;67;53;49;66;57;68;45;49;67;56;53;45;54;67;56;56;45;57;49;70;65;45;65;51;66;55;52;48;67;53;68;52;69;56], Ok 282819777660241219376892704756324488424);
  ([68;67;50;11;70;68;69;48;69;45;66;55;69;49;45;56;55;52;48;45;66;66;54;51;45;53;69;53;56;56;56;57;70;9;51;52;69], Raise EValueErr);
  ([69;53;54;49;67;57;49;53;45;70;51;49;69;45;68;55;57;55;45;10;57;65;57;45;48;67;55;45;68;49;65;49;54;57;56], Raise EValueErr);
  ([70;57;54;56;70;68;49;69;45;65;68;68;68;45;55;67;50;67;45;68;55;55;68;45;69;53;50;52;70;70;50;69;67;55;66;68], Ok 331522903704014939432818480142468695997);
  ([71;32;50;97;55;56;100;97;55;51;56;54;97;56;54;55;51;52;56;51;123;48;50;56;100;97;100;53;55;99;51;48;50], Raise EValueErr);
  ([88;48;48;48;48;48;48;48;48;48;48;48;48;48;9;48;48;48;48;48;48;48;48;48;48;48;53;51;100;50;54], Raise EValueErr);
  ([95;48;48;48;48;48;48;48;48;48;48;48;48;48;48;48;48;48;48;48;48;48;48;48;99;55;102;48;56], Raise EValueErr);
  ([95;49;55;52;51;102;57;49;99;53;53;100;102;100;114;56;102;54;97;98;57;49;102;50;125;49;98;48;53;52;54;55;50], Raise EValueErr);
  ([95;54;97;52;48;52;54;48;52;45;102;102;49;52;45;101;51;55;56;45;51;53;57;50;45;56;98;56;49;56;51;97;50;53;101;51;102;125], Raise EValueErr);
  ([97;102;53;54;51;54;102;57;110;53;50;49;50;100;97;51;49;56;100;99;102;99;100;52;48;100;102;53;49;56;56;32], Raise EValueErr);
  ([97;54;51;52;53;56;55;50;45;48;101;49;50;45;49;52;50;52;45;98;102;49;54;45;55;52;57;53;45;57;50;48;110;50;99;100;57], Raise EValueErr);
  ([97;98;57;53;51;53;54;50;52;102;97;98;51;57;97;97;99;101;101;57;55;31;56;56;97;97;101;57;55;57;51;32], Raise EValueErr);
  ([98;48;48;101;102;105;56;53;57;100;52;51;51;57;51;57;54;100;48;100;99;50;49;48;100;48;50;57;101;102;53;55], Raise EValueErr);
  ([98;48;50;48;100;52;101;99;99;50;99;54;102;99;97;48;49;51;57;54;100;56;100;99;54;102;54;97;50;49;32], Raise EValueErr);
  ([98;48;99;56;102;52;48;55;45;57;57;100;98;45;102;102;102;55;45;56;0;100;51;97;45;53;97;55;48;54;49;97;48;52;57;50], Raise EValueErr);
  ([98;50;52;50;48;54;101;57;50;56;97;49;101;57;52;54;56;100;102;100;101;98;48;54;50;53;101;48;100;53;110;50;51], Raise EValueErr);
  ([98;52;101;53;54;100;97;49;100;55;57;54;100;51;51;52;100;99;48;50;53;102;51;52;56;101;54;57;53;56;97;32], Ok 15028268676686994303574788569907500426);
  ([98;54;98;101;52;51;54;100;56;102;114;56;48;50;55;101;53;99;48;54;54;50;99;53;101;51;101;51;56;57;55;55], Raise EValueErr);
  ([98;55;51;48;102;117;98;53;54;57;53;48;50;49;100;99;48;99;101;49;51;56;56;51;98;57;53;53;43;100;53;102], Raise EValueErr);
  ([98;95;97;52;50;48;54;49;98;43;53;48;55;101;45;101;53;98;98;45;99;49;56;98;45;57;57;102;99;49;100;98;55;101;53;100;55], Raise EValueErr);
  ([99;102;57;49;98;55;52;57;45;50;48;101;28;100;45;55;102;97;53;45;53;0;98;71;45;55;99;98;57;49;102;50;99;102;55;99;56], Raise EValueErr);
  ([99;50;57;57;53;48;100;52;54;52;53;102;55;100;53;52;51;48;99;55;102;97;97;51;97;99;52;99;56;52;55;57], Ok 258666292021832193912027032400570385529);
  ([99;52;57;48;56;50;50;100;102;102;101;99;100;99;97;48;100;0;55;49;49;57;98;101;56;101;49;51;51;53;51;32], Raise EValueErr);
  ([99;54;57;53;56;48;49;102;45;100;56;57;57;45;53;56;99;53;45;52;56;54;101;45;98;49;55;50;101;52;51;97;57;98;98;50], Ok 263963394068871484486903524819614735282);
  ([99;56;55;53;57;50;100;57;125;51;102;100;48;98;97;48;97;53;43;52;102;49;55;55;98;58;51;52;100;98;49;57;51;50;32], Raise EValueErr);
  ([99;98;101;98;49;53;52;52;53;57;56;52;50;53;97;54;53;54;48;54;50;57;98;50;56;48;53;101;102;48;99;32], Ok 16940869015744641014089891968220262156);
  ([99;98;54;50;50;100;56;31;100;55;50;51;50;53;50;99;49;57;49;98;100;98;101;57;100;101;56;50;49;56;100], Raise EValueErr);
  ([9;114;110;58;117;117;105;100;58;48;48;48;48;48;48;48;48;45;48;48;48;48;45;48;48;48;48;45;48;48;48;48;45;48;103;48;48;48;48;48;48;49;53;49;51;98], Raise EValueErr)].
Example uuid_of_hex_agrees : forallb (fun v => res_eqb Z.eqb (uuid_of_hex (fst v)) (snd v)) uuid_of_hex_vectors = true.
Proof. vm_compute. reflexivity. Qed.

Definition uuid_dump_vectors : list (Z * (list Z * list Z * list Z * list Z)) :=
 [(11329482146113493507, ([0;0;0;0;0;0;0;0;157;58;103;252;88;57;154;3], [0;0;0;0;0;0;0;0;157;58;103;252;88;57;154;3], [48;48;48;48;48;48;48;48;45;48;48;48;48;45;48;48;48;48;45;57;100;51;97;45;54;55;102;99;53;56;51;57;57;97;48;51], [48;48;48;48;48;48;48;48;48;48;48;48;48;48;48;48;57;100;51;97;54;55;102;99;53;56;51;57;57;97;48;51]));
  (11803142010210801183, ([0;0;0;0;0;0;0;0;163;205;47;31;96;26;214;31], [0;0;0;0;0;0;0;0;163;205;47;31;96;26;214;31], [48;48;48;48;48;48;48;48;45;48;48;48;48;45;48;48;48;48;45;97;51;99;100;45;50;102;49;102;54;48;49;97;100;54;49;102], [48;48;48;48;48;48;48;48;48;48;48;48;48;48;48;48;97;51;99;100;50;102;49;102;54;48;49;97;100;54;49;102]));
  (12099304776370430105249410769161532580, ([9;26;61;200;75;127;221;171;179;119;255;173;117;203;180;164], [200;61;26;9;127;75;171;221;179;119;255;173;117;203;180;164], [48;57;49;97;51;100;99;56;45;52;98;55;102;45;100;100;97;98;45;98;51;55;55;45;102;102;97;100;55;53;99;98;98;52;97;52], [48;57;49;97;51;100;99;56;52;98;55;102;100;100;97;98;98;51;55;55;102;102;97;100;55;53;99;98;98;52;97;52]));
  (121566154522630826228593767697051792282, ([91;116;202;43;55;33;200;79;219;193;71;150;65;47;179;154], [43;202;116;91;33;55;79;200;219;193;71;150;65;47;179;154], [53;98;55;52;99;97;50;98;45;51;55;50;49;45;99;56;52;102;45;100;98;99;49;45;52;55;57;54;52;49;50;102;98;51;57;97], [53;98;55;52;99;97;50;98;51;55;50;49;99;56;52;102;100;98;99;49;52;55;57;54;52;49;50;102;98;51;57;97]));
  (122180575701268537921415919570255231035, ([91;235;31;120;197;32;224;201;28;82;86;100;8;150;56;59], [120;31;235;91;32;197;201;224;28;82;86;100;8;150;56;59], [53;98;101;98;49;102;55;56;45;99;53;50;48;45;101;48;99;57;45;49;99;53;50;45;53;54;54;52;48;56;57;54;51;56;51;98], [53;98;101;98;49;102;55;56;99;53;50;48;101;48;99;57;49;99;53;50;53;54;54;52;48;56;57;54;51;56;51;98]));
  (12343575978268139887, ([0;0;0;0;0;0;0;0;171;77;48;244;2;183;161;111], [0;0;0;0;0;0;0;0;171;77;48;244;2;183;161;111], [48;48;48;48;48;48;48;48;45;48;48;48;48;45;48;48;48;48;45;97;98;52;100;45;51;48;102;52;48;50;98;55;97;49;54;102], [48;48;48;48;48;48;48;48;48;48;48;48;48;48;48;48;97;98;52;100;51;48;102;52;48;50;98;55;97;49;54;102]));
  (132146751758454122004532661891589407668, ([99;106;137;227;109;82;247;185;231;105;20;45;253;99;3;180], [227;137;106;99;82;109;185;247;231;105;20;45;253;99;3;180], [54;51;54;97;56;57;101;51;45;54;100;53;50;45;102;55;98;57;45;101;55;54;57;45;49;52;50;100;102;100;54;51;48;51;98;52], [54;51;54;97;56;57;101;51;54;100;53;50;102;55;98;57;101;55;54;57;49;52;50;100;102;100;54;51;48;51;98;52]));
  (145339499266963656483860304400667286062, ([109;87;94;143;76;53;80;104;197;20;241;97;23;38;154;46], [143;94;87;109;53;76;104;80;197;20;241;97;23;38;154;46], [54;100;53;55;53;101;56;102;45;52;99;51;53;45;53;48;54;56;45;99;53;49;52;45;102;49;54;49;49;55;50;54;57;97;50;101], [54;100;53;55;53;101;56;102;52;99;51;53;53;48;54;56;99;53;49;52;102;49;54;49;49;55;50;54;57;97;50;101]));
  (14596182096074017235, ([0;0;0;0;0;0;0;0;202;144;14;72;81;104;137;211], [0;0;0;0;0;0;0;0;202;144;14;72;81;104;137;211], [48;48;48;48;48;48;48;48;45;48;48;48;48;45;48;48;48;48;45;99;97;57;48;45;48;101;52;56;53;49;54;56;56;57;100;51], [48;48;48;48;48;48;48;48;48;48;48;48;48;48;48;48;99;97;57;48;48;101;52;56;53;49;54;56;56;57;100;51]));
  (147652391789257430325615374577268108767, ([111;20;208;247;30;101;152;92;149;66;159;15;197;147;45;223], [247;208;20;111;101;30;92;152;149;66;159;15;197;147;45;223], [54;102;49;52;100;48;102;55;45;49;101;54;53;45;57;56;53;99;45;57;53;52;50;45;57;102;48;102;99;53;57;51;50;100;100;102], [54;102;49;52;100;48;102;55;49;101;54;53;57;56;53;99;57;53;52;50;57;102;48;102;99;53;57;51;50;100;100;102]));
  (14925661971973565540, ([0;0;0;0;0;0;0;0;207;34;154;123;229;10;108;100], [0;0;0;0;0;0;0;0;207;34;154;123;229;10;108;100], [48;48;48;48;48;48;48;48;45;48;48;48;48;45;48;48;48;48;45;99;102;50;50;45;57;97;55;98;101;53;48;97;54;99;54;52], [48;48;48;48;48;48;48;48;48;48;48;48;48;48;48;48;99;102;50;50;57;97;55;98;101;53;48;97;54;99;54;52]));
  (151139784538248750840150046661002890220, ([113;180;118;179;238;153;57;6;69;123;142;73;169;175;139;236], [179;118;180;113;153;238;6;57;69;123;142;73;169;175;139;236], [55;49;98;52;55;54;98;51;45;101;101;57;57;45;51;57;48;54;45;52;53;55;98;45;56;101;52;57;97;57;97;102;56;98;101;99], [55;49;98;52;55;54;98;51;101;101;57;57;51;57;48;54;52;53;55;98;56;101;52;57;97;57;97;102;56;98;101;99]));
  (172, ([0;0;0;0;0;0;0;0;0;0;0;0;0;0;0;172], [0;0;0;0;0;0;0;0;0;0;0;0;0;0;0;172], [48;48;48;48;48;48;48;48;45;48;48;48;48;45;48;48;48;48;45;48;48;48;48;45;48;48;48;48;48;48;48;48;48;48;97;99], [48;48;48;48;48;48;48;48;48;48;48;48;48;48;48;48;48;48;48;48;48;48;48;48;48;48;48;48;48;48;97;99]));
  (172703052019638213088707787901466858453, ([129;237;101;223;53;213;189;140;91;67;100;67;230;192;83;213], [223;101;237;129;213;53;140;189;91;67;100;67;230;192;83;213], [56;49;101;100;54;53;100;102;45;51;53;100;53;45;98;100;56;99;45;53;98;52;51;45;54;52;52;51;101;54;99;48;53;51;100;53], [56;49;101;100;54;53;100;102;51;53;100;53;98;100;56;99;53;98;52;51;54;52;52;51;101;54;99;48;53;51;100;53]));
  (179, ([0;0;0;0;0;0;0;0;0;0;0;0;0;0;0;179], [0;0;0;0;0;0;0;0;0;0;0;0;0;0;0;179], [48;48;48;48;48;48;48;48;45;48;48;48;48;45;48;48;48;48;45;48;48;48;48;45;48;48;48;48;48;48;48;48;48;48;98;51], [48;48;48;48;48;48;48;48;48;48;48;48;48;48;48;48;48;48;48;48;48;48;48;48;48;48;48;48;48;48;98;51]));
  (179100647976536806449044860482372424571, ([134;189;135;180;157;115;228;97;207;139;251;79;214;102;211;123], [180;135;189;134;115;157;97;228;207;139;251;79;214;102;211;123], [56;54;98;100;56;55;98;52;45;57;100;55;51;45;101;52;54;49;45;99;102;56;98;45;102;98;52;102;100;54;54;54;100;51;55;98], [56;54;98;100;56;55;98;52;57;100;55;51;101;52;54;49;99;102;56;98;102;98;52;102;100;54;54;54;100;51;55;98]));
  (188435680299437283840250049825390022324, ([141;195;100;85;100;39;5;151;101;251;2;246;242;133;78;180], [85;100;195;141;39;100;151;5;101;251;2;246;242;133;78;180], [56;100;99;51;54;52;53;53;45;54;52;50;55;45;48;53;57;55;45;54;53;102;98;45;48;50;102;54;102;50;56;53;52;101;98;52], [56;100;99;51;54;52;53;53;54;52;50;55;48;53;57;55;54;53;102;98;48;50;102;54;102;50;56;53;52;101;98;52]));
  (189, ([0;0;0;0;0;0;0;0;0;0;0;0;0;0;0;189], [0;0;0;0;0;0;0;0;0;0;0;0;0;0;0;189], [48;48;48;48;48;48;48;48;45;48;48;48;48;45;48;48;48;48;45;48;48;48;48;45;48;48;48;48;48;48;48;48;48;48;98;100], [48;48;48;48;48;48;48;48;48;48;48;48;48;48;48;48;48;48;48;48;48;48;48;48;48;48;48;48;48;48;98;100]));
  (190, ([0;0;0;0;0;0;0;0;0;0;0;0;0;0;0;190], [0;0;0;0;0;0;0;0;0;0;0;0;0;0;0;190], [48;48;48;48;48;48;48;48;45;48;48;48;48;45;48;48;48;48;45;48;48;48;48;45;48;48;48;48;48;48;48;48;48;48;98;101], [48;48;48;48;48;48;48;48;48;48;48;48;48;48;48;48;48;48;48;48;48;48;48;48;48;48;48;48;48;48;98;101]));
  (213, ([0;0;0;0;0;0;0;0;0;0;0;0;0;0;0;213], [0;0;0;0;0;0;0;0;0;0;0;0;0;0;0;213], [48;48;48;48;48;48;48;48;45;48;48;48;48;45;48;48;48;48;45;48;48;48;48;45;48;48;48;48;48;48;48;48;48;48;100;53], [48;48;48;48;48;48;48;48;48;48;48;48;48;48;48;48;48;48;48;48;48;48;48;48;48;48;48;48;48;48;100;53]));
  (220, ([0;0;0;0;0;0;0;0;0;0;0;0;0;0;0;220], [0;0;0;0;0;0;0;0;0;0;0;0;0;0;0;220], [48;48;48;48;48;48;48;48;45;48;48;48;48;45;48;48;48;48;45;48;48;48;48;45;48;48;48;48;48;48;48;48;48;48;100;99], [48;48;48;48;48;48;48;48;48;48;48;48;48;48;48;48;48;48;48;48;48;48;48;48;48;48;48;48;48;48;100;99]));
  (232, ([0;0;0;0;0;0;0;0;0;0;0;0;0;0;0;232], [0;0;0;0;0;0;0;0;0;0;0;0;0;0;0;232], [48;48;48;48;48;48;48;48;45;48;48;48;48;45;48;48;48;48;45;48;48;48;48;45;48;48;48;48;48;48;48;48;48;48;101;56], [48;48;48;48;48;48;48;48;48;48;48;48;48;48;48;48;48;48;48;48;48;48;48;48;48;48;48;48;48;48;101;56]));
  (238, ([0;0;0;0;0;0;0;0;0;0;0;0;0;0;0;238], [0;0;0;0;0;0;0;0;0;0;0;0;0;0;0;238], [48;48;48;48;48;48;48;48;45;48;48;48;48;45;48;48;48;48;45;48;48;48;48;45;48;48;48;48;48;48;48;48;48;48;101;101], [48;48;48;48;48;48;48;48;48;48;48;48;48;48;48;48;48;48;48;48;48;48;48;48;48;48;48;48;48;48;101;101]));
  (251, ([0;0;0;0;0;0;0;0;0;0;0;0;0;0;0;251], [0;0;0;0;0;0;0;0;0;0;0;0;0;0;0;251], [48;48;48;48;48;48;48;48;45;48;48;48;48;45;48;48;48;48;45;48;48;48;48;45;48;48;48;48;48;48;48;48;48;48;102;98], [48;48;48;48;48;48;48;48;48;48;48;48;48;48;48;48;48;48;48;48;48;48;48;48;48;48;48;48;48;48;102;98]));
  (297289185148148169594791140627493960014, ([223;167;208;123;85;139;169;17;56;34;49;105;86;208;57;78], [123;208;167;223;139;85;17;169;56;34;49;105;86;208;57;78], [100;102;97;55;100;48;55;98;45;53;53;56;98;45;97;57;49;49;45;51;56;50;50;45;51;49;54;57;53;54;100;48;51;57;52;101], [100;102;97;55;100;48;55;98;53;53;56;98;97;57;49;49;51;56;50;50;51;49;54;57;53;54;100;48;51;57;52;101]));
  (32584586790916323564822891173594765677, ([24;131;144;42;29;57;117;118;83;137;108;220;203;27;153;109], [42;144;131;24;57;29;118;117;83;137;108;220;203;27;153;109], [49;56;56;51;57;48;50;97;45;49;100;51;57;45;55;53;55;54;45;53;51;56;57;45;54;99;100;99;99;98;49;98;57;57;54;100], [49;56;56;51;57;48;50;97;49;100;51;57;55;53;55;54;53;51;56;57;54;99;100;99;99;98;49;98;57;57;54;100]));
  (3781749677225459136, ([0;0;0;0;0;0;0;0;52;123;121;75;124;120;189;192], [0;0;0;0;0;0;0;0;52;123;121;75;124;120;189;192], [48;48;48;48;48;48;48;48;45;48;48;48;48;45;48;48;48;48;45;51;52;55;98;45;55;57;52;98;55;99;55;56;98;100;99;48], [48;48;48;48;48;48;48;48;48;48;48;48;48;48;48;48;51;52;55;98;55;57;52;98;55;99;55;56;98;100;99;48]));
  (39, ([0;0;0;0;0;0;0;0;0;0;0;0;0;0;0;39], [0;0;0;0;0;0;0;0;0;0;0;0;0;0;0;39], [48;48;48;48;48;48;48;48;45;48;48;48;48;45;48;48;48;48;45;48;48;48;48;45;48;48;48;48;48;48;48;48;48;48;50;55], [48;48;48;48;48;48;48;48;48;48;48;48;48;48;48;48;48;48;48;48;48;48;48;48;48;48;48;48;48;48;50;55]));
  (50757035990505933744528752197031452161, ([38;47;115;21;185;146;197;34;194;53;198;153;191;4;94;1], [21;115;47;38;146;185;34;197;194;53;198;153;191;4;94;1], [50;54;50;102;55;51;49;53;45;98;57;57;50;45;99;53;50;50;45;99;50;51;53;45;99;54;57;57;98;102;48;52;53;101;48;49], [50;54;50;102;55;51;49;53;98;57;57;50;99;53;50;50;99;50;51;53;99;54;57;57;98;102;48;52;53;101;48;49]));
  (5196423319022335667, ([0;0;0;0;0;0;0;0;72;29;103;122;16;225;246;179], [0;0;0;0;0;0;0;0;72;29;103;122;16;225;246;179], [48;48;48;48;48;48;48;48;45;48;48;48;48;45;48;48;48;48;45;52;56;49;100;45;54;55;55;97;49;48;101;49;102;54;98;51], [48;48;48;48;48;48;48;48;48;48;48;48;48;48;48;48;52;56;49;100;54;55;55;97;49;48;101;49;102;54;98;51]));
  (5345710638440502984, ([0;0;0;0;0;0;0;0;74;47;199;128;188;69;214;200], [0;0;0;0;0;0;0;0;74;47;199;128;188;69;214;200], [48;48;48;48;48;48;48;48;45;48;48;48;48;45;48;48;48;48;45;52;97;50;102;45;99;55;56;48;98;99;52;53;100;54;99;56], [48;48;48;48;48;48;48;48;48;48;48;48;48;48;48;48;52;97;50;102;99;55;56;48;98;99;52;53;100;54;99;56]));
  (55167249886396501957577496283116531857, ([41;128;211;106;241;103;103;167;95;93;138;210;250;56;240;145], [106;211;128;41;103;241;167;103;95;93;138;210;250;56;240;145], [50;57;56;48;100;51;54;97;45;102;49;54;55;45;54;55;97;55;45;53;102;53;100;45;56;97;100;50;102;97;51;56;102;48;57;49], [50;57;56;48;100;51;54;97;102;49;54;55;54;55;97;55;53;102;53;100;56;97;100;50;102;97;51;56;102;48;57;49]));
  (56, ([0;0;0;0;0;0;0;0;0;0;0;0;0;0;0;56], [0;0;0;0;0;0;0;0;0;0;0;0;0;0;0;56], [48;48;48;48;48;48;48;48;45;48;48;48;48;45;48;48;48;48;45;48;48;48;48;45;48;48;48;48;48;48;48;48;48;48;51;56], [48;48;48;48;48;48;48;48;48;48;48;48;48;48;48;48;48;48;48;48;48;48;48;48;48;48;48;48;48;48;51;56]));
  (56537135691338886551414460461218462177, ([42;136;168;0;164;35;88;14;145;10;13;60;68;90;249;225], [0;168;136;42;35;164;14;88;145;10;13;60;68;90;249;225], [50;97;56;56;97;56;48;48;45;97;52;50;51;45;53;56;48;101;45;57;49;48;97;45;48;100;51;99;52;52;53;97;102;57;101;49], [50;97;56;56;97;56;48;48;97;52;50;51;53;56;48;101;57;49;48;97;48;100;51;99;52;52;53;97;102;57;101;49]));
  (601507978328241793, ([0;0;0;0;0;0;0;0;8;88;252;81;193;209;118;129], [0;0;0;0;0;0;0;0;8;88;252;81;193;209;118;129], [48;48;48;48;48;48;48;48;45;48;48;48;48;45;48;48;48;48;45;48;56;53;56;45;102;99;53;49;99;49;100;49;55;54;56;49], [48;48;48;48;48;48;48;48;48;48;48;48;48;48;48;48;48;56;53;56;102;99;53;49;99;49;100;49;55;54;56;49]));
  (6267969727888973254, ([0;0;0;0;0;0;0;0;86;252;77;66;37;185;93;198], [0;0;0;0;0;0;0;0;86;252;77;66;37;185;93;198], [48;48;48;48;48;48;48;48;45;48;48;48;48;45;48;48;48;48;45;53;54;102;99;45;52;100;52;50;50;53;98;57;53;100;99;54], [48;48;48;48;48;48;48;48;48;48;48;48;48;48;48;48;53;54;102;99;52;100;52;50;50;53;98;57;53;100;99;54]));
  (74982064051346756592830017023933200259, ([56;105;5;46;196;35;93;183;141;149;174;184;70;208;183;131], [46;5;105;56;35;196;183;93;141;149;174;184;70;208;183;131], [51;56;54;57;48;53;50;101;45;99;52;50;51;45;53;100;98;55;45;56;100;57;53;45;97;101;98;56;52;54;100;48;98;55;56;51], [51;56;54;57;48;53;50;101;99;52;50;51;53;100;98;55;56;100;57;53;97;101;98;56;52;54;100;48;98;55;56;51]));
  (79816342090595969355585239891289635010, ([60;12;17;125;247;225;45;241;12;240;204;37;163;0;248;194], [125;17;12;60;225;247;241;45;12;240;204;37;163;0;248;194], [51;99;48;99;49;49;55;100;45;102;55;101;49;45;50;100;102;49;45;48;99;102;48;45;99;99;50;53;97;51;48;48;102;56;99;50], [51;99;48;99;49;49;55;100;102;55;101;49;50;100;102;49;48;99;102;48;99;99;50;53;97;51;48;48;102;56;99;50]));
  (87, ([0;0;0;0;0;0;0;0;0;0;0;0;0;0;0;87], [0;0;0;0;0;0;0;0;0;0;0;0;0;0;0;87], [48;48;48;48;48;48;48;48;45;48;48;48;48;45;48;48;48;48;45;48;48;48;48;45;48;48;48;48;48;48;48;48;48;48;53;55], [48;48;48;48;48;48;48;48;48;48;48;48;48;48;48;48;48;48;48;48;48;48;48;48;48;48;48;48;48;48;53;55]));
  (9919083771018158805, ([0;0;0;0;0;0;0;0;137;167;170;34;220;225;34;213], [0;0;0;0;0;0;0;0;137;167;170;34;220;225;34;213], [48;48;48;48;48;48;48;48;45;48;48;48;48;45;48;48;48;48;45;56;57;97;55;45;97;97;50;50;100;99;101;49;50;50;100;53], [48;48;48;48;48;48;48;48;48;48;48;48;48;48;48;48;56;57;97;55;97;97;50;50;100;99;101;49;50;50;100;53]))].
Example uuid_dump_agrees : forallb (fun v => let '(u, (a, b, c, d)) := v in bytes_eqb (uuid_dump BINARY_VARIANT_1 u) a
  && bytes_eqb (uuid_dump BINARY_VARIANT_2 u) b && bytes_eqb (uuid_dump CANONICAL_STRING u) c
  && bytes_eqb (uuid_dump HEX_STRING u) d && oz_eqb (Some (le_value (rev (swap_le b)))) (Some u)) uuid_dump_vectors = true.
Proof. vm_compute. reflexivity. Qed.

Definition int_base10_vectors : list (list Z * res Z) :=
 [([0;32;45], Raise EValueErr);
  ([0;45], Raise EValueErr);
  ([0], Raise EValueErr);
  ([11;43;97], Raise EValueErr);
  ([11;45;31;57;53;49], Raise EValueErr);
  ([11;95], Raise EValueErr);
  ([120;32], Raise EValueErr);
  ([12;45;56;51;50], Ok (-832));
  ([12], Raise EValueErr);
  ([13;45;45], Raise EValueErr);
  ([13;45], Raise EValueErr);
  ([13;48;48;51;50;56], Ok 328);
  ([13;95], Raise EValueErr);
  ([28;120;43], Raise EValueErr);
  ([28;32], Raise EValueErr);
  ([28;46;95], Raise EValueErr);
  ([28;50;52;56], Raise EValueErr);
  ([28;95], Raise EValueErr);
  ([31;32], Raise EValueErr);
  ([31;43], Raise EValueErr);
  ([31;45;13], Raise EValueErr);
  ([31;45;51;55;55;45], Raise EValueErr);
  ([32;120], Raise EValueErr);
  ([32;31], Raise EValueErr);
  ([32;32], Raise EValueErr);
  ([32;48], Ok 0);
  ([32;95;46], Raise EValueErr);
  ([32], Raise EValueErr);
  ([43;0;50;53], Raise EValueErr);
  ([43;0;97], Raise EValueErr);
  ([43;11], Raise EValueErr);
  ([43;120;48;48;51;52;57], Raise EValueErr);
  ([43;13;28], Raise EValueErr);
  ([43;28], Raise EValueErr);
  ([43;31;55;50;49], Raise EValueErr);
  ([43;32], Raise EValueErr);
  ([43;43;53;50;56], Raise EValueErr);
  ([43;43], Raise EValueErr);
  ([43;48;54;51;48], Ok 630);
  ([43;49;56;45;48], Raise EValueErr);
  ([43;50;53;51], Ok 253);
  ([43;51;48;52], Ok 304);
  ([43;51;48;54;12;12], Ok 306);
  ([43;52;10;49;53], Raise EValueErr);
  ([43;53;46;49;57], Raise EValueErr);
  ([43;53;50;50;31], Raise EValueErr);
  ([43;54;50;56], Ok 628);
  ([43;54;53;12;28;51], Raise EValueErr);
  ([43;55;48;12;53], Raise EValueErr);
  ([43;55;55;48;57], Ok 7709);
  ([43;56;50;11;54], Raise EValueErr);
  ([43;56;50;57], Ok 829);
  ([43;56;53;56], Ok 858);
  ([43;57;48;55;120], Raise EValueErr);
  ([43], Raise EValueErr);
  ([45;0], Raise EValueErr);
  ([45;10], Raise EValueErr);
  ([45;32;46], Raise EValueErr);
  ([45;48;0], Raise EValueErr);
  ([45;48;48;0;52;51], Raise EValueErr);
  ([45;49;56;48], Ok (-180));
  ([45;49;56;57], Ok (-189));
  ([45;50;52;54;28;32], Raise EValueErr);
  ([45;50;54;54], Ok (-266));
  ([45;52;50;49;48], Ok (-4210));
  ([45;53;46;31;49;54], Raise EValueErr);
  ([45;53;49;48], Ok (-510));
  ([45;53;52;53], Ok (-545));
  ([45;54;53;9;55], Raise EValueErr);
  ([45;55;48;52;46;120], Raise EValueErr);
  ([45;55;53;52], Ok (-754));
  ([45;55;54;50], Ok (-762));
  ([45;55;55;55], Ok (-777));
  ([45;56;50;48], Ok (-820));
  ([45;56;55;56], Ok (-878));
  ([45;56;57;53], Ok (-895));
  ([45;57;11;49;49], Raise EValueErr);
  ([45;95;51;50;43;51], Raise EValueErr);
  ([45;9;49;45;55;55], Raise EValueErr);
  ([45], Raise EValueErr);
  ([46;32;95], Raise EValueErr);
  ([46;32], Raise EValueErr);
  ([46;43], Raise EValueErr);
  ([48;0;48;13;57;51], Raise EValueErr);
  ([48;11;48;50;55;55], Raise EValueErr);
  ([48;120;48;49;54;49], Raise EValueErr);
  ([48;12;48;53;51], Raise EValueErr);
  ([48;45;13;48;51;53], Raise EValueErr);
  ([48;48;10;50;50], Raise EValueErr);
  ([48;48;10;51;32;51;49], Raise EValueErr);
  ([48;48;49;48;49], Ok 101);
  ([48;48;49;54], Ok 16);
  ([48;48;51;48;10], Ok 30);
  ([48;48;51;51;56], Ok 338);
  ([48;48;53;48], Ok 50);
  ([48;48;95;49;48;9;51], Raise EValueErr);
  ([48;97;48;49;53;49;9], Raise EValueErr);
  ([48], Ok 0);
  ([49;10;54;95;0;49;55;52], Raise EValueErr);
  ([49;120;52;52;97], Raise EValueErr);
  ([49;32;51;55;95;50;53;12], Raise EValueErr);
  ([49;48;48;55;48;48;52;51;49;53;57;48;49;50;55;53;55;49;50;54;53;53;57;48;53;53;56;51;48;52], Ok 100700431590127571265590558304);
  ([49;49;43;12;56;95;55;57], Raise EValueErr);
  ([49;50;51;31;95;49;57;56;95], Raise EValueErr);
  ([49;50;53;10], Ok 125);
  ([49;51;54;95;31;46;49;57;57], Raise EValueErr);
  ([49;51;54], Ok 136);
  ([49;51;57;95;50;49], Ok 13921);
  ([49;52;55;95;50;48;50], Ok 147202);
  ([49;53;56;95;53;51], Ok 15853);
  ([49;54;49;45], Raise EValueErr);
  ([49;54;54], Ok 166);
  ([49;54;55;95;49;56;54], Ok 167186);
  ([49;55;48;95;49;49;11;48], Raise EValueErr);
  ([49;55;55;95;57;53], Ok 17795);
  ([49;95;12;49;57;56], Raise EValueErr);
  ([50;48;48;95;50;52;55], Ok 200247);
  ([50;48;49;95;43;50;52;51], Raise EValueErr);
  ([50;49;48;9;95;49;50;53;32], Raise EValueErr);
  ([50;50;54;95;48;52;55], Ok 226047);
  ([50;50;57;95;55;46;9], Raise EValueErr);
  ([50;51;50;95;56;54], Ok 23286);
  ([50;52;31;48;95;48], Raise EValueErr);
  ([50;53;49;95;0;52;49], Raise EValueErr);
  ([51;57;48;55;53;56;97;48;49;51;52;52;56], Raise EValueErr);
  ([52;57;52;55;56;51;49;49;51;54;48;53;48;53;50;52;48;55;56;56;49;56;52;53;54;55;55], Ok 494783113605052407881845677);
  ([53;48], Ok 50);
  ([53;55;95;50;50;51;45], Raise EValueErr);
  ([54;54;95;51;51], Ok 6633);
  ([55;51;95;49;48;52], Ok 73104);
  ([56;51;55;46;49;52;55;50;50;54;54;48;55;52;48;52;49;54;56;55;55;54;54;55;53;55;56;56], Raise EValueErr);
  ([57;13;48;95;28;54;52], Raise EValueErr);
  ([57;49;56;48;52;51;48;50;54;55;56;53;55;50;54;56;56;57;56;55;56;55;52;50;50;51;50], Ok 918043026785726889878742232);
  ([57;50;45;95;49;48;56], Raise EValueErr);
  ([57;50;48;55;11;57;50;56;49;51;48;53;55;55;55;54;54;56;53;56;51;51;28;48;53;53;49;53], Raise EValueErr);
  ([57;51;95;49;51;51], Ok 93133);
  ([95;10], Raise EValueErr);
  ([95;11], Raise EValueErr);
  ([95;12], Raise EValueErr);
  ([95;45], Raise EValueErr);
  ([95;48;95;48;49;50;57], Raise EValueErr);
  ([95;95;13], Raise EValueErr);
  ([95;95;45], Raise EValueErr);
  ([95;95], Raise EValueErr);
  ([95;9], Raise EValueErr);
  ([95], Raise EValueErr);
  ([97;43;54;49], Raise EValueErr);
  ([97;48;48;49;28;57;49], Raise EValueErr);
  ([97;50;51;51;95;11;49;51;56], Raise EValueErr);
  ([97], Raise EValueErr);
  ([9;52;49;54;52;50;55;48;48;57;52;55;52], Ok 416427009474);
  ([9;95], Raise EValueErr);
  ([9;9], Raise EValueErr);
  ([], Raise EValueErr)].
Example int_base10_agrees : forallb (fun v => res_eqb Z.eqb (int_base10 (fst v)) (snd v)) int_base10_vectors = true.
Proof. vm_compute. reflexivity. Qed.

Definition int_text_vectors : list (Z * list Z) :=
 [((-1), [45;49]);
  ((-10), [45;49;48]);
  ((-100), [45;49;48;48]);
  ((-1001), [45;49;48;48;49]);
  ((-113), [45;49;49;51]);
  ((-11629241597832488887), [45;49;49;54;50;57;50;52;49;53;57;55;56;51;50;52;56;56;56;56;55]);
  ((-12), [45;49;50]);
  ((-1226554863341191044648795302441762024217122294205143615277087), [45;49;50;50;54;53;53;52;56;54;51;51;52;49;49;57;49;48;52;52;54;52;56;55;57;53;51;48;50;52;52;49;55;54;50;48;50;52;50;49;55;49;50;50;50;57;52;50;48;53;49;52;51;54;49;53;50;55;55;48;56;55]);
  ((-132), [45;49;51;50]);
  ((-1331295192261122222091558846063898230770451316278294766757368), [45;49;51;51;49;50;57;53;49;57;50;50;54;49;49;50;50;50;50;50;48;57;49;53;53;56;56;52;54;48;54;51;56;57;56;50;51;48;55;55;48;52;53;49;51;49;54;50;55;56;50;57;52;55;54;54;55;53;55;51;54;56]);
  ((-1462914734891281380125432198895443000471707521736329940996507), [45;49;52;54;50;57;49;52;55;51;52;56;57;49;50;56;49;51;56;48;49;50;53;52;51;50;49;57;56;56;57;53;52;52;51;48;48;48;52;55;49;55;48;55;53;50;49;55;51;54;51;50;57;57;52;48;57;57;54;53;48;55]);
  ((-14661713818074515183), [45;49;52;54;54;49;55;49;51;56;49;56;48;55;52;53;49;53;49;56;51]);
  ((-17491389133812736411), [45;49;55;52;57;49;51;56;57;49;51;51;56;49;50;55;51;54;52;49;49]);
  ((-19), [45;49;57]);
  ((-2035003783258508902), [45;50;48;51;53;48;48;51;55;56;51;50;53;56;53;48;56;57;48;50]);
  ((-222520582729997470389468190127601900195007445058248721002693), [45;50;50;50;53;50;48;53;56;50;55;50;57;57;57;55;52;55;48;51;56;57;52;54;56;49;57;48;49;50;55;54;48;49;57;48;48;49;57;53;48;48;55;52;52;53;48;53;56;50;52;56;55;50;49;48;48;50;54;57;51]);
  ((-239), [45;50;51;57]);
  ((-246), [45;50;52;54]);
  ((-287699838032107362866093836009116317310025121438432585753489), [45;50;56;55;54;57;57;56;51;56;48;51;50;49;48;55;51;54;50;56;54;54;48;57;51;56;51;54;48;48;57;49;49;54;51;49;55;51;49;48;48;50;53;49;50;49;52;51;56;52;51;50;53;56;53;55;53;51;52;56;57]);
  ((-3), [45;51]);
  ((-4), [45;52]);
  ((-412), [45;52;49;50]);
  ((-4464040464997183576), [45;52;52;54;52;48;52;48;52;54;52;57;57;55;49;56;51;53;55;54]);
  ((-4912915143178681165), [45;52;57;49;50;57;49;53;49;52;51;49;55;56;54;56;49;49;54;53]);
  ((-5), [45;53]);
  ((-5208114674097067569), [45;53;50;48;56;49;49;52;54;55;52;48;57;55;48;54;55;53;54;57]);
  ((-6), [45;54]);
  ((-604), [45;54;48;52]);
  ((-660), [45;54;54;48]);
  ((-660618489077598515123877869320800843922375608721884057626696), [45;54;54;48;54;49;56;52;56;57;48;55;55;53;57;56;53;49;53;49;50;51;56;55;55;56;54;57;51;50;48;56;48;48;56;52;51;57;50;50;51;55;53;54;48;56;55;50;49;56;56;52;48;53;55;54;50;54;54;57;54]);
  ((-7218717474303113847), [45;55;50;49;56;55;49;55;52;55;52;51;48;51;49;49;51;56;52;55]);
  ((-756524805605133045), [45;55;53;54;53;50;52;56;48;53;54;48;53;49;51;51;48;52;53]);
  ((-7638714301990634562), [45;55;54;51;56;55;49;52;51;48;49;57;57;48;54;51;52;53;54;50]);
  ((-780), [45;55;56;48]);
  ((-874186971040235451044369525677187073187264778006808176738497), [45;56;55;52;49;56;54;57;55;49;48;52;48;50;51;53;52;53;49;48;52;52;51;54;57;53;50;53;54;55;55;49;56;55;48;55;51;49;56;55;50;54;52;55;55;56;48;48;54;56;48;56;49;55;54;55;51;56;52;57;55]);
  ((-9683210205190907891), [45;57;54;56;51;50;49;48;50;48;53;49;57;48;57;48;55;56;57;49]);
  (0, [48]);
  (1, [49]);
  (10, [49;48]);
  (10116043451313416274, [49;48;49;49;54;48;52;51;52;53;49;51;49;51;52;49;54;50;55;52]);
  (10378170827863341044, [49;48;51;55;56;49;55;48;56;50;55;56;54;51;51;52;49;48;52;52]);
  (11, [49;49]);
  (1109827697069809411975553977539089142283144149056385429652156, [49;49;48;57;56;50;55;54;57;55;48;54;57;56;48;57;52;49;49;57;55;53;53;53;51;57;55;55;53;51;57;48;56;57;49;52;50;50;56;51;49;52;52;49;52;57;48;53;54;51;56;53;52;50;57;54;53;50;49;53;54]);
  (1181187126898901062227996120078529383744884988532003721655483, [49;49;56;49;49;56;55;49;50;54;56;57;56;57;48;49;48;54;50;50;50;55;57;57;54;49;50;48;48;55;56;53;50;57;51;56;51;55;52;52;56;56;52;57;56;56;53;51;50;48;48;51;55;50;49;54;53;53;52;56;51]);
  (12, [49;50]);
  (1427915997159802551397421825605433836434791907534706111715548, [49;52;50;55;57;49;53;57;57;55;49;53;57;56;48;50;53;53;49;51;57;55;52;50;49;56;50;53;54;48;53;52;51;51;56;51;54;52;51;52;55;57;49;57;48;55;53;51;52;55;48;54;49;49;49;55;49;53;53;52;56]);
  (15, [49;53]);
  (152, [49;53;50]);
  (1596868851230089268332302984802022922004943790282373598310627, [49;53;57;54;56;54;56;56;53;49;50;51;48;48;56;57;50;54;56;51;51;50;51;48;50;57;56;52;56;48;50;48;50;50;57;50;50;48;48;52;57;52;51;55;57;48;50;56;50;51;55;51;53;57;56;51;49;48;54;50;55]);
  (251721840901092361437311607879953986272234080844332485554341, [50;53;49;55;50;49;56;52;48;57;48;49;48;57;50;51;54;49;52;51;55;51;49;49;54;48;55;56;55;57;57;53;51;57;56;54;50;55;50;50;51;52;48;56;48;56;52;52;51;51;50;52;56;53;53;53;52;51;52;49]);
  (3, [51]);
  (4, [52]);
  (4131364840608170835, [52;49;51;49;51;54;52;56;52;48;54;48;56;49;55;48;56;51;53]);
  (415848687658303484292143066351804321343590594609208407454426, [52;49;53;56;52;56;54;56;55;54;53;56;51;48;51;52;56;52;50;57;50;49;52;51;48;54;54;51;53;49;56;48;52;51;50;49;51;52;51;53;57;48;53;57;52;54;48;57;50;48;56;52;48;55;52;53;52;52;50;54]);
  (42681560056220097771122011074497261543631469046089774938335, [52;50;54;56;49;53;54;48;48;53;54;50;50;48;48;57;55;55;55;49;49;50;50;48;49;49;48;55;52;52;57;55;50;54;49;53;52;51;54;51;49;52;54;57;48;52;54;48;56;57;55;55;52;57;51;56;51;51;53]);
  (438, [52;51;56]);
  (440087091023734643643259288106358434069470627546156803361473, [52;52;48;48;56;55;48;57;49;48;50;51;55;51;52;54;52;51;54;52;51;50;53;57;50;56;56;49;48;54;51;53;56;52;51;52;48;54;57;52;55;48;54;50;55;53;52;54;49;53;54;56;48;51;51;54;49;52;55;51]);
  (460944884852602986041695573911438601134000808455161095906929, [52;54;48;57;52;52;56;56;52;56;53;50;54;48;50;57;56;54;48;52;49;54;57;53;53;55;51;57;49;49;52;51;56;54;48;49;49;51;52;48;48;48;56;48;56;52;53;53;49;54;49;48;57;53;57;48;54;57;50;57]);
  (489, [52;56;57]);
  (5, [53]);
  (516, [53;49;54]);
  (518, [53;49;56]);
  (56, [53;54]);
  (5731787948788968500, [53;55;51;49;55;56;55;57;52;56;55;56;56;57;54;56;53;48;48]);
  (603, [54;48;51]);
  (614741799473557674350865953089469935450985002886754891840964, [54;49;52;55;52;49;55;57;57;52;55;51;53;53;55;54;55;52;51;53;48;56;54;53;57;53;51;48;56;57;52;54;57;57;51;53;52;53;48;57;56;53;48;48;50;56;56;54;55;53;52;56;57;49;56;52;48;57;54;52]);
  (7428975605922495792, [55;52;50;56;57;55;53;54;48;53;57;50;50;52;57;53;55;57;50]);
  (779, [55;55;57]);
  (8, [56]);
  (8165172674455249320, [56;49;54;53;49;55;50;54;55;52;52;53;53;50;52;57;51;50;48]);
  (817, [56;49;55]);
  (853623334804570128972502878955567593649914036610923901870287, [56;53;51;54;50;51;51;51;52;56;48;52;53;55;48;49;50;56;57;55;50;53;48;50;56;55;56;57;53;53;53;54;55;53;57;51;54;52;57;57;49;52;48;51;54;54;49;48;57;50;51;57;48;49;56;55;48;50;56;55]);
  (8951545940387111702, [56;57;53;49;53;52;53;57;52;48;51;56;55;49;49;49;55;48;50]);
  (9, [57]);
  (964, [57;54;52]);
  (975, [57;55;53])].
Example int_text_agrees : forallb (fun v => bytes_eqb (int_text (fst v)) (snd v)) int_text_vectors = true.
Proof. vm_compute. reflexivity. Qed.

Definition to_bytes_vectors : list (Z * Z * endian * bool * res (list Z)) :=
 [((-1), 0, Big, false, Raise EOverflow);
  ((-1), 0, Little, false, Raise EOverflow);
  ((-1), 1, Big, false, Raise EOverflow);
  ((-1), 1, Big, true, Ok [255]);
  ((-1), 1, Little, false, Raise EOverflow);
  ((-1), 1, Little, true, Ok [255]);
  ((-1), 2, Big, true, Ok [255;255]);
  ((-1), 2, Little, true, Ok [255;255]);
  ((-1), 3, Big, true, Ok [255;255;255]);
  ((-1), 3, Little, true, Ok [255;255;255]);
  ((-1), 4, Big, false, Raise EOverflow);
  ((-1), 4, Big, true, Ok [255;255;255;255]);
  ((-1), 8, Big, false, Raise EOverflow);
  ((-1), 8, Little, false, Raise EOverflow);
  ((-1), 8, Little, true, Ok [255;255;255;255;255;255;255;255]);
  ((-107), 1, Big, false, Raise EOverflow);
  ((-126), 2, Big, true, Ok [255;130]);
  ((-126), 2, Little, false, Raise EOverflow);
  ((-126), 2, Little, true, Ok [130;255]);
  ((-126), 3, Big, true, Ok [255;255;130]);
  ((-126), 4, Little, false, Raise EOverflow);
  ((-127), 0, Big, false, Raise EOverflow);
  ((-127), 0, Little, false, Raise EOverflow);
  ((-127), 1, Little, true, Ok [129]);
  ((-127), 2, Big, true, Ok [255;129]);
  ((-127), 2, Little, false, Raise EOverflow);
  ((-127), 3, Big, false, Raise EOverflow);
  ((-127), 3, Little, true, Ok [129;255;255]);
  ((-128), 0, Little, false, Raise EOverflow);
  ((-128), 1, Big, false, Raise EOverflow);
  ((-128), 1, Big, true, Ok [128]);
  ((-128), 1, Little, true, Ok [128]);
  ((-128), 2, Big, true, Ok [255;128]);
  ((-128), 2, Little, false, Raise EOverflow);
  ((-128), 3, Little, true, Ok [128;255;255]);
  ((-128), 4, Little, true, Ok [128;255;255;255]);
  ((-128), 8, Little, true, Ok [128;255;255;255;255;255;255;255]);
  ((-129), 1, Big, true, Raise EOverflow);
  ((-129), 1, Little, false, Raise EOverflow);
  ((-129), 2, Big, false, Raise EOverflow);
  ((-129), 2, Little, false, Raise EOverflow);
  ((-129), 4, Big, true, Ok [255;255;255;127]);
  ((-129), 4, Little, true, Ok [127;255;255;255]);
  ((-129), 8, Little, true, Ok [127;255;255;255;255;255;255;255]);
  ((-130), 0, Big, true, Raise EOverflow);
  ((-130), 3, Little, true, Ok [126;255;255]);
  ((-130), 4, Little, true, Ok [126;255;255;255]);
  ((-16777215), 3, Little, false, Raise EOverflow);
  ((-16777216), 3, Big, true, Raise EOverflow);
  ((-18437526305705325353), 8, Big, false, Raise EOverflow);
  ((-2), 1, Little, true, Ok [254]);
  ((-2), 2, Big, false, Raise EOverflow);
  ((-2), 3, Little, true, Ok [254;255;255]);
  ((-2), 4, Big, false, Raise EOverflow);
  ((-2), 8, Big, true, Ok [255;255;255;255;255;255;255;254]);
  ((-2006115), 3, Big, false, Raise EOverflow);
  ((-2147483647), 4, Big, true, Ok [128;0;0;1]);
  ((-2147483648), 4, Little, false, Raise EOverflow);
  ((-2147483649), 4, Big, false, Raise EOverflow);
  ((-254), 0, Big, true, Raise EOverflow);
  ((-254), 0, Little, false, Raise EOverflow);
  ((-254), 1, Big, true, Raise EOverflow);
  ((-254), 8, Little, false, Raise EOverflow);
  ((-255), 0, Big, false, Raise EOverflow);
  ((-255), 0, Little, false, Raise EOverflow);
  ((-255), 1, Big, false, Raise EOverflow);
  ((-255), 1, Little, false, Raise EOverflow);
  ((-255), 2, Big, false, Raise EOverflow);
  ((-255), 2, Little, false, Raise EOverflow);
  ((-255), 4, Big, false, Raise EOverflow);
  ((-255), 4, Little, true, Ok [1;255;255;255]);
  ((-255), 8, Little, false, Raise EOverflow);
  ((-256), 0, Big, true, Raise EOverflow);
  ((-256), 1, Little, true, Raise EOverflow);
  ((-256), 2, Big, false, Raise EOverflow);
  ((-256), 2, Big, true, Ok [255;0]);
  ((-256), 2, Little, true, Ok [0;255]);
  ((-256), 3, Little, false, Raise EOverflow);
  ((-256), 4, Little, true, Ok [0;255;255;255]);
  ((-256), 8, Little, false, Raise EOverflow);
  ((-257), 1, Little, true, Raise EOverflow);
  ((-257), 2, Little, true, Ok [255;254]);
  ((-257), 3, Little, true, Ok [255;254;255]);
  ((-257), 4, Big, false, Raise EOverflow);
  ((-29), 1, Big, false, Raise EOverflow);
  ((-29447773), 3, Big, false, Raise EOverflow);
  ((-32768), 2, Big, false, Raise EOverflow);
  ((-32769), 2, Big, false, Raise EOverflow);
  ((-398), 1, Big, true, Raise EOverflow);
  ((-4294967295), 4, Big, true, Raise EOverflow);
  ((-65537), 2, Little, false, Raise EOverflow);
  ((-7126440), 3, Big, true, Ok [147;66;88]);
  ((-7263777936), 4, Big, false, Raise EOverflow);
  ((-8388607), 3, Big, false, Raise EOverflow);
  ((-8388607), 3, Little, false, Raise EOverflow);
  ((-8388608), 3, Big, true, Ok [128;0;0]);
  ((-8388608), 3, Little, false, Raise EOverflow);
  ((-8388609), 3, Big, true, Raise EOverflow);
  ((-8388609), 3, Little, false, Raise EOverflow);
  ((-9223372036854775807), 8, Little, false, Raise EOverflow);
  ((-9223372036854775807), 8, Little, true, Ok [1;0;0;0;0;0;0;128]);
  ((-97), 1, Big, true, Ok [159]);
  (0, 0, Big, false, Ok []);
  (0, 0, Big, true, Ok []);
  (0, 0, Little, false, Ok []);
  (0, 0, Little, true, Ok []);
  (0, 1, Big, true, Ok [0]);
  (0, 1, Little, true, Ok [0]);
  (0, 2, Little, false, Ok [0;0]);
  (0, 2, Little, true, Ok [0;0]);
  (0, 3, Big, false, Ok [0;0;0]);
  (0, 3, Big, true, Ok [0;0;0]);
  (0, 4, Big, false, Ok [0;0;0;0]);
  (0, 4, Big, true, Ok [0;0;0;0]);
  (0, 4, Little, true, Ok [0;0;0;0]);
  (0, 8, Big, false, Ok [0;0;0;0;0;0;0;0]);
  (0, 8, Little, false, Ok [0;0;0;0;0;0;0;0]);
  (0, 8, Little, true, Ok [0;0;0;0;0;0;0;0]);
  (1, 0, Big, false, Raise EOverflow);
  (1, 0, Big, true, Raise EOverflow);
  (1, 0, Little, false, Raise EOverflow);
  (1, 1, Big, true, Ok [1]);
  (1, 1, Little, false, Ok [1]);
  (1, 1, Little, true, Ok [1]);
  (1, 3, Little, false, Ok [1;0;0]);
  (1, 3, Little, true, Ok [1;0;0]);
  (1, 4, Big, false, Ok [0;0;0;1]);
  (1, 8, Big, true, Ok [0;0;0;0;0;0;0;1]);
  (1, 8, Little, true, Ok [1;0;0;0;0;0;0;0]);
  (12518850, 3, Little, true, Raise EOverflow);
  (126, 1, Little, true, Ok [126]);
  (126, 2, Big, false, Ok [0;126]);
  (126, 2, Little, false, Ok [126;0]);
  (127, 0, Big, true, Raise EOverflow);
  (127, 0, Little, true, Raise EOverflow);
  (127, 1, Little, false, Ok [127]);
  (127, 2, Big, false, Ok [0;127]);
  (127, 2, Big, true, Ok [0;127]);
  (127, 2, Little, false, Ok [127;0]);
  (127, 3, Little, true, Ok [127;0;0]);
  (127, 4, Big, true, Ok [0;0;0;127]);
  (127, 8, Big, false, Ok [0;0;0;0;0;0;0;127]);
  (127, 8, Big, true, Ok [0;0;0;0;0;0;0;127]);
  (128, 0, Big, false, Raise EOverflow);
  (128, 0, Little, true, Raise EOverflow);
  (128, 1, Big, false, Ok [128]);
  (128, 1, Big, true, Raise EOverflow);
  (128, 1, Little, true, Raise EOverflow);
  (128, 2, Little, false, Ok [128;0]);
  (128, 2, Little, true, Ok [128;0]);
  (128, 3, Big, false, Ok [0;0;128]);
  (128, 4, Big, false, Ok [0;0;0;128]);
  (128, 4, Big, true, Ok [0;0;0;128]);
  (128, 4, Little, false, Ok [128;0;0;0]);
  (129, 0, Big, false, Raise EOverflow);
  (129, 0, Little, false, Raise EOverflow);
  (129, 0, Little, true, Raise EOverflow);
  (129, 1, Little, true, Raise EOverflow);
  (129, 2, Big, true, Ok [0;129]);
  (129, 3, Big, false, Ok [0;0;129]);
  (129, 3, Little, false, Ok [129;0;0]);
  (129, 4, Little, false, Ok [129;0;0;0]);
  (129, 8, Big, true, Ok [0;0;0;0;0;0;0;129]);
  (130, 0, Big, false, Raise EOverflow);
  (130, 3, Little, true, Ok [130;0;0]);
  (16777216, 3, Big, false, Raise EOverflow);
  (18446744073709551615, 8, Big, true, Raise EOverflow);
  (18446744073709551616, 8, Big, true, Raise EOverflow);
  (18446744073709551617, 8, Little, false, Raise EOverflow);
  (198, 1, Big, false, Ok [198]);
  (2, 0, Big, false, Raise EOverflow);
  (2, 0, Big, true, Raise EOverflow);
  (2, 0, Little, false, Raise EOverflow);
  (2, 0, Little, true, Raise EOverflow);
  (2, 1, Little, false, Ok [2]);
  (2, 2, Big, false, Ok [0;2]);
  (2, 2, Big, true, Ok [0;2]);
  (2, 2, Little, false, Ok [2;0]);
  (2, 3, Little, false, Ok [2;0;0]);
  (2, 3, Little, true, Ok [2;0;0]);
  (2, 4, Little, true, Ok [2;0;0;0]);
  (2, 8, Little, true, Ok [2;0;0;0;0;0;0;0]);
  (20324441, 3, Little, true, Raise EOverflow);
  (2147483648, 4, Big, false, Ok [128;0;0;0]);
  (2147483648, 4, Big, true, Raise EOverflow);
  (2207722130, 4, Little, false, Ok [146;42;151;131]);
  (22452560, 3, Little, true, Raise EOverflow);
  (2266863532, 4, Little, false, Ok [172;151;29;135]);
  (22870, 2, Big, true, Ok [89;86]);
  (24594414, 3, Big, false, Raise EOverflow);
  (254, 8, Little, false, Ok [254;0;0;0;0;0;0;0]);
  (254, 8, Little, true, Ok [254;0;0;0;0;0;0;0]);
  (255, 0, Big, true, Raise EOverflow);
  (255, 0, Little, false, Raise EOverflow);
  (255, 0, Little, true, Raise EOverflow);
  (255, 1, Big, true, Raise EOverflow);
  (255, 3, Big, false, Ok [0;0;255]);
  (255, 3, Little, true, Ok [255;0;0]);
  (255, 4, Big, false, Ok [0;0;0;255]);
  (255, 4, Little, false, Ok [255;0;0;0]);
  (255, 8, Big, false, Ok [0;0;0;0;0;0;0;255]);
  (256, 0, Big, false, Raise EOverflow);
  (256, 0, Big, true, Raise EOverflow);
  (256, 0, Little, false, Raise EOverflow);
  (256, 0, Little, true, Raise EOverflow);
  (256, 1, Big, false, Raise EOverflow);
  (256, 1, Big, true, Raise EOverflow);
  (256, 2, Big, false, Ok [1;0]);
  (256, 2, Big, true, Ok [1;0]);
  (256, 3, Big, true, Ok [0;1;0]);
  (256, 4, Big, false, Ok [0;0;1;0]);
  (256, 4, Big, true, Ok [0;0;1;0]);
  (256, 4, Little, true, Ok [0;1;0;0]);
  (256, 8, Big, true, Ok [0;0;0;0;0;0;1;0]);
  (256, 8, Little, true, Ok [0;1;0;0;0;0;0;0]);
  (257, 0, Big, true, Raise EOverflow);
  (257, 1, Little, false, Raise EOverflow);
  (257, 3, Big, true, Ok [0;1;1]);
  (257, 3, Little, true, Ok [1;1;0]);
  (257, 4, Little, false, Ok [1;1;0;0]);
  (38355, 2, Little, false, Ok [211;149]);
  (4053409362, 4, Big, true, Raise EOverflow);
  (4171110020, 4, Big, true, Raise EOverflow);
  (4294967297, 4, Big, false, Raise EOverflow);
  (4294967297, 4, Little, false, Raise EOverflow);
  (4294967297, 4, Little, true, Raise EOverflow);
  (4734000828, 4, Little, true, Raise EOverflow);
  (65536, 2, Little, false, Raise EOverflow);
  (65537, 2, Little, true, Raise EOverflow);
  (6863422805, 4, Big, true, Raise EOverflow);
  (6996111069, 4, Little, true, Raise EOverflow);
  (73942, 2, Big, false, Raise EOverflow);
  (74087, 2, Little, false, Raise EOverflow);
  (8388608, 3, Big, false, Ok [128;0;0]);
  (8388609, 3, Big, false, Ok [128;0;1]);
  (8388609, 3, Little, false, Ok [1;0;128]);
  (8765967186888629442, 8, Big, true, Ok [121;166;248;182;95;58;28;194]);
  (9223372036854775807, 8, Big, false, Ok [127;255;255;255;255;255;255;255]);
  (9223372036854775807, 8, Big, true, Ok [127;255;255;255;255;255;255;255]);
  (9223372036854775807, 8, Little, false, Ok [255;255;255;255;255;255;255;127]);
  (97318, 2, Big, true, Raise EOverflow)].
Example to_bytes_agrees : forallb (fun v => let '(x, n, e, s, r) := v in res_eqb bytes_eqb (py_to_bytes x n e s) r) to_bytes_vectors = true.
Proof. vm_compute. reflexivity. Qed.

Definition from_bytes_vectors : list (list Z * endian * bool * Z) :=
 [([0;0;127;127], Little, true, 2139029504);
  ([0;0;208], Little, false, 13631488);
  ([0;0;255;128], Big, true, 65408);
  ([0;0], Big, true, 0);
  ([0;113], Little, true, 28928);
  ([0;127;128;248;0;49], Big, true, 547624583217);
  ([0;127;128;94], Little, true, 1585479424);
  ([0;127;255;0;0;187;255;242], Little, true, (-936824588778635520));
  ([0;127], Big, false, 127);
  ([0;127], Little, false, 32512);
  ([0;128;128;255;1;255;1;127], Big, false, 36170629757469055);
  ([0;128;255;0;1], Little, true, 4311711744);
  ([0;128;255;128;57;128;76], Big, false, 141834856267852);
  ([0;128], Big, true, 128);
  ([0;1;0], Big, true, 256);
  ([0;1;128;1], Big, true, 98305);
  ([0;1;1;0;10;127;127;127], Little, true, 9187201445785567488);
  ([0;240], Big, false, 240);
  ([0;255;127;152;0;127], Big, true, 1097357328511);
  ([0;255;128;255;255], Little, true, (-8323328));
  ([0;37;128;255;128;22;0], Big, true, 41235972625920);
  ([0;72;127;127;255;0;255;127], Little, true, 9223091659233773568);
  ([100;128;255;255], Little, false, 4294934628);
  ([101;0;1;127;128;255;167], Big, true, 28428979081904039);
  ([127;0;0;127], Big, false, 2130706559);
  ([127;0;255;127;0;2;127], Little, false, 35749523212927103);
  ([127;0;255;127;128;51], Little, true, 56626996248703);
  ([127;0], Little, true, 127);
  ([127;101;255;0], Big, false, 2137390848);
  ([127;113;255;127;128], Little, true, (-547608366721));
  ([127;127;0;0;1;188;128], Big, false, 35886960019094656);
  ([127;127;0;0;255;255], Little, true, (-4294934657));
  ([127;127;128], Little, false, 8421247);
  ([127;127;1;240;127;10;127], Little, true, 35758866646007679);
  ([127;127], Big, true, 32639);
  ([127;128;0;60;127], Little, false, 546467512447);
  ([127;128;255;255;50;0;255;128], Little, true, (-9151595698750259073));
  ([127;18], Little, false, 4735);
  ([127;1;0;184;255;51;0], Little, true, 57173396685183);
  ([127;1;0;233;0;127], Big, true, 139642286964863);
  ([127;1;127;189;19], Little, true, 84783595903);
  ([127;1;128;255;128;128;127], Little, false, 35888613573001599);
  ([127;1;128;255;255;60], Little, true, 67070200906111);
  ([127;231;0;0;127;1], Little, true, 1644972533631);
  ([127;255;0;1], Little, true, 16842623);
  ([127;255;0;32;236], Little, true, (-85362409601));
  ([127;255;0;96;1;128;255], Little, false, 71916862455218047);
  ([127;255;127], Big, false, 8388479);
  ([127;255;128;1;0;255;0;127], Little, true, 9151594818307161983);
  ([127;255;255;16;128;128;255;189], Little, true, (-4755941393950572673));
  ([127;255], Big, false, 32767);
  ([127], Big, false, 127);
  ([127], Big, true, 127);
  ([128;0;0;127;0;0;127;0], Little, true, 35747324172959872);
  ([128;107;255;1;128;255;128;1], Little, false, 108367316311305088);
  ([128;127;128;1;128;128;1], Little, true, 422762246078336);
  ([128;127;1], Little, true, 98176);
  ([128;127;227;192;128;128], Little, false, 141290480304000);
  ([128;128;0;255;255], Little, false, 1099494883456);
  ([128;128;127;1], Little, false, 25133184);
  ([128;128;128;1;127;0;255;127], Little, true, 9223091107364110464);
  ([128;163;1;255;0;127;127;128], Little, true, (-9187485072557497472));
  ([128;1;0], Little, false, 384);
  ([128;1;127;5;255;128], Big, false, 140743914422144);
  ([128;1;128;255;1;128;128], Big, true, (-36027143473233792));
  ([128;1;1;1;128;37;128;1], Big, true, (-9223089455921528831));
  ([128;1], Big, true, (-32767));
  ([128;255;114;127], Big, false, 2164224639);
  ([128;255;1;186], Little, true, (-1174274176));
  ([128;255;60], Little, true, 3997568);
  ([128;255], Big, false, 33023);
  ([128;95;128;0], Big, true, (-2141224960));
  ([128], Big, true, (-128));
  ([128], Little, true, (-128));
  ([131;128;128;128;211;128;128;127], Little, false, 9187484885718171779);
  ([139;246;128;255;128;0;127], Big, true, (-32661538372321153));
  ([147;34;128;0;0;128;127], Little, false, 35888059539006099);
  ([169], Big, false, 169);
  ([179;0;1;45;1;1;255], Big, true, (-21673568156712449));
  ([17;109;255;0], Big, true, 292421376);
  ([184], Big, false, 184);
  ([1;0;127], Big, true, 65663);
  ([1;0;128;0;199;0;0;0], Little, true, 854706880513);
  ([1;0;128;255;0;127;125], Little, true, 35324014352138241);
  ([1;0;128;255], Little, true, (-8388607));
  ([1;0;1;1;255;255;1;63], Little, true, 4540191370064756737);
  ([1;0;255;127;30], Little, true, 130996436993);
  ([1;111;1;0;128;128], Big, true, 1576269807744);
  ([1;127;1;0;127;144], Big, true, 1644989284240);
  ([1;127], Big, false, 383);
  ([1;127], Little, false, 32513);
  ([1;128;0;89;1;1;128], Big, true, 422213958304128);
  ([1;128;192;255;1;1;158;255], Little, false, 18419160634089308161);
  ([1;128], Big, true, 384);
  ([1;1;0;1;128;128], Little, false, 141287260946689);
  ([1;1;0], Big, false, 65792);
  ([1;1;127;1;1;41;0;0], Big, false, 72478711305797632);
  ([1;1], Little, false, 257);
  ([1;202;127;1;255;255;0;0], Little, true, 281470706895361);
  ([1;255;0;127;1;1;1;139], Little, true, (-8430455921523491071));
  ([1;255;129;1;128;1], Big, false, 2196892647425);
  ([1;255;255;1;128;255;0;0], Little, false, 280925254450945);
  ([1;255], Little, false, 65281);
  ([1;46], Little, false, 11777);
  ([1;76;127;255;0;108;1], Little, true, 400226519043073);
  ([1], Little, false, 1);
  ([203;232;1;128;0], Little, true, 2147608779);
  ([207;128;1;134], Little, false, 2248245455);
  ([207;255], Little, true, (-49));
  ([218;255;1;128;32], Little, true, 139586568154);
  ([22;170;0;127], Little, false, 2130749974);
  ([238;128;195;255], Big, true, (-293551105));
  ([253], Big, true, (-3));
  ([255;0;127;128;255], Little, false, 1097372467455);
  ([255;0;127;1;1], Big, true, (-4286643967));
  ([255;0], Big, true, (-256));
  ([255;11;248], Big, false, 16714744);
  ([255;127;164;1], Big, true, (-8412159));
  ([255;128;53;0;128;128;255], Little, false, 71917406308892927);
  ([255;141;255;128;128;128], Big, true, (-489634627456));
  ([255;193;128;255], Little, true, (-8338945));
  ([255;1;127], Little, true, 8323583);
  ([255;255;0;128;127;127;255], Little, false, 71916304646340607);
  ([255;255;233;0;22;128;255;255], Big, true, (-25288389885953));
  ([255;255], Little, true, (-1));
  ([255], Big, true, (-1));
  ([255], Little, true, (-1));
  ([29;128;161;127;255;0;1;1], Big, false, 2125876595229982977);
  ([3;255;127;0;0;1], Little, true, 1099520016131);
  ([43;0;1;1;255], Little, true, (-4278124501));
  ([47;1;128;128;0;114;64], Big, false, 13230975320355392);
  ([53;1;128;255;0;0], Big, false, 58280575434752);
  ([64;156;14;255], Big, true, 1083969279);
  ([67;1], Little, true, 323);
  ([88;0;255;127;128;128;128;0], Little, true, 36170086410551384);
  ([9;128;74;127;128;1;127], Little, true, 35748973445283849);
  ([], Big, false, 0);
  ([], Big, true, 0);
  ([], Little, false, 0);
  ([], Little, true, 0)].
Example from_bytes_agrees : forallb (fun v => let '(bs, e, s, r) := v in py_from_bytes bs e s =? r) from_bytes_vectors = true.
Proof. vm_compute. reflexivity. Qed.

Definition pack_binary16_vectors : list (Z * endian * res (list Z)) :=
 [(0, Big, Ok [0;0]);
  (0, Little, Ok [0;0]);
  (1, Little, Ok [0;0]);
  (1025881714470464474, Little, Ok [0;0]);
  (10313094178660281308, Big, Ok [128;0]);
  (10968097795094213246, Little, Ok [0;128]);
  (11528566124589084073, Little, Ok [0;128]);
  (11723985285660409125, Big, Ok [128;0]);
  (11864398002146159665, Big, Ok [128;0]);
  (12066965114957718618, Big, Ok [128;0]);
  (12137449247062650889, Little, Ok [0;128]);
  (12303025351213578952, Big, Ok [128;0]);
  (12403549860518786868, Big, Ok [128;0]);
  (12501078283531686091, Little, Ok [0;128]);
  (13053361522004270656, Big, Ok [128;0]);
  (13193736684340830622, Big, Ok [128;0]);
  (13380796997709105973, Big, Ok [128;0]);
  (13533900195988443601, Little, Ok [0;128]);
  (1354215565365632293, Big, Ok [0;0]);
  (13722470263621156864, Big, Ok [128;1]);
  (13722470263621156865, Big, Ok [128;1]);
  (13745971225153241088, Big, Ok [128;39]);
  (13746254899153207296, Big, Ok [128;41]);
  (13747943749013471233, Big, Ok [128;53]);
  (13753922893245317120, Little, Ok [127;128]);
  (13753922893513752576, Big, Ok [128;127]);
  (13753922893513752577, Little, Ok [127;128]);
  (13753993261989494785, Big, Ok [128;128]);
  (13753993262257930240, Little, Ok [128;128]);
  (13754626580687093761, Little, Ok [146;128]);
  (13758461677244776447, Big, Ok [128;255]);
  (13758461677244776448, Little, Ok [255;128]);
  (13758461677244780544, Big, Ok [128;255]);
  (13758463876268032001, Little, Ok [255;128]);
  (13775943912394850305, Big, Ok [139;127]);
  (13779893358161821697, Little, Ok [1;143]);
  (13781010461707206656, Little, Ok [255;143]);
  (13813098609052221440, Big, Ok [172;127]);
  (13832801857421971456, Big, Ok [189;255]);
  (13847438556210921472, Little, Ok [255;202]);
  (13850253305978028031, Big, Ok [205;127]);
  (13877846649788698624, Big, Ok [230;1]);
  (13878972549695541248, Little, Ok [1;231]);
  (13889103449833865216, Little, Ok [0;240]);
  (13892481149554393088, Big, Ok [243;0]);
  (13895289302251732992, Big, Ok [245;127]);
  (13924970360529032946, Little, Raise EOverflow);
  (14132536382138203122, Little, Raise EOverflow);
  (14323211337270828738, Big, Raise EOverflow);
  (14580205017695831220, Little, Raise EOverflow);
  (14700064777574119146, Big, Raise EOverflow);
  (14908977997205241730, Big, Raise EOverflow);
  (15547790514536320010, Big, Raise EOverflow);
  (1623954434193308111, Big, Ok [0;0]);
  (16358526697223616917, Big, Raise EOverflow);
  (16736417506356371808, Big, Raise EOverflow);
  (17197410294377961444, Big, Raise EOverflow);
  (17696249778713860450, Little, Raise EOverflow);
  (17851461739425754890, Big, Raise EOverflow);
  (18317338677866958689, Big, Raise EOverflow);
  (18338139724751137192, Big, Raise EOverflow);
  (18344778382064918866, Little, Raise EOverflow);
  (187033913105266137, Little, Ok [0;0]);
  (1871018857965955021, Big, Ok [0;0]);
  (1945956976947726249, Big, Ok [0;0]);
  (2109872935187612102, Big, Ok [0;0]);
  (2176864999149313247, Little, Ok [0;0]);
  (2199023255552, Big, Ok [0;0]);
  (2199023255553, Big, Ok [0;0]);
  (2264416284169639494, Little, Ok [0;0]);
  (2392485232177094458, Little, Ok [0;0]);
  (2428247374212583685, Little, Ok [0;0]);
  (2482892058618391529, Big, Ok [0;0]);
  (268435455, Big, Ok [0;0]);
  (268435455, Little, Ok [0;0]);
  (268435456, Big, Ok [0;0]);
  (268435456, Little, Ok [0;0]);
  (268435457, Big, Ok [0;0]);
  (268435457, Little, Ok [0;0]);
  (3321751547120989148, Little, Ok [0;0]);
  (3387466241722907261, Big, Ok [0;0]);
  (3894897521768686953, Big, Ok [0;0]);
  (3958909358109392142, Little, Ok [0;0]);
  (4204448641385737909, Big, Ok [0;0]);
  (4260570081429415013, Little, Ok [0;0]);
  (4499096027743125504, Big, Ok [0;1]);
  (4499096027743125504, Little, Ok [1;0]);
  (4499096027743129600, Big, Ok [0;1]);
  (4499096028011560959, Big, Ok [0;1]);
  (4499096028011560961, Little, Ok [1;0]);
  (4521051075926556672, Little, Ok [30;0]);
  (4526821312949125120, Big, Ok [0;74]);
  (4530550856658976769, Little, Ok [127;0]);
  (4530553055413796864, Big, Ok [0;127]);
  (4530553055413796865, Little, Ok [127;0]);
  (4530621225134718975, Little, Ok [128;0]);
  (4530621225134718976, Big, Ok [0;128]);
  (4530621225134718976, Little, Ok [128;0]);
  (4530621225134718977, Little, Ok [128;0]);
  (4530621225403154432, Little, Ok [128;0]);
  (4530623424157974528, Big, Ok [0;128]);
  (4532098968762449920, Little, Ok [170;0]);
  (4532169337775063040, Little, Ok [172;0]);
  (4534350768844570624, Little, Ok [234;0]);
  (4534737796669112320, Big, Ok [0;245]);
  (4534737796669112320, Little, Ok [245;0]);
  (4535089640390000640, Big, Ok [0;255]);
  (4535089640390000641, Little, Ok [255;0]);
  (4535089640390004736, Little, Ok [255;0]);
  (4535089640658436095, Little, Ok [255;0]);
  (4535089640658436097, Little, Ok [255;0]);
  (4535091839413256192, Big, Ok [0;255]);
  (4535124824762089472, Big, Ok [1;0]);
  (4535124824762089472, Little, Ok [0;1]);
  (4535124824762089473, Little, Ok [0;1]);
  (4535124825030524927, Little, Ok [0;1]);
  (4535124825030524929, Big, Ok [1;0]);
  (4535127023785345025, Big, Ok [1;0]);
  (4535142416948133889, Little, Ok [1;1]);
  (4535144615971389440, Little, Ok [1;1]);
  (4535865895599210496, Little, Ok [42;1]);
  (4537359032389730304, Big, Ok [1;127]);
  (4537378823599030272, Big, Ok [1;128]);
  (4537763652668755968, Big, Ok [1;150]);
  (4538344195076653057, Big, Ok [1;183]);
  (4539613031226671105, Little, Ok [255;1]);
  (4544136422063341567, Big, Ok [4;1]);
  (4558768723074220032, Little, Ok [0;17]);
  (4578730294717499747, Little, Ok [187;34]);
  (4580165219082305536, Little, Ok [1;36]);
  (4581291119257583617, Big, Ok [37;1]);
  (4588037722605617151, Little, Ok [255;42]);
  (458944011740074244, Little, Ok [0;0]);
  (4600424820335706113, Little, Ok [0;54]);
  (4618445816183390207, Little, Ok [1;70]);
  (4628574517030027265, Little, Ok [0;79]);
  (4638140268191682560, Little, Ok [127;87]);
  (4674740811525521409, Big, Ok [120;1]);
  (4721271741471414765, Little, Raise EOverflow);
  (4971335841034492046, Big, Raise EOverflow);
  (5080218477340142856, Big, Raise EOverflow);
  (5145955811419002065, Big, Raise EOverflow);
  (5603649972838568264, Little, Raise EOverflow);
  (5658146600328796298, Little, Raise EOverflow);
  (5688585911418624627, Little, Raise EOverflow);
  (584514243457988373, Big, Ok [0;0]);
  (5898700673120661606, Big, Raise EOverflow);
  (5942146058725815247, Little, Raise EOverflow);
  (6189876682838881668, Little, Raise EOverflow);
  (6231831528173731774, Little, Raise EOverflow);
  (6433116905507675527, Big, Raise EOverflow);
  (6951686251507625369, Big, Raise EOverflow);
  (7246782328057084441, Little, Raise EOverflow);
  (7399920853705821731, Big, Raise EOverflow);
  (7618656272678113973, Big, Raise EOverflow);
  (8657223463572366245, Big, Raise EOverflow);
  (8833589771925800652, Big, Raise EOverflow);
  (8974871622574685594, Little, Raise EOverflow);
  (9223372036854775808, Big, Ok [128;0]);
  (9223372036854775808, Little, Ok [0;128]);
  (9223372037123211263, Big, Ok [128;0]);
  (9223372037123211264, Big, Ok [128;0]);
  (9223374235878031360, Big, Ok [128;0]);
  (9537510196947147170, Little, Ok [0;128])].
Example pack_binary16_agrees : forallb (fun v => let '(x, e, r) := v in res_eqb bytes_eqb (pack_float binary16 e x) r) pack_binary16_vectors = true.
Proof. vm_compute. reflexivity. Qed.

Definition unpack_binary16_vectors : list (list Z * endian * Z) :=
 [([0;0], Big, 0);
  ([0;0], Little, 0);
  ([0;124], Little, 9218868437227405312);
  ([0;127], Big, 4530550856390541312);
  ([0;128], Big, 4530621225134718976);
  ([0;128], Little, 9223372036854775808);
  ([0;129], Little, 13758496861616865280);
  ([0;142], Big, 4531113806343962624);
  ([0;159], Big, 4531711940669472768);
  ([0;15], Little, 4556516922992099328);
  ([0;19], Little, 4561020522619469824);
  ([0;1], Big, 4499096027743125504);
  ([0;1], Little, 4535124824762089472);
  ([0;221], Big, 4533893371738980352);
  ([0;22], Big, 4518799276112871424);
  ([0;244], Big, 4534702612297023488);
  ([0;255], Big, 4535089640390000640);
  ([0;59], Little, 4606056518893174784);
  ([11;0], Little, 4514295676485500928);
  ([121;127], Big, 4676420865024327680);
  ([127;0], Little, 4530550856390541312);
  ([127;120], Little, 4675294965117485056);
  ([127;128], Little, 13753922893245317120);
  ([127;139], Little, 13775943912126414848);
  ([127;1], Little, 4537359032389730304);
  ([128;0], Big, 9223372036854775808);
  ([128;0], Little, 4530621225134718976);
  ([128;10], Big, 13737104763386855424);
  ([128;122], Big, 13753571049524428800);
  ([128;128], Big, 13753993261989494784);
  ([128;128], Little, 13753993261989494784);
  ([128;1], Big, 13722468064597901312);
  ([128;70], Big, 13749911874827190272);
  ([134;128], Little, 13754204368222027776);
  ([13;0], Big, 4554265123178414080);
  ([149;0], Big, 13786644359287930880);
  ([14;0], Big, 4555391023085256704);
  ([14;1], Little, 4535371115366711296);
  ([156;127], Big, 13795084210542739456);
  ([159;128], Little, 13755083977524248576);
  ([176;128], Big, 13817606606726103040);
  ([17;0], Big, 4558768722805784576);
  ([17;127], Big, 4559327274712694784);
  ([1;0], Big, 4535124824762089472);
  ([1;0], Little, 4499096027743125504);
  ([1;128], Big, 4537376624575774720);
  ([1;128], Little, 13722468064597901312);
  ([1;178], Big, 4538256233877995520);
  ([1;190], Big, 4538467340110528512);
  ([1;1], Big, 4535142416948133888);
  ([1;1], Little, 4535142416948133888);
  ([1;217], Little, 13863209950999740416);
  ([1;255], Big, 4539610832203415552);
  ([1;29], Big, 4535634998157377536);
  ([1;56], Little, 4602683217219158016);
  ([201;0], Little, 4533189684297203712);
  ([207;1], Little, 4538766407273283584);
  ([216;0], Little, 4533717449878536192);
  ([222;0], Big, 13868835052487442432);
  ([229;255], Big, 13877837853695672320);
  ([22;1], Little, 4535511852855066624);
  ([235;0], Little, 4534385952948224000);
  ([251;127], Big, 13902044701692788736);
  ([255;0], Little, 4535089640390000640);
  ([255;128], Little, 13758461677244776448);
  ([255;183], Little, 13826046457980911616);
  ([255;1], Little, 4539610832203415552);
  ([255;36], Little, 4581282322896125952);
  ([3;42], Little, 4586929414616383488);
  ([97;1], Big, 4648845113399705600)].
Example unpack_binary16_agrees : forallb (fun v => let '(bs, e, r) := v in unpack_float binary16 e bs =? r) unpack_binary16_vectors = true.
Proof. vm_compute. reflexivity. Qed.

Definition pack_binary32_vectors : list (Z * endian * res (list Z)) :=
 [(10141686487970365876, Little, Ok [0;0;0;128]);
  (10187066673451235889, Big, Ok [128;0;0;0]);
  (10331380572771463373, Little, Ok [0;0;0;128]);
  (11422557428250345189, Big, Ok [128;0;0;0]);
  (11814979036351374107, Big, Ok [128;0;0;0]);
  (12088070634759132903, Big, Ok [128;0;0;0]);
  (12158949350264583435, Big, Ok [128;0;0;0]);
  (12206844309362160923, Little, Ok [0;0;0;128]);
  (12399457834303666216, Big, Ok [128;0;0;0]);
  (1284900800371945093, Big, Ok [0;0;0;0]);
  (13041492306992744317, Little, Ok [0;0;0;128]);
  (13159518111176589312, Little, Ok [1;0;0;128]);
  (13195546908195553280, Little, Ok [0;1;0;128]);
  (13197781115823198208, Little, Ok [127;1;0;128]);
  (13227009708302270465, Big, Ok [128;0;127;29]);
  (13227072105587146752, Big, Ok [128;0;128;0]);
  (13227072105855582208, Big, Ok [128;0;128;0]);
  (13231540521110863873, Big, Ok [128;0;255;0]);
  (13233809912842162176, Little, Ok [0;127;1;128]);
  (13233821870031110144, Little, Ok [174;127;1;128]);
  (13233827505028206592, Big, Ok [128;1;128;0]);
  (13241712480868106240, Little, Ok [214;0;5;128]);
  (13263030670495580160, Big, Ok [128;127;0;127]);
  (13263030671300890624, Little, Ok [128;0;127;128]);
  (13263030830214676480, Big, Ok [128;127;1;20]);
  (13263101726702960640, Big, Ok [128;128;5;255]);
  (13267569386580869121, Little, Ok [128;0;255;128]);
  (13267569524288258049, Big, Ok [128;255;1;129]);
  (13267587046949519360, Little, Ok [255;128;255;128]);
  (13267593438397726720, Big, Ok [128;255;175;128]);
  (13276616512656900095, Little, Ok [1;35;0;130]);
  (13291763202880276697, Big, Ok [131;174;161;175]);
  (13313789378387880067, Little, Ok [52;167;32;134]);
  (13333170759095211519, Big, Ok [136;71;129;78]);
  (13357711542250897409, Big, Ok [139;0;255;1]);
  (13407198635398004736, Big, Ok [144;127;128;255]);
  (13539192807289257984, Little, Ok [255;0;39;159]);
  (13728539834557813180, Little, Ok [241;145;44;180]);
  (13808056240674177025, Little, Ok [241;143;0;189]);
  (13834387615228271364, Little, Ok [232;241;236;191]);
  (13988180458718887936, Little, Ok [30;0;0;209]);
  (13997180099355264670, Big, Ok [209;255;201;31]);
  (14028719504511467520, Little, Ok [127;48;128;213]);
  (14109812679484899329, Big, Ok [222;128;255;0]);
  (14138782000825728209, Little, Ok [142;90;184;225]);
  (14192042622559779483, Little, Ok [149;28;162;231]);
  (14203606645983567222, Little, Ok [237;199;234;232]);
  (14271927009809530880, Big, Ok [240;128;143;255]);
  (14402511609136152576, Big, Ok [255;0;0;2]);
  (14402511746306670591, Big, Ok [255;0;1;1]);
  (14402511746306674688, Little, Ok [1;1;0;255]);
  (14402511813952405505, Big, Ok [255;0;1;127]);
  (14402513945329926145, Little, Ok [1;17;0;255]);
  (14402528719748988928, Little, Ok [128;124;0;255]);
  (14402529110322577407, Big, Ok [255;0;127;88]);
  (14402529200248455167, Little, Ok [255;127;0;255]);
  (14402529200516890624, Big, Ok [255;0;128;0]);
  (14402529337418973184, Big, Ok [255;0;128;255]);
  (14402531403298242561, Little, Ok [7;144;0;255]);
  (14402531528926035969, Little, Ok [241;144;0;255]);
  (14402533529307054081, Little, Ok [127;159;0;255]);
  (14402533598026530815, Big, Ok [255;0;159;255]);
  (14402546655263981567, Little, Ok [0;255;0;255]);
  (14402546655263981568, Big, Ok [255;0;255;0]);
  (14402546999129800703, Big, Ok [255;1;1;128]);
  (14402581840441376767, Little, Ok [1;255;1;255]);
  (14402581907818680320, Big, Ok [255;1;255;127]);
  (14405818938770325504, Big, Ok [255;93;255;255]);
  (14406980161025081345, Big, Ok [255;127;1;0]);
  (14406980161293516799, Big, Ok [255;127;1;0]);
  (14468642052803966920, Big, Raise EOverflow);
  (15083862567081462568, Big, Raise EOverflow);
  (15263943202155927413, Big, Raise EOverflow);
  (15748469629645923017, Big, Raise EOverflow);
  (1583759950958578855, Big, Ok [0;0;0;0]);
  (16436210631580297568, Little, Raise EOverflow);
  (16521134433351555224, Little, Raise EOverflow);
  (16668841720069261106, Little, Raise EOverflow);
  (16819038799092404122, Big, Raise EOverflow);
  (1683415478528576813, Big, Ok [0;0;0;0]);
  (17035503362676540486, Big, Raise EOverflow);
  (1773489010795110221, Little, Ok [0;0;0;0]);
  (17865528178815379975, Big, Raise EOverflow);
  (18274030161757174493, Little, Raise EOverflow);
  (18442240474082181121, Big, Ok [255;192;0;0]);
  (18444492349057794048, Little, Ok [140;0;192;255]);
  (18444492410797948928, Little, Ok [255;0;192;255]);
  (18444492411334819840, Big, Ok [255;192;1;0]);
  (18444492411334819840, Little, Ok [0;1;192;255]);
  (18444492411871690752, Little, Ok [1;1;192;255]);
  (18444508284997074944, Little, Ok [127;116;192;255]);
  (18444509857491976192, Big, Ok [255;192;127;240]);
  (18444509866618781696, Big, Ok [255;192;128;1]);
  (18444527320829001728, Little, Ok [0;255;192;255]);
  (18444527340693225472, Little, Ok [37;255;192;255]);
  (18444632906157522944, Big, Ok [255;195;255;60]);
  (18445336767008604160, Little, Ok [127;0;216;255]);
  (18445723657662627840, Big, Ok [255;226;255;127]);
  (18446713218127626240, Little, Ok [127;31;255;255]);
  (18446726344084553728, Little, Ok [0;127;255;255]);
  (18446726482060378112, Little, Ok [1;128;255;255]);
  (18446726550242983936, Big, Ok [255;255;128;128]);
  (18446743936270598144, Little, Ok [0;255;255;255]);
  (2009875454397304733, Little, Ok [0;0;0;0]);
  (2575596051454589310, Big, Ok [0;0;0;0]);
  (2589395434303209991, Big, Ok [0;0;0;0]);
  (2724983155111946364, Big, Ok [0;0;0;0]);
  (3094829248182366390, Little, Ok [0;0;0;0]);
  (3298146521628372260, Little, Ok [0;0;0;0]);
  (3425889160886501457, Big, Ok [0;0;0;0]);
  (3669949178405729944, Little, Ok [0;0;0;0]);
  (3678480118792355283, Little, Ok [0;0;0;0]);
  (3956695946644946945, Little, Ok [25;0;0;0]);
  (3967671271981842431, Big, Ok [0;0;0;128]);
  (3970134178028060673, Little, Ok [198;0;0;0]);
  (3972177070364033025, Big, Ok [0;0;1;0]);
  (3972192463795257344, Little, Ok [1;1;0;0]);
  (3974426671154462720, Little, Ok [128;1;0;0]);
  (3975976982549626881, Little, Ok [216;1;0;0]);
  (4003629699988193280, Big, Ok [0;0;127;0]);
  (4003724532866088960, Little, Ok [178;128;0;0]);
  (4007646765988708353, Big, Ok [0;0;240;44]);
  (4008186076442132479, Big, Ok [0;0;255;128]);
  (4008188137757999104, Little, Ok [143;255;0;0]);
  (4008212464721199105, Big, Ok [0;1;0;128]);
  (4008221260545785856, Big, Ok [0;1;1;0]);
  (4008230056638808064, Little, Ok [128;1;1;0]);
  (4010437875987382271, Little, Ok [0;127;1;0]);
  (4010437944706859007, Big, Ok [0;1;127;1]);
  (4010455399453949952, Little, Ok [255;127;1;0]);
  (4012698471894089728, Little, Ok [128;255;1;0]);
  (4012700464758915072, Little, Ok [157;255;1;0]);
  (4019831946355040742, Big, Ok [0;6;83;247]);
  (4022840376007065600, Big, Ok [0;10;0;1]);
  (4039271606353133568, Little, Ok [128;128;121;0]);
  (4039658498080903168, Little, Ok [1;0;127;0]);
  (4039658700212797440, Big, Ok [0;127;0;189]);
  (4039661107273531393, Little, Ok [127;9;127;0]);
  (4039665370028572673, Big, Ok [0;127;25;1]);
  (4039699453815291904, Little, Ok [0;149;127;0]);
  (4039728728580816896, Big, Ok [0;127;255;128]);
  (4039746526388420609, Big, Ok [0;128;128;128]);
  (4039746594839461888, Little, Ok [255;128;128;0]);
  (4039746595913203713, Little, Ok [1;129;128;0]);
  (4039760424902590464, Little, Ok [160;229;128;0]);
  (4039763913221345280, Big, Ok [0;128;255;1]);
  (4039764047170633728, Little, Ok [250;255;128;0]);
  (4043106633922904063, Big, Ok [0;224;0;127]);
  (4044073998265352192, Little, Ok [0;127;251;0]);
  (4044197281543487488, Big, Ok [0;255;0;1]);
  (4044197349457657857, Big, Ok [0;255;0;128]);
  (4044197349726093312, Little, Ok [128;0;255;0]);
  (4044197419250876415, Little, Ok [1;1;255;0]);
  (4044199548749348865, Big, Ok [0;255;16;128]);
  (4044214872924225537, Big, Ok [0;255;128;0]);
  (4044215010094743552, Little, Ok [255;128;255;0]);
  (4044232533561311232, Big, Ok [1;0;0;127]);
  (4044232602280787969, Little, Ok [255;0;0;1]);
  (4044232603086094335, Big, Ok [1;0;1;0]);
  (4044232603354529792, Big, Ok [1;0;1;1]);
  (4044234732584566785, Little, Ok [127;16;0;1]);
  (4044234801304043521, Big, Ok [1;0;16;255]);
  (4044249989113708543, Big, Ok [1;0;127;128]);
  (4044250033942429696, Little, Ok [212;127;0;1]);
  (4044252119685922816, Little, Ok [1;143;0;1]);
  (4044252256588005376, Little, Ok [0;144;0;1]);
  (4044267580494450688, Big, Ok [1;0;255;127]);
  (4044267665856921599, Big, Ok [1;1;0;30]);
  (4044302696683929600, Little, Ok [0;255;1;1]);
  (4044302752518504448, Little, Ok [104;255;1;1]);
  (4045903585613975552, Big, Ok [1;47;127;0]);
  (4046869231164194816, Big, Ok [1;74;240;255]);
  (4048700880633987072, Little, Ok [0;0;127;1]);
  (4048703080194113536, Little, Ok [1;16;127;1]);
  (4048736064469209088, Big, Ok [1;127;255;255]);
  (4048736064737640447, Big, Ok [1;127;255;255]);
  (4048736065006080000, Little, Ok [0;0;128;1]);
  (4048736202176593921, Big, Ok [1;128;1;0]);
  (4048736202981900287, Big, Ok [1;128;1;1]);
  (4048736202981900288, Little, Ok [1;1;128;1]);
  (4048753657192120320, Little, Ok [0;128;128;1]);
  (4048753794094202880, Big, Ok [1;128;128;255]);
  (4048760391969275903, Big, Ok [1;128;177;0]);
  (4052168739771121665, Little, Ok [255;143;225;1]);
  (4052360192770179072, Little, Ok [0;1;231;1]);
  (4053204517573885951, Little, Ok [69;0;255;1]);
  (4053238565121818624, Big, Ok [1;255;248;0]);
  (4053239527462928383, Big, Ok [1;255;255;0]);
  (4053239595377098752, Little, Ok [127;255;255;1]);
  (405359055574361484, Little, Ok [0;0;0;0]);
  (4089233345462927359, Big, Ok [5;255;0;127]);
  (4089321237673676800, Little, Ok [255;127;1;6]);
  (4096, Big, Ok [0;0;0;0]);
  (4167530202005431277, Little, Ok [27;85;176;14]);
  (4242390986958835712, Big, Ok [23;0;1;1]);
  (4274945601575059456, Little, Ok [0;67;157;26]);
  (4280892755112569544, Little, Ok [61;74;70;27]);
  (4382829133005062144, Big, Ok [38;151;127;0]);
  (4407494753753875593, Big, Ok [41;84;137;3]);
  (4508138274467872767, Big, Ok [52;128;255;1]);
  (4560766305520078036, Little, Ok [84;198;88;58]);
  (4647801202575345009, Big, Ok [68;2;116;141]);
  (4720016625643047894, Little, Ok [232;240;6;76]);
  (4788419439278364904, Little, Ok [225;16;159;83]);
  (4832380129256669183, Big, Ok [88;128;128;255]);
  (4899986694335365119, Little, Ok [127;255;1;96]);
  (5016974800787079169, Little, Ok [1;0;255;108]);
  (5179139572012941312, Little, Ok [1;0;0;127]);
  (5179144106961534976, Big, Ok [127;0;33;0]);
  (5179148161142226944, Big, Ok [127;0;62;128]);
  (5179157300564201472, Little, Ok [255;128;0;127]);
  (5179159499587452928, Little, Ok [255;144;0;127]);
  (5179170632947990528, Big, Ok [127;0;226;0]);
  (5179174618677641215, Big, Ok [127;0;255;0]);
  (5179174771954290688, Big, Ok [127;1;0;30]);
  (5179176817969332224, Little, Ok [1;15;1;127]);
  (5179194410155376640, Little, Ok [1;143;1;127]);
  (5179194615240065024, Big, Ok [127;1;144;127]);
  (5179209939683381248, Big, Ok [127;1;255;255]);
  (5179315493336514559, Big, Ok [127;5;0;0]);
  (5179843259454722048, Little, Ok [1;0;20;127]);
  (5183608054913957887, Big, Ok [127;127;0;127]);
  (5183625610324344831, Big, Ok [127;127;128;58]);
  (5183638016605818880, Big, Ok [127;127;218;127]);
  (5567739500694854046, Little, Raise EOverflow);
  (5944366412505420156, Big, Raise EOverflow);
  (6240983160826855663, Little, Raise EOverflow);
  (6719537805837378794, Little, Raise EOverflow);
  (6837230746016860441, Big, Raise EOverflow);
  (7223661831074640817, Little, Raise EOverflow);
  (736442784389820137, Big, Ok [0;0;0;0]);
  (789466646615663646, Little, Ok [0;0;0;0]);
  (7949982553850267672, Little, Raise EOverflow);
  (9201674741386952884, Little, Raise EOverflow);
  (9221131644474228736, Little, Ok [0;83;192;127]);
  (9221134667594334208, Big, Ok [127;192;104;255]);
  (9221929478136004608, Big, Ok [127;215;0;1]);
  (9221994348785172480, Big, Ok [127;216;216;0]);
  (9222087669834579968, Little, Ok [0;127;219;127]);
  (9223336853019557888, Little, Ok [1;0;255;127]);
  (9223354444668731392, Big, Ok [127;255;128;0]);
  (9223354524125626368, Little, Ok [148;128;255;127]);
  (9223369425514659840, Little, Ok [0;237;255;127]);
  (9223372036854775809, Big, Ok [128;0;0;0]);
  (9307683601482655014, Big, Ok [128;0;0;0]);
  (956995442191588051, Big, Ok [0;0;0;0]);
  (9745945274673560015, Big, Ok [128;0;0;0]);
  (9804993680052542182, Big, Ok [128;0;0;0]);
  (9957714107742480440, Little, Ok [0;0;0;128])].
Example pack_binary32_agrees : forallb (fun v => let '(x, e, r) := v in res_eqb bytes_eqb (pack_float binary32 e x) r) pack_binary32_vectors = true.
Proof. vm_compute. reflexivity. Qed.

Definition unpack_binary32_vectors : list (list Z * endian * Z) :=
 [([0;0;0;128], Little, 9223372036854775808);
  ([0;0;0;1], Little, 4044232465378705408);
  ([0;0;0;255], Little, 14402511608330846208);
  ([0;0;127;0], Big, 4003629699988193280);
  ([0;0;128;127], Little, 9218868437227405312);
  ([0;0;128;255], Little, 18442240474082181120);
  ([0;0;1;128], Little, 13231575705214517248);
  ([0;0;1;1], Little, 4044267649750794240);
  ([0;0;255;0], Big, 4008168483987652608);
  ([0;0;255;0], Little, 4044197281006616576);
  ([0;0;255;16], Little, 4188312469082472448);
  ([0;0;255;6], Little, 4098240476535062528);
  ([0;0;25;255], Little, 14403391217633067008);
  ([0;116;0;127], Little, 5179155514394673152);
  ([0;127;0;0], Big, 4039658497007157248);
  ([0;127;0;0], Little, 4003629699988193280);
  ([0;127;0;1], Little, 4044249920125796352);
  ([0;127;0;98], Little, 4917948247835672576);
  ([0;127;128;0], Little, 4039746320498425856);
  ([0;127;128;127], Little, 9221137691788181504);
  ([0;127;1;1], Big, 4039658772958806016);
  ([0;127;22;128], Little, 13251418591560990720);
  ([0;128;0;0], Big, 4039728865751334912);
  ([0;128;0;255], Big, 4039729002653417472);
  ([0;128;0;255], Little, 14402529200516890624);
  ([0;128;127;127], Little, 5183625578917396480);
  ([0;128;127;255], Big, 4039746457400508416);
  ([0;128;128;0], Big, 4039746457937379328);
  ([0;128;255;0], Big, 4039763912684470272);
  ([0;128;255;128], Big, 4039763981403947008);
  ([0;128;255;24], Big, 4039763925569372160);
  ([0;143;128;255], Big, 4040274360420794368);
  ([0;148;0;224], Big, 4040432673452195840);
  ([0;154;255;128], Big, 4040678775078256640);
  ([0;155;0;173], Little, 13663942572479873024);
  ([0;1;0;0], Little, 3972174871340777472);
  ([0;1;0;127], Big, 4008212395733286912);
  ([0;1;0;128], Little, 13195546908195553280);
  ([0;1;0;162], Little, 13564842215078887424);
  ([0;1;127;127], Little, 5183608124170305536);
  ([0;1;128;1], Big, 4010455536892903424);
  ([0;1;132;149], Little, 13452392961882980352);
  ([0;1;1;0], Little, 4008221260545785856);
  ([0;1;1;1], Little, 4044267787189747712);
  ([0;1;1;72], Big, 4008226208348110848);
  ([0;1;235;255], Big, 4012355355546746880);
  ([0;1;255;117], Little, 5098039731250266112);
  ([0;1;255;128], Little, 13267569455300345856);
  ([0;1;28;128], Big, 4008705045662007296);
  ([0;209;1;1], Little, 4044296374492069888);
  ([0;255;0;104], Big, 4044197336841191424);
  ([0;255;0;127], Little, 5179174618409205760);
  ([0;255;127;255], Big, 4044214872655790080);
  ([0;255;1;0], Big, 4044197418445570048);
  ([0;255;1;0], Little, 4012689675801067520);
  ([0;255;1;142], Big, 4044197494681239552);
  ([0;255;224;0], Big, 4044228067332194304);
  ([0;255;255;127], Big, 4044232396122357760);
  ([0;255;255;128], Little, 13267604364794527744);
  ([0;35;92;0], Little, 4037205211687682048);
  ([0;44;0;1], Little, 4044238512692658176);
  ([0;91;248;255], Big, 4037193665741848576);
  ([102;93;21;1], Big, 4957234623466700800);
  ([103;255;255;186], Little, 13790021976867209216);
  ([11;128;0;255], Big, 4138808194455568384);
  ([127;0;0;0], Big, 5179139571476070400);
  ([127;0;1;0], Little, 4008212395733286912);
  ([127;0;233;1], Little, 4052430492258009088);
  ([127;0;255;0], Big, 5179174618409205760);
  ([127;0;255;109], Big, 5179174676928135168);
  ([127;0;255;128], Little, 13267569386043998208);
  ([127;0;255;255], Little, 18446708957520068608);
  ([127;127;0;128], Big, 5183608055450828800);
  ([127;127;0;1], Big, 5183607987268222976);
  ([127;127;1;0], Little, 4010446603360927744);
  ([127;127;1;45], Little, 4440601939889094656);
  ([127;127;255;66], Big, 5183643069097967616);
  ([127;128;0;127], Little, 5179157231844720640);
  ([127;128;1;1], Big, 9221120375016914944);
  ([127;163;255;0], Little, 4044219751738638336);
  ([127;191;127;255], Big, 9223354444131860480);
  ([127;1;127;127], Little, 5183608192352911360);
  ([127;1;128;0], Little, 4039729071372894208);
  ([127;255;0;0], Little, 4008185938734743552);
  ([127;255;0;1], Big, 9223336853019557888);
  ([127;255;128;255], Big, 9223354581570813952);
  ([127;255;1;255], Little, 14402581907818676224);
  ([127;38;0;0], Little, 3995607113396125696);
  ([127;67;128;128], Big, 5181514585311543296);
  ([128;0;0;0], Little, 3967671271713406976);
  ([128;0;0;255], Little, 14402511677050322944);
  ([128;0;127;143], Big, 13227041044383662080);
  ([128;0;19;0], Little, 4027063041555169280);
  ([128;0;1;239], Little, 14258431673346555904);
  ([128;0;255;128], Big, 13231558113028472832);
  ([128;0;255;255], Big, 13231575567775563776);
  ([128;102;128;0], Little, 4039742953244065792);
  ([128;127;0;0], Big, 13263030533861933056);
  ([128;127;0;0], Little, 4003664884360282112);
  ([128;127;0;128], Big, 13263030671300886528);
  ([128;127;128;127], Little, 9221137760507658240);
  ([128;127;255;127], Little, 9223354375949254656);
  ([128;127;5;1], Big, 13263031909325209600);
  ([128;128;0;0], Little, 4003717660918415360);
  ([128;128;0;255], Big, 13263101039508193280);
  ([128;128;104;0], Little, 4038075337702113280);
  ([128;128;1;123], Little, 5143163619734716416);
  ([128;135;127;1], Little, 4048719503612182528);
  ([128;160;0;255], Little, 14402533667282878464);
  ([128;1;0;203], Big, 13231589655268294656);
  ([128;1;127;255], Big, 13233827436308725760);
  ([128;1;1;127], Little, 5179174962006589440);
  ([128;1;1;255], Big, 13231610820867129344);
  ([128;1;242;255], Little, 18446251698658738176);
  ([128;1;255;1], Big, 13236061781375320064);
  ([128;226;0;127], Little, 5179170701399031808);
  ([128;232;127;255], Big, 13266777668952522752);
  ([128;255;0;1], Little, 4044267581031317504);
  ([128;255;127;127], Big, 13267586840791089152);
  ([128;255;17;127], Little, 5179772821454192640);
  ([128;255;1;1], Big, 13267569455837216768);
  ([128;81;128;192], Big, 13259828962160279552);
  ([144;255;128;0], Big, 13411702098123292672);
  ([145;210;127;65], Big, 13419125898091692032);
  ([147;0;127;0], Little, 4039658654847205376);
  ([148;255;139;255], Little, 18444914428378873856);
  ([161;43;249;1], Little, 4052999370340040704);
  ([164;255;0;255], Big, 13591828627934150656);
  ([166;233;0;73], Little, 4692782924116787200);
  ([17;1;255;255], Big, 4188418021661868032);
  ([19;255;1;128], Little, 13236063018325901312);
  ([1;0;0;0], Little, 3936146074321813504);
  ([1;0;128;0], Little, 4039728866288205824);
  ([1;0;1;127], Big, 4044232671000264704);
  ([1;0;1;128], Little, 13231575773933993984);
  ([1;0;33;1], Big, 4044237001401040896);
  ([1;114;216;127], Little, 9221980330548789248);
  ([1;127;0;128], Little, 13227002011720876032);
  ([1;127;127;0], Big, 4048718335381078016);
  ([1;127;127;1], Little, 4048718335917948928);
  ([1;127;255;255], Big, 4048736064469204992);
  ([1;128;0;128], Little, 13227072243026100224);
  ([1;128;139;1], Little, 4049140685821968384);
  ([1;128;1;145], Big, 4048736280291311616);
  ([1;128;255;255], Little, 18446726482060378112);
  ([1;134;0;127], Big, 4048947239421214720);
  ([1;1;0;0], Big, 4044267649750794240);
  ([1;1;127;255], Little, 14406980161561952256);
  ([1;1;255;0], Little, 4044197418982440960);
  ([1;1;255;12], Big, 4044302703126380544);
  ([1;255;127;127], Little, 5183643034201358336);
  ([1;255;128;255], Little, 18444527321365872640);
  ([1;255;1;127], Big, 4053204685882916864);
  ([1;255;1;212], Little, 14015272272219078656);
  ([1;255;34;85], Big, 4053209198819803136);
  ([1;81;1;1], Big, 4047082537493725184);
  ([203;1;1;255], Little, 14402547039126683648);
  ([255;0;0;0], Little, 3972139686968688640);
  ([255;0;0;255], Big, 14402511745232928768);
  ([255;0;127;0], Little, 4039658770811322368);
  ([255;0;127;1], Big, 14402529063614808064);
  ([255;0;128;0], Big, 14402529200516890624);
  ([255;0;128;127], Little, 9221120373943173120);
  ([255;0;1;0], Little, 4008221191826309120);
  ([255;0;1;161], Big, 14402511832206016512);
  ([255;0;1;1], Little, 4044267786652876800);
  ([255;0;255;0], Little, 4044197417908699136);
  ([255;0;255;99], Little, 4935910144128057344);
  ([255;0;28;128], Big, 14402515525341020160);
  ([255;0;69;0], Little, 4035577383649017856);
  ([255;127;128;128], Big, 14406997684491649024);
  ([255;127;1;127], Little, 5179192347497332736);
  ([255;127;7;127], Big, 14406981053841408000);
  ([255;128;128;127], Big, 18444509934264516608);
  ([255;167;255;0], Big, 18445899511340466176);
  ([255;191;0;1], Big, 18446708889874333696);
  ([255;1;0;0], Little, 3976660878782103552);
  ([255;1;0;127], Little, 5179139845817106432);
  ([255;1;127;0], Big, 14402564247450025984);
  ([255;1;128;0], Little, 4039729140092370944);
  ([255;1;185;0], Little, 4041734649301434368);
  ([255;218;255;147], Little, 13438736202295410688);
  ([255;23;255;0], Big, 14403355895822024704);
  ([255;244;255;255], Little, 18446742561344192512);
  ([255;255;0;128], Big, 18446708958056939520);
  ([255;255;0;1], Big, 18446708889874333696);
  ([49;127;127;1], Big, 4481063900145516544);
  ([63;127;127;127], Little, 5183625475301310464);
  ([73;127;0;0], Big, 4697219226975338496);
  ([76;0;127;1], Little, 4048700921436176384);
  ([80;0;0;84], Little, 4791830046471880704);
  ([90;1;0;0], Little, 3973758168084774912);
  ([92;0;128;165], Little, 13596367324423651328);
  ([99;1;128;255], Little, 18444492464485040128)].
Example unpack_binary32_agrees : forallb (fun v => let '(bs, e, r) := v in unpack_float binary32 e bs =? r) unpack_binary32_vectors = true.
Proof. vm_compute. reflexivity. Qed.

Definition pack_binary64_vectors : list (Z * endian * res (list Z)) :=
 [(100057957400447, Big, Ok [0;0;91;0;143;1;255;127]);
  (10245983175209340575, Big, Ok [142;49;11;105;140;251;78;159]);
  (10268065321986265024, Little, Ok [192;143;127;255;1;127;127;142]);
  (10417891178236252277, Big, Ok [144;147;200;212;139;114;144;117]);
  (10484596538439925919, Little, Ok [159;128;0;127;0;197;128;145]);
  (10506365015011664960, Little, Ok [64;164;92;232;80;27;206;145]);
  (10553431278915601409, Big, Ok [146;117;81;213;109;66;196;1]);
  (10736724141064290304, Big, Ok [149;0;129;184;127;127;128;0]);
  (10798423669442581077, Big, Ok [149;219;181;29;103;75;146;85]);
  (108086936786208255, Little, Ok [255;133;0;16;127;0;128;1]);
  (108089689625264128, Big, Ok [1;128;3;0;1;255;0;0]);
  (108227132856991871, Big, Ok [1;128;128;1;1;0;0;127]);
  (108366775095197648, Little, Ok [208;255;0;255;1;255;128;1]);
  (10952755393276739583, Big, Ok [152;0;1;0;0;0;255;255]);
  (1103810592513, Big, Ok [0;0;1;1;0;60;255;1]);
  (11665707386738999211, Little, Ok [171;127;58;136;15;235;228;161]);
  (11736691086195902650, Little, Ok [186;72;51;247;91;26;225;162]);
  (12005746404191652033, Little, Ok [193;72;68;213;190;250;156;166]);
  (12106237653100265473, Big, Ok [168;1;255;0;255;128;0;1]);
  (12211178603996566050, Little, Ok [34;210;16;36;62;210;118;169]);
  (12238681830302893789, Big, Ok [169;216;136;72;6;59;70;221]);
  (12272111942859074452, Big, Ok [170;79;76;202;165;241;171;148]);
  (12393807244090215768, Big, Ok [171;255;166;5;246;169;13;88]);
  (12431065844070210396, Little, Ok [92;219;75;199;133;4;132;172]);
  (12525640284772265253, Little, Ok [37;109;44;174;121;3;212;173]);
  (126663745959591680, Big, Ok [1;194;0;1;127;215;127;0]);
  (1267597154120041688, Big, Ok [17;151;104;229;73;159;4;216]);
  (12910656829237195027, Big, Ok [179;43;221;251;139;167;113;19]);
  (133982091313479808, Little, Ok [128;0;1;143;0;0;220;1]);
  (13463481947070169087, Little, Ok [255;127;0;143;127;229;215;186]);
  (135108358456738175, Little, Ok [127;1;0;16;86;0;224;1]);
  (13647177058767090943, Big, Ok [189;100;131;58;166;172;52;255]);
  (13833368841453260552, Big, Ok [191;249;255;171;65;199;79;8]);
  (140742036684800, Little, Ok [0;0;26;15;1;128;0;0]);
  (140746069873408, Big, Ok [0;0;128;1;255;127;147;0]);
  (141284659627522, Big, Ok [0;0;128;127;101;243;6;2]);
  (141289374875648, Big, Ok [0;0;128;128;127;0;0;0]);
  (14292540669752607722, Big, Ok [198;89;78;3;150;109;131;234]);
  (143834264985665535, Big, Ok [1;255;0;128;126;255;255;255]);
  (143834808315908096, Little, Ok [0;144;1;0;255;0;255;1]);
  (143973353231745281, Big, Ok [1;255;127;0;128;128;1;1]);
  (14843864379111243904, Big, Ok [206;0;0;1;179;0;0;128]);
  (14987841571162975744, Big, Ok [207;255;130;127;255;0;110;0]);
  (15131921571696231330, Little, Ok [162;67;6;66;127;98;255;209]);
  (15392377772959624988, Little, Ok [28;111;224;61;8;182;156;213]);
  (15420338863985426659, Little, Ok [227;128;0;16;127;12;0;214]);
  (15456074645207220225, Big, Ok [214;127;2;0;1;127;128;1]);
  (15584026877134553663, Big, Ok [216;69;149;224;133;190;194;63]);
  (15968930767339670711, Little, Ok [183;76;22;6;237;9;157;221]);
  (1596948278472128639, Little, Ok [127;184;0;143;255;127;41;22]);
  (161080609079807, Little, Ok [255;1;124;128;128;146;0;0]);
  (16222378728951480565, Little, Ok [245;128;1;15;129;119;33;225]);
  (17005873113876988288, Big, Ok [236;0;255;127;0;1;1;128]);
  (17126458593440007689, Big, Ok [237;173;103;89;210;109;134;9]);
  (17444186442223044889, Big, Ok [242;22;51;37;92;99;201;25]);
  (17780996454489374923, Big, Ok [246;194;202;17;78;81;192;203]);
  (1791870809439010816, Little, Ok [0;0;1;232;1;1;222;24]);
  (17942787381849489410, Big, Ok [249;1;150;15;15;128;0;2]);
  (17990054237457792361, Big, Ok [249;169;131;3;121;174;189;105]);
  (18086738683964129408, Big, Ok [251;1;1;1;98;255;128;128]);
  (18111518177646714758, Little, Ok [134;159;169;217;210;9;89;251]);
  (1813172438425646672, Big, Ok [25;41;174;185;228;227;182;80]);
  (18143220762350762736, Little, Ok [240;186;104;13;40;171;201;251]);
  (18237987295342241511, Little, Ok [231;38;246;236;208;88;26;253]);
  (18264383833172364940, Big, Ok [253;120;32;83;209;160;78;140]);
  (1828573356923872857, Little, Ok [89;230;48;169;199;101;96;25]);
  (18374688412390162351, Big, Ok [255;0;1;193;255;0;127;175]);
  (18374689230606500224, Little, Ok [128;1;127;128;128;2;0;255]);
  (18374689775807430527, Little, Ok [127;255;0;113;255;2;0;255]);
  (18374967954676374656, Little, Ok [128;220;171;1;0;0;1;255]);
  (18374968506769768449, Little, Ok [1;128;0;141;128;0;1;255]);
  (18375108696448532224, Little, Ok [0;127;1;1;1;128;1;255]);
  (18375109027152527871, Little, Ok [255;1;128;0;78;128;1;255]);
  (18375213695799066625, Little, Ok [1;0;255;17;128;223;1;255]);
  (18384820674049867904, Little, Ok [128;0;0;0;255;0;36;255]);
  (18394389880512708992, Little, Ok [128;1;0;128;35;0;70;255]);
  (18399617910109667072, Big, Ok [255;88;147;0;255;0;127;0]);
  (18410575035270993921, Big, Ok [255;127;128;115;128;0;152;1]);
  (18410714177179051007, Big, Ok [255;127;255;0;0;1;99;255]);
  (18410716928105569793, Little, Ok [1;222;0;128;128;1;128;255]);
  (18410716930504720385, Big, Ok [255;128;1;129;15;1;0;1]);
  (18410854921122517120, Little, Ok [128;144;194;128;1;127;128;255]);
  (18410857111794745472, Little, Ok [128;0;0;143;255;128;128;255]);
  (18427885250742288640, Big, Ok [255;189;0;0;28;39;129;0]);
  (18437102462688034944, Big, Ok [255;221;191;1;128;0;0;128]);
  (18446462605172670445, Big, Ok [255;255;0;1;127;215;255;237]);
  (18446462882200715135, Big, Ok [255;255;0;66;0;0;127;127]);
  (18446463700375296127, Little, Ok [127;216;1;127;0;1;255;255]);
  (18446464243705380844, Little, Ok [236;255;0;0;127;1;255;255]);
  (18446603338378314111, Little, Ok [127;1;147;128;0;128;255;255]);
  (19842886346473472, Little, Ok [0;0;0;0;0;127;70;0]);
  (2091294766893402307, Big, Ok [29;5;197;130;165;80;136;195]);
  (2118310871769008574, Little, Ok [190;201;163;187;131;192;101;29]);
  (2147548928, Big, Ok [0;0;0;0;128;0;255;0]);
  (21531738367131776, Little, Ok [128;0;197;128;0;127;76;0]);
  (2155872256, Big, Ok [0;0;0;0;128;128;0;0]);
  (2265014843260010751, Little, Ok [255;0;128;215;255;242;110;31]);
  (2381571452419125009, Big, Ok [33;13;10;158;44;167;47;17]);
  (280925220863745, Little, Ok [1;127;255;255;127;255;0;0]);
  (280927653330945, Little, Ok [1;0;252;144;128;255;0;0]);
  (281472820772992, Little, Ok [128;0;127;127;255;255;0;0]);
  (281474993586176, Big, Ok [0;1;0;0;1;1;128;0]);
  (2841710705620710306, Little, Ok [162;115;242;170;212;200;111;39]);
  (2882585781954707456, Big, Ok [40;1;0;127;0;0;128;0]);
  (2954451517656039551, Little, Ok [127;128;0;128;0;82;0;41]);
  (29838542259617792, Little, Ok [0;0;0;0;255;1;106;0]);
  (3057819589343336865, Little, Ok [161;89;10;42;183;142;111;42]);
  (3089734101415560722, Big, Ok [42;224;240;203;141;73;6;18]);
  (318800227396097490, Little, Ok [210;21;66;36;30;155;108;4]);
  (3237794051256201497, Big, Ok [44;238;244;136;248;255;177;25]);
  (324261609343, Big, Ok [0;0;0;75;127;127;127;127]);
  (3372459611733367503, Big, Ok [46;205;98;38;24;184;26;207]);
  (3428047368092955493, Little, Ok [101;179;100;48;235;222;146;47]);
  (3468323362189318649, Big, Ok [48;33;245;184;209;123;153;249]);
  (35747322042253312, Little, Ok [0;0;0;0;0;0;127;0]);
  (35901255112949887, Big, Ok [0;127;140;0;85;255;128;127]);
  (35963376068722687, Big, Ok [0;127;196;127;255;127;255;255]);
  (36027701793980159, Big, Ok [0;127;255;0;255;128;254;255]);
  (36028799434916095, Little, Ok [255;128;0;144;0;0;128;0]);
  (36029901077217535, Little, Ok [255;0;0;15;1;1;128;0]);
  (36032095562170370, Big, Ok [0;128;3;0;0;127;0;2]);
  (36168436707037311, Little, Ok [127;16;1;102;0;127;128;0]);
  (36172279201137152, Big, Ok [0;128;130;127;12;128;2;0]);
  (3631137597071823712, Big, Ok [50;100;100;103;236;8;19;96]);
  (3674749275419574271, Little, Ok [255;255;1;16;255;84;255;50]);
  (3715207276735498581, Little, Ok [85;9;196;140;85;17;143;51]);
  (37436174335180929, Little, Ok [129;128;255;144;0;0;133;0]);
  (3833066829193353624, Little, Ok [152;25;103;2;249;201;49;53]);
  (3856138966869587467, Little, Ok [11;182;205;172;245;193;131;53]);
  (3955939232026530826, Little, Ok [10;20;249;165;197;81;230;54]);
  (3990194259203642620, Big, Ok [55;96;4;137;172;162;212;252]);
  (4050760812509144165, Big, Ok [56;55;49;127;67;174;36;101]);
  (4079077646948810262, Big, Ok [56;155;203;130;13;158;190;22]);
  (4172360817627433914, Little, Ok [186;11;113;185;14;52;231;57]);
  (422216760050176, Little, Ok [0;66;0;0;1;128;1;0]);
  (4251679523231170944, Little, Ok [128;1;255;0;0;0;1;59]);
  (4395898975745, Little, Ok [1;54;255;127;255;3;0;0]);
  (4396754698241, Big, Ok [0;0;3;255;179;0;128;1]);
  (453373417868430718, Big, Ok [6;74;180;184;178;167;13;126]);
  (4616293082061080281, Big, Ok [64;16;94;25;151;88;6;217]);
  (4638521890545995694, Big, Ok [64;95;87;21;96;222;15;174]);
  (4647436342660169729, Little, Ok [1;0;128;0;187;2;127;64]);
  (4769669819786509236, Big, Ok [66;49;69;110;40;70;187;180]);
  (485987813622017, Little, Ok [1;1;255;218;0;186;1;0]);
  (49683084156656640, Little, Ok [0;220;128;118;128;130;176;0]);
  (5027670367035059477, Little, Ok [21;237;225;162;143;223;197;69]);
  (5237167732670280535, Big, Ok [72;174;40;78;30;243;51;87]);
  (5293788291799067916, Little, Ok [12;45;206;88;103;80;119;73]);
  (5421917016051016094, Big, Ok [75;62;132;204;175;93;225;158]);
  (547608330240, Big, Ok [0;0;0;127;128;0;0;0]);
  (5973339478793376804, Big, Ok [82;229;144;155;156;75;212;36]);
  (6544408921506366710, Little, Ok [246;196;72;135;61;105;210;90]);
  (6557470864231681538, Little, Ok [2;206;128;15;2;209;0;91]);
  (6578969384949032895, Little, Ok [191;167;14;122;204;49;77;91]);
  (67414356685488310, Big, Ok [0;239;129;0;15;0;0;182]);
  (6752274905130835890, Little, Ok [178;159;27;74;64;230;180;93]);
  (6803829616234441993, Big, Ok [94;108;14;252;219;239;173;9]);
  (6835947749558886316, Little, Ok [172;159;150;131;66;42;222;94]);
  (6917559818261631459, Little, Ok [227;17;0;0;1;28;0;96]);
  (71776666669547520, Big, Ok [0;255;0;127;128;0;0;0]);
  (71776668800254209, Little, Ok [1;1;0;255;127;0;255;0]);
  (7178035063568758994, Little, Ok [210;120;80;5;220;128;157;99]);
  (7189850187335421851, Little, Ok [155;79;103;228;166;122;199;99]);
  (71915757037977728, Big, Ok [0;255;127;0;0;0;128;128]);
  (719470709725339439, Big, Ok [9;252;18;204;111;122;31;47]);
  (71992725259387134, Little, Ok [254;128;127;143;0;197;255;0]);
  (7200161251571541704, Little, Ok [200;38;116;157;130;28;236;99]);
  (72056494540390449, Little, Ok [49;0;215;0;0;255;255;0]);
  (72057591890510208, Little, Ok [128;1;1;128;255;255;255;0]);
  (72058337335770882, Little, Ok [2;255;0;16;173;0;0;1]);
  (72059788791004160, Little, Ok [0;60;122;1;255;1;0;1]);
  (72061989936955392, Big, Ok [1;0;3;255;128;0;0;0]);
  (72197781770534913, Little, Ok [1;0;1;0;128;127;0;1]);
  (72198332116631296, Big, Ok [1;0;128;0;35;47;255;0]);
  (72199429175574654, Big, Ok [1;0;128;255;144;255;0;126]);
  (72270903571911002, Little, Ok [90;17;0;255;0;194;0;1]);
  (72339071170543488, Little, Ok [128;127;128;128;0;0;1;1]);
  (72339431944617728, Big, Ok [1;1;0;84;128;79;255;0]);
  (72339614475485183, Big, Ok [1;1;0;126;255;255;255;255]);
  (72340718542159895, Little, Ok [23;128;128;15;128;1;1;1]);
  (72479802216447939, Little, Ok [195;127;128;0;255;127;1;1]);
  (72480461754007551, Big, Ok [1;1;128;152;144;0;255;255]);
  (72536427326996480, Little, Ok [0;0;26;16;127;179;1;1]);
  (72619451150241537, Little, Ok [1;15;152;141;1;255;1;1]);
  (72621651925139200, Little, Ok [0;255;255;245;1;1;2;1]);
  (743587537387223208, Big, Ok [10;81;192;236;241;95;120;168]);
  (7494023864788189186, Big, Ok [104;0;30;255;255;0;0;2]);
  (7549649621269717887, Big, Ok [104;197;190;84;174;113;163;127]);
  (7638389189637046271, Little, Ok [255;255;127;128;127;2;1;106]);
  (8188709729013359700, Big, Ok [113;164;36;28;230;160;100;84]);
  (8358682008171295104, Big, Ok [116;0;1;0;15;127;177;128]);
  (8461597036548851244, Big, Ok [117;109;161;172;91;254;6;44]);
  (8516355537243648193, Big, Ok [118;48;44;61;82;86;176;193]);
  (8548538733995797167, Little, Ok [175;170;124;188;175;130;162;118]);
  (8664930090749219208, Little, Ok [136;81;179;62;2;4;64;120]);
  (9151314988289556735, Little, Ok [255;0;181;0;127;0;0;127]);
  (9151314990685220097, Little, Ok [1;237;127;143;127;0;0;127]);
  (9151316637561913473, Big, Ok [127;0;1;255;1;0;0;129]);
  (9151454577122345218, Little, Ok [2;1;128;143;115;127;0;127]);
  (9151455180305203328, Little, Ok [128;0;0;0;0;128;0;127]);
  (9151595833454595840, Big, Ok [127;0;255;236;93;1;143;0]);
  (9151596463262732545, Little, Ok [1;17;127;0;127;0;1;127]);
  (9151651992894963968, Big, Ok [127;1;51;0;0;128;1;0]);
  (9151876300573542912, Little, Ok [0;138;0;180;1;255;1;127]);
  (9151877390899642111, Big, Ok [127;1;255;255;144;128;126;255]);
  (9155536567467610326, Big, Ok [127;15;0;0;0;1;144;214]);
  (9170454189346619148, Big, Ok [127;67;255;127;128;255;127;12]);
  (9176210089163192417, Big, Ok [127;88;114;117;92;237;120;97]);
  (9180587250113631872, Big, Ok [127;103;255;118;144;128;214;128]);
  (9187061769422454305, Big, Ok [127;127;0;1;15;255;62;33]);
  (9187062310336790784, Big, Ok [127;127;0;127;1;1;1;0]);
  (9187344886939058304, Big, Ok [127;128;1;127;127;1;0;128]);
  (9211831992591646465, Big, Ok [127;215;0;100;17;0;255;1]);
  (9215831983129959078, Big, Ok [127;229;54;92;112;37;26;166]);
  (9223090566173142273, Big, Ok [127;255;0;1;0;1;173;1]);
  (9223230749627449215, Little, Ok [127;255;0;1;128;127;255;127]);
  (9223231846966362495, Big, Ok [127;255;128;127;127;128;1;127]);
  (9223371487098994943, Little, Ok [255;128;0;0;128;255;255;127]);
  (9223372039002325020, Big, Ok [128;0;0;0;128;1;0;28]);
  (9223372539646803968, Big, Ok [128;0;0;117;16;189;128;0]);
  (9223372582600868096, Big, Ok [128;0;0;127;17;0;129;0]);
  (9223372588758139009, Big, Ok [128;0;0;128;128;1;0;129]);
  (9223372589020446849, Big, Ok [128;0;0;128;143;163;128;129]);
  (9223373684192870144, Big, Ok [128;0;1;127;141;0;127;0]);
  (9223374242320518528, Big, Ok [128;0;2;1;128;0;141;128]);
  (9223374781363981569, Little, Ok [1;13;127;1;127;2;0;128]);
  (9223512220292350209, Little, Ok [1;1;0;0;127;127;0;128]);
  (9223626028335825059, Big, Ok [128;0;231;1;0;1;0;163]);
  (9223652959911444225, Little, Ok [1;127;0;127;127;255;0;128]);
  (9223652979549142783, Little, Ok [255;254;127;17;132;255;0;128]);
  (9223933887296634624, Big, Ok [128;1;255;0;0;0;255;0]);
  (9224920159967445248, Big, Ok [128;5;128;2;128;51;1;0]);
  (9259119358922162047, Big, Ok [128;127;0;0;1;127;127;127]);
  (9259119912939421717, Big, Ok [128;127;0;128;255;128;0;21]);
  (9259120890064244608, Little, Ok [128;143;173;128;100;1;127;128]);
  (9259122666005135233, Big, Ok [128;127;3;1;255;0;255;129]);
  (9259199627540823809, Little, Ok [1;255;255;255;0;73;127;128]);
  (9259259005732061438, Little, Ok [254;0;255;15;2;127;127;128]);
  (9259260646392856577, Little, Ok [1;0;0;15;128;128;127;128]);
  (9259401939811041536, Big, Ok [128;128;1;1;127;0;1;0]);
  (9259402478853521168, Big, Ok [128;128;1;127;0;111;127;16]);
  (9259404132417031040, Little, Ok [128;75;128;0;0;3;128;128]);
  (9259404931256389888, Big, Ok [128;128;3;185;255;9;145;0]);
  (9259542118970462209, Little, Ok [1;144;0;128;127;128;128;128]);
  (9259681213885456696, Little, Ok [56;33;0;15;1;255;128;128]);
  (9259681757223943937, Big, Ok [128;128;255;127;144;127;127;1]);
  (9265451996108750975, Little, Ok [127;0;127;255;127;127;149;128]);
  (9290784740019797887, Little, Ok [127;255;127;17;127;127;239;128]);
  (9562219916090059629, Little, Ok [109;171;182;210;89;212;179;132]);
  (9957430023275600274, Big, Ok [138;47;229;217;117;38;217;146])].
Example pack_binary64_agrees : forallb (fun v => let '(x, e, r) := v in res_eqb bytes_eqb (pack_float binary64 e x) r) pack_binary64_vectors = true.
Proof. vm_compute. reflexivity. Qed.

Definition unpack_binary64_vectors : list (list Z * endian * Z) :=
 [([0;0;0;0;0;255;127;0], Big, 16744192);
  ([0;0;0;0;255;0;144;1], Little, 112591085900922880);
  ([0;0;127;255;255;128;220;0], Big, 140737480023040);
  ([0;0;128;0;127;53;0;127], Big, 140739622535295);
  ([0;0;128;128;128;227;0;0], Big, 141289406529536);
  ([0;0;128;128;1;127;255;110], Little, 7998251107660857344);
  ([0;0;128;128;1;128;79;255], Little, 18397063746770960384);
  ([0;0;128;128;255;1;128;128], Big, 141291522457728);
  ([0;0;128;255;127;1;128;128], Little, 9259402483132792832);
  ([0;0;128;2;128;0;248;255], Little, 18444492823693623296);
  ([0;0;160;0;181;128;255;0], Little, 71917633949138944);
  ([0;0;190;1;0;128;127;255], Little, 18410574539231461376);
  ([0;0;1;0;128;255;127;0], Little, 36028247263215616);
  ([0;0;255;128;1;128;128;127], Big, 280925246095487);
  ([0;0;255;156;128;255;128;0], Big, 281047644209152);
  ([0;106;255;87;1;0;1;127], Big, 30117096675344767);
  ([0;115;0;255;253;127;1;255], Little, 18375108683530007296);
  ([0;127;0;127;135;255;255;0], Little, 72057076477624064);
  ([0;127;0;255;128;1;255;255], Little, 18446464252278505216);
  ([0;127;127;0;128;1;127;128], Big, 35886962166562688);
  ([0;127;1;1;255;127;127;1], Little, 107945649290444544);
  ([0;127;1;236;255;128;255;0], Little, 71917955725754112);
  ([0;128;0;0;0;0;0;127], Little, 9151314442816880640);
  ([0;128;0;1;130;22;1;127], Big, 36028803496411519);
  ([0;128;0;45;128;0;252;0], Little, 70932244641906688);
  ([0;128;127;255;0;128;255;0], Big, 36169530220805888);
  ([0;128;127;255;255;128;154;128], Big, 36169534498970240);
  ([0;128;255;0;128;0;128;147], Little, 10628495670366928896);
  ([0;128;255;127;128;128;255;1], Big, 36309720100830977);
  ([0;128;255;255;128;0;127;0], Big, 36310269848223488);
  ([0;128;78;127;1;0;1;73], Little, 5260485846176268288);
  ([0;139;127;255;0;127;127;0], Big, 39265754964524800);
  ([0;175;0;6;1;168;0;127], Big, 49258146721955967);
  ([0;1;0;127;0;83;31;128], Little, 9232189022728618240);
  ([0;1;0;128;1;0;0;0], Little, 6442451200);
  ([0;1;1;128;0;1;127;0], Big, 283124244250368);
  ([0;1;1;255;128;0;0;243], Little, 17509995905250558208);
  ([0;1;1;91;0;127;255;128], Big, 282965338750848);
  ([0;1;23;0;1;127;107;255], Big, 306763769277439);
  ([0;1;255;175;255;1;0;0], Big, 562606339325952);
  ([0;1;255;205;255;1;0;1], Little, 72059792222257408);
  ([0;205;0;127;0;255;1;255], Big, 57702915703243263);
  ([0;220;255;128;127;0;255;0], Big, 62205422228012800);
  ([0;229;81;128;0;197;0;127], Big, 64547379877314687);
  ([0;239;240;0;77;42;255;0], Big, 67536403519176448);
  ([0;255;0;0;0;0;0;128], Big, 71776119061217408);
  ([0;255;0;0;255;128;127;0], Big, 71776123347828480);
  ([0;255;0;127;128;255;0;89], Big, 71776666686259289);
  ([0;255;0;1;1;255;128;1], Little, 108366770833784576);
  ([0;255;0;255;0;128;1;0], Little, 422216743321344);
  ([0;255;128;1;0;25;255;39], Little, 2882049774356332288);
  ([0;255;128;255;1;0;255;133], Big, 71917951783075717);
  ([0;255;188;1;127;255;255;0], Little, 72057040016310016);
  ([0;255;1;128;1;255;0;255], Little, 18374966861579288320);
  ([0;255;1;255;88;127;255;0], Big, 71778315274288896);
  ([0;255;255;128;0;128;127;186], Little, 13438600552749465344);
  ([0;255;95;128;127;128;0;128], Big, 71881124560765056);
  ([0;44;128;217;128;1;255;0], Little, 71777771977714688);
  ([0;55;33;127;0;113;1;0], Little, 405721923532544);
  ([0;63;0;20;1;0;255;255], Little, 18446462603363368704);
  ([119;127;1;0;127;214;0;0], Little, 235840949288823);
  ([127;0;0;0;0;1;145;0], Big, 9151314442816950528);
  ([127;0;0;0;127;47;255;0], Little, 71828341568569471);
  ([127;0;0;0;128;0;32;128], Big, 9151314444964339840);
  ([127;0;0;1;127;0;1;0], Big, 9151314449242521856);
  ([127;0;127;128;0;44;1;128], Big, 9151454630552273280);
  ([127;0;128;128;127;128;250;149], Little, 10807091540934000767);
  ([127;0;1;0;0;255;193;255], Big, 9151315542345236991);
  ([127;0;255;106;255;127;0;127], Little, 9151455177805332607);
  ([127;0;255;127;0;0;0;101], Little, 7277816999978139775);
  ([127;127;0;128;127;0;255;0], Big, 9187062316745686784);
  ([127;127;127;127;111;0;1;0], Big, 9187201950158946560);
  ([127;127;128;206;255;190;255;128], Little, 9295358161806458751);
  ([127;127;1;203;0;1;1;1], Little, 72340171932139391);
  ([127;127;255;128;237;128;128;34], Little, 2486128751868346239);
  ([127;128;128;0;180;0;255;0], Big, 9187483980344131328);
  ([127;128;140;0;255;0;0;170], Big, 9187497175741890730);
  ([127;128;175;94;1;193;128;1], Little, 108298602684579967);
  ([127;128;1;167;128;0;255;127], Big, 9187345058754527103);
  ([127;128;255;0;1;1;103;255], Big, 9187623615317764095);
  ([127;133;128;128;255;127;128;1], Little, 108227126406186367);
  ([127;174;127;128;0;0;255;0], Little, 71776121217068671);
  ([127;1;0;255;255;0;0;240], Little, 17293823668597555583);
  ([127;1;255;78;255;135;0;128], Big, 9151876632553128064);
  ([127;255;0;1;128;179;169;127], Big, 9223090568332290431);
  ([127;255;127;255;182;130;0;0], Big, 9223231298133426176);
  ([127;255;255;127;127;1;0;1], Little, 72059241157885823);
  ([127;39;128;255;127;127;0;255], Big, 9162433801752609023);
  ([127;3;127;0;246;255;0;0], Big, 9152298509867614208);
  ([128;0;0;0;1;0;140;156], Little, 11280391170951217280);
  ([128;0;0;127;255;1;255;0], Big, 9223372586593943296);
  ([128;0;0;70;1;255;1;1], Little, 72619449949094016);
  ([128;0;127;0;0;255;1;1], Little, 72619444488044672);
  ([128;0;127;128;0;99;0;0], Big, 9223512224593805312);
  ([128;0;1;0;255;1;0;128], Big, 9223373140644659328);
  ([128;0;1;128;40;255;255;0], Big, 9223373686810083072);
  ([128;0;255;169;127;128;255;255], Big, 9223653140308492287);
  ([128;112;0;0;255;1;1;244], Big, 9254897238524625396);
  ([128;127;0;14;127;1;128;0], Little, 36030442226352000);
  ([128;127;125;131;0;0;0;31], Big, 9259257360491216927);
  ([128;127;128;0;0;0;47;7], Little, 517632482179317632);
  ([128;127;128;0;128;1;255;147], Big, 9259260098532999059);
  ([128;127;1;0;127;127;255;128], Big, 9259120460547751808);
  ([128;127;1;228;19;255;0;0], Little, 280460894764928);
  ([128;127;255;128;0;116;0;248], Big, 9259400284125528312);
  ([128;127;255;1;255;0;69;127], Big, 9259399742935287167);
  ([128;128;127;128;1;0;1;127], Little, 9151595924244365440);
  ([128;128;127;9;17;255;128;0], Big, 9259540510807130112);
  ([128;128;1;0;255;127;128;1], Big, 9259401937671913473);
  ([128;174;171;127;0;128;127;1], Big, 9272537244760047361);
  ([128;1;0;0;255;0;0;0], Big, 9223653516109676544);
  ([128;1;86;0;0;1;0;127], Big, 9223748069831540863);
  ([128;223;128;128;0;1;0;47], Little, 3386708021450170240);
  ([128;255;127;255;1;1;127;32], Big, 9295288889126256416);
  ([128;255;128;51;95;127;0;0], Big, 9295289114049839104);
  ([128;44;128;127;0;127;0;0], Little, 139640115833984);
  ([128;66;127;0;0;0;0;0], Little, 8340096);
  ([145;0;128;1;1;128;255;255], Big, 10448491877308104703);
  ([147;1;1;0;127;127;1;128], Little, 9223793695269126547);
  ([14;0;128;96;255;0;0;0], Little, 1096835661838);
  ([154;0;127;1;0;1;255;128], Little, 9295149255452721306);
  ([158;1;232;8;210;0;128;255], Big, 11385636457549955327);
  ([170;165;0;26;0;5;127;128], Big, 12296234469274517376);
  ([174;1;128;127;0;0;0;228], Little, 16429131442786664878);
  ([18;0;255;255;1;0;0;4], Little, 288230384741580818);
  ([198;128;1;1;255;1;1;0], Big, 14303433524613546240);
  ([1;0;0;0;128;127;0;0], Big, 72057596193734656);
  ([1;0;0;0;1;0;0;255], Little, 18374686483966590977);
  ([1;0;127;127;90;0;1;255], Little, 18374968343334420481);
  ([1;0;127;20;25;255;127;127], Big, 72197318350176127);
  ([1;0;128;0;127;0;127;255], Big, 72198333657022463);
  ([1;0;128;0;1;0;0;0], Little, 4303355905);
  ([1;0;1;127;0;128;65;0], Big, 72059239018807552);
  ([1;0;255;0;127;249;128;127], Little, 9187617563708686337);
  ([1;127;128;221;0;1;127;0], Little, 35748425270066945);
  ([1;127;134;137;255;150;0;0], Big, 107952843336843264);
  ([1;127;177;178;189;128;0;0], Little, 141552235151105);
  ([1;127;60;127;225;128;255;0], Big, 107871436022021888);
  ([1;128;0;0;145;0;127;128], Big, 108086393489620864);
  ([1;128;127;0;191;0;1;0], Little, 282295323820033);
  ([1;128;143;0;0;127;255;255], Big, 108243621228052479);
  ([1;128;255;1;128;128;255;255], Little, 18446603886010531841);
  ([1;1;0;0;0;1;127;255], Little, 18410434901225505025);
  ([1;1;127;127;128;255;249;255], Little, 18445054676232503553);
  ([1;1;127;127;1;0;0;0], Little, 6433997057);
  ([1;200;0;255;193;0;0;151], Little, 10880697532934047745);
  ([1;255;127;127;0;0;249;0], Little, 70087271340048129);
  ([1;255;128;127;0;128;255;164], Big, 143974996056801188);
  ([1;255;128;1;0;0;0;1], Big, 143974454882467841);
  ([1;27;1;127;127;1;0;128], Big, 79659065512362112);
  ([1;85;255;1;128;128;1;1], Big, 96263348974256385);
  ([215;127;215;1;128;0;166;255], Little, 18421411875592306647);
  ([215;128;152;202;128;1;127;255], Little, 18410435454380310743);
  ([219;255;229;0;1;102;127;127], Little, 9187173919355174875);
  ([220;255;1;127;1;0;126;127], Big, 15924448452394647167);
  ([226;1;1;128;128;0;255;128], Big, 16285299378963414912);
  ([247;128;0;128;0;1;1;127], Big, 17834255074143043967);
  ([248;0;255;1;1;128;127;12], Little, 900579192314200312);
  ([254;128;1;127;127;128;128;1], Little, 108227676136898814);
  ([255;0;0;0;0;255;1;0], Little, 561850441793791);
  ([255;0;0;127;128;0;0;255], Big, 18374687027279954175);
  ([255;0;0;128;0;1;255;255], Little, 18446463700391952639);
  ([255;0;0;1;128;128;128;127], Little, 9187484527096758527);
  ([255;0;128;0;210;0;128;128], Little, 9259401735825260799);
  ([255;0;160;99;255;127;0;0], Little, 140734864818431);
  ([255;0;1;0;0;0;127;1], Little, 107804916080247039);
  ([255;0;255;0;1;78;199;0], Little, 56099286584066303);
  ([255;0;255;127;252;128;127;127], Little, 9187203586826633471);
  ([255;0;255;1;127;128;1;1], Little, 72480351997329663);
  ([255;0;80;1;74;255;1;0], Big, 18374774446155038976);
  ([255;127;0;127;128;128;1;127], Big, 18410434349330596223);
  ([255;127;0;255;0;128;255;255], Little, 18446603340499419135);
  ([255;128;0;128;128;127;128;0], Big, 18410715828602241024);
  ([255;128;127;1;255;128;1;153], Big, 18410854923248861593);
  ([255;128;1;127;127;0;255;128], Little, 9295148703507644671);
  ([255;128;1;1;18;255;101;0], Big, 18410716380815910144);
  ([255;128;58;0;0;0;230;0], Little, 64739244647284991);
  ([255;181;1;0;0;128;0;1], Big, 18425634549976268801);
  ([255;184;0;219;128;1;0;154], Little, 11096871134782601471);
  ([255;191;1;128;128;128;1;127], Big, 18428449851646673279);
  ([255;1;127;0;0;128;255;0], Big, 18375107592633515776);
  ([255;1;128;127;0;127;127;127], Little, 9187201404974924287);
  ([255;1;14;1;127;0;128;255], Big, 18374983354236829951);
  ([255;1;1;0;0;1;128;215], Big, 18374969054160060631);
  ([255;1;1;0;255;127;128;128], Little, 9259541567067193855);
  ([255;1;255;1;0;0;128;128], Big, 18375248334408417408);
  ([255;1;255;1;0;255;127;128], Big, 18375248334425128832);
  ([255;255;0;1;255;128;255;1], Big, 18446462607314452225);
  ([255;255;1;128;255;128;255;83], Little, 6052698259061866495);
  ([255;81;218;1;0;0;128;0], Big, 18397725650615042048);
  ([26;111;0;0;0;244;128;0], Little, 36297077856169754);
  ([27;127;1;128;127;127;0;0], Little, 140185585155867);
  ([31;0;0;0;68;128;0;0], Little, 141029546131487);
  ([32;0;128;0;127;128;0;1], Big, 2305983748841144321);
  ([44;1;255;0;0;0;128;0], Little, 36028797035675948);
  ([66;127;127;0;0;128;0;0], Little, 140737496710978);
  ([75;1;127;127;128;255;0;0], Big, 5404741213423075328);
  ([83;255;128;0;127;0;0;0], Big, 6052697163828297728);
  ([86;255;0;128;1;0;127;127], Big, 6268729756095643519);
  ([95;127;0;128;0;0;1;255], Little, 18374967956795850591)].
Example unpack_binary64_agrees : forallb (fun v => let '(bs, e, r) := v in unpack_float binary64 e bs =? r) unpack_binary64_vectors = true.
Proof. vm_compute. reflexivity. Qed.

Definition float_of_int_vectors : list (Z * res Z) :=
 [((-1002767985376447916534583611051), Ok 14279032314213722078);
  ((-1023), Ok 13875581655835475968);
  ((-1025), Ok 13875594849975009280);
  ((-10342133205235043310), Ok 14114827502280882641);
  ((-10965316292703031), Ok 14070224294424410524);
  ((-11766993596270484), Ok 14070625133076194250);
  ((-1267650600228229401496703205375), Ok 14280914418391842816);
  ((-1267650600228229401496703205376), Ok 14280914418391842816);
  ((-1267650600228229542234191560704), Ok 14280914418391842816);
  ((-129119395251232008159367769696788137007241395383793053163884658341648012646419187726204014806568553707569636480006492813865001445806974896934396789551819864807048045768629256045531882467491815032846749625170121238920215310019646585891258415493178052669460452449565722178894806908041374124074283150757933713896), Ok 18439702699993090428);
  ((-1338509862585581277690855200443997746091444080556474427662041071766634056220595547072351799296515218745365501434971964831562889517204203002804416772084386943523741107424106889218538749839999822548553118658894058640086317146430614604976524023825950874687647307649529991696199064854735974466817984073980232653), Ok 18410292394607539392);
  ((-14422706570607271), Ok 14071952989563362644);
  ((-14997948052494118), Ok 14072240610304306067);
  ((-152), Ok 13862924077976518656);
  ((-1552415003650510932), Ok 14102330954777662288);
  ((-161880221827895001834908196105068525835715288668627753842979782546351490798631636802587426732137055498172344410514428572448414320268998240432512112237339514877333096034377569268638847645938291381762267744389597762262657289263516841591879058923508286158422907626298465273428956981925553949649595044091777829703), Ok 18441344155294907654);
  ((-164641913388827622469226648510062277273733390151513566925599954436972648254213842739557458163412522993969427349808429051783221822346347304504696887946272125315157474416557973510165102312742943350064282548933208455390381906594213258271990919927712846899526267696238859382079392104498122209922375890009495545752), Ok 18441482527666070778);
  ((-16653653347086434), Ok 14073068462951602225);
  ((-167352583768334530863157313977085599768304040183776736138656085967725669330504020269463185701788813041359335416109683643561414048534943356018053409972005627703518784001780349617899526439859454439439722345646340736291992932260747788964299249654467701991165824368223286746442789668531591278864948037120794650687), Ok 18441618343661296309);
  ((-179769313486231590772930519078902473361797697894230657273430081157732675805500963132708477322407536021120113879871393357658789768814416622492847430639474124377767893424865485276302219601246094119453082952085005768838150682342462881473913110540827237163350510684586298239947245938479716304835356329624224137215), Raise EOverflow);
  ((-179769313486231590772930519078902473361797697894230657273430081157732675805500963132708477322407536021120113879871393357658789768814416622492847430639474124377767893424865485276302219601246094119453082952085005768838150682342462881473913110540827237163350510684586298239947245938479716304835356329624224137216), Raise EOverflow);
  ((-179769313486231600752132066752501531643661263078423487610686383335020383318237175318767936667227864945909941343049898804371023989776892842355037372607442428073626884849022586876330584356674476707141690173899941682104934405062082848127965386145179181607626852924807085775551780317259924516627832481344273776640), Raise EOverflow);
  ((-179769313486231610731333614426100589925524828262616317947942685512308090830973387504827396012048193870699768806228404251083258210739369062217227314575410731769485876273179688476358949112102859294830297395714877595371718127781702814782017661749531126051903195165027873311156314696040132728420308633064323416064), Raise EOverflow);
  ((-18014398509481983), Ok 14073748835532800000);
  ((-18014398509481985), Ok 14073748835532800000);
  ((-18311640961019105949), Ok 14118718863489761578);
  ((-18446744073709551615), Ok 14118784831806504960);
  ((-18446744073709551616), Ok 14118784831806504960);
  ((-18446744073709551617), Ok 14118784831806504960);
  ((-18446744073709553664), Ok 14118784831806504960);
  ((-2358658770796316), Ok 14060451754564910648);
  ((-24767664643610817681474787503923992670403257467219179024812714856030149882020491014696947662674664899731568910352016122438966141546423033573645336755647587326751118834923741821154116091274871911241949819161985624122254535574732430990659711045975070268265495214766671394804425197623481384500483660682421877220), Ok 18429189932555702907);
  ((-27738590015738882497475357745247542276381240505900914297236185306053508065101673712334987260499576591613159317814229009682127331972512481626753640473174141190233842218316038510689273168389574662960536882439198922616196289328768666820201168419893075533235791836026399552407392809918618737554478518437822769131), Ok 18429785356018779602);
  ((-282530664031464436214018690096162115519632359883567544212626458578173773775518682340287382642320595165926658112935974479435868096371681101111467830664698932625050361231888702116541598643782565191881269547207907197863122806863137167604277995970785206307623831242360332886450081083428009182581630470195617802607), Raise EOverflow);
  ((-29462118100357657), Ok 14076610765430518918);
  ((-321650469854060109583369426071252660269267520715943710826182665330262562287264870084057788164979287861701988050277578217595210023525560863904850538189209388107558091472972127413423076444561764485949217460891688500673975687001115459558945576313500195147301481758990121600880265044189990084947674588035931782838), Raise EOverflow);
  ((-32752846070056192296239652830466191417656135221542936311195156011212212019381538031268095564608932066250290739985978463640185256566537657232129295860381993014017284731883725372132535656060067312601371954070254883343751010370083113016781832934200351463940088438500664896985919191408519944660257036765229137712), Ok 18430790297352084221);
  ((-3381350686944128), Ok 14062497138397206272);
  ((-359538626972463181545861038157804946723595395788461314546860162315465351611001926265416954644815072042240227759742786715317579537628833244985694861278948248755535786849730970552604439202492188238906165904170011537676301364684925762947826221081654474326701021369172596479894491876959432609670712659248448274431), Raise EOverflow);
  ((-359538626972463181545861038157804946723595395788461314546860162315465351611001926265416954644815072042240227759742786715317579537628833244985694861278948248755535786849730970552604439202492188238906165904170011537676301364684925762947826221081654474326701021369172596479894491876959432609670712659248448274432), Raise EOverflow);
  ((-359538626972463181545861038157804946723595395788461314546860162315465351611001926265416954644815072042240227759742786715317579537628833244985694861278948248755535786849730970552604439202492188238906165904170011537676301364684925762947826221081654474326701021369172596479894491876959432609670712659248448274433), Raise EOverflow);
  ((-359538626972463201504264133505003063287322526156846975221372766670040766636474350637535873334455729891819882686099797608742047979553785684710074745214884856147253769698045173752661168713348953414283380347799883364209868810124165696255930772290358363215253705849614171551103560634519849033255664962688547553280), Raise EOverflow);
  ((-359538626972463221462667228852201179851049656525232635895885371024616181661946775009654792024096387741399537612456808502166516421478738124434454629150821463538971752546359376952717898224205718589660594791429755190743436255563405629564035323499062252103806390330055746622312629392080265456840617266128646832128), Raise EOverflow);
  ((-36028797018963969), Ok 14078252435160170496);
  ((-36028797018963970), Ok 14078252435160170496);
  ((-36028797018963972), Ok 14078252435160170496);
  ((-395070484570965422020557480297), Ok 14273017908768233772);
  ((-46247186499474339193995858778233381112792020192287818758981272606979476366947586152455893827953542422768309179765152778467007574584320730205017668015436192303428024824268836952077335554715200072970102044350045290410449388601063480892593805223706867970295316292609938044457059978192179172485371823358213493095), Ok 18433364032596153662);
  ((-4655206021106610), Ok 14064893242671795122);
  ((-494559894493981876), Ok 14094987132766379955);
  ((-514), Ok 13871104444487172096);
  ((-55569131468120724298499052640928505622589746255982340846188090099192383093252995345152640445008679097738331867676145238517765137225173613515543924405060450586440598286581022058240515632266429207175053885746617662757560015540759612717152020809926129000535181187550971709502892238274669136476521763125572886068), Ok 18434298169954148958);
  ((-560879059163347216), Ok 14096023369714338788);
  ((-561441912348815580246924806539), Ok 14275382188957145524);
  ((-564938436241344), Ok 14051246745258507776);
  ((-5825050813749625), Ok 14066063087464438137);
  ((-59313947421212517242254032731094666763059463034067395504814686880244513727296993312821536264186665615695108088508212541401705523100503199573846881786826577960203938093907128241963447659549378635475499312598895746627738691356733851011550618922850948362060914072491616759745818421022844053957418975915238351749), Ok 18434673432036511129);
  ((-64), Ok 13857576053419016192);
  ((-6783201251664436), Ok 14067021237902352948);
  ((-702), Ok 13872758109975347200);
  ((-75027852241507069153515752632320809847885425511668629368644679579654248997696567214256507457794914063570048805890252725460281821861113600490550434048733426344039298563422991104069231040977275962924752598142852234688542422846929021041618973181719805192768051608206988834271826904030184032651215803343131984610), Ok 18436248097579162470);
  ((-7558786924621006), Ok 14067796823575309518);
  ((-790854923667631294467654371442), Ok 14277526581347623263);
  ((-7972468989622501), Ok 14068210505640311013);
  ((-797263153274461455571513235771), Ok 14277572114557585423);
  ((-808), Ok 13873690495835701248);
  ((-848), Ok 13874042339556589568);
  ((-85611584816407901483421580508324877656358353399124787462616159463993358005852367725809522897771150214275103092542732888345001731886016274911974873068586886413467406926298240934397003779122779875254210089143735916287906412711818498948086009524411500238123089362222574446005425955986002745668720657773002269144), Ok 18437308676677033097);
  ((-86), Ok 13859124165790924800);
  ((-87), Ok 13859194534535102464);
  ((-8850908314096747395), Ok 14113917498074878577);
  ((-89884656743115795386465259539451236680898848947115328636715040578866337902750481566354238661203768010560056939935696678829394884407208311246423715319737062188883946712432742638151109800623047059726541476042502884419075341171231440736956555270413618581675255342293149119973622969239858152417678164812112068607), Ok 18437736874454810624);
  ((-89884656743115800376066033376250765821830631539211743805343191667510191659118587659383968333613932472954970671524949402185511994888446421177518686303721214036813442424511293438165292178337238353570845086949970841052467202531041424063982693072589590803813426462403542887775890158629962258313916240672136888320), Ok 18437736874454810624);
  ((-9004564644399648), Ok 14069242601295088160);
  ((-9007199254740993), Ok 14069245235905429504);
  ((-911883439064627), Ok 14054022305281094040);
  ((-994924504098821099943159540406), Ok 14278976582927273198);
  (1023, Ok 4652209618980700160);
  (1024, Ok 4652218415073722368);
  (1025, Ok 4652222813120233472);
  (10338780430241011280, Ok 4891453828328941779);
  (1042351669446148808041398648590, Ok 5055941536350649758);
  (10843449437920641907, Ok 4891700248742847848);
  (1176464694333499808379275157300, Ok 5056894466706694966);
  (121953272043434126596329680383725251376514705883418708602548312006027488729724414914448522235095710637462537649894721443127758722817812967913891350795568358325408664795697955940614563038014569034577715906974522779292505733423796001272569170224535349679728955222510842996765280368050866970854068264200874883875, Ok 9215971610203389757);
  (1232357217180376169742486687614349486761965488911072058208705904562049010922462032155514137259242846108259659378640629197470855487992257334508744770779830579930012460537874251642989312654670801256598605097019848693051320236579029675064056463398107474994190728208425894314181232408812814698554568970317849682, Ok 9186239564878356019);
  (126756963980012260246865188938470059928611468726822707980838917140440695050798847999014200995306575900984990020445520334715849439393266744903204315535560168120862920921795125999290680255438946909135131326671554088556841077113400940622581749871409357733981938854750199761904518572300059759063655433369833287609, Ok 9216212295388152760);
  (1267650600228229401496703205375, Ok 5057542381537067008);
  (1267650600228229401496703205377, Ok 5057542381537067008);
  (1267650600228229471865447383040, Ok 5057542381537067008);
  (1267650600228229542234191560704, Ok 5057542381537067008);
  (1299674042346726, Ok 4833057496710558616);
  (136492524635447177322247135649371274931591570667866276773066697232155854925638566553956879176824513499008137457904132332805362846315791775083642172354147974465214029161338052378933879800019087288436016242206575164719916517311298804569976903146910248043535603196343450200327138631728273756135044091881096219771, Ok 9216700087953967032);
  (137441393746933203073799720199712432389192868331484642950633073262732285936982710896378654346945044765204677780916299844312506813335375013349676908581637261394979829802461758329483897639792670647985913076789325600206954992978057836936884263222042258844035613040083400464932566274116152454156470348008229806277, Ok 9216747630290242785);
  (147880064443018655598015595952230113809909395107053257311718706652016475039018852487769181324077363763123040115662722159697650328202793834151435367524007972608952578140538887102969628079082175617990336067386646899555993605472649264551235065072875354480017833006425333661498286201617271790274629071063887183640, Ok 9217270651628483968);
  (14887131557271918403, Ok 4893674702902687339);
  (1580472746926487, Ok 4834180691528877660);
  (179769313486231590772930519078902473361797697894230657273430081157732675805500963132708477322407536021120113879871393357658789768814416622492847430639474124377767893424865485276302219601246094119453082952085005768838150682342462881473913110540827237163350510684586298239947245938479716304835356329624224137217, Raise EOverflow);
  (179769313486231600752132066752501531643661263078423487610686383335020383318237175318767936667227864945909941343049898804371023989776892842355037372607442428073626884849022586876330584356674476707141690173899941682104934405062082848127965386145179181607626852924807085775551780317259924516627832481344273776640, Raise EOverflow);
  (18014398509481983, Ok 4850376798678024192);
  (18014398509481984, Ok 4850376798678024192);
  (18014398509481985, Ok 4850376798678024192);
  (18014398509481986, Ok 4850376798678024192);
  (18215239275538162, Ok 4850427008869538236);
  (18446744073709551616, Ok 4895412794951729152);
  (18446744073709552640, Ok 4895412794951729152);
  (18446744073709553664, Ok 4895412794951729152);
  (194, Ok 4641029784749473792);
  (2023532511888357, Ok 4835952930588725140);
  (20412355686737908, Ok 4850976287972338173);
  (205096885302579167432453891833931528551017647000123093667652149852357244140112855798921132043882685063924359822886696085914915151270434667873723026081467596228615531447441849845363600614081088560674348252276193814654313547567100212487163146863343740684962612337383575475579698890551764698502615181727850235635, Raise EOverflow);
  (211117276093848968883045885082, Ok 5045528296904462778);
  (23042987751878162, Ok 4851633945988623236);
  (244172988141820249272396320146897883159834875785610745711420103188292455752624574363772017586845389222378914366690366177404231805180760143335132663006021242389680360559514048930877770091186660050017072287451085551029658212881706773389934777909600388691351637565541729210956113040212467065267974864465737909842, Raise EOverflow);
  (2724640869847192457, Ok 4882719960641167466);
  (2919745811676718053529678466365926760670999649475608995476221099160285091269370997251757832158301156449992336626709493179224581914012761879993485498857397095086474748554607429746703286531712139092077989264228825468094114272524400090182765527258211211644029368329573077359040493714717760545318507776104441856, Ok 9192024569575836796);
  (305064910860742090710290385734347393476409459252917944223041583818371501627344112691681814620406361915524382948913595724908321156772057404294869518174199545564057098554352052995996548550280350368050779944895615299293271108111877759756427040918844431053454987119000442494892802827719163333009107222729929827831, Raise EOverflow);
  (330935957342106429782138175143311332988507793984326887866244528766985036463138722711050843004173049056412725395142672949680450641348560383807485418847217136061038285216818988659123416200651847609353603957569055020151816513437866561179503252125300169251040624461286677515792300800594708823411386970773320852992, Raise EOverflow);
  (359538626972463181545861038157804946723595395788461314546860162315465351611001926265416954644815072042240227759742786715317579537628833244985694861278948248755535786849730970552604439202492188238906165904170011537676301364684925762947826221081654474326701021369172596479894491876959432609670712659248448274432, Raise EOverflow);
  (359538626972463201504264133505003063287322526156846975221372766670040766636474350637535873334455729891819882686099797608742047979553785684710074745214884856147253769698045173752661168713348953414283380347799883364209868810124165696255930772290358363215253705849614171551103560634519849033255664962688547553280, Raise EOverflow);
  (359538626972463221462667228852201179851049656525232635895885371024616181661946775009654792024096387741399537612456808502166516421478738124434454629150821463538971752546359376952717898224205718589660594791429755190743436255563405629564035323499062252103806390330055746622312629392080265456840617266128646832128, Raise EOverflow);
  (36028797018963968, Ok 4854880398305394688);
  (36028797018963969, Ok 4854880398305394688);
  (39691112938111912848902549726071280065160339811500682030666764432292410187358245343143599976252938042681136538441829595287657092747484423747076648570148424838572286850972557222145355377424588095329383837626338939578011218287264498053689196647172910036453272553585723105979206278626550416472939205865441005402, Ok 9208808805990333995);
  (4186716450517929, Ok 4840735833069578066);
  (4544146981588883, Ok 4841410146777501587);
  (45757413238119739181858079923640458275480119038877414944245480139183062182439237852141619143081718473161193164051257693823092897143953019319306604663210479566884323796348915280953202309721289950577095385321401707381406072173030506423182997301990741262654440182137703648286620116418771949253698622044181189168, Ok 9209942916337678589);
  (4634207643218489, Ok 4841500207439131193);
  (4708922551894961, Ok 4841574922347807665);
  (4763037439634312, Ok 4841629037235547016);
  (5947256336827086, Ok 4842813256132739790);
  (6298355861761897517756911911323401108558903064180649542159298306990782529254036910649947159690067615316431739726215903373616837813939927817932701178091172285342946549937754866205185205845983063393088021458922234812090730099257187568308574467764168082557559994932427092273146069114091717342906977024516497914, Ok 9196896025678470433);
  (64915145424216299764745594551432831301733722807466527802218602576883550316314436262322455116357077386404030204711599690540800961579915547916971148571029486459347956980046221708404245480777602856022783986407663870426696136784579695980777728153566130044850751045982293594627104888643637193822294118761533239392, Ok 9211862682372523602);
  (657848739707864367437702879343, Ok 5053209478714609616);
  (65960570222048763874864708364764125690108722665790263226367768839007286644487285352379003508685733734328937847637615040665830125671620808433671305315739494604493351341071348302617100366449411794641403649263727330469053727957603322598632885410260519308464775058488798692801846953889587037567542911931139228171, Ok 9211967442737652832);
  (693212748897532078566754104070, Ok 5053460755112980334);
  (7096844922278671, Ok 4843962844718191375);
  (7127329118899116, Ok 4843993328914811820);
  (72, Ok 4634766966517661696);
  (731705506628173, Ok 4829208844966826600);
  (74925887946375653310332064502042205253824332896323931084803199757619996929444855047565798630662753846782777353424132133727519332339527501452508505020541276289788965848444563227879765455170785615059784771418266844101068423538240339927420410302145409903131356930769576766313625413610545995124519973336227969805, Ok 9212865843043679012);
  (790, Ok 4650160129306525696);
  (794, Ok 4650195313678614528);
  (827, Ok 4650485584748347392);
  (8481005406564556, Ok 4845347005202477260);
  (8514436850460791, Ok 4845380436646373495);
  (89884656743115795386465259539451236680898848947115328636715040578866337902750481566354238661203768010560056939935696678829394884407208311246423715319737062188883946712432742638151109800623047059726541476042502884419075341171231440736956555270413618581675255342293149119973622969239858152417678164812112068607, Ok 9214364837600034816);
  (89884656743115795386465259539451236680898848947115328636715040578866337902750481566354238661203768010560056939935696678829394884407208311246423715319737062188883946712432742638151109800623047059726541476042502884419075341171231440736956555270413618581675255342293149119973622969239858152417678164812112068608, Ok 9214364837600034816);
  (89884656743115795386465259539451236680898848947115328636715040578866337902750481566354238661203768010560056939935696678829394884407208311246423715319737062188883946712432742638151109800623047059726541476042502884419075341171231440736956555270413618581675255342293149119973622969239858152417678164812112068609, Ok 9214364837600034816);
  (89884656743115800376066033376250765821830631539211743805343191667510191659118587659383968333613932472954970671524949402185511994888446421177518686303721214036813442424511293438165292178337238353570845086949970841052467202531041424063982693072589590803813426462403542887775890158629962258313916240672136888320, Ok 9214364837600034816);
  (9007199254740991, Ok 4845873199050653695);
  (9007199254740992, Ok 4845873199050653696);
  (9007199254740993, Ok 4845873199050653696);
  (906, Ok 4651180476097101824)].
Example float_of_int_agrees : forallb (fun v => res_eqb Z.eqb (opt_res (float_of_int (fst v))) (snd v)) float_of_int_vectors = true.
Proof. vm_compute. reflexivity. Qed.

Definition time_to_int_vectors : list (resolution * Z * bool * res Z) :=
 [(ResMs, (-1192579833946474), false, Ok (-1192579833946));
  (ResMs, (-1282735), true, Ok (-1282));
  (ResMs, (-1887779256194314), false, Ok (-1887779256194));
  (ResMs, (-2637671447981505), true, Ok (-2637671447981));
  (ResMs, (-29891114435784609), false, Ok (-29891114435784));
  (ResMs, (-3261226048164337), false, Ok (-3261226048164));
  (ResMs, (-41680045243919318), false, Ok (-41680045243919));
  (ResMs, (-5654585017121679), false, Ok (-5654585017121));
  (ResMs, (-59336718883793857), true, Ok (-59336718883793));
  (ResMs, (-62135442332942606), true, Ok (-62135442332942));
  (ResMs, (-62135447409230897), true, Ok (-62135447409230));
  (ResMs, (-62135458624061855), true, Ok (-62135458624061));
  (ResMs, (-62135460209925828), false, Ok (-62135460209925));
  (ResMs, (-62135470714376207), false, Ok (-62135470714376));
  (ResMs, (-62135506289138420), true, Ok (-62135506289138));
  (ResMs, (-62135526567925330), true, Ok (-62135526567925));
  (ResMs, (-62135545214524172), true, Ok (-62135545214524));
  (ResMs, (-62135553497780632), true, Ok (-62135553497780));
  (ResMs, (-62135561650473117), true, Ok (-62135561650473));
  (ResMs, (-62135580045087185), true, Ok (-62135580045087));
  (ResMs, (-6768674), true, Ok (-6768));
  (ResMs, (-7663055), true, Ok (-7663));
  (ResMs, (-8125789), true, Ok (-8125));
  (ResMs, (-8239127725163963), true, Ok (-8239127725163));
  (ResMs, (-924032392457134), true, Ok (-924032392457));
  (ResMs, (-9552886308290026), false, Ok (-9552886308290));
  (ResMs, (-9604803305705628), true, Ok (-9604803305705));
  (ResMs, (-9719510089227007), false, Ok (-9719510089227));
  (ResMs, 1029878516036544, true, Ok 1029878516036);
  (ResMs, 113176798432257799, false, Ok 113176798432257);
  (ResMs, 1334898439247621, false, Ok 1334898439247);
  (ResMs, 148566785582892163, false, Ok 148566785582892);
  (ResMs, 151865767891845126, false, Ok 151865767891845);
  (ResMs, 161317181068037589, true, Ok 161317181068037);
  (ResMs, 1808713250081866, true, Ok 1808713250081);
  (ResMs, 198757800686302686, false, Ok 198757800686302);
  (ResMs, 2008703, false, Ok 2008);
  (ResMs, 214908626969634033, true, Ok 214908626969634);
  (ResMs, 2164841, true, Ok 2164);
  (ResMs, 2354941, false, Ok 2354);
  (ResMs, 253248918015671204, false, Ok 253248918015671);
  (ResMs, 253402300799999990, false, Ok 253402300800000);
  (ResMs, 253402300799999991, false, Ok 253402300800000);
  (ResMs, 253402300799999992, false, Ok 253402300800000);
  (ResMs, 253402300799999992, true, Ok 253402300800000);
  (ResMs, 253402300799999993, false, Ok 253402300800000);
  (ResMs, 253402300799999994, false, Ok 253402300800000);
  (ResMs, 253402300799999996, false, Ok 253402300800000);
  (ResMs, 253402300799999996, true, Ok 253402300800000);
  (ResMs, 253402300799999997, false, Ok 253402300800000);
  (ResMs, 253402300799999998, false, Ok 253402300800000);
  (ResMs, 253402300799999998, true, Ok 253402300800000);
  (ResMs, 3299214908097069, false, Ok 3299214908097);
  (ResMs, 34091710428389496, true, Ok 34091710428389);
  (ResMs, 36277710328529686, false, Ok 36277710328529);
  (ResMs, 4665357742947717, false, Ok 4665357742947);
  (ResMs, 54830280623184868, true, Ok 54830280623184);
  (ResMs, 6165988, false, Ok 6165);
  (ResMs, 679057856937540, true, Ok 679057856937);
  (ResMs, 7053390, true, Ok 7053);
  (ResMs, 7227858, true, Ok 7227);
  (ResMs, 74947842170683176, false, Ok 74947842170683);
  (ResMs, 80887901688081851, false, Ok 80887901688081);
  (ResMs, 8434221268221381, false, Ok 8434221268221);
  (ResMs, 8732258, false, Ok 8732);
  (ResMs, 9202905286745881, true, Ok 9202905286745);
  (ResMs, 9760107654256934, false, Ok 9760107654256);
  (ResNs, (-1261814), true, Ok (-1261814000));
  (ResNs, (-1310106626089084), false, Ok (-1310106626089083904));
  (ResNs, (-1968191324911875), false, Ok (-1968191324911875072));
  (ResNs, (-21899170273326244), false, Ok (-21899170273326243840));
  (ResNs, (-2200658232580703), false, Ok (-2200658232580702720));
  (ResNs, (-2602608), false, Ok (-2602608000));
  (ResNs, (-2621195), true, Ok (-2621195000));
  (ResNs, (-3061861), false, Ok (-3061861000));
  (ResNs, (-4715179), false, Ok (-4715179000));
  (ResNs, (-47719381348620138), false, Ok (-47719381348620140544));
  (ResNs, (-4891487), false, Ok (-4891487000));
  (ResNs, (-5084088899771328), true, Ok (-5084088899771327488));
  (ResNs, (-5297084105269616), false, Ok (-5297084105269615616));
  (ResNs, (-5552711359491914), true, Ok (-5552711359491913728));
  (ResNs, (-5745181), false, Ok (-5745181000));
  (ResNs, (-5764243927165403), true, Ok (-5764243927165403136));
  (ResNs, (-5876932), false, Ok (-5876932000));
  (ResNs, (-59237011300589411), true, Ok (-59237011300589412352));
  (ResNs, (-60522374512609648), true, Ok (-60522374512609648640));
  (ResNs, (-62135427311941129), true, Ok (-62135427311941132288));
  (ResNs, (-62135470524694577), false, Ok (-62135470524694577152));
  (ResNs, (-62135472457078514), false, Ok (-62135472457078513664));
  (ResNs, (-62135484997610017), false, Ok (-62135484997610012672));
  (ResNs, (-62135492237721426), false, Ok (-62135492237721427968));
  (ResNs, (-62135496164102248), true, Ok (-62135496164102250496));
  (ResNs, (-62135507144548803), true, Ok (-62135507144548802560));
  (ResNs, (-62135512328219707), true, Ok (-62135512328219705344));
  (ResNs, (-62135526540766740), true, Ok (-62135526540766740480));
  (ResNs, (-62135529351749645), false, Raise EValueErr);
  (ResNs, (-62135554820839408), true, Ok (-62135554820839407616));
  (ResNs, (-62135571446343017), false, Raise EValueErr);
  (ResNs, (-62135587141012753), true, Ok (-62135587141012758528));
  (ResNs, (-62135594346157511), true, Ok (-62135594346157506560));
  (ResNs, (-62135594662098067), true, Ok (-62135594662098067456));
  (ResNs, (-6220353593503889), true, Ok (-6220353593503889408));
  (ResNs, (-687811), false, Ok (-687811000));
  (ResNs, (-6883441899738708), false, Ok (-6883441899738707968));
  (ResNs, (-7600839), false, Ok (-7600839000));
  (ResNs, (-7947103), false, Ok (-7947103000));
  (ResNs, (-8179062), true, Ok (-8179062000));
  (ResNs, (-8949279), true, Ok (-8949279000));
  (ResNs, 1061918474957947, false, Ok 1061918474957947008);
  (ResNs, 1197188, true, Ok 1197188000);
  (ResNs, 1461543893096172, false, Ok 1461543893096172032);
  (ResNs, 146993537963448257, false, Ok 146993537963448238080);
  (ResNs, 1499633435523969, false, Ok 1499633435523969024);
  (ResNs, 164698021105964226, true, Ok 164698021105964220416);
  (ResNs, 1868778, true, Ok 1868778000);
  (ResNs, 192647739454370069, true, Ok 192647739454370054144);
  (ResNs, 204123464694931222, true, Ok 204123464694931226624);
  (ResNs, 208841756721199066, true, Ok 208841756721199054848);
  (ResNs, 225940153117114625, false, Ok 225940153117114630144);
  (ResNs, 253402300799999990, true, Ok 253402300800000000000);
  (ResNs, 253402300799999991, true, Ok 253402300800000000000);
  (ResNs, 253402300799999992, true, Ok 253402300800000000000);
  (ResNs, 253402300799999993, false, Ok 253402300800000000000);
  (ResNs, 253402300799999994, false, Ok 253402300800000000000);
  (ResNs, 253402300799999994, true, Ok 253402300800000000000);
  (ResNs, 253402300799999995, true, Ok 253402300800000000000);
  (ResNs, 253402300799999996, false, Ok 253402300800000000000);
  (ResNs, 253402300799999996, true, Ok 253402300800000000000);
  (ResNs, 253402300799999997, false, Ok 253402300800000000000);
  (ResNs, 253402300799999997, true, Ok 253402300800000000000);
  (ResNs, 253402300799999999, false, Ok 253402300800000000000);
  (ResNs, 253402300799999999, true, Ok 253402300800000000000);
  (ResNs, 2640149, false, Ok 2640149000);
  (ResNs, 33910766996081077, true, Ok 33910766996081078272);
  (ResNs, 42659457433657954, false, Ok 42659457433657950208);
  (ResNs, 47587278078897886, false, Ok 47587278078897889280);
  (ResNs, 51563455500659566, false, Ok 51563455500659572736);
  (ResNs, 6422237975885631, true, Ok 6422237975885630464);
  (ResNs, 65194621967082491, true, Ok 65194621967082487808);
  (ResNs, 69631908627492409, false, Ok 69631908627492413440);
  (ResNs, 7256221, false, Ok 7256221000);
  (ResNs, 7964718, true, Ok 7964718000);
  (ResNs, 8877003612164791, true, Ok 8877003612164791296);
  (ResNs, 9014612285623042, true, Ok 9014612285623041024);
  (ResNs, 9386076650112295, true, Ok 9386076650112294912);
  (ResNs, 9665121341824920, true, Ok 9665121341824921600);
  (ResNs, 9720266, true, Ok 9720266000);
  (ResS, (-1207428), false, Ok (-1));
  (ResS, (-1262842), true, Ok (-1));
  (ResS, (-19117363665304156), true, Ok (-19117363665));
  (ResS, (-2013887001822988), false, Ok (-2013887001));
  (ResS, (-2955463), true, Ok (-2));
  (ResS, (-2985782), true, Ok (-2));
  (ResS, (-320663294751420), false, Ok (-320663294));
  (ResS, (-3275085), true, Ok (-3));
  (ResS, (-451940779915116), true, Ok (-451940779));
  (ResS, (-5113553), false, Ok (-5));
  (ResS, (-5210193290914081), true, Ok (-5210193290));
  (ResS, (-5745117), true, Ok (-5));
  (ResS, (-5763637768458897), false, Ok (-5763637768));
  (ResS, (-5842786), false, Ok (-5));
  (ResS, (-60807601062543905), true, Ok (-60807601062));
  (ResS, (-62135435428482071), false, Ok (-62135435428));
  (ResS, (-62135447694117378), true, Ok (-62135447694));
  (ResS, (-62135460676059643), false, Ok (-62135460676));
  (ResS, (-62135463764568266), false, Ok (-62135463764));
  (ResS, (-62135474062386787), false, Ok (-62135474062));
  (ResS, (-62135499539249467), true, Ok (-62135499539));
  (ResS, (-62135514222559623), false, Raise EValueErr);
  (ResS, (-62135520402833477), false, Raise EValueErr);
  (ResS, (-62135521474439833), true, Ok (-62135521474));
  (ResS, (-62135538870534337), true, Ok (-62135538870));
  (ResS, (-62135561407096997), true, Ok (-62135561407));
  (ResS, (-62135586544862349), false, Raise EValueErr);
  (ResS, (-62135588269052722), true, Ok (-62135588269));
  (ResS, (-6547448621775035), true, Ok (-6547448621));
  (ResS, (-7012615), true, Ok (-7));
  (ResS, (-7071299), true, Ok (-7));
  (ResS, (-8196605096213360), true, Ok (-8196605096));
  (ResS, (-8261196), false, Ok (-8));
  (ResS, (-854012391903367), false, Ok (-854012391));
  (ResS, (-8738469), false, Ok (-8));
  (ResS, (-9169707784063055), true, Ok (-9169707784));
  (ResS, 123438383131567834, false, Ok 123438383131);
  (ResS, 125345030175190722, false, Ok 125345030175);
  (ResS, 129855235708644912, true, Ok 129855235708);
  (ResS, 130949708081103850, false, Ok 130949708081);
  (ResS, 1489551, false, Ok 1);
  (ResS, 160359257927606742, true, Ok 160359257927);
  (ResS, 1782922690156160, true, Ok 1782922690);
  (ResS, 183552713361242652, true, Ok 183552713361);
  (ResS, 190642405538718366, false, Ok 190642405538);
  (ResS, 1917547, false, Ok 1);
  (ResS, 1998372995612473, true, Ok 1998372995);
  (ResS, 20188495858474418, false, Ok 20188495858);
  (ResS, 210024425099391978, true, Ok 210024425099);
  (ResS, 253402300799999991, false, Ok 253402300800);
  (ResS, 253402300799999991, true, Ok 253402300800);
  (ResS, 253402300799999994, false, Ok 253402300800);
  (ResS, 253402300799999994, true, Ok 253402300800);
  (ResS, 253402300799999995, true, Ok 253402300800);
  (ResS, 253402300799999996, true, Ok 253402300800);
  (ResS, 253402300799999997, false, Ok 253402300800);
  (ResS, 253402300799999999, false, Ok 253402300800);
  (ResS, 3129339927251416, false, Ok 3129339927);
  (ResS, 3137368698773235, true, Ok 3137368698);
  (ResS, 3219464, true, Ok 3);
  (ResS, 3511743580536047, false, Ok 3511743580);
  (ResS, 5017058, false, Ok 5);
  (ResS, 54220792681510217, true, Ok 54220792681);
  (ResS, 6185067, false, Ok 6);
  (ResS, 7415873535812156, false, Ok 7415873535);
  (ResS, 7638498399151960, true, Ok 7638498399);
  (ResS, 7959429, false, Ok 7);
  (ResS, 8489668945731682, false, Ok 8489668945);
  (ResS, 88628271327085338, true, Ok 88628271327);
  (ResS, 9186972221229560, false, Ok 9186972221);
  (ResS, 9264870, false, Ok 9);
  (ResS, 9367019, true, Ok 9);
  (ResUs, (-14955464480120619), false, Ok (-14955464480120618));
  (ResUs, (-19122030014742163), false, Ok (-19122030014742164));
  (ResUs, (-2382228967403799), false, Ok (-2382228967403799));
  (ResUs, (-25087597719504607), true, Ok (-25087597719504608));
  (ResUs, (-3381700), false, Ok (-3381700));
  (ResUs, (-40737733162333812), false, Ok (-40737733162333808));
  (ResUs, (-41686319416228584), false, Ok (-41686319416228584));
  (ResUs, (-4395564), true, Ok (-4395564));
  (ResUs, (-4409832), false, Ok (-4409832));
  (ResUs, (-48347443210608131), false, Ok (-48347443210608128));
  (ResUs, (-5267021441004199), false, Ok (-5267021441004199));
  (ResUs, (-5272125), true, Ok (-5272125));
  (ResUs, (-5685177), false, Ok (-5685177));
  (ResUs, (-62135433157756458), false, Ok (-62135433157756456));
  (ResUs, (-62135435983113509), false, Ok (-62135435983113512));
  (ResUs, (-62135470724221894), true, Ok (-62135470724221896));
  (ResUs, (-62135472930293067), true, Ok (-62135472930293064));
  (ResUs, (-62135475743033703), false, Ok (-62135475743033704));
  (ResUs, (-62135488076408192), false, Ok (-62135488076408192));
  (ResUs, (-62135504778178653), true, Ok (-62135504778178648));
  (ResUs, (-62135504856613668), true, Ok (-62135504856613672));
  (ResUs, (-62135547502832048), true, Ok (-62135547502832048));
  (ResUs, (-62135577684905312), false, Raise EValueErr);
  (ResUs, (-62135585637116095), false, Raise EValueErr);
  (ResUs, (-6269438005159375), false, Ok (-6269438005159375));
  (ResUs, (-6909526), true, Ok (-6909526));
  (ResUs, (-9460960765363072), false, Ok (-9460960765363072));
  (ResUs, (-9830759), false, Ok (-9830759));
  (ResUs, (-9900659), false, Ok (-9900659));
  (ResUs, (-9912288628270385), true, Ok (-9912288628270386));
  (ResUs, 1312191158105055, true, Ok 1312191158105055);
  (ResUs, 135131676367974161, false, Ok 135131676367974160);
  (ResUs, 17283201936729284, true, Ok 17283201936729282);
  (ResUs, 244019411229460178, false, Ok 244019411229460160);
  (ResUs, 253402300799999991, true, Ok 253402300800000000);
  (ResUs, 253402300799999992, false, Ok 253402300800000000);
  (ResUs, 253402300799999992, true, Ok 253402300800000000);
  (ResUs, 253402300799999993, false, Ok 253402300800000000);
  (ResUs, 253402300799999994, false, Ok 253402300800000000);
  (ResUs, 253402300799999995, false, Ok 253402300800000000);
  (ResUs, 253402300799999996, false, Ok 253402300800000000);
  (ResUs, 253402300799999996, true, Ok 253402300800000000);
  (ResUs, 253402300799999997, false, Ok 253402300800000000);
  (ResUs, 253402300799999998, true, Ok 253402300800000000);
  (ResUs, 253402300799999999, true, Ok 253402300800000000);
  (ResUs, 2573454392306099, false, Ok 2573454392306099);
  (ResUs, 3413364, false, Ok 3413364);
  (ResUs, 3908158, true, Ok 3908158);
  (ResUs, 4451921, true, Ok 4451921);
  (ResUs, 46065509902628983, true, Ok 46065509902628984);
  (ResUs, 4826220, false, Ok 4826220);
  (ResUs, 49206049448653577, false, Ok 49206049448653576);
  (ResUs, 5150492071160618, true, Ok 5150492071160618);
  (ResUs, 6798129, true, Ok 6798129);
  (ResUs, 6816808, false, Ok 6816808);
  (ResUs, 6995537, false, Ok 6995537);
  (ResUs, 7002012858086713, true, Ok 7002012858086713);
  (ResUs, 72087015617690241, false, Ok 72087015617690240);
  (ResUs, 8186209, true, Ok 8186209);
  (ResUs, 9339166, false, Ok 9339166)].
Example time_to_int_agrees : forallb (fun v => let '(r, us, aware, x) := v in res_eqb Z.eqb (time_to_int r us aware) x) time_to_int_vectors = true.
Proof. vm_compute. reflexivity. Qed.

Definition time_of_int_vectors : list (resolution * bool * Z * res Z) :=
 [(ResMs, false, (-17152992935), Ok (-17152992935000));
  (ResMs, false, (-5716615889923024321), Raise EValueErr);
  (ResMs, false, (-62135596799997), Raise EValueErr);
  (ResMs, false, (-62135596800000), Raise EValueErr);
  (ResMs, false, (-6743756996751151540), Raise EValueErr);
  (ResMs, false, (-6841717374993841325), Raise EValueErr);
  (ResMs, false, (-8302752931032969081), Raise EValueErr);
  (ResMs, false, (-9223372036854776320000), Raise EOSErr);
  (ResMs, false, (-9223372036854778563000), Raise EOverflow);
  (ResMs, false, 11297323603083173407, Raise EValueErr);
  (ResMs, false, 11505236063118821809467553221049758295155052665230762065499525194094891251552061640493342548634082305351687288311769174890162545204122663839542235560926343960177145179191391057683342054479750023644997308933440369205641643669917624414330439074612943178454432683813523087356623740062701843509462805095950344781824, Raise EOverflow);
  (ResMs, false, 120651778338531, Ok 120651778338531006);
  (ResMs, false, 13765517630679659922, Raise EValueErr);
  (ResMs, false, 15592732575400994147, Raise EValueErr);
  (ResMs, false, 172225847978, Ok 172225847978000);
  (ResMs, false, 253402300799030, Ok 253402300799029999);
  (ResMs, false, 253402300799189, Ok 253402300799188995);
  (ResMs, false, 253402300799224, Ok 253402300799223999);
  (ResMs, false, 253402300799291, Ok 253402300799290985);
  (ResMs, false, 253402300799619, Ok 253402300799618988);
  (ResMs, false, 253402300799676, Ok 253402300799675995);
  (ResMs, false, 253402300799934, Ok 253402300799933990);
  (ResMs, false, 29137169888408, Ok 29137169888408001);
  (ResMs, false, 386567568271, Ok 386567568271000);
  (ResMs, false, 67768036191676780000, Raise EValueErr);
  (ResMs, false, 67768036191676789000, Raise EValueErr);
  (ResMs, false, 67768036191676810000, Raise EOSErr);
  (ResMs, false, 69564328500588, Ok 69564328500587997);
  (ResMs, false, 86250037086882, Ok 86250037086882004);
  (ResMs, false, 89884656743115795386465259539451236680898848947115328636715040578866337902750481566354238661203768010560056939935696678829394884407208311246423715319737062188883946712432742638151109800623047059726541476042502884419075341171231440736956555270413618581675255342293149119973622969239858152417678164812112068608, Raise EOverflow);
  (ResMs, false, 9223372036854776806000, Raise EOverflow);
  (ResMs, true, (-16969841651), Ok (-16969841651000));
  (ResMs, true, (-256245628238369083), Raise EValueErr);
  (ResMs, true, (-3280438939329896957), Raise EValueErr);
  (ResMs, true, (-508986818463943739), Raise EValueErr);
  (ResMs, true, (-62135596799997), Ok (-62135596799997002));
  (ResMs, true, (-62135596799999), Ok (-62135596799999001));
  (ResMs, true, (-62135596800000), Ok (-62135596800000000));
  (ResMs, true, (-6568595260516726730), Raise EValueErr);
  (ResMs, true, (-67768040609740783000), Raise EValueErr);
  (ResMs, true, (-67768040609740787000), Raise EValueErr);
  (ResMs, true, (-67768040609740794000), Raise EValueErr);
  (ResMs, true, (-67768040609740803000), Raise EValueErr);
  (ResMs, true, (-9223372036854775765000), Raise EOSErr);
  (ResMs, true, (-9223372036854777151000), Raise EOverflow);
  (ResMs, true, 1078758522820, Ok 1078758522820000);
  (ResMs, true, 112488664997336, Ok 112488664997335999);
  (ResMs, true, 12286328865410129258, Raise EValueErr);
  (ResMs, true, 16500571077685381913, Raise EValueErr);
  (ResMs, true, 200872739652488, Ok 200872739652488007);
  (ResMs, true, 207914873883559, Ok 207914873883558990);
  (ResMs, true, 253402300799316, Ok 253402300799316010);
  (ResMs, true, 324594815721314710, Raise EValueErr);
  (ResMs, true, 44942328371557897693232629769725618340449424473557664318357520289433168951375240783177119330601884005280028469967848339414697442203604155623211857659868531094441973356216371319075554900311523529863270738021251442209537670585615720368478277635206809290837627671146574559986811484619929076208839082406056034304, Raise EOverflow);
  (ResMs, true, 67768036191676780000, Raise EValueErr);
  (ResMs, true, 67768036191676781000, Raise EValueErr);
  (ResMs, true, 67768036191676812000, Raise EOSErr);
  (ResMs, true, 7310840532482680835, Raise EValueErr);
  (ResMs, true, 761889016293, Ok 761889016293000);
  (ResMs, true, 89884656743115795386465259539451236680898848947115328636715040578866337902750481566354238661203768010560056939935696678829394884407208311246423715319737062188883946712432742638151109800623047059726541476042502884419075341171231440736956555270413618581675255342293149119973622969239858152417678164812112068608, Raise EOverflow);
  (ResMs, true, 9223372036854774616000, Raise EOSErr);
  (ResNs, false, (-25548528771), Ok (-25548529));
  (ResNs, false, (-3144261969413538802), Ok (-3144261969413539));
  (ResNs, false, (-5059347893640374940), Ok (-5059347893640375));
  (ResNs, false, (-62135596799999999997), Raise EValueErr);
  (ResNs, false, (-62135596799999999999), Raise EValueErr);
  (ResNs, false, (-62135596800000000000), Raise EValueErr);
  (ResNs, false, (-62135596800000000003), Raise EValueErr);
  (ResNs, false, (-67768040609740783000000000), Raise EValueErr);
  (ResNs, false, (-67768040609740786000000000), Raise EValueErr);
  (ResNs, false, (-67768040609740794000000000), Raise EValueErr);
  (ResNs, false, (-67768040609740797000000000), Raise EValueErr);
  (ResNs, false, (-67768040609740807000000000), Raise EOSErr);
  (ResNs, false, (-67768040609740812000000000), Raise EOSErr);
  (ResNs, false, (-7436532773), Ok (-7436533));
  (ResNs, false, (-7826861386), Ok (-7826861));
  (ResNs, false, (-8413967800), Ok (-8413968));
  (ResNs, false, (-9014382584), Ok (-9014383));
  (ResNs, false, (-9100883777568882926), Ok (-9100883777568882));
  (ResNs, false, (-9223372036854772930000000000), Raise EOSErr);
  (ResNs, false, (-9223372036854777408000000000), Raise EOverflow);
  (ResNs, false, 101189519999887362280, Ok 101189519999887360);
  (ResNs, false, 10124130805264028697, Ok 10124130805264030);
  (ResNs, false, 116615923502, Ok 116615924);
  (ResNs, false, 17679223840312595222, Ok 17679223840312595);
  (ResNs, false, 179769313486231590772930519078902473361797697894230657273430081157732675805500963132708477322407536021120113879871393357658789768814416622492847430639474124377767893424865485276302219601246094119453082952085005768838150682342462881473913110540827237163350510684586298239947245938479716304835356329624224137216, Raise EOverflow);
  (ResNs, false, 18220578883926247199, Ok 18220578883926247);
  (ResNs, false, 18435670309556144456, Ok 18435670309556145);
  (ResNs, false, 212664176635, Ok 212664177);
  (ResNs, false, 22959578017728063247, Ok 22959578017728062);
  (ResNs, false, 253402300799158908671, Ok 253402300799158905);
  (ResNs, false, 253402300799618531391, Ok 253402300799618561);
  (ResNs, false, 253402300799832057432, Ok 253402300799832062);
  (ResNs, false, 265244642976, Ok 265244643);
  (ResNs, false, 44942328371557897693232629769725618340449424473557664318357520289433168951375240783177119330601884005280028469967848339414697442203604155623211857659868531094441973356216371319075554900311523529863270738021251442209537670585615720368478277635206809290837627671146574559986811484619929076208839082406056034304, Raise EOverflow);
  (ResNs, false, 45764430928842000680, Ok 45764430928841995);
  (ResNs, false, 5856780610257770656, Ok 5856780610257771);
  (ResNs, false, 6462809788712685844, Ok 6462809788712686);
  (ResNs, false, 67768036191676813000000000, Raise EOSErr);
  (ResNs, false, 89884656743115795386465259539451236680898848947115328636715040578866337902750481566354238661203768010560056939935696678829394884407208311246423715319737062188883946712432742638151109800623047059726541476042502884419075341171231440736956555270413618581675255342293149119973622969239858152417678164812112068608, Raise EOverflow);
  (ResNs, false, 9157511866423266175, Ok 9157511866423265);
  (ResNs, false, 9223372036854777763000000000, Raise EOverflow);
  (ResNs, false, 922441418494, Ok 922441418);
  (ResNs, false, 966684716223, Ok 966684716);
  (ResNs, true, (-10043240383), Ok (-10043240));
  (ResNs, true, (-1060965720145801977), Ok (-1060965720145802));
  (ResNs, true, (-1758222208293167910), Ok (-1758222208293168));
  (ResNs, true, (-2058279642107797891), Ok (-2058279642107798));
  (ResNs, true, (-22329433942), Ok (-22329434));
  (ResNs, true, (-22664107325), Ok (-22664107));
  (ResNs, true, (-31737856699), Ok (-31737857));
  (ResNs, true, (-33197517409), Ok (-33197517));
  (ResNs, true, (-4873339319298805063), Ok (-4873339319298804));
  (ResNs, true, (-53115980114088372168), Ok (-53115980114088371));
  (ResNs, true, (-62135596799999999998), Ok (-62135596800000000));
  (ResNs, true, (-67768040609740796000000000), Raise EValueErr);
  (ResNs, true, (-67768040609740798000000000), Raise EValueErr);
  (ResNs, true, (-67768040609740804000000000), Raise EOSErr);
  (ResNs, true, (-67768040609740816000000000), Raise EOSErr);
  (ResNs, true, (-7344055313518889514), Ok (-7344055313518890));
  (ResNs, true, (-8367034326), Ok (-8367034));
  (ResNs, true, 10759147094338238221, Ok 10759147094338238);
  (ResNs, true, 155460073829503105669, Ok 155460073829503113);
  (ResNs, true, 163978240603759837425, Ok 163978240603759827);
  (ResNs, true, 179769313486231590772930519078902473361797697894230657273430081157732675805500963132708477322407536021120113879871393357658789768814416622492847430639474124377767893424865485276302219601246094119453082952085005768838150682342462881473913110540827237163350510684586298239947245938479716304835356329624224137216, Raise EOverflow);
  (ResNs, true, 190001905928, Ok 190001906);
  (ResNs, true, 218360686100161603517, Ok 218360686100161591);
  (ResNs, true, 253402300799543707173, Ok 253402300799543701);
  (ResNs, true, 253402300799806755516, Ok 253402300799806763);
  (ResNs, true, 2598957093699088828, Ok 2598957093699089);
  (ResNs, true, 311110031510, Ok 311110032);
  (ResNs, true, 407779112812, Ok 407779113);
  (ResNs, true, 444219444289, Ok 444219444);
  (ResNs, true, 44942328371557897693232629769725618340449424473557664318357520289433168951375240783177119330601884005280028469967848339414697442203604155623211857659868531094441973356216371319075554900311523529863270738021251442209537670585615720368478277635206809290837627671146574559986811484619929076208839082406056034304, Raise EOverflow);
  (ResNs, true, 610333267979, Ok 610333268);
  (ResNs, true, 67768036191676795000000000, Raise EValueErr);
  (ResNs, true, 67768036191676804000000000, Raise EOSErr);
  (ResNs, true, 67768036191676811000000000, Raise EOSErr);
  (ResNs, true, 802603435153, Ok 802603435);
  (ResNs, true, 8157582013874096059, Ok 8157582013874096);
  (ResNs, true, 825396304241, Ok 825396304);
  (ResNs, true, 8579759464968200189, Ok 8579759464968200);
  (ResNs, true, 902541316854, Ok 902541317);
  (ResS, false, (-1008099829888092439), Raise EOSErr);
  (ResS, false, (-1466023290), Ok (-1466023290000000));
  (ResS, false, (-22135389228), Ok (-22135389228000000));
  (ResS, false, (-29929798472), Ok (-29929798472000000));
  (ResS, false, (-3038789057505225538), Raise EOSErr);
  (ResS, false, (-30739179821), Ok (-30739179821000000));
  (ResS, false, (-3961342708363928892), Raise EOSErr);
  (ResS, false, (-4047719521), Ok (-4047719521000000));
  (ResS, false, (-4930567902102826121), Raise EOSErr);
  (ResS, false, (-62135596797), Raise EValueErr);
  (ResS, false, (-62135596799), Raise EValueErr);
  (ResS, false, (-62135596801), Raise EValueErr);
  (ResS, false, (-62135596803), Raise EValueErr);
  (ResS, false, (-67768040609740790), Raise EValueErr);
  (ResS, false, (-67768040609740791), Raise EValueErr);
  (ResS, false, (-67768040609740804), Raise EValueErr);
  (ResS, false, (-67768040609740813), Raise EOSErr);
  (ResS, false, (-67768040609740814), Raise EOSErr);
  (ResS, false, (-7408891185853293362), Raise EOSErr);
  (ResS, false, (-8845560749162365230), Raise EOSErr);
  (ResS, false, (-9063583421737318795), Raise EOSErr);
  (ResS, false, (-9091278235872359902), Raise EOSErr);
  (ResS, false, (-9223372036854772973), Raise EOSErr);
  (ResS, false, (-9223372036854773650), Raise EOSErr);
  (ResS, false, (-9223372036854775726), Raise EOSErr);
  (ResS, false, (-9223372036854777326), Raise EOverflow);
  (ResS, false, (-954037710931485018), Raise EOSErr);
  (ResS, false, 1026970272623, Raise EValueErr);
  (ResS, false, 14765624498085929813, Raise EOverflow);
  (ResS, false, 15754938005298489493, Raise EOverflow);
  (ResS, false, 179769313486231590772930519078902473361797697894230657273430081157732675805500963132708477322407536021120113879871393357658789768814416622492847430639474124377767893424865485276302219601246094119453082952085005768838150682342462881473913110540827237163350510684586298239947245938479716304835356329624224137216, Raise EOverflow);
  (ResS, false, 19872313047, Ok 19872313047000000);
  (ResS, false, 253402300794, Ok 253402300794000000);
  (ResS, false, 253402300797, Ok 253402300797000000);
  (ResS, false, 253402300799, Ok 253402300799000000);
  (ResS, false, 253402300800, Raise EValueErr);
  (ResS, false, 253402300803, Raise EValueErr);
  (ResS, false, 253402300804, Raise EValueErr);
  (ResS, false, 3856573869410311911, Raise EOSErr);
  (ResS, false, 4576844276754870746, Raise EOSErr);
  (ResS, false, 58435372705, Ok 58435372705000000);
  (ResS, false, 67768036191676782, Raise EValueErr);
  (ResS, false, 67768036191676805, Raise EOSErr);
  (ResS, false, 89457647788, Ok 89457647788000000);
  (ResS, false, 89980948412, Ok 89980948412000000);
  (ResS, false, 91476734028, Ok 91476734028000000);
  (ResS, false, 9223372036854777936, Raise EOverflow);
  (ResS, true, (-25227633479), Ok (-25227633479000000));
  (ResS, true, (-28256358577), Ok (-28256358577000000));
  (ResS, true, (-30813148198), Ok (-30813148198000000));
  (ResS, true, (-44910271), Ok (-44910271000000));
  (ResS, true, (-4527583899230018513), Raise EOSErr);
  (ResS, true, (-62135596802), Raise EValueErr);
  (ResS, true, (-6756517663), Ok (-6756517663000000));
  (ResS, true, (-67768040609740792), Raise EValueErr);
  (ResS, true, (-67768040609740793), Raise EValueErr);
  (ResS, true, (-67768040609740795), Raise EValueErr);
  (ResS, true, (-67768040609740797), Raise EValueErr);
  (ResS, true, (-67768040609740802), Raise EValueErr);
  (ResS, true, (-7223240872539426334), Raise EOSErr);
  (ResS, true, (-787055075013999230), Raise EOSErr);
  (ResS, true, (-8634877901909825694), Raise EOSErr);
  (ResS, true, (-9223372036854777681), Raise EOverflow);
  (ResS, true, (-9223372036854777719), Raise EOverflow);
  (ResS, true, 1042633363436, Raise EValueErr);
  (ResS, true, 109354961936, Ok 109354961936000000);
  (ResS, true, 203554782073, Ok 203554782073000000);
  (ResS, true, 26660238804, Ok 26660238804000000);
  (ResS, true, 639120934076, Raise EValueErr);
  (ResS, true, 67768036191676780, Raise EValueErr);
  (ResS, true, 67768036191676789, Raise EValueErr);
  (ResS, true, 67768036191676795, Raise EValueErr);
  (ResS, true, 7082918798822332068, Raise EOSErr);
  (ResS, true, 71254786186, Ok 71254786186000000);
  (ResS, true, 72398169921, Ok 72398169921000000);
  (ResS, true, 811838656331, Raise EValueErr);
  (ResS, true, 9223372036854775610, Raise EOverflow);
  (ResS, true, 9223372036854778035, Raise EOverflow);
  (ResS, true, 968504001543, Raise EValueErr);
  (ResS, true, 9699751329499483687, Raise EOverflow);
  (ResS, true, 9802316495649704580, Raise EOverflow);
  (ResUs, false, (-14231707534), Ok (-14231707534));
  (ResUs, false, (-18967679633), Ok (-18967679633));
  (ResUs, false, (-21026054543), Ok (-21026054543));
  (ResUs, false, (-2720474213), Ok (-2720474213));
  (ResUs, false, (-29106267692), Ok (-29106267692));
  (ResUs, false, (-3181119409975605963), Raise EValueErr);
  (ResUs, false, (-3546316407975288781), Raise EValueErr);
  (ResUs, false, (-5550457096566358790), Raise EValueErr);
  (ResUs, false, (-6645570367), Ok (-6645570367));
  (ResUs, false, (-67768040609740807000000), Raise EOSErr);
  (ResUs, false, (-67768040609740811000000), Raise EOSErr);
  (ResUs, false, (-67768040609740820000000), Raise EOSErr);
  (ResUs, false, (-9223372036854773526000000), Raise EOSErr);
  (ResUs, false, (-9223372036854774748000000), Raise EOSErr);
  (ResUs, false, (-9223372036854775255000000), Raise EOSErr);
  (ResUs, false, 1079695435599, Ok 1079695435599);
  (ResUs, false, 156283042970120167, Ok 156283042970120148);
  (ResUs, false, 192105058296701050, Ok 192105058296701050);
  (ResUs, false, 199975172850427717, Ok 199975172850427704);
  (ResUs, false, 253402300799084701, Ok 253402300799084717);
  (ResUs, false, 3496127068485279688, Raise EValueErr);
  (ResUs, false, 3844393645, Ok 3844393645);
  (ResUs, false, 5073725817434827893, Raise EValueErr);
  (ResUs, false, 67768036191676779000000, Raise EValueErr);
  (ResUs, false, 67768036191676799000000, Raise EOSErr);
  (ResUs, false, 67768036191676809000000, Raise EOSErr);
  (ResUs, false, 731894622142, Ok 731894622142);
  (ResUs, false, 8837001252610682233, Raise EValueErr);
  (ResUs, false, 89884656743115795386465259539451236680898848947115328636715040578866337902750481566354238661203768010560056939935696678829394884407208311246423715319737062188883946712432742638151109800623047059726541476042502884419075341171231440736956555270413618581675255342293149119973622969239858152417678164812112068608, Raise EOverflow);
  (ResUs, false, 9223372036854772968000000, Raise EOSErr);
  (ResUs, false, 9223372036854774442000000, Raise EOSErr);
  (ResUs, false, 9223372036854774641000000, Raise EOSErr);
  (ResUs, false, 9223372036854774973000000, Raise EOSErr);
  (ResUs, false, 9223372036854775976000000, Raise EOverflow);
  (ResUs, false, 9223372036854776962000000, Raise EOverflow);
  (ResUs, false, 9223372036854777479000000, Raise EOverflow);
  (ResUs, false, 9223372036854777607000000, Raise EOverflow);
  (ResUs, false, 998548607351, Ok 998548607351);
  (ResUs, true, (-1163833843236414394), Raise EValueErr);
  (ResUs, true, (-11790737282), Ok (-11790737282));
  (ResUs, true, (-1609946344139157616), Raise EValueErr);
  (ResUs, true, (-1755752045), Ok (-1755752045));
  (ResUs, true, (-18699134875), Ok (-18699134875));
  (ResUs, true, (-2065840283353932816), Raise EValueErr);
  (ResUs, true, (-2946988080027811771), Raise EValueErr);
  (ResUs, true, (-62135596799999999), Ok (-62135596800000000));
  (ResUs, true, (-62135596800000000), Ok (-62135596800000000));
  (ResUs, true, (-67768040609740786000000), Raise EValueErr);
  (ResUs, true, (-67768040609740797000000), Raise EValueErr);
  (ResUs, true, (-67768040609740805000000), Raise EOSErr);
  (ResUs, true, (-67768040609740813000000), Raise EOSErr);
  (ResUs, true, (-8313267369), Ok (-8313267369));
  (ResUs, true, (-9223372036854773970000000), Raise EOSErr);
  (ResUs, true, (-9223372036854777734000000), Raise EOverflow);
  (ResUs, true, 104199996301, Ok 104199996301);
  (ResUs, true, 1096423566492, Ok 1096423566492);
  (ResUs, true, 11505236063118821809467553221049758295155052665230762065499525194094891251552061640493342548634082305351687288311769174890162545204122663839542235560926343960177145179191391057683342054479750023644997308933440369205641643669917624414330439074612943178454432683813523087356623740062701843509462805095950344781824, Raise EOverflow);
  (ResUs, true, 115810936294, Ok 115810936294);
  (ResUs, true, 235653812753209517, Ok 235653812753209503);
  (ResUs, true, 253402300799313445, Ok 253402300799313446);
  (ResUs, true, 28182602101980646, Ok 28182602101980648);
  (ResUs, true, 2861924121086983926, Raise EValueErr);
  (ResUs, true, 350092928954, Ok 350092928954);
  (ResUs, true, 67768036191676810000000, Raise EOSErr);
  (ResUs, true, 67768036191676812000000, Raise EOSErr);
  (ResUs, true, 796928446432, Ok 796928446432);
  (ResUs, true, 8402203802285797271, Raise EValueErr);
  (ResUs, true, 970560221204, Ok 970560221204)].
Example time_of_int_agrees : forallb (fun v => let '(r, aware, n, x) := v in res_eqb Z.eqb (time_of_int r aware n) x) time_of_int_vectors = true.
Proof. vm_compute. reflexivity. Qed.
