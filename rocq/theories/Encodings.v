(** Model of [src/encodings.cpp]: the table indexed by the encoding byte. *)
From Verif Require Import Base.

(** src/encodings.cpp:13. *)
Definition default_encoding : bytes := bs "WINDOWS-1252".

(** src/encodings.cpp:14-270, the array encoding[256], one entry per line of the
    source; [D] is the default. *)
Definition encoding_table : list bytes :=
  let D := default_encoding in
  [
   D; D; D; D; D; D; D; D;  (* 0 *)
   D; D; D; D; D; D; D; D;  (* 8 *)
   D; D; D; D; bs "UTF-8"; D; D; D;  (* 16 *)
   D; D; D; D; bs "US-ASCII"; bs "ISO-8859-1"; bs "ISO-8859-2"; bs "ISO-8859-3";  (* 24 *)
   bs "ISO-8859-4"; bs "ISO-8859-5"; bs "ISO-8859-6"; bs "ISO-8859-7"; bs "ISO-8859-8"; bs "ISO-8859-9"; D; bs "ISO-8859-11";  (* 32 *)
   bs "ISO-8859-15"; bs "CP437"; bs "CP850"; bs "CP852"; bs "CP857"; bs "CP858"; bs "CP862"; bs "CP864";  (* 40 *)
   bs "CP865"; bs "CP866"; bs "CP869"; bs "CP874"; bs "CP921"; bs "CP922"; bs "CP1129"; bs "CP720";  (* 48 *)
   bs "CP737"; bs "CP775"; bs "CP860"; bs "CP863"; bs "WINDOWS-1250"; bs "WINDOWS-1251"; bs "WINDOWS-1252"; bs "WINDOWS-1253";  (* 56 *)
   bs "WINDOWS-1254"; bs "WINDOWS-1255"; bs "WINDOWS-1256"; bs "WINDOWS-1257"; bs "WINDOWS-1258"; bs "MACROMAN"; bs "MACARABIC"; bs "MACHEBREW";  (* 64 *)
   bs "MACGREEK"; bs "MACTHAI"; D; bs "MACTURKISH"; bs "MACUKRAINE"; D; D; D;  (* 72 *)
   D; D; D; D; D; D; D; D;  (* 80 *)
   D; D; D; D; D; D; D; D;  (* 88 *)
   D; D; D; D; D; D; D; D;  (* 96 *)
   D; D; D; D; D; D; D; D;  (* 104 *)
   D; D; D; D; D; D; bs "CP950"; bs "EUC-TW";  (* 112 *)
   D; D; D; bs "BIG5-HKSCS"; D; bs "GB18030"; bs "CP936"; D;  (* 120 *)
   bs "CP1381"; D; D; D; D; D; bs "EUC-JP"; D;  (* 128 *)
   bs "CP949"; bs "CP942"; bs "CP932"; D; bs "EUC-KR"; bs "CP949"; bs "CP949"; D;  (* 136 *)
   D; D; D; D; D; D; D; D;  (* 144 *)
   D; D; D; D; D; D; D; D;  (* 152 *)
   D; D; D; bs "MACICELAND"; D; D; D; bs "ISO-2022-JP";  (* 160 *)
   bs "ISO-2022-KR"; bs "ISO-2022-CN"; D; D; bs "ISO-2022-CN-EXT"; D; D; D;  (* 168 *)
   D; D; D; D; D; D; D; D;  (* 176 *)
   D; D; D; D; D; D; D; D;  (* 184 *)
   D; D; D; D; D; D; D; D;  (* 192 *)
   D; D; D; D; D; bs "GB18030"; D; D;  (* 200 *)
   D; D; D; D; D; D; D; D;  (* 208 *)
   D; D; D; D; D; D; D; D;  (* 216 *)
   D; D; D; bs "ISO-8859-14"; D; D; D; D;  (* 224 *)
   D; D; D; D; D; D; D; D;  (* 232 *)
   D; D; bs "ISO-8859-13"; D; D; bs "MACCROATIAN"; bs "MACCYRILLIC"; bs "MACROMANIA";  (* 240 *)
   bs "SHIFT_JISX0213"; D; D; D; D; D; D; D  (* 248 *)
  ].

(** src/encodings.cpp:11-12 and 271 get_encoding. *)
Definition get_encoding (e : byte) : bytes :=
  nth (N.to_nat (b2n e)) encoding_table [].
