(** What integers, strings, numbers, column types, filters and encodings should
    be, said without the definitions of the model (only the types of the model
    are used: bytes, the byte orders, columns). *)
From Verif Require Import Base Types DateTime Column Metadata.
From Coq Require Import Permutation.
Local Open Scope N_scope.

(** ** Integers *)

(** The value of a byte string whose first byte has weight 1, resp. whose last
    byte has weight 1. *)
Definition value_lsb_first (l : bytes) : N :=
  fold_right (fun b acc => Byte.to_N b + 256 * acc) 0 l.
Definition value_msb_first (l : bytes) : N :=
  fold_left (fun acc b => 256 * acc + Byte.to_N b) l 0.

Definition value_of (e : endian) (l : bytes) : N :=
  match e with
  | Little => value_lsb_first l
  | Big => value_msb_first l
  end.

(** Writing an integer on [w] bytes. *)
Definition byte_of (n : N) : byte :=
  match Byte.of_N (n mod 256) with Some b => b | None => x00 end.

Fixpoint write_lsb_first (w : nat) (v : N) : bytes :=
  match w with
  | O => []
  | S w' => byte_of v :: write_lsb_first w' (v / 256)
  end.

Definition write_int (e : endian) (w : nat) (v : N) : bytes :=
  match e with
  | Little => write_lsb_first w v
  | Big => rev (write_lsb_first w v)
  end.

(** Two's complement of a 16 bit word. *)
Definition twos_complement16 (v : N) (z : Z) : Prop :=
  (- 32768 <= z < 32768)%Z /\ (z mod 65536 = Z.of_N v)%Z.

(** ** Strings *)

(** NUL, tab, line feed, vertical tab, form feed, carriage return, space. *)
Definition blanks : bytes := [x00; x09; x0a; x0b; x0c; x0d; x20].
Definition blank (b : byte) : Prop := In b blanks.

(** [r] is [l] without its trailing blanks. *)
Definition right_trimmed (l r : bytes) : Prop :=
  exists t, l = r ++ t /\ Forall blank t
            /\ (r = [] \/ exists r' b, r = r' ++ [b] /\ ~ blank b).

(** ** The bytes of a column in a row *)

(** The row seen through [p] holds the bytes [l] at [off]. *)
Definition row_has (p : pview) (off : N) (l : bytes) : Prop :=
  exists before after,
    pv_mem p = before ++ map Some l ++ after /\ lenN before = pv_off p + off.

(** Two rows hold the same bytes at [off, off+len). *)
Definition same_bytes (p q : pview) (off len : N) : Prop :=
  exists l, lenN l = len /\ row_has p off l /\ row_has q off l.

(** ** Column types *)

(** The format names which make a numeric column a date and time, a date, or a
    time. *)
Definition datetime_names : list bytes :=
   [bs "DATETIME"; bs "DTWKDATX"; bs "B8601DN"; bs "B8601DT"; bs "B8601DX";
    bs "B8601DZ"; bs "B8601LX"; bs "E8601DN"; bs "E8601DT"; bs "E8601DX";
    bs "E8601DZ"; bs "E8601LX"; bs "DATEAMPM"; bs "DTDATE"; bs "DTMONYY";
    bs "DTYEAR"; bs "TOD"; bs "MDYAMPM"].
Definition date_names : list bytes :=
   [bs "DATE"; bs "DAY"; bs "DDMMYY"; bs "DDMMYYB"; bs "DDMMYYC"; bs "DDMMYYD";
    bs "DDMMYYN"; bs "DDMMYYP"; bs "DDMMYYS"; bs "DOWNAME"; bs "JULDAY";
    bs "JULIAN"; bs "MMDDYY"; bs "MMDDYYC"; bs "MMDDYYD"; bs "MMDDYYN";
    bs "MMDDYYP"; bs "MMDDYYS"; bs "MMYY"; bs "MMYYC"; bs "MMYYD"; bs "MMYYP";
    bs "MMYYS"; bs "MMYYN"; bs "MONNAME"; bs "MONTH"; bs "MONYY"; bs "QTR";
    bs "QTRR"; bs "NENGO"; bs "MINGUO"; bs "WEEKDATE"; bs "WEEKDATX";
    bs "WEEKDAY"; bs "WEEKV"; bs "WORDDATE"; bs "WORDDATX"; bs "YEAR";
    bs "YYMM"; bs "YYMMC"; bs "YYMMD"; bs "YYMMP"; bs "YYMMS"; bs "YYMMN";
    bs "YYMON"; bs "YYMMDD"; bs "YYMMDDB"; bs "YYMMDDC"; bs "YYMMDDD";
    bs "YYMMDDN"; bs "YYMMDDP"; bs "YYMMDDS"; bs "YYQ"; bs "YYQC"; bs "YYQD";
    bs "YYQP"; bs "YYQS"; bs "YYQN"; bs "YYQR"; bs "YYQRC"; bs "YYQRD";
    bs "YYQRP"; bs "YYQRS"; bs "YYQRN"; bs "B8601DA"; bs "E8601DA"].
Definition time_names : list bytes := [bs "TIME"].

(** The decision table: stored kind, length, format name, reported type. *)
Inductive reported_type : ctype -> N -> bytes -> ctype -> Prop :=
| rt_string : forall len fmt, reported_type TString len fmt TString
| rt_int1 : forall fmt, reported_type TNumber 1 fmt TInteger
| rt_int2 : forall fmt, reported_type TNumber 2 fmt TInteger
| rt_datetime : forall len fmt, len <> 1 -> len <> 2 -> In fmt datetime_names ->
    reported_type TNumber len fmt TDateTime
| rt_date : forall len fmt, len <> 1 -> len <> 2 -> In fmt date_names ->
    reported_type TNumber len fmt TDate
| rt_time : forall len fmt, len <> 1 -> len <> 2 -> In fmt time_names ->
    reported_type TNumber len fmt TTime
| rt_number : forall len fmt, 3 <= len <= 8 -> ~ In fmt datetime_names ->
    ~ In fmt date_names -> ~ In fmt time_names ->
    reported_type TNumber len fmt TNumber
| rt_unknown : forall len fmt, (len = 0 \/ 8 < len) -> ~ In fmt datetime_names ->
    ~ In fmt date_names -> ~ In fmt time_names ->
    reported_type TNumber len fmt TUnknown.

(** How many bytes of the row the value of a column of that type takes. *)
Definition value_width (t : ctype) (len : N) : N :=
  match t with
  | TString | TInteger | TNumber => len
  | TDateTime | TDate | TTime => 8
  | TUnknown => 0
  end.

(** A column as the reader makes it: the class of its formatter has been chosen
    from a stored kind (number or string), the length and the format name. *)
Definition built_column (c : column) : Prop :=
  exists kind, (kind = TNumber \/ kind = TString)
    /\ fm_kind (c_fm c) = column_kind kind (fm_length (c_fm c)) (c_format c).

(** ** Encodings *)

Definition encoding_names : list (N * bytes) :=
  [(20, bs "UTF-8"); (28, bs "US-ASCII"); (29, bs "ISO-8859-1");
   (30, bs "ISO-8859-2"); (31, bs "ISO-8859-3"); (32, bs "ISO-8859-4");
   (33, bs "ISO-8859-5"); (34, bs "ISO-8859-6"); (35, bs "ISO-8859-7");
   (36, bs "ISO-8859-8"); (37, bs "ISO-8859-9"); (39, bs "ISO-8859-11");
   (40, bs "ISO-8859-15"); (41, bs "CP437"); (42, bs "CP850"); (43, bs "CP852");
   (44, bs "CP857"); (45, bs "CP858"); (46, bs "CP862"); (47, bs "CP864");
   (48, bs "CP865"); (49, bs "CP866"); (50, bs "CP869"); (51, bs "CP874");
   (52, bs "CP921"); (53, bs "CP922"); (54, bs "CP1129"); (55, bs "CP720");
   (56, bs "CP737"); (57, bs "CP775"); (58, bs "CP860"); (59, bs "CP863");
   (60, bs "WINDOWS-1250"); (61, bs "WINDOWS-1251"); (62, bs "WINDOWS-1252");
   (63, bs "WINDOWS-1253"); (64, bs "WINDOWS-1254"); (65, bs "WINDOWS-1255");
   (66, bs "WINDOWS-1256"); (67, bs "WINDOWS-1257"); (68, bs "WINDOWS-1258");
   (69, bs "MACROMAN"); (70, bs "MACARABIC"); (71, bs "MACHEBREW");
   (72, bs "MACGREEK"); (73, bs "MACTHAI"); (75, bs "MACTURKISH");
   (76, bs "MACUKRAINE"); (118, bs "CP950"); (119, bs "EUC-TW");
   (123, bs "BIG5-HKSCS"); (125, bs "GB18030"); (126, bs "CP936");
   (128, bs "CP1381"); (134, bs "EUC-JP"); (136, bs "CP949"); (137, bs "CP942");
   (138, bs "CP932"); (140, bs "EUC-KR"); (141, bs "CP949"); (142, bs "CP949");
   (163, bs "MACICELAND"); (167, bs "ISO-2022-JP"); (168, bs "ISO-2022-KR");
   (169, bs "ISO-2022-CN"); (172, bs "ISO-2022-CN-EXT"); (205, bs "GB18030");
   (227, bs "ISO-8859-14"); (242, bs "ISO-8859-13"); (245, bs "MACCROATIAN");
   (246, bs "MACCYRILLIC"); (247, bs "MACROMANIA"); (248, bs "SHIFT_JISX0213")].

(** ** Grouping *)

(** [a] is [b] with elements left out. *)
Inductive subsequence {A : Type} : list A -> list A -> Prop :=
| sub_nil : subsequence [] []
| sub_keep : forall x a b, subsequence a b -> subsequence (x :: a) (x :: b)
| sub_skip : forall x a b, subsequence a b -> subsequence a (x :: b).

(** ** Doubles that are integers *)

(** The 64 bits of the double whose value is the integer [z], |z| < 2^53: sign,
    biased exponent, fraction with z = (-1)^s * 2^(e-1075) * (2^52 + f). *)
Definition double_bits_of_int (bits : N) (z : Z) : Prop :=
  (z = 0%Z /\ bits = 0) \/
  exists s e f, s < 2 /\ 0 < e < 2047 /\ f < 2 ^ 52
    /\ bits = s * 2 ^ 63 + e * 2 ^ 52 + f
    /\ (Z.abs z * 2 ^ 1075 = Z.of_N (2 ^ 52 + f) * 2 ^ Z.of_N e)%Z
    /\ (s = 1 <-> (z < 0)%Z).
