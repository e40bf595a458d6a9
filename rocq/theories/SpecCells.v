(** The cells of a table: what they contain, how they are stored in a row, the value
    and the text which should come back.  Nothing of the functions of the reader is
    used, except in [value_is], where a date returned by Boost is looked at through
    its year, month and day. *)
From Coq Require Import QArith Qabs.
From Verif Require Import Base Types DateTime Column Header Metadata Reader Sinks SpecValues SpecReader SpecFile SpecTime SpecSinks SpecNumber.
Local Open Scope N_scope.

(** ** Contents *)

(** A text; a small integer; a number (64 bits); a day; a moment, in microseconds of
    a day; a time of the day in microseconds; a missing number, date, moment or time
    (a NaN). *)
Inductive content : Type :=
| Text (t : bytes)
| Whole (z : Z)
| Real (bits : N)
| Day (t : day)
| Moment (t : day) (us : Z)
| Clock (us : Z)
| Missing (bits : N).

(** The text does not end with a blank. *)
Definition unpadded (t : bytes) : Prop := t = [] \/ exists r b, t = r ++ [b] /\ ~ blank b.

(** ** Storage *)

(** A number stored on [w] bytes: its [w] most significant ones. *)
Definition short_double (e : endian) (w bits : N) (l : bytes) : Prop :=
  bits < 2 ^ 64 /\ exists high, bits = high * 256 ^ (8 - w) /\ l = write_int e (N.to_nat w) high.

(** The double of an integer. *)
Definition stored_integer (e : endian) (z : Z) (l : bytes) : Prop :=
  exists bits, double_value bits (inject_Z z) /\ l = write_int e 8 bits.

(** A double which is the number of seconds of [us] microseconds, but for its own
    rounding: less than half a microsecond (and a bit, 2^-35) away.  Below 2^33
    seconds the nearest double is. *)
Definition stored_micros (e : endian) (us : Z) (l : bytes) : Prop :=
  exists bits q, double_value bits q
    /\ (Qabs (inject_Z us - inject_Z 1000000 * q) + (1 # 2 ^ 35) < 1 # 2)%Q
    /\ l = write_int e 8 bits.

(** The kind of a numeric field. *)
Definition is_date (d : field_desc) : Prop := In (fd_format d) date_names.
Definition is_datetime (d : field_desc) : Prop := In (fd_format d) datetime_names.
Definition is_time (d : field_desc) : Prop := In (fd_format d) time_names.
Definition is_number (d : field_desc) : Prop := ~ is_date d /\ ~ is_datetime d /\ ~ is_time d.

(** The bytes [l] are those of the content in the field. *)
Inductive stored (e : endian) (d : field_desc) : content -> bytes -> Prop :=
| st_text : forall t pad, fd_numeric d = false -> unpadded t -> lenN (t ++ pad) = fd_length d ->
    Forall (fun b => b = x20 \/ b = x00) pad -> stored e d (Text t) (t ++ pad)
| st_byte : forall z, fd_numeric d = true -> fd_length d = 1 -> (0 <= z < 256)%Z ->
    stored e d (Whole z) (write_int e 1 (Z.to_N z))
| st_int16 : forall z, fd_numeric d = true -> fd_length d = 2 -> (-32768 <= z < 32768)%Z ->
    stored e d (Whole z) (write_int e 2 (Z.to_N (z mod 65536)))
| st_real : forall bits l, fd_numeric d = true -> 3 <= fd_length d <= 8 -> is_number d ->
    short_double e (fd_length d) bits l -> stored e d (Real bits) l
| st_day : forall t n l, fd_numeric d = true -> fd_length d = 8 -> is_date d ->
    days_from_1960 n t -> supported t -> stored_integer e n l -> stored e d (Day t) l
| st_moment : forall t n us l, fd_numeric d = true -> fd_length d = 8 -> is_datetime d ->
    days_from_1960 n t -> supported t -> (0 <= us < day_us)%Z ->
    stored_micros e (n * day_us + us) l -> stored e d (Moment t us) l
| st_clock : forall us l, fd_numeric d = true -> fd_length d = 8 -> is_time d ->
    (0 <= us < day_us)%Z -> stored_micros e us l -> stored e d (Clock us) l
| st_missing : forall bits, fd_numeric d = true -> fd_length d = 8 -> double_nan bits ->
    stored e d (Missing bits) (write_int e 8 bits).

(** The row has the contents, each at the offset of its field. *)
Definition row_of (e : endian) (fields : list field_desc) (contents : list content) (row : bytes) : Prop :=
  Forall2 (fun d v => exists before l after,
             row = before ++ l ++ after /\ lenN before = fd_offset d /\ stored e d v l)
    fields contents.

(** ** What comes back *)

(** The value given to a sink. *)
Definition value_is (v : content) (x : value) : Prop :=
  match v, x with
  | Text t, VString s => s = t
  | Whole z, VInteger y => y = z
  | Real bits, VNumber b => b = bits
  | Day t, VDate g => date_ymd g = Ok t
  | Moment t us, VDateTime (PTicks u) =>
      exists n, days_from_1960 n t /\ u = (jdn_1960 * day_us + n * day_us + us)%Z
  | Clock us, VTime u => u = TTicks us
  | Missing bits, VNumber b => b = bits
  | Missing _, VDate g => g = NotADate
  | Missing _, VDateTime u => u = NotADateTime
  | Missing _, VTime u => u = NotATime
  | _, _ => False
  end.

(** Its text, for the contents which have one. *)
Definition text_is (v : content) (x : bytes) : Prop :=
  match v with
  | Text t => x = t
  | Whole z => short_decimal x z
  | Real bits =>
      (exists q n t, double_value bits q /\ nearest_even (inject_Z 1000000 * Qabs q) n
         /\ six_decimals n t /\ x = minus bits ++ t)
      \/ double_infinity bits /\ x = minus bits ++ bs "inf"
      \/ double_nan bits /\ x = minus bits ++ bs "nan"
  | Day t => x = iso_date t
  | Moment t us => x = iso_date t ++ bs " " ++ iso_time us
  | Clock us => x = iso_time us
  | Missing bits => x = minus bits ++ bs "nan"
  end.

(** A missing date, moment or time has no text (see C55); a missing number has. *)
Definition has_text (col : column) (v : content) : Prop :=
  match v with Missing _ => c_type col = TNumber | _ => True end.

(** The row shows the contents in the columns which are kept. *)
Definition shown (flt : option (column -> bool)) (cols : list column) (contents : list content) (p : pview) : Prop :=
  Forall2 (fun v col => (match flt with Some f => f col | None => true end) = true ->
             (exists x, cell_value col p x /\ value_is v x)
             /\ (has_text col v -> exists x, c_to_string col p = Ok x /\ text_is v x))
    contents cols.

(** The calls of a sink when the whole table is read. *)
Definition table_events (flt : option (column -> bool)) (cols : list column) (contents : list (list content))
    (evs : list event) : Prop :=
  exists rows, evs = pushes rows ++ [EvEnd] /\ map fst rows = from 0 (length contents)
    /\ Forall2 (fun vs r => shown flt cols vs (snd r)) contents rows.

(** ** What the sinks write *)

(** No quote and no line break in the texts. *)
Definition texts_plain (contents : list content) : Prop :=
  Forall (fun v => match v with Text t => clean t | _ => True end) contents.

(** A line of a csv file with a field for each content. *)
Definition csv_line (f : csv_fmt) (contents : list content) (line : bytes) : Prop :=
  ~ In x0a line
  /\ Forall2 (fun v t => exists x, value_is v x /\ csv_shows f x t) contents (csv_fields line).

(** A line of the print sink: the index of the row and the texts of its contents. *)
Definition print_line (i : N) (contents : list content) (line : bytes) : Prop :=
  exists ti ts, short_decimal ti (Z.of_N i) /\ Forall2 text_is contents ts
    /\ line = ti ++ concat (map (fun t => [x2c] ++ t) ts) ++ [x0a].

Fixpoint print_lines_of (i : N) (contents : list (list content)) (lines : list bytes) : Prop :=
  match contents, lines with
  | [], [] => True
  | vs :: r, l :: r' => print_line i vs l /\ print_lines_of (i + 1) r r'
  | _, _ => False
  end.

(** ** The report of the print sink *)

(** What it says of the file and of each column. *)
Definition column_facts (c : column) := (c_name c, c_label c, c_format c, c_type c).

Definition file_facts (h : header) (md : metadata) :=
  ((h_format h, h_endianness h, h_platform h), (h_date_created h, h_date_modified h),
   [h_dataset_name h; h_encoding h; h_file_type h; h_sas_release h; h_sas_server_type h; h_os_type h; h_os_name h;
    md_creator md; md_creator_proc md],
   md_compression md, (md_row_count md, md_column_count md), map column_facts (md_columns md)).

(** None of the texts has a line break. *)
Definition one_line (t : bytes) : Prop := ~ In x0a t.

Definition one_line_facts (h : header) (md : metadata) : Prop :=
  Forall one_line
    [h_dataset_name h; h_encoding h; h_file_type h; h_sas_release h; h_sas_server_type h; h_os_type h; h_os_name h;
     md_creator md; md_creator_proc md]
  /\ Forall (fun c => one_line (c_name c) /\ one_line (c_label c) /\ one_line (c_format c)) (md_columns md).

(** The lines of a text, each of them ended by a line break. *)
Fixpoint text_lines (cur : bytes) (t : bytes) : list bytes :=
  match t with
  | [] => []
  | b :: r => if Byte.eqb b x0a then cur :: text_lines [] r else text_lines (cur ++ [b]) r
  end.

(** The words of the report. *)
Definition format_words : list (format * bytes) := [(Bit32, bs "32bits"); (Bit64, bs "64bits")].
Definition endian_words : list (endian * bytes) := [(Big, bs "big"); (Little, bs "little")].
Definition platform_words : list (platform * bytes) :=
  [(Unix, bs "unix"); (Windows, bs "windows"); (PlatformUnknown, bs "unknown")].
Definition compression_words : list (compression * bytes) :=
  [(CompNone, bs "none"); (CompRLE, bs "RLE"); (CompRDC, bs "RDC")].
Definition type_words : list (ctype * bytes) :=
  [(TNumber, bs "number"); (TString, bs "string"); (TDate, bs "date"); (TTime, bs "time");
   (TDateTime, bs "datetime"); (TInteger, bs "integer"); (TUnknown, bs "unknown")].

(** One line for each fact, with its name; a column has its number, from 0, in a line
    of its own.  [dt] gives the texts of the dates. *)
Definition reports (dt : ptime -> bytes) (h : header) (md : metadata) (text : bytes) : Prop :=
  let lines := text_lines [] text in
  let says i (key value : bytes) := nth_error lines i = Some (key ++ value) in
  length lines = (20 + 5 * length (md_columns md))%nat
  /\ (exists w, In (h_format h, w) format_words /\ says 1%nat (bs "  format: ") w)
  /\ (exists w, In (h_endianness h, w) endian_words /\ says 2%nat (bs "  endianness: ") w)
  /\ (exists w, In (h_platform h, w) platform_words /\ says 3%nat (bs "  platform: ") w)
  /\ says 4%nat (bs "  date created: ") (dt (h_date_created h))
  /\ says 5%nat (bs "  date modified: ") (dt (h_date_modified h))
  /\ says 6%nat (bs "  dataset name: ") (h_dataset_name h)
  /\ says 7%nat (bs "  encoding: ") (h_encoding h)
  /\ says 8%nat (bs "  file type: ") (h_file_type h)
  /\ says 9%nat (bs "  SAS release: ") (h_sas_release h)
  /\ says 10%nat (bs "  SAS server type: ") (h_sas_server_type h)
  /\ says 11%nat (bs "  OS type: ") (h_os_type h)
  /\ says 12%nat (bs "  OS name: ") (h_os_name h)
  /\ (exists w, In (md_compression md, w) compression_words /\ says 13%nat (bs "  compression: ") w)
  /\ says 14%nat (bs "  creator: ") (md_creator md)
  /\ says 15%nat (bs "  creator proc: ") (md_creator_proc md)
  /\ (exists w, decimal w (Z.of_N (md_row_count md)) /\ says 16%nat (bs "  row count: ") w)
  /\ (exists w, decimal w (Z.of_N (md_column_count md)) /\ says 17%nat (bs "  column count: ") w)
  /\ forall i c, nth_error (md_columns md) i = Some c ->
       let at_ k := (19 + 5 * i + k)%nat in
       (exists w, decimal w (Z.of_nat i) /\ says (at_ 0%nat) (bs "  - column #") w)
       /\ says (at_ 1%nat) (bs "    name: ") (c_name c)
       /\ says (at_ 2%nat) (bs "    label: ") (c_label c)
       /\ says (at_ 3%nat) (bs "    format: ") (c_format c)
       /\ (exists w, In (c_type c, w) type_words /\ says (at_ 4%nat) (bs "    type: ") w).
