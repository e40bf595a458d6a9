(** Model of [include/cppsas7bdat/column.hpp], [src/column.cpp],
    [src/formatters.hpp] and [include/cppsas7bdat/filter/column.hpp]. *)
From Verif Require Import Base Types Float DateTime.
Local Open Scope N_scope.

(** include/cppsas7bdat/column.hpp:19 Column::Type. *)
Inductive ctype : Type :=
| TUnknown | TString | TNumber | TInteger | TDateTime | TDate | TTime.

Definition ctype_eqb (a b : ctype) : bool :=
  match a, b with
  | TUnknown, TUnknown | TString, TString | TNumber, TNumber
  | TInteger, TInteger | TDateTime, TDateTime | TDate, TDate
  | TTime, TTime => true
  | _, _ => false
  end.

(** The formatter classes of src/formatters.hpp:51-210.  FIncomplete n is
    IncompleteDoubleFormatter<_endian, n>. *)
Inductive fkind : Type :=
| FNo | FString | FSmallInt | FInt16 | FDouble | FIncomplete (n : N)
| FDateTime | FDate | FTime.

(** src/formatters.hpp:21-27 IFormatter, plus the template argument _endian. *)
Record formatter : Type := Formatter {
  fm_kind : fkind;
  fm_offset : N;
  fm_length : N;
  fm_endian : endian
}.

(** The Type given to IFormatter by each constructor: src/formatters.hpp:53
    (unknown), 60 (string), 73 and 89 (integer), 107 (number), 123 (number),
    139 (datetime), 165 (date), 189 (time). *)
Definition fkind_type (k : fkind) : ctype :=
  match k with
  | FNo => TUnknown
  | FString => TString
  | FSmallInt | FInt16 => TInteger
  | FDouble | FIncomplete _ => TNumber
  | FDateTime => TDateTime
  | FDate => TDate
  | FTime => TTime
  end.

(** include/cppsas7bdat/column.hpp:75-80, 92-95. *)
Record column : Type := Column {
  c_name : bytes;
  c_label : bytes;
  c_format : bytes;
  c_fm : formatter
}.

Definition c_type (c : column) : ctype := fkind_type (fm_kind (c_fm c)).

(** include/cppsas7bdat/column.hpp:106 length(). *)
Definition c_length (c : column) : N := fm_length (c_fm c).

(** column.hpp:20 Column::PBUF: a pointer into an allocation, with the content of the
    allocation at the moment the pointer is handed out. *)
Record pview : Type := PView {
  pv_mem : list cell;
  pv_off : N
}.

(** src/formatters.hpp:45-48 data(_p) followed by a read of [n] bytes. *)
Definition fm_read (f : formatter) (p : pview) (n : N) : res bytes :=
  read_cells (pv_mem p) (pv_off p + fm_offset f) n.

(** src/types.hpp:124-141 get_incomplete_double: the 8 bytes given to
    get_double. *)
Definition complete_double (e : endian) (l : bytes) : bytes :=
  match e with
  | Big => l ++ repeat x00 (8 - length l)
  | Little => repeat x00 (8 - length l) ++ l
  end.

(** get_string: src/formatters.hpp:64-66 StringFormatter, 29 otherwise.
    Simplification: the whole field is read, while the C++ returns a view and
    reads only the bytes it trims. *)
Definition fm_get_string (f : formatter) (p : pview) : res bytes :=
  match fm_kind f with
  | FString => l <- fm_read f p (fm_length f) ;; Ok (get_string_trim_0 l)
  | _ => Ok []
  end.

(** get_integer: src/formatters.hpp:77 (SmallIntegerFormatter), 93-95
    (IntegerFormatter<_endian, int16_t>), 33-35 otherwise. *)
Definition fm_get_integer (f : formatter) (p : pview) : res Z :=
  match fm_kind f with
  | FSmallInt => l <- fm_read f p 1 ;; Ok (Z.of_N (get_val Little l))
  | FInt16 => l <- fm_read f p 2 ;; Ok (to_int16 (get_val (fm_endian f) l))
  | _ => Ok 0%Z
  end.

(** get_number, as a 64 bit pattern: src/formatters.hpp:79 and 97 (conversion
    of the integer), 111-113 (DoubleFormatter and the classes derived from it),
    127-129 (IncompleteDoubleFormatter), 30-32 otherwise. *)
Definition fm_get_number (f : formatter) (p : pview) : res N :=
  match fm_kind f with
  | FSmallInt | FInt16 =>
      z <- fm_get_integer f p ;; Ok (bits_of_sf (sf_of_Z z))
  | FDouble | FDateTime | FDate | FTime =>
      l <- fm_read f p 8 ;; Ok (get_val (fm_endian f) l)
  | FIncomplete n =>
      l <- fm_read f p n ;;
      Ok (get_val (fm_endian f) (complete_double (fm_endian f) l))
  | FNo | FString => Ok quiet_nan
  end.

Definition fm_get_double (f : formatter) (p : pview) : res double :=
  b <- fm_get_number f p ;; Ok (sf_of_bits b).

(** get_date: src/formatters.hpp:148-150 (DateTimeFormatter), 169-172
    (DateFormatter), 39 otherwise. *)
Definition fm_get_date (f : formatter) (p : pview) : res gdate :=
  noexcept
    match fm_kind f with
    | FDateTime =>
        x <- fm_get_double f p ;; t <- get_datetime_from_epoch x ;; ptime_date t
    | FDate => x <- fm_get_double f p ;; get_date_from_epoch x
    | _ => Ok NotADate
    end.

(** get_time: src/formatters.hpp:152-154 (DateTimeFormatter), 178
    (DateFormatter, a zero duration), 193-196 (TimeFormatter), 40-42
    otherwise. *)
Definition fm_get_time (f : formatter) (p : pview) : res tduration :=
  noexcept
    match fm_kind f with
    | FDateTime =>
        x <- fm_get_double f p ;; t <- get_datetime_from_epoch x ;;
        Ok (ptime_tod t)
    | FDate => Ok (TTicks 0)
    | FTime => x <- fm_get_double f p ;; get_time_from_epoch x
    | _ => Ok NotATime
    end.

(** get_datetime: src/formatters.hpp:143-146 (DateTimeFormatter), 174-176
    (DateFormatter), 198-200 (TimeFormatter: not_a_date_time because its date
    is), 36-38 otherwise. *)
Definition fm_get_datetime (f : formatter) (p : pview) : res ptime :=
  noexcept
    match fm_kind f with
    | FDateTime => x <- fm_get_double f p ;; get_datetime_from_epoch x
    | FDate => d <- fm_get_date f p ;; Ok (ptime_of_date d)
    | FTime => _ <- fm_get_time f p ;; Ok NotADateTime
    | _ => Ok NotADateTime
    end.

(** to_string: src/formatters.hpp:43, 68, 81-83, 99-101, 115-117, 131-133,
    156-159, 180-183, 202-205. *)
Definition fm_to_string (f : formatter) (p : pview) : res bytes :=
  match fm_kind f with
  | FNo => Ok []
  | FString => fm_get_string f p
  | FSmallInt | FInt16 => z <- fm_get_integer f p ;; Ok (dec_Z z)
  | FDouble | FIncomplete _ => b <- fm_get_number f p ;; Ok (double_to_string b)
  | FDateTime => t <- fm_get_datetime f p ;; datetime_to_string t
  | FDate => d <- fm_get_date f p ;; date_to_string d
  | FTime => t <- fm_get_time f p ;; time_to_string t
  end.

(** include/cppsas7bdat/column.hpp:97-104: the getters of Column. *)
Definition c_get_string (c : column) := fm_get_string (c_fm c).
Definition c_get_number (c : column) := fm_get_number (c_fm c).
Definition c_get_integer (c : column) := fm_get_integer (c_fm c).
Definition c_get_datetime (c : column) := fm_get_datetime (c_fm c).
Definition c_get_date (c : column) := fm_get_date (c_fm c).
Definition c_get_time (c : column) := fm_get_time (c_fm c).
Definition c_to_string (c : column) := fm_to_string (c_fm c).

(** src/column.cpp:16-23 get_columns. *)
Fixpoint get_columns (cs : list column) (t : ctype) : list column :=
  match cs with
  | [] => []
  | c :: r => if ctype_eqb (c_type c) t then c :: get_columns r t
              else get_columns r t
  end.

(** include/cppsas7bdat/column.hpp:124-135 and src/column.cpp:25-31. *)
Record columns_by_type : Type := ColumnsByType {
  cs_strings : list column;
  cs_numbers : list column;
  cs_integers : list column;
  cs_datetimes : list column;
  cs_dates : list column;
  cs_times : list column
}.

Definition columns_of (cs : list column) : columns_by_type :=
  ColumnsByType (get_columns cs TString) (get_columns cs TNumber)
    (get_columns cs TInteger) (get_columns cs TDateTime) (get_columns cs TDate)
    (get_columns cs TTime).

(** ** include/cppsas7bdat/filter/column.hpp *)

(** filter/column.hpp:28, 41, 46, 59: std::set<std::string>::find(name) != end(): a set is given by
    the list of
    its elements. *)
Fixpoint in_set (n : bytes) (s : list bytes) : bool :=
  match s with
  | [] => false
  | x :: r => bytes_eqb x n || in_set n r
  end.

(** 21-25 AcceptAll. *)
Definition accept_all (c : column) : bool := true.
(** 27-43 Include. *)
Definition include_accept (inc : list bytes) (c : column) : bool :=
  in_set (c_name c) inc.
(** 45-61 Exclude. *)
Definition exclude_accept (exc : list bytes) (c : column) : bool :=
  negb (in_set (c_name c) exc).
(** 63-75 IncludeExclude. *)
Definition include_exclude_accept (inc exc : list bytes) (c : column) : bool :=
  match inc, exc with
  | _ :: _, _ => in_set (c_name c) inc
  | [], _ :: _ => negb (in_set (c_name c) exc)
  | [], [] => true
  end.
