(** Model of python/pycppsas7bdat/cpp/import_datetime.cpp and of the other conversions
    of the values which the Python sinks hand over. *)
From Verif Require Import Base Types DateTime Sinks.
Local Open Scope Z_scope.

(** The Python objects made of the values (sink.hpp:70-74, 94-115, 310-315). *)
Inductive pyvalue : Type :=
| PvNone
| PvBytes (s : bytes)
| PvInt (z : Z)
| PvFloat (bits : N)
| PvDateTime (y m d hour min sec us : Z)
| PvDate (y m d : Z)
| PvTime (hour min sec us : Z)
| PvDelta (us : Z).   (* a timedelta of so many microseconds *)

(** ValueError, of the interpreter or of pandas (sink.py:33, 51). *)
Definition E_value_error : exn := E_client 2.

(** CPython, Modules/_datetimemodule.c: is_leap, days_in_month, check_date_args and
    check_time_args (behind import_datetime.cpp:36-50, 154-160). *)
Definition cpy_is_leap (y : Z) : bool :=
  (y mod 4 =? 0) && (negb (y mod 100 =? 0) || (y mod 400 =? 0)).
Definition cpy_days_in_month (y m : Z) : Z :=
  if (m =? 2) && cpy_is_leap y then 29
  else nth (Z.to_nat m) [0; 31; 28; 31; 30; 31; 30; 31; 31; 30; 31; 30; 31] 0.
Definition cpy_date_ok (y m d : Z) : bool :=
  (1 <=? y) && (y <=? 9999) && (1 <=? m) && (m <=? 12)
  && (1 <=? d) && (d <=? cpy_days_in_month y m).
Definition cpy_time_ok (h mi s us : Z) : bool :=
  (0 <=? h) && (h <=? 23) && (0 <=? mi) && (mi <=? 59) && (0 <=? s) && (s <=? 59)
  && (0 <=? us) && (us <=? 999999).

(** import_datetime.cpp:23-31 get_usecs: the ticks are microseconds. *)
Definition get_usecs (t : Z) : Z := td_fraction t * (1000000 / 1000000).

(** 34-44 ptime_to_python_datetime::convert. *)
Definition py_of_datetime (t : ptime) : res pyvalue :=
  match t with
  | NotADateTime => Ok PvNone
  | PTicks n =>
      date <- ptime_date t ;;
      let tod := td_ticks (ptime_tod t) in
      '(y, m, d) <- date_ymd date ;;
      if cpy_date_ok y m d
         && cpy_time_ok (td_hours tod) (td_minutes tod) (td_seconds tod) (get_usecs tod)
      then Ok (PvDateTime y m d (td_hours tod) (td_minutes tod) (td_seconds tod) (get_usecs tod))
      else Exn E_value_error
  end.

(** 84-108 tduration_to_python_delta::convert.  Simplification: the arguments of
    PyDelta_FromDSU are not cut to 32 bits (no time of the library gets there, C94). *)
Definition py_of_time (t : tduration) : res pyvalue :=
  match t with
  | NotATime => Ok PvNone
  | TTicks n =>
      let hours := td_hours n in
      let days := Z.quot hours 24 in
      if days =? 0 then
        if cpy_time_ok hours (td_minutes n) (td_seconds n) (get_usecs n)
        then Ok (PvTime hours (td_minutes n) (td_seconds n) (get_usecs n))
        else Exn E_value_error
      else
        let days' := if days <? 0 then days - 1 else days in
        let seconds := Z.quot n 1000000 - days' * (24 * 3600) in
        let usecs := get_usecs n in
        let usecs' := if days' <? 0 then 1000000 - 1 - usecs else usecs in
        Ok (PvDelta ((days' * 86400 + seconds) * 1000000 + usecs'))
  end.

(** 136-142 gregorian_date_to_python_date::convert. *)
Definition py_of_date (d : gdate) : res pyvalue :=
  match d with
  | NotADate => Ok PvNone
  | GDate _ =>
      '(y, m, dd) <- date_ymd d ;;
      if cpy_date_ok y m dd then Ok (PvDate y m dd) else Exn E_value_error
  end.

(** What l.append and py_list.append (sink.hpp:97-113, 315-317) convert: texts are
    already bytes objects (sink.hpp:71-75). *)
Definition to_py (v : value) : res pyvalue :=
  match v with
  | VString s => Ok (PvBytes s)
  | VInteger z => Ok (PvInt z)
  | VNumber b => Ok (PvFloat b)
  | VDateTime t => py_of_datetime t
  | VDate d => py_of_date d
  | VTime t => py_of_time t
  end.

(** ** References to None *)

(** The objects which hold a reference to None for a value on its way into a list:
    the converter's handle (arg_to_python of Boost.Python, which takes over the
    reference of the result of convert), the object made of it, the list. *)
Definition none_result (owned : bool) : Z := if owned then 1 else 0.

(** list::append(x): convert returns None without a new reference (import_datetime.cpp:37,
    87, 139); object(x) takes one more and the handle gives up its own; the list takes
    one, the object gives up its own.  The change of the count, the list still there. *)
Definition none_appended (v : value) : Z :=
  match to_py v with
  | Ok PvNone => none_result false + 1 - 1 + 1 - 1
  | _ => 0
  end.
(** What the list (sink.hpp:92, 310) gives up for the value when it is freed. *)
Definition none_freed (v : value) : Z :=
  match to_py v with
  | Ok PvNone => -1
  | _ => 0
  end.

(** The count of the references to None after lists of values have been made and freed,
    one after the other.  Before CPython 3.12 the interpreter is stopped (Py_FatalError)
    when the count gets to zero. *)
Fixpoint none_steps (count : Z) (changes : list Z) : res Z :=
  match changes with
  | [] => Ok count
  | x :: r => if count + x <=? 0 then Abort else none_steps (count + x) r
  end.
Definition none_changes (l : list value) : list Z := map none_appended l ++ map none_freed l.
Definition none_count (count : Z) (lists : list (list value)) : res Z :=
  none_steps count (flat_map none_changes lists).
