(** Model of the conversions from Python objects to dates and times of
    python/pycppsas7bdat/cpp/import_datetime.cpp. *)
From Verif Require Import Base Types DateTime Sinks PyObjects.
Local Open Scope Z_scope.

(** boost gregorian_calendar_base::end_of_month_day and is_leap_year (called through the
    constructor at import_datetime.cpp:66, 183). *)
Definition greg_leap (y : Z) : bool :=
  (y mod 4 =? 0) && (negb (y mod 100 =? 0) || (y mod 400 =? 0)).
Definition end_of_month (y m : Z) : Z :=
  if m =? 2 then (if greg_leap y then 29 else 28)
  else if (m =? 4) || (m =? 6) || (m =? 9) || (m =? 11) then 30
  else 31.

(** import_datetime.cpp:66, 183 boost::gregorian::date(year, month, day): the parts are checked, then the day against
    the month (bad_day_of_month, here the same exception as bad_year). *)
Definition greg_date (y m d : Z) : res gdate :=
  _ <- check_ymd (y, m, d) ;;
  if end_of_month y m <? d then Exn E_bad_year
  else Ok (GDate (Z.to_N (day_number y m d))).

(** 46-81 ptime_from_python_datetime.  [None] when the object is not convertible
    (PyDateTime_Check, 54-58).  A tzinfo of the object is not looked at. *)
Definition ptime_from_py (v : pyvalue) : res (option ptime) :=
  match v with
  | PvDateTime y m d hour min sec us =>
      date <- greg_date y m d ;;
      match date with
      | GDate dn =>
          let duration := ((hour * 60 + min) * 60 + sec) * 1000000 + us in
          Ok (Some (PTicks (Z.of_N dn * us_per_day + duration)))
      | NotADate => Ok (Some NotADateTime)
      end
  | _ => Ok None
  end.

(** 112-146 tduration_from_python_delta.  A timedelta object keeps days, seconds and
    microseconds, all but the days not negative.  Simplification: tick counts which boost
    takes as infinities are counts here. *)
Definition tduration_from_py (v : pyvalue) : res (option tduration) :=
  match v with
  | PvDelta total =>
      let obj_days := total / us_per_day in
      let obj_seconds := (total mod us_per_day) / 1000000 in
      let obj_us := total mod 1000000 in
      let is_negative := obj_days <? 0 in
      let days := if is_negative then - obj_days else obj_days in
      t1 <- mul_i64 (24 * 3600 * 1000000) days ;;
      t2 <- add_i64 t1 (obj_seconds * 1000000) ;;
      t3 <- add_i64 t2 obj_us ;;
      t4 <- (if is_negative then mul_i64 t3 (-1) else Ok t3) ;;
      Ok (Some (TTicks t4))
  | _ => Ok None
  end.

(** 158-189 gregorian_date_from_python_date: PyDate_Check (167-171) holds for datetime
    objects as well. *)
Definition gdate_from_py (v : pyvalue) : res (option gdate) :=
  match v with
  | PvDate y m d | PvDateTime y m d _ _ _ _ => date <- greg_date y m d ;; Ok (Some date)
  | _ => Ok None
  end.
