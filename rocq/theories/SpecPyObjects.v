(** Which Python objects show which values. *)
From Verif Require Import Base Types DateTime Column Sinks PyObjects SpecTime SpecSinks SpecCells.
Local Open Scope Z_scope.

(** Hour, minute, second and microsecond of a day. *)
Definition in_day (h mi s us : Z) : Prop :=
  0 <= h < 24 /\ 0 <= mi < 60 /\ 0 <= s < 60 /\ 0 <= us < 1000000.
Definition micros (h mi s us : Z) : Z := ((h * 60 + mi) * 60 + s) * 1000000 + us.

(** The object with the same date and time; None for a missing value. *)
Inductive shown_as : value -> pyvalue -> Prop :=
| sh_text : forall s, shown_as (VString s) (PvBytes s)
| sh_int : forall z, shown_as (VInteger z) (PvInt z)
| sh_float : forall b, shown_as (VNumber b) (PvFloat b)
| sh_no_datetime : shown_as (VDateTime NotADateTime) PvNone
| sh_no_date : shown_as (VDate NotADate) PvNone
| sh_no_time : shown_as (VTime NotATime) PvNone
| sh_datetime : forall n y m d h mi s us, days_from_1960 n (y, m, d) -> supported (y, m, d) -> in_day h mi s us ->
    shown_as (VDateTime (PTicks (jdn_1960 * day_us + n * day_us + micros h mi s us)))
      (PvDateTime y m d h mi s us)
| sh_date : forall n dn y m d, days_from_1960 n (y, m, d) -> supported (y, m, d) -> Z.of_N dn = jdn_1960 + n ->
    shown_as (VDate (GDate dn)) (PvDate y m d)
| sh_time : forall h mi s us, in_day h mi s us ->
    shown_as (VTime (TTicks (micros h mi s us))) (PvTime h mi s us).

(** Dates of the supported years, times of a day. *)
Definition in_calendar (v : value) : Prop :=
  match v with
  | VDateTime (PTicks u) => exists n t us, days_from_1960 n t /\ supported t /\ 0 <= us < day_us
      /\ u = jdn_1960 * day_us + n * day_us + us
  | VDate (GDate dn) => exists n t, days_from_1960 n t /\ supported t /\ Z.of_N dn = jdn_1960 + n
  | VTime (TTicks u) => 0 <= u < day_us
  | _ => True
  end.

(** The cells have values, within the calendar. *)
Definition showable (cs : list column) (rows : list (N * pview)) : Prop :=
  Forall (fun r => Forall (fun c => known c = true ->
            exists v, cell_value c (snd r) v /\ in_calendar v) cs) rows.

(** The object which has a content of a table. *)
Definition object_is (v : content) (x : pyvalue) : Prop :=
  match v, x with
  | Text t, PvBytes s => s = t
  | Whole z, PvInt y => y = z
  | Real bits, PvFloat b => b = bits
  | Day (y, m, d), PvDate y' m' d' => (y', m', d') = (y, m, d)
  | Moment (y, m, d) u, PvDateTime y' m' d' h mi s us =>
      (y', m', d') = (y, m, d) /\ in_day h mi s us /\ u = micros h mi s us
  | Clock u, PvTime h mi s us => in_day h mi s us /\ u = micros h mi s us
  | Missing bits, PvFloat b => b = bits
  | Missing _, PvNone => True
  | _, _ => False
  end.

(** The missing dates, datetimes and times. *)
Definition missing_date (v : value) : bool :=
  match v with
  | VDateTime NotADateTime | VDate NotADate | VTime NotATime => true
  | _ => false
  end.
Definition missing_dates (lists : list (list value)) : Z :=
  Z.of_nat (length (filter missing_date (concat lists))).
