(** Python dates and times given to the library (C106). *)
From Verif Require Import Base Types DateTime Sinks PyObjects PyFrom SpecTime SpecPyObjects ProofPyFrom.
Local Open Scope Z_scope.

(** C106.  A datetime object of a year from 1400 to 9999 becomes the DATETIME which it
    shows. *)
Theorem C106_datetime_partial : forall y m d h mi s us,
  valid_day (y, m, d) -> supported (y, m, d) -> in_day h mi s us ->
  exists t, ptime_from_py (PvDateTime y m d h mi s us) = Ok (Some t)
    /\ shown_as (VDateTime t) (PvDateTime y m d h mi s us).
Proof. exact datetime_given. Qed.
Print Assumptions C106_datetime_partial.

Example C106_case :
  valid_day (2024, 2, 29) /\ supported (2024, 2, 29) /\ in_day 23 59 59 999999
  /\ ptime_from_py (PvDateTime 2024 2 29 23 59 59 999999) = Ok (Some (PTicks (2460370 * 86400000000 + 86399999999)))
  /\ gdate_from_py (PvDate 2024 2 29) = Ok (Some (GDate 2460370)).
Proof. split; [vm_compute; auto; intuition discriminate|]. vm_compute. intuition discriminate. Qed.

(** A date object likewise; of a datetime object, the day. *)
Theorem C106_date_partial : forall y m d, valid_day (y, m, d) -> supported (y, m, d) ->
  exists g, gdate_from_py (PvDate y m d) = Ok (Some g) /\ shown_as (VDate g) (PvDate y m d)
    /\ forall h mi s us, gdate_from_py (PvDateTime y m d h mi s us) = Ok (Some g).
Proof. exact date_given. Qed.
Print Assumptions C106_date_partial.

(** What the library gives to Python comes back as it was. *)
Theorem C106_datetime_back : forall t, in_calendar (VDateTime t) -> t <> NotADateTime ->
  exists x, to_py (VDateTime t) = Ok x /\ ptime_from_py x = Ok (Some t).
Proof. exact datetime_back. Qed.
Print Assumptions C106_datetime_back.

Theorem C106_date_back : forall g, in_calendar (VDate g) -> g <> NotADate ->
  exists x, to_py (VDate g) = Ok x /\ gdate_from_py x = Ok (Some g).
Proof. exact date_back. Qed.
Print Assumptions C106_date_back.

Example C106_back_case :
  to_py (VDate (GDate 2436935)) = Ok (PvDate 1960 1 1) /\ gdate_from_py (PvDate 1960 1 1) = Ok (Some (GDate 2436935)).
Proof. vm_compute. auto. Qed.

(** Not the missing ones (None is not convertible), and no time of day: it is given as a
    time object, and only timedelta objects are taken. *)
Theorem C106_time_refuted :
  (forall u x, 0 <= u < day_us -> to_py (VTime (TTicks u)) = Ok x -> tduration_from_py x = Ok None)
  /\ (exists u, 0 <= u < day_us /\ to_py (VTime (TTicks u)) = Ok (PvTime 1 2 3 4))
  /\ forall x, to_py (VDateTime NotADateTime) = Ok x -> ptime_from_py x = Ok None.
Proof.
  split; [exact time_not_back|]. split.
  - exists 3723000004. split; [unfold day_us; lia|vm_compute; reflexivity].
  - intros x E. assert (x = PvNone) by (cbn in E; congruence). subst. reflexivity.
Qed.
Print Assumptions C106_time_refuted.

(** False: any datetime or date object of Python can be given; before the year 1400 each
    raises. *)
Theorem C106_early_refuted : exists y m d h mi s us, valid_day (y, m, d) /\ 1 <= y <= 9999 /\ in_day h mi s us
  /\ ptime_from_py (PvDateTime y m d h mi s us) = Exn E_bad_year /\ gdate_from_py (PvDate y m d) = Exn E_bad_year.
Proof.
  exists 1066, 10, 14, 9, 0, 0, 0. split; [vm_compute; intuition discriminate|]. split; [lia|].
  split; [unfold in_day; lia|]. vm_compute. auto.
Qed.
Print Assumptions C106_early_refuted.

Theorem C106_early : forall y m d h mi s us, ~ supported (y, m, d) ->
  ptime_from_py (PvDateTime y m d h mi s us) = Exn E_bad_year /\ gdate_from_py (PvDate y m d) = Exn E_bad_year.
Proof. exact datetime_early. Qed.
Print Assumptions C106_early.

(** A timedelta becomes the duration of as many microseconds exactly when it is not
    negative or a whole number of days. *)
Theorem C106_delta_partial : forall u, - 106751990 * day_us <= u <= 106751990 * day_us ->
  tduration_from_py (PvDelta u) = Ok (Some (TTicks u)) <-> 0 <= u \/ u mod day_us = 0.
Proof. exact delta_right. Qed.
Print Assumptions C106_delta_partial.

(** False for the others: a microsecond before becomes nearly two days before. *)
Theorem C106_delta_refuted : exists u t, - 106751990 * day_us <= u <= 106751990 * day_us
  /\ tduration_from_py (PvDelta u) = Ok (Some (TTicks t)) /\ t <> u /\ t < -1 * day_us.
Proof.
  exists (-1), (-172799999999). split; [unfold day_us; lia|]. split; [vm_compute; reflexivity|].
  unfold day_us. lia.
Qed.
Print Assumptions C106_delta_refuted.

(** timedelta objects may have up to 999999999 days; from 106751992 days on the count of
    the microseconds overflows. *)
Theorem C106_large : forall u, 106751992 * day_us <= u ->
  tduration_from_py (PvDelta u) = Undef UB_overflow /\ tduration_from_py (PvDelta (- u)) = Undef UB_overflow.
Proof. exact delta_large. Qed.
Print Assumptions C106_large.

Example C106_delta_case :
  tduration_from_py (PvDelta (90061 * 1000000 + 5)) = Ok (Some (TTicks 90061000005))
  /\ tduration_from_py (PvDelta (-2 * 86400000000)) = Ok (Some (TTicks (-172800000000)))
  /\ tduration_from_py (PvDelta (999999999 * 86400000000)) = Undef UB_overflow.
Proof. vm_compute. auto. Qed.
