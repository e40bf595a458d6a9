From Verif Require Import Base Lemmas Types Float DateTime Column Sinks PyObjects SpecTime SpecSinks SpecCells SpecPyObjects
  ProofCalendar ProofTime.
From Coq Require Import ZifyBool.
Local Open Scope Z_scope.

(** ** CPython's checks *)

Lemma cpy_days : forall y m, 1 <= m <= 12 -> cpy_days_in_month y m = days_in y m.
Proof.
  intros y m M. unfold cpy_days_in_month, days_in. change (cpy_is_leap y) with (leap y).
  assert (C : m = 1 \/ m = 2 \/ m = 3 \/ m = 4 \/ m = 5 \/ m = 6 \/ m = 7 \/ m = 8 \/ m = 9 \/ m = 10
            \/ m = 11 \/ m = 12) by lia.
  destruct C as [->|[->|[->|[->|[->|[->|[->|[->|[->|[->|[->| ->]]]]]]]]]]]; try reflexivity.
Qed.

Lemma cpy_date : forall y m d, valid_day (y, m, d) -> supported (y, m, d) -> cpy_date_ok y m d = true.
Proof.
  intros y m d [M D] S. unfold cpy_date_ok. cbn in S. rewrite (cpy_days y m M). lia.
Qed.

(** The time of day cut into its parts. *)
Lemma parts : forall u, 0 <= u < day_us ->
  in_day (td_hours u) (td_minutes u) (td_seconds u) (get_usecs u)
  /\ u = micros (td_hours u) (td_minutes u) (td_seconds u) (get_usecs u).
Proof.
  intros u U. unfold in_day, micros, get_usecs, td_hours, td_minutes, td_seconds, td_fraction, day_us in *.
  change (1000000 / 1000000) with 1.
  rewrite !Z.quot_div_nonneg, !Z.rem_mod_nonneg by (try apply Z.quot_pos; lia).
  lia.
Qed.

Lemma cpy_time : forall h mi s us, in_day h mi s us -> cpy_time_ok h mi s us = true.
Proof. unfold in_day, cpy_time_ok. intros. lia. Qed.

(** ** Within the calendar *)

Lemma calendar_shown : forall v, in_calendar v -> exists x, to_py v = Ok x /\ shown_as v x.
Proof.
  intros v H. destruct v as [s|z|b|t|g|t]; cbn [to_py].
  - eexists. split; [reflexivity|constructor].
  - eexists. split; [reflexivity|constructor].
  - eexists. split; [reflexivity|constructor].
  - destruct t as [|u]; [eexists; split; [reflexivity|constructor]|].
    destruct H as (n & [[y m] d] & us & D & S & U & ->).
    destruct (ticks_date n (y, m, d) us D S U) as (dn & E1 & E2 & E3 & E4).
    cbn [py_of_datetime]. rewrite E1. cbn [bind]. rewrite E3, E4. cbn [bind td_ticks].
    destruct (parts us U) as (P1 & P2). rewrite (cpy_date y m d (proj1 D) S), (cpy_time _ _ _ _ P1). cbn [andb].
    eexists. split; [reflexivity|]. rewrite P2 at 1. constructor; assumption.
  - destruct g as [|dn]; [eexists; split; [reflexivity|constructor]|].
    destruct H as (n & [[y m] d] & D & S & E).
    destruct (supported_range n (y, m, d) D S) as (V & J & R).
    destruct (day_of_number (y, m, d) (jdn_1960 + n) V S J) as [C1 C2].
    cbn [py_of_date date_ymd]. rewrite E, C1. cbn [bind]. rewrite (cpy_date y m d V S).
    eexists. split; [reflexivity|]. econstructor; [exact D|exact S|exact E].
  - destruct t as [|u]; [eexists; split; [reflexivity|constructor]|]. cbn in H.
    destruct (parts u H) as (P1 & P2). cbn [py_of_time]. cbv zeta.
    assert (Q : Z.quot (td_hours u) 24 =? 0 = true).
    { destruct P1 as (P & _). rewrite Z.quot_small by lia. reflexivity. }
    rewrite Q, (cpy_time _ _ _ _ P1). eexists. split; [reflexivity|]. rewrite P2 at 1. constructor. exact P1.
Qed.

(** One value, one object; the object tells the value. *)
Lemma micros_inj : forall h mi s us h' mi' s' us', in_day h mi s us -> in_day h' mi' s' us' ->
  micros h mi s us = micros h' mi' s' us' -> h = h' /\ mi = mi' /\ s = s' /\ us = us'.
Proof. unfold in_day, micros. intros. lia. Qed.

Lemma days_same : forall n n' t, supported t -> days_from_1960 n t -> days_from_1960 n' t -> n = n'.
Proof.
  intros n n' t S D D'. destruct (supported_range n t D S) as (_ & J & _).
  destruct (supported_range n' t D' S) as (_ & J' & _). lia.
Qed.

Lemma shown_back : forall v w x, in_calendar v -> in_calendar w -> x <> PvNone ->
  to_py v = Ok x -> to_py w = Ok x -> v = w.
Proof.
  intros v w x Hv Hw N V W. destruct (calendar_shown v Hv) as (x1 & V1 & S1). destruct (calendar_shown w Hw) as (x2 & W1 & S2).
  rewrite V in V1. injection V1 as <-. rewrite W in W1. injection W1 as <-. clear V W.
  destruct S1; inversion S2; subst; try reflexivity; try (contradiction N; reflexivity).
  - match goal with D : days_from_1960 ?a (y, m, d), D' : days_from_1960 ?b (y, m, d) |- _ =>
      assert (a = b) by (apply (days_same a b (y, m, d)); assumption) end. subst; reflexivity.
  - match goal with D : days_from_1960 ?a (y, m, d), D' : days_from_1960 ?b (y, m, d) |- _ =>
      assert (a = b) by (apply (days_same a b (y, m, d)); assumption) end.
    f_equal. f_equal. lia.
Qed.

(** ** The dates and times of the library *)

Lemma checked_jdn : forall y m d, 1400 <= y <= 9999 -> 1 <= m <= 12 -> 1 <= d <= 31 ->
  2232400 <= jdn y m d <= 5373484.
Proof.
  intros y m d Y M D.
  assert (V : valid_day (y, m, 1)) by (unfold valid_day; pose proof (days_in_bounds y m); lia).
  pose proof (jdn_in_year y m 1 V) as I.
  assert (S : jdn y m d = jdn y m 1 + (d - 1)) by (unfold jdn; cbv zeta; lia).
  assert (U : jdn y m d <= jdn y 12 31).
  { destruct (Z.eq_dec m 12) as [->|NE]; [unfold jdn; cbv zeta; lia|].
    assert (V' : valid_day (y, m + 1, 1)) by (unfold valid_day; pose proof (days_in_bounds y (m + 1)); lia).
    pose proof (jdn_in_year y (m + 1) 1 V') as I'.
    assert (V2 : valid_day (y, m, days_in y m)) by (unfold valid_day; pose proof (days_in_bounds y m); lia).
    pose proof (jdn_in_year y m _ V2) as I2.
    destruct (Z.eq_dec m 11) as [->|NE'].
    - pose proof (jdn_table y 31) as T. pose proof (jdn_table y d) as T'. lia.
    - pose proof (jdn_table y d) as T. pose proof (jdn_table y 31) as T'.
      assert (C : m = 1 \/ m = 2 \/ m = 3 \/ m = 4 \/ m = 5 \/ m = 6 \/ m = 7 \/ m = 8 \/ m = 9 \/ m = 10) by lia.
  assert (L : years (y + 4799) + 365 <= years (y + 4800) <= years (y + 4799) + 366).
  { unfold years.
    pose proof (quot_step y 4 1200 ltac:(lia)) as K4.
    pose proof (quot_step y 100 48 ltac:(lia)) as K100.
    pose proof (quot_step y 400 12 ltac:(lia)) as K400.
    change (1200 * 4) with 4800 in K4. change (48 * 100) with 4800 in K100.
    change (12 * 400) with 4800 in K400.
    replace (y + 4800 - 1) with (y + 4799) in * by lia.
    assert (M1 : y mod 400 = 0 -> y mod 100 = 0) by (clear; intros; Z.div_mod_to_equations; lia).
    assert (M2 : y mod 100 = 0 -> y mod 4 = 0) by (clear; intros; Z.div_mod_to_equations; lia).
    destruct (Z.eqb_spec (y mod 4) 0), (Z.eqb_spec (y mod 100) 0), (Z.eqb_spec (y mod 400) 0); lia. }
      repeat (destruct C as [C|C]; [subst m; lia|]). subst m. lia. }
  assert (V1 : valid_day (1400, 1, 1)) by (unfold valid_day; pose proof (days_in_bounds 1400 1); lia).
  assert (V9 : valid_day (9999, 1, 1)) by (unfold valid_day; pose proof (days_in_bounds 9999 1); lia).
  rewrite <- jdn_first, <- jdn_last. split.
  - destruct (Z.eq_dec y 1400) as [->|NE]; [lia|].
    pose proof (jdn_years 1400 y ltac:(lia)). pose proof (jdn_in_year 1400 1 1 V1). lia.
  - destruct (Z.eq_dec y 9999) as [->|NE]; [lia|].
    pose proof (jdn_years y 9999 ltac:(lia)). pose proof (jdn_in_year 9999 1 1 V9). lia.
Qed.

Lemma date_in_calendar : forall t g, ptime_date t = Ok g -> in_calendar (VDate g).
Proof.
  intros [|u] g H; cbn [ptime_date] in H; [injection H as <-; exact I|].
  destruct (from_day_number _) as [[y m] d]. cbn [check_ymd] in H.
  destruct ((1400 <=? y) && (y <=? 9999) && (1 <=? m) && (m <=? 12) && (1 <=? d) && (d <=? 31)) eqn:C;
    [|discriminate]. cbn [bind] in H. injection H as <-.
  pose proof (checked_jdn y m d ltac:(lia) ltac:(lia) ltac:(lia)) as J.
  destruct (day_number_jdn y m d ltac:(lia) ltac:(lia) ltac:(lia)) as [E _]. rewrite E. cbn [in_calendar].
  destruct (day_exists (jdn y m d) J) as (t & V & S & JT).
  exists (jdn y m d - jdn_1960), t. split; [|split; [exact S|rewrite Z2N.id; unfold jdn_1960; lia]].
  apply days_from_jdn; [exact V|exact S|unfold jdn_1960; lia].
Qed.

Lemma noexcept_ok : forall A (m : res A) a, noexcept m = Ok a -> m = Ok a.
Proof. intros A m a H. destruct m; cbn in H; congruence. Qed.

Lemma epoch_date : forall x g, get_date_from_epoch x = Ok g -> in_calendar (VDate g).
Proof.
  intros x g H. unfold get_date_from_epoch in H. apply noexcept_ok in H.
  assert (A : forall g, get_date_from_epoch_days x = Ok g -> in_calendar (VDate g)).
  { intros g' H'. unfold get_date_from_epoch_days in H'. apply noexcept_ok in H'.
    destruct (Float.sf_isnan x); [injection H' as <-; exact I|].
    destruct (lround x) as [n| | | |]; try discriminate. cbn [bind] in H'.
    destruct (add_days epoch_ticks n) as [t| | | |]; try discriminate. cbn [bind] in H'.
    apply (date_in_calendar _ _ H'). }
  assert (B : forall g, get_date_from_epoch_seconds x = Ok g -> in_calendar (VDate g)).
  { intros g' H'. unfold get_date_from_epoch_seconds in H'. apply noexcept_ok in H'.
    destruct (get_datetime_from_epoch x) as [t| | | |]; try discriminate. cbn [bind] in H'.
    apply (date_in_calendar _ _ H'). }
  destruct (get_date_from_epoch_days x) as [[|dn]| | | |] eqn:D; try discriminate; cbn [bind] in H; auto.
Qed.

(** The date of any date column, the time of any time column. *)
Lemma cell_date : forall c p g, cell_value c p (VDate g) -> in_calendar (VDate g).
Proof.
  intros c p g [T H]. unfold c_get_date, fm_get_date in H. apply noexcept_ok in H.
  destruct (fm_kind (c_fm c)); try (injection H as <-; exact I).
  - destruct (fm_get_double (c_fm c) p) as [x| | | |]; try discriminate. cbn [bind] in H.
    destruct (get_datetime_from_epoch x) as [t| | | |]; try discriminate. cbn [bind] in H.
    apply (date_in_calendar _ _ H).
  - destruct (fm_get_double (c_fm c) p) as [x| | | |]; try discriminate. cbn [bind] in H.
    apply (epoch_date _ _ H).
Qed.

Lemma tod_small : forall t u, ptime_tod t = TTicks u -> Z.abs u < day_us.
Proof.
  intros [|n] u H; [discriminate|]. injection H as <-. change us_per_day with day_us.
  apply Z.rem_bound_abs. unfold day_us. lia.
Qed.

Lemma cell_time : forall c p u, cell_value c p (VTime (TTicks u)) -> Z.abs u < day_us.
Proof.
  intros c p u [T H]. unfold c_get_time, fm_get_time in H. apply noexcept_ok in H.
  destruct (fm_kind (c_fm c)); try discriminate H.
  - destruct (fm_get_double (c_fm c) p) as [x| | | |]; try discriminate. cbn [bind] in H.
    destruct (get_datetime_from_epoch x) as [t| | | |]; try discriminate. cbn [bind] in H.
    injection H as H. apply (tod_small _ _ H).
  - injection H as <-. unfold day_us. lia.
  - destruct (fm_get_double (c_fm c) p) as [x| | | |]; try discriminate. cbn [bind] in H.
    unfold get_time_from_epoch in H. apply noexcept_ok in H.
    destruct (get_datetime_from_epoch x) as [t| | | |]; try discriminate. cbn [bind] in H.
    injection H as H. apply (tod_small _ _ H).
Qed.

(** No time of the library becomes a timedelta. *)
Lemma no_delta : forall u us, Z.abs u < day_us -> py_of_time (TTicks u) <> Ok (PvDelta us).
Proof.
  intros u us B H. cbn [py_of_time] in H. cbv zeta in H.
  assert (Q : Z.quot (td_hours u) 24 = 0).
  { unfold td_hours, day_us in *. rewrite Z.quot_quot by lia. apply Z.quot_small_iff; lia. }
  rewrite Q in H. cbn [Z.eqb] in H. destruct (cpy_time_ok _ _ _ _); discriminate.
Qed.

Lemma negative_time : forall u, - day_us < u < 0 -> py_of_time (TTicks u) = Exn E_value_error.
Proof.
  intros u B. cbn [py_of_time]. cbv zeta.
  assert (Q : Z.quot (td_hours u) 24 = 0).
  { unfold td_hours, day_us in *. rewrite Z.quot_quot by lia. apply Z.quot_small_iff; lia. }
  rewrite Q. cbn [Z.eqb].
  assert (F : cpy_time_ok (td_hours u) (td_minutes u) (td_seconds u) (get_usecs u) = false).
  { unfold cpy_time_ok, get_usecs, td_hours, td_minutes, td_seconds, td_fraction.
    change (1000000 / 1000000) with 1.
    set (x := Z.quot u 1000000).
    pose proof (Z.quot_rem' u 1000000) as Q1. fold x in Q1.
    pose proof (Z.quot_rem' x 60) as Q2. pose proof (Z.quot_rem' (Z.quot x 60) 60) as Q3.
    apply andb_false_iff. lia. }
  rewrite F. reflexivity.
Qed.

(** A datetime of a year which is not supported. *)
Lemma bad_year : forall n t us, days_from_1960 n t -> 0 <= year_of t <= 20000 -> ~ supported t ->
  0 <= us < day_us ->
  to_py (VDateTime (PTicks (jdn_1960 * day_us + n * day_us + us))) = Exn E_bad_year.
Proof.
  intros n t us D Y S U.
  assert (VT : valid_day t) by apply D.
  assert (B : 1721060 <= jdn_of t <= 9026275).
  { rewrite <- jdn_low, <- jdn_high. destruct t as [[y m] d]. cbn [year_of jdn_of] in *.
    pose proof (jdn_in_year y m d VT) as I.
    assert (V0 : valid_day (0, 1, 1)) by (unfold valid_day; pose proof (days_in_bounds 0 1); lia).
    assert (V2 : valid_day (20000, 1, 1)) by (unfold valid_day; pose proof (days_in_bounds 20000 1); lia).
    split.
    - destruct (Z.eq_dec y 0) as [->|NE]; [lia|].
      pose proof (jdn_years 0 y ltac:(lia)). pose proof (jdn_in_year 0 1 1 V0). lia.
    - destruct (Z.eq_dec y 20000) as [->|NE]; [lia|].
      pose proof (jdn_years y 20000 ltac:(lia)). pose proof (jdn_in_year 20000 1 1 V2). lia. }
  assert (J : jdn_of t = jdn_1960 + n).
  { unfold jdn_1960. destruct D as (_ & P & Q). destruct (Z.le_gt_cases 0 n) as [L|L].
    + rewrite <- (P L). destruct (later_jdn (Z.to_nat n) (1960, 1, 1) epoch_valid) as [_ J].
      rewrite J. cbn [jdn_of]. rewrite jdn_1960_1. unfold jdn_1960. lia.
    + destruct (later_jdn (Z.to_nat (- n)) t VT) as [_ J]. rewrite (Q L) in J. cbn [jdn_of] in J.
      rewrite jdn_1960_1 in J. unfold jdn_1960 in J. lia. }
  cbn [to_py py_of_datetime ptime_date]. change us_per_day with day_us.
  replace (jdn_1960 * day_us + n * day_us + us) with (jdn_of t * day_us + us) by (rewrite J; lia).
  assert (E : Z.quot (jdn_of t * day_us + us) day_us = jdn_of t).
  { unfold day_us in *. rewrite Z.quot_div_nonneg by lia. rewrite Z.div_add_l by lia.
    rewrite Z.div_small by lia. lia. }
  rewrite E.
  assert (W : u32 (jdn_of t) = jdn_of t) by (unfold u32; apply Z.mod_small; change (2 ^ 32) with 4294967296; lia).
  rewrite W, (year_bounds_abort t VT Y S). reflexivity.
Qed.

(** ** Contents of a table *)

Definition on_calendar (v : content) : Prop :=
  match v with
  | Moment t us => supported t /\ 0 <= us < day_us
  | Clock us => 0 <= us < day_us
  | _ => True
  end.

Lemma stored_calendar : forall e d v l, stored e d v l -> on_calendar v.
Proof. intros e d v l H. destruct H; cbn [on_calendar]; auto. Qed.

Lemma content_calendar : forall c p v x, on_calendar v -> cell_value c p x -> value_is v x -> in_calendar x.
Proof.
  intros c p v x O C H. destruct x as [s|z|b|[|u]|g|t]; cbn [in_calendar]; try exact Logic.I.
  - destruct v as [| | | |t us| |]; cbn [value_is] in H; try contradiction; try discriminate.
    destruct H as (n & D & ->). destruct O as [O1 O2]. exists n, t, us. auto.
  - exact (cell_date c p g C).
  - destruct t as [|u]; [exact Logic.I|]. destruct v; cbn [value_is] in H; try contradiction; try discriminate.
    injection H as <-. exact O.
Qed.

Lemma content_object : forall c p v x, on_calendar v -> cell_value c p x -> value_is v x ->
  exists o, to_py x = Ok o /\ object_is v o.
Proof.
  intros c p v x O C H. destruct (calendar_shown x (content_calendar c p v x O C H)) as (o & E & S).
  exists o. split; [exact E|]. destruct v as [t|z|b|t|t us|us|b]; destruct S; cbn [value_is object_is] in H |- *; try contradiction;
    try assumption; try exact Logic.I; try discriminate.
  - destruct (supported_range n (y, m, d) H0 H1) as (V & J & R).
    destruct (day_of_number (y, m, d) (jdn_1960 + n) V H1 J) as [C1 _].
    cbn [date_ymd] in H. rewrite H2, C1 in H. injection H as <-. reflexivity.
  - destruct H as (k & D & E2). destruct O as [O1 O2].
    assert (B : 0 <= micros h mi s us0 < day_us).
    { destruct H2 as (B1 & B2 & B3 & B4). unfold micros, day_us. lia. }
    assert (K : n = k /\ micros h mi s us0 = us).
    { revert E2 B O2. generalize (micros h mi s us0). clear. unfold day_us. intros. lia. }
    destruct K as [<- K]. assert (T : t = (y, m, d)).
    { destruct (supported_range n (y, m, d) H0 H1) as (V & J & _).
      destruct (supported_range n t D O1) as (V' & J' & _).
      destruct (day_of_number _ _ V H1 J) as [C1 _]. destruct (day_of_number _ _ V' O1 J') as [C2 _].
      congruence. }
    subst t. split; [reflexivity|]. split; [assumption|]. symmetry. exact K.
  - injection H as H. split; [assumption|]. symmetry. exact H.
Qed.

(** ** References to None *)

Lemma missing_none : forall v, missing_date v = true -> to_py v = Ok PvNone.
Proof. intros [| | |[|]|[|]|[|]] H; try discriminate; reflexivity. Qed.

Lemma not_missing : forall v, missing_date v = false -> to_py v <> Ok PvNone.
Proof.
  intros [s|z|b|[|u]|[|g]|[|u]] H; try discriminate; cbn [to_py].
  - cbn [py_of_datetime]. destruct (ptime_date (PTicks u)) as [g| | | |]; cbn [bind]; try discriminate.
    destruct (date_ymd g) as [[[y m] d]| | | |]; cbn [bind]; try discriminate.
    destruct (_ && _); discriminate.
  - cbn [py_of_date]. destruct (date_ymd (GDate g)) as [[[y m] d]| | | |]; cbn [bind]; try discriminate.
    destruct (cpy_date_ok y m d); discriminate.
  - cbn [py_of_time]. cbv zeta. destruct (_ =? 0); [destruct (cpy_time_ok _ _ _ _); discriminate|discriminate].
Qed.

Lemma appended : forall v, none_appended v = 0.
Proof. intros v. unfold none_appended. destruct (to_py v) as [[]| | | |]; reflexivity. Qed.

Lemma freed : forall v, none_freed v = if missing_date v then -1 else 0.
Proof.
  intros v. unfold none_freed. destruct (missing_date v) eqn:M.
  - rewrite (missing_none v M). reflexivity.
  - pose proof (not_missing v M). destruct (to_py v) as [[]| | | |]; try reflexivity. congruence.
Qed.

Definition missing_of (l : list value) : Z := Z.of_nat (length (filter missing_date l)).

Lemma steps_appended : forall l count r, 0 < count ->
  none_steps count (map none_appended l ++ r) = none_steps count r.
Proof.
  induction l as [|v l IH]; intros count r C; cbn [map app none_steps]; [reflexivity|].
  rewrite appended. replace (count + 0) with count by lia.
  destruct (Z.leb_spec count 0); [lia|]. apply IH; exact C.
Qed.

Lemma steps_freed : forall l count r, 0 < count ->
  none_steps count (map none_freed l ++ r)
  = if missing_of l <? count then none_steps (count - missing_of l) r else Abort.
Proof.
  unfold missing_of.
  induction l as [|v l IH]; intros count r C; cbn [map app none_steps filter length].
  - destruct (Z.ltb_spec (Z.of_nat 0) count); [|lia]. f_equal. lia.
  - rewrite freed. destruct (missing_date v).
    + cbn [length]. destruct (Z.leb_spec (count + -1) 0).
      * destruct (Z.ltb_spec (Z.of_nat (S (length (filter missing_date l)))) count); [lia|reflexivity].
      * rewrite IH by lia.
        destruct (Z.ltb_spec (Z.of_nat (length (filter missing_date l))) (count + -1)),
          (Z.ltb_spec (Z.of_nat (S (length (filter missing_date l)))) count); try lia; [|reflexivity].
        f_equal. lia.
    + replace (count + 0) with count by lia. destruct (Z.leb_spec count 0); [lia|]. apply IH; exact C.
Qed.

Lemma none_lost : forall lists count, 0 < count ->
  none_count count lists
  = if missing_dates lists <? count then Ok (count - missing_dates lists) else Abort.
Proof.
  unfold none_count, missing_dates.
  induction lists as [|l lists IH]; intros count C; cbn [flat_map concat].
  - cbn. destruct (Z.ltb_spec 0 count); [f_equal; lia|lia].
  - unfold none_changes. rewrite <- app_assoc, steps_appended, steps_freed by exact C.
    rewrite filter_app, app_length, Nat2Z.inj_add. fold (missing_of l).
    pose proof (Zle_0_nat (length (filter missing_date l))) as P. fold (missing_of l) in P.
    set (k := Z.of_nat (length (filter missing_date (concat lists)))) in *.
    assert (0 <= k) by (unfold k; lia).
    destruct (Z.ltb_spec (missing_of l) count).
    + rewrite IH by lia.
      destruct (Z.ltb_spec k (count - missing_of l)), (Z.ltb_spec (missing_of l + k) count);
        try lia; [f_equal; lia|reflexivity].
    + destruct (Z.ltb_spec (missing_of l + k) count); [lia|reflexivity].
Qed.

(** The next day. *)
Lemma day_after : forall n t, 0 <= n -> days_from_1960 n t -> days_from_1960 (n + 1) (next_day t).
Proof.
  intros n t P (V & D & _). split.
  - destruct t as [[y m] d]. destruct V as [Vm Vd]. pose proof (jdn_next y m d Vm Vd) as K.
    destruct (next_day (y, m, d)) as [[y1 m1] d1]. apply K.
  - split; intros L; [|lia]. rewrite Z2Nat.inj_add by lia. change (Z.to_nat 1) with 1%nat.
    rewrite Nat.add_1_r. cbn [days_later]. rewrite (D P). reflexivity.
Qed.

Lemma time_objects : forall c p u, cell_value c p (VTime (TTicks u)) ->
  Z.abs u < day_us /\ (forall us, to_py (VTime (TTicks u)) <> Ok (PvDelta us))
  /\ (u < 0 -> to_py (VTime (TTicks u)) = Exn E_value_error).
Proof.
  intros c p u H. pose proof (cell_time c p u H) as B. split; [exact B|].
  split; [intros us; apply (no_delta u us B)|]. intros L. apply negative_time. lia.
Qed.

Lemma bad_year_full : forall n t us, days_from_1960 n t -> (let '(y, _, _) := t in 0 <= y <= 20000) ->
  ~ supported t -> 0 <= us < day_us ->
  to_py (VDateTime (PTicks (jdn_1960 * day_us + n * day_us + us))) = Exn E_bad_year.
Proof. intros n [[y m] d] us D Y. exact (bad_year n (y, m, d) us D Y). Qed.
