From Verif Require Import Base Lemmas Types Float DateTime Column Sinks PyObjects PyFrom SpecTime SpecSinks SpecCells
  SpecPyObjects ProofCalendar ProofTime ProofPyObjects.
From Coq Require Import ZifyBool.
Local Open Scope Z_scope.

Lemma month_end : forall y m, 1 <= m <= 12 -> end_of_month y m = days_in y m.
Proof.
  intros y m M. unfold end_of_month, days_in. change (greg_leap y) with (leap y).
  assert (C : m = 1 \/ m = 2 \/ m = 3 \/ m = 4 \/ m = 5 \/ m = 6 \/ m = 7 \/ m = 8 \/ m = 9 \/ m = 10
            \/ m = 11 \/ m = 12) by lia.
  destruct C as [->|[->|[->|[->|[->|[->|[->|[->|[->|[->|[->| ->]]]]]]]]]]]; try reflexivity.
Qed.

Lemma greg_date_day : forall n y m d, days_from_1960 n (y, m, d) -> supported (y, m, d) ->
  greg_date y m d = Ok (GDate (Z.to_N (jdn_1960 + n))) /\ 0 <= jdn_1960 + n.
Proof.
  intros n y m d D S. destruct (supported_range n (y, m, d) D S) as (V & J & R).
  destruct V as [M DD]. pose proof (days_in_bounds y m) as B. cbn in S.
  unfold greg_date, check_ymd.
  assert (C : (1400 <=? y) && (y <=? 9999) && (1 <=? m) && (m <=? 12) && (1 <=? d) && (d <=? 31) = true) by lia.
  rewrite C. cbn [bind]. rewrite (month_end y m M). destruct (Z.ltb_spec (days_in y m) d); [lia|].
  destruct (day_number_jdn y m d) as [E _]; try lia. rewrite E. change (jdn_of (y, m, d)) with (jdn y m d) in J.
  rewrite J. split; [reflexivity|]. unfold jdn_1960. lia.
Qed.

Lemma greg_date_early : forall y m d, ~ supported (y, m, d) -> greg_date y m d = Exn E_bad_year.
Proof.
  intros y m d S. cbn in S. unfold greg_date, check_ymd.
  assert (C : (1400 <=? y) && (y <=? 9999) && (1 <=? m) && (m <=? 12) && (1 <=? d) && (d <=? 31) = false) by lia.
  rewrite C. reflexivity.
Qed.

Lemma day_has_number : forall y m d, valid_day (y, m, d) -> supported (y, m, d) ->
  exists n, days_from_1960 n (y, m, d).
Proof.
  intros y m d V S. exists (jdn y m d - jdn_1960). apply days_from_jdn; [exact V|exact S|].
  change (jdn_of (y, m, d)) with (jdn y m d). unfold jdn_1960. lia.
Qed.

Lemma datetime_given : forall y m d h mi s us, valid_day (y, m, d) -> supported (y, m, d) -> in_day h mi s us ->
  exists t, ptime_from_py (PvDateTime y m d h mi s us) = Ok (Some t) /\ shown_as (VDateTime t) (PvDateTime y m d h mi s us).
Proof.
  intros y m d h mi s us V S I. destruct (day_has_number y m d V S) as (n & D).
  destruct (greg_date_day n y m d D S) as (E & P). cbn [ptime_from_py]. rewrite E. cbn [bind].
  eexists. split; [reflexivity|]. rewrite Z2N.id by exact P. change us_per_day with day_us.
  replace ((jdn_1960 + n) * day_us + (((h * 60 + mi) * 60 + s) * 1000000 + us))
    with (jdn_1960 * day_us + n * day_us + micros h mi s us) by (unfold micros; ring).
  constructor; assumption.
Qed.

Lemma date_given : forall y m d, valid_day (y, m, d) -> supported (y, m, d) ->
  exists g, gdate_from_py (PvDate y m d) = Ok (Some g) /\ shown_as (VDate g) (PvDate y m d)
    /\ forall h mi s us, gdate_from_py (PvDateTime y m d h mi s us) = Ok (Some g).
Proof.
  intros y m d V S. destruct (day_has_number y m d V S) as (n & D).
  destruct (greg_date_day n y m d D S) as (E & P). cbn [gdate_from_py]. rewrite E. cbn [bind].
  eexists. split; [reflexivity|]. split; [|reflexivity].
  econstructor; [exact D|exact S|]. rewrite Z2N.id by exact P. reflexivity.
Qed.

Lemma datetime_early : forall y m d h mi s us, ~ supported (y, m, d) ->
  ptime_from_py (PvDateTime y m d h mi s us) = Exn E_bad_year
  /\ gdate_from_py (PvDate y m d) = Exn E_bad_year.
Proof.
  intros y m d h mi s us S. cbn [ptime_from_py gdate_from_py]. rewrite (greg_date_early y m d S). auto.
Qed.

Lemma shown_datetime : forall v x, shown_as v x -> forall t, v = VDateTime t -> t <> NotADateTime ->
  exists n y m d h mi s us, x = PvDateTime y m d h mi s us /\ days_from_1960 n (y, m, d) /\ supported (y, m, d)
    /\ in_day h mi s us /\ t = PTicks (jdn_1960 * day_us + n * day_us + micros h mi s us).
Proof.
  intros v x S. destruct S; intros t E N; try discriminate E; [congruence|].
  do 8 eexists. split; [reflexivity|]. split; [eassumption|]. split; [assumption|]. split; [assumption|].
  congruence.
Qed.

Lemma shown_date : forall v x, shown_as v x -> forall g, v = VDate g -> g <> NotADate ->
  exists n dn y m d, x = PvDate y m d /\ days_from_1960 n (y, m, d) /\ supported (y, m, d)
    /\ Z.of_N dn = jdn_1960 + n /\ g = GDate dn.
Proof.
  intros v x S. destruct S; intros g E N; try discriminate E; [congruence|].
  do 5 eexists. split; [reflexivity|]. split; [eassumption|]. split; [assumption|]. split; [eassumption|].
  congruence.
Qed.

Lemma datetime_back : forall t, in_calendar (VDateTime t) -> t <> NotADateTime ->
  exists x, to_py (VDateTime t) = Ok x /\ ptime_from_py x = Ok (Some t).
Proof.
  intros t C N. destruct (calendar_shown _ C) as (x & E & S). exists x. split; [exact E|].
  destruct (shown_datetime _ _ S t eq_refl N) as (n & y & m & d & h & mi & s & us & -> & D & SU & I & ->).
  clear S E C N.
  destruct (greg_date_day n y m d D SU) as (E & P). cbn [ptime_from_py]. rewrite E. cbn [bind].
  rewrite Z2N.id by exact P. change us_per_day with day_us.
  replace ((jdn_1960 + n) * day_us + (((h * 60 + mi) * 60 + s) * 1000000 + us))
    with (jdn_1960 * day_us + n * day_us + micros h mi s us) by (unfold micros; ring).
  reflexivity.
Qed.

Lemma date_back : forall g, in_calendar (VDate g) -> g <> NotADate ->
  exists x, to_py (VDate g) = Ok x /\ gdate_from_py x = Ok (Some g).
Proof.
  intros g C N. destruct (calendar_shown _ C) as (x & E & S). exists x. split; [exact E|].
  destruct (shown_date _ _ S g eq_refl N) as (n & dn & y & m & d & -> & D & SU & L & ->).
  clear S E C N.
  destruct (greg_date_day n y m d D SU) as (E & P). cbn [gdate_from_py]. rewrite E. cbn [bind].
  rewrite <- L, N2Z.id. reflexivity.
Qed.

(** What a timedelta becomes. *)
Lemma delta_given : forall u, - 106751990 * day_us <= u <= 106751990 * day_us ->
  tduration_from_py (PvDelta u)
  = Ok (Some (TTicks (if u <? 0 then day_us * (u / day_us) - u mod day_us else u))).
Proof.
  intros u R. cbn [tduration_from_py]. cbv zeta. change us_per_day with day_us.
  change (24 * 3600 * 1000000) with day_us.
  assert (X : u mod day_us / 1000000 * 1000000 + u mod 1000000 = u mod day_us).
  { assert (M : u mod 1000000 = (u mod day_us) mod 1000000).
    { change day_us with (1000000 * 86400). rewrite Z.rem_mul_r by lia.
      rewrite (Z.mul_comm 1000000), Z.mod_add, Z.mod_mod by lia. reflexivity. }
    rewrite M. rewrite (Z.mul_comm _ 1000000). symmetry. apply Z.div_mod. lia. }
  assert (S0 : 0 <= u mod day_us / 1000000 * 1000000 <= u mod day_us).
  { pose proof (Z.mod_pos_bound u day_us ltac:(reflexivity)) as B. pose proof (Z.mod_pos_bound u 1000000 ltac:(reflexivity)).
    pose proof (Z.div_pos (u mod day_us) 1000000 ltac:(lia) ltac:(lia)). lia. }
  pose proof (Z.mod_pos_bound u day_us ltac:(reflexivity)) as B.
  pose proof (Z.div_mod u day_us ltac:(unfold day_us; lia)) as Q.
  set (q := u / day_us) in *. set (r := u mod day_us) in *. set (s := r / 1000000 * 1000000) in *.
  set (w := u mod 1000000) in *. clearbody q r s w.
  assert (NEG : (q <? 0) = (u <? 0)) by (unfold day_us in *; destruct (Z.ltb_spec q 0), (Z.ltb_spec u 0); lia).
  rewrite NEG. unfold mul_i64, add_i64, int64_ok, day_us in *.
  destruct (Z.ltb_spec u 0) as [L|L].
  - assert (C1 : (- 2 ^ 63 <=? 86400000000 * - q) && (86400000000 * - q <? 2 ^ 63) = true) by lia.
    rewrite C1. cbn [bind].
    assert (C2 : (- 2 ^ 63 <=? 86400000000 * - q + s) && (86400000000 * - q + s <? 2 ^ 63) = true) by lia.
    rewrite C2. cbn [bind].
    assert (C3 : (- 2 ^ 63 <=? 86400000000 * - q + s + w) && (86400000000 * - q + s + w <? 2 ^ 63) = true) by lia.
    rewrite C3. cbn [bind].
    assert (C4 : (- 2 ^ 63 <=? (86400000000 * - q + s + w) * -1) && ((86400000000 * - q + s + w) * -1 <? 2 ^ 63) = true) by lia.
    rewrite C4. cbn [bind]. do 3 f_equal. lia.
  - assert (C1 : (- 2 ^ 63 <=? 86400000000 * q) && (86400000000 * q <? 2 ^ 63) = true) by lia.
    rewrite C1. cbn [bind].
    assert (C2 : (- 2 ^ 63 <=? 86400000000 * q + s) && (86400000000 * q + s <? 2 ^ 63) = true) by lia.
    rewrite C2. cbn [bind].
    assert (C3 : (- 2 ^ 63 <=? 86400000000 * q + s + w) && (86400000000 * q + s + w <? 2 ^ 63) = true) by lia.
    rewrite C3. cbn [bind]. do 3 f_equal. lia.
Qed.

Lemma delta_right : forall u, - 106751990 * day_us <= u <= 106751990 * day_us ->
  tduration_from_py (PvDelta u) = Ok (Some (TTicks u)) <-> 0 <= u \/ u mod day_us = 0.
Proof.
  intros u R. rewrite (delta_given u R). pose proof (Z.div_mod u day_us ltac:(unfold day_us; lia)) as Q.
  pose proof (Z.mod_pos_bound u day_us ltac:(reflexivity)) as B.
  set (q := u / day_us) in *. set (r := u mod day_us) in *. clearbody q r.
  destruct (Z.ltb_spec u 0) as [L|L]; split; intros H.
  - right. assert (E : day_us * q - r = u) by congruence. lia.
  - destruct H as [H|H]; [lia|]. do 3 f_equal. lia.
  - left. exact L.
  - reflexivity.
Qed.

Lemma delta_large : forall u, 106751992 * day_us <= u ->
  tduration_from_py (PvDelta u) = Undef UB_overflow /\ tduration_from_py (PvDelta (- u)) = Undef UB_overflow.
Proof.
  assert (G : forall u, 106751992 * day_us <= Z.abs u -> tduration_from_py (PvDelta u) = Undef UB_overflow).
  { intros u R. cbn [tduration_from_py]. cbv zeta. change us_per_day with day_us.
    change (24 * 3600 * 1000000) with day_us.
    pose proof (Z.div_mod u day_us ltac:(unfold day_us; lia)) as Q.
    pose proof (Z.mod_pos_bound u day_us ltac:(reflexivity)) as B.
    set (q := u / day_us) in *. set (r := u mod day_us) in *. clearbody q r.
    unfold mul_i64 at 1, int64_ok. unfold day_us in *. destruct (Z.ltb_spec q 0).
    - assert (C1 : (- 2 ^ 63 <=? 86400000000 * - q) && (86400000000 * - q <? 2 ^ 63) = false) by lia.
      rewrite C1. reflexivity.
    - assert (C1 : (- 2 ^ 63 <=? 86400000000 * q) && (86400000000 * q <? 2 ^ 63) = false) by lia.
      rewrite C1. reflexivity. }
  intros u R. split; apply G; unfold day_us in *; lia.
Qed.

(** A time of day is not given back: it becomes a time object, and only timedelta objects
    are taken. *)
Lemma time_not_back : forall u x, 0 <= u < day_us -> to_py (VTime (TTicks u)) = Ok x -> tduration_from_py x = Ok None.
Proof.
  intros u x R E. destruct (calendar_shown (VTime (TTicks u)) R) as (x' & E' & S).
  rewrite E in E'. assert (x' = x) by congruence. subst x'.
  assert (K : forall v y, shown_as v y -> v = VTime (TTicks u) -> tduration_from_py y = Ok None).
  { clear. intros v y S. destruct S; intros E; try discriminate E; reflexivity. }
  exact (K _ _ S eq_refl).
Qed.
