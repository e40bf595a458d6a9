(** The day numbers of the date library follow the Gregorian calendar. *)
From Verif Require Import Base Types Float DateTime SpecTime.
From Coq Require Import ZifyBool.
Local Open Scope Z_scope.

Lemma u32_id : forall x, 0 <= x < 2 ^ 32 -> u32 x = x.
Proof. intros x H. apply Z.mod_small. exact H. Qed.

Lemma u16_id : forall x, 0 <= x < 2 ^ 16 -> u16 x = x.
Proof. intros x H. apply Z.mod_small. exact H. Qed.

(** Years, months from March and days; the number of the day. *)
Definition jdn (y m d : Z) : Z :=
  let a := if m <=? 2 then 1 else 0 in
  let yy := y + 4800 - a in
  let mm := m + 12 * a - 3 in
  d + (153 * mm + 2) / 5 + 365 * yy + yy / 4 - yy / 100 + yy / 400 - 32045.

Lemma day_number_jdn : forall y m d, 0 <= y <= 20000 -> 1 <= m <= 12 -> 1 <= d <= 31 ->
  day_number y m d = jdn y m d /\ 0 <= jdn y m d < 10000000.
Proof.
  intros y m d Hy Hm Hd. unfold day_number, jdn. cbv zeta.
  assert (A : u16 ((14 - m) / 12) = if m <=? 2 then 1 else 0).
  { destruct (Z.leb_spec m 2); [replace ((14 - m) / 12) with 1|replace ((14 - m) / 12) with 0];
      try reflexivity.
    - apply (Z.div_unique _ _ _ (2 - m)); lia.
    - apply (Z.div_unique _ _ _ (14 - m)); lia. }
  rewrite A. set (a := if m <=? 2 then 1 else 0).
  assert (Ha : 0 <= a <= 1) by (unfold a; destruct (m <=? 2); lia).
  assert (Hm2 : 0 <= m + 12 * a - 3 <= 11) by (unfold a; destruct (Z.leb_spec m 2); lia).
  rewrite (u16_id (y + 4800 - a)), (u16_id (m + 12 * a - 3)) by lia.
  assert (B : 0 <= d + (153 * (m + 12 * a - 3) + 2) / 5 + 365 * (y + 4800 - a)
     + (y + 4800 - a) / 4 - (y + 4800 - a) / 100 + (y + 4800 - a) / 400 - 32045 < 10000000).
  { set (yy := y + 4800 - a) in *. set (mm := m + 12 * a - 3) in *.
    assert (4799 <= yy <= 24800) by lia. clearbody yy mm a. 
    Z.div_mod_to_equations. lia. }
  split; [apply u32_id; lia|exact B].
Qed.

Lemma days_in_bounds : forall y m, 28 <= days_in y m <= 31.
Proof.
  intros y m. unfold days_in. destruct (m =? 2); [destruct (leap y)|destruct (_ || _)%bool]; lia.
Qed.

Lemma quot_step : forall y k c, 0 < k ->
  (y + c * k) / k = (y + c * k - 1) / k + (if y mod k =? 0 then 1 else 0).
Proof.
  intros y k c K.
  pose proof (Z.div_mod y k ltac:(lia)) as D. pose proof (Z.mod_pos_bound y k K) as B.
  destruct (Z.eqb_spec (y mod k) 0) as [E|E].
  - rewrite E in D. replace ((y + c * k) / k) with (y / k + c); [|symmetry; apply Z.div_add; lia].
    replace ((y + c * k - 1) / k) with (y / k + c - 1); [lia|].
    apply (Z.div_unique _ _ _ (k - 1)); [lia|nia].
  - replace ((y + c * k) / k) with (y / k + c); [|symmetry; apply Z.div_add; lia].
    replace ((y + c * k - 1) / k) with (y / k + c); [lia|].
    apply (Z.div_unique _ _ _ (y mod k - 1)); [lia|nia].
Qed.

Definition years (y : Z) : Z := 365 * y + y / 4 - y / 100 + y / 400 - 32045.

(** Month by month. *)
Lemma jdn_table : forall y d,
  jdn y 1 d = d + 306 + years (y + 4799)
  /\ jdn y 2 d = d + 337 + years (y + 4799)
  /\ jdn y 3 d = d + 0 + years (y + 4800)
  /\ jdn y 4 d = d + 31 + years (y + 4800)
  /\ jdn y 5 d = d + 61 + years (y + 4800)
  /\ jdn y 6 d = d + 92 + years (y + 4800)
  /\ jdn y 7 d = d + 122 + years (y + 4800)
  /\ jdn y 8 d = d + 153 + years (y + 4800)
  /\ jdn y 9 d = d + 184 + years (y + 4800)
  /\ jdn y 10 d = d + 214 + years (y + 4800)
  /\ jdn y 11 d = d + 245 + years (y + 4800)
  /\ jdn y 12 d = d + 275 + years (y + 4800).
Proof.
  intros y d. unfold jdn, years. cbv zeta.
  repeat match goal with |- _ /\ _ => split end;
    match goal with |- context [?m <=? 2] =>
      let b := eval vm_compute in (m <=? 2) in change (m <=? 2) with b end; cbv iota;
    match goal with |- context [(153 * ?t + 2) / 5] =>
      let v := eval vm_compute in ((153 * t + 2) / 5) in change ((153 * t + 2) / 5) with v end;
    replace (y + 4800 - 1) with (y + 4799) by lia;
    replace (y + 4800 - 0) with (y + 4800) by lia; ring.
Qed.

Lemma jdn_next : forall y m d, 1 <= m <= 12 -> 1 <= d <= days_in y m ->
  let '(y', m', d') := next_day (y, m, d) in
  jdn y' m' d' = jdn y m d + 1 /\ valid_day (y', m', d').
Proof.
  intros y m d Hm Hd. unfold next_day.
  destruct (Z.ltb_spec d (days_in y m)) as [L|L].
  - split; [|unfold valid_day; lia]. unfold jdn. cbv zeta. ring.
  - assert (E : d = days_in y m) by lia. destruct (Z.ltb_spec m 12) as [L2|L2].
    + split; [|unfold valid_day; pose proof (days_in_bounds y (m + 1)); lia].
      pose proof (jdn_table y d) as T1. pose proof (jdn_table y 1) as T2.
      assert (C : m = 1 \/ m = 2 \/ m = 3 \/ m = 4 \/ m = 5 \/ m = 6 \/ m = 7 \/ m = 8 \/ m = 9
                  \/ m = 10 \/ m = 11) by lia.
      destruct (Z.eq_dec m 2) as [M2|M2].
      * assert (F : days_in y 2 = if leap y then 29 else 28) by reflexivity.
        subst m. change (2 + 1) with 3. rewrite F in E. clear C F. unfold leap in E.
        pose proof (quot_step y 4 1200 ltac:(lia)) as K4.
        pose proof (quot_step y 100 48 ltac:(lia)) as K100.
        pose proof (quot_step y 400 12 ltac:(lia)) as K400.
        change (1200 * 4) with 4800 in K4. change (48 * 100) with 4800 in K100.
        change (12 * 400) with 4800 in K400.
        replace (y + 4800 - 1) with (y + 4799) in * by lia.
        assert (M1 : y mod 400 = 0 -> y mod 100 = 0) by (clear; intros; Z.div_mod_to_equations; lia).
        assert (M2 : y mod 100 = 0 -> y mod 4 = 0) by (clear; intros; Z.div_mod_to_equations; lia).
        destruct T1 as (_ & T1 & _). destruct T2 as (_ & _ & T2 & _). rewrite T1, T2. unfold years.
        destruct (Z.eqb_spec (y mod 4) 0), (Z.eqb_spec (y mod 100) 0), (Z.eqb_spec (y mod 400) 0);
          cbn [negb orb andb] in E; lia.
      * assert (F : days_in y m = if (m =? 4) || (m =? 6) || (m =? 9) || (m =? 11) then 30 else 31).
        { unfold days_in. destruct (Z.eqb_spec m 2); [contradiction|reflexivity]. }
        rewrite F in E. clear F.
        repeat (destruct C as [->|C]; [cbn in E; match goal with |- context [?a + 1] =>
          let v := eval vm_compute in (a + 1) in change (a + 1) with v end; lia|]).
        subst m. cbn in E. change (11 + 1) with 12. lia.
    + replace m with 12 in * by lia.
      split; [|unfold valid_day; pose proof (days_in_bounds (y + 1) 1); lia].
      pose proof (jdn_table y d) as T1. pose proof (jdn_table (y + 1) 1) as T2.
      change (days_in y 12) with 31 in E. replace (y + 1 + 4799) with (y + 4800) in T2 by lia. lia.
Qed.

Lemma from_jdn : forall y m d, 0 <= y <= 20000 -> 1 <= m <= 12 -> 1 <= d <= days_in y m ->
  from_day_number (jdn y m d) = (y, m, d).
Proof.
  intros y m d Hy Hm Hd.
  pose proof (days_in_bounds y m) as Hd31.
  destruct (day_number_jdn y m d Hy Hm ltac:(lia)) as [_ B].
  unfold jdn in *. cbv zeta in *.
  set (a := if m <=? 2 then 1 else 0) in *.
  set (yy := y + 4800 - a) in *. set (mm := m + 12 * a - 3) in *.
  assert (Hyy : 4799 <= yy <= 24800) by (unfold yy, a; destruct (m <=? 2); lia).
  set (BB := yy / 100). set (DD := yy mod 100).
  assert (YY : yy = 100 * BB + DD /\ 0 <= DD < 100).
  { unfold BB, DD. split; [apply Z.div_mod; lia|apply Z.mod_pos_bound; lia]. }
  assert (Q4 : yy / 4 = 25 * BB + DD / 4).
  { clearbody BB DD yy. destruct YY as [-> YY]. Z.div_mod_to_equations. lia. }
  assert (Q400 : yy / 400 = BB / 4).
  { unfold BB. rewrite Z.div_div by lia. reflexivity. }
  set (EE := (153 * mm + 2) / 5 + d - 1).
  set (CC := 365 * DD + DD / 4 + EE).
  assert (HE : 0 <= EE <= 365 /\ (EE = 365 -> DD mod 4 = 3 /\ (DD = 99 -> BB mod 4 = 3))
               /\ (5 * EE + 2) / 153 = mm /\ EE - (153 * mm + 2) / 5 + 1 = d
               /\ mm + 3 - 12 * (mm / 10) = m /\ mm / 10 = a).
  { assert (C : m = 1 \/ m = 2 \/ m = 3 \/ m = 4 \/ m = 5 \/ m = 6 \/ m = 7 \/ m = 8 \/ m = 9
                \/ m = 10 \/ m = 11 \/ m = 12) by lia.
    unfold EE, mm, a, yy in *. clear Q4 Q400 B CC EE.
    assert (LP : m = 2 -> d = 29 -> DD mod 4 = 3 /\ (DD = 99 -> BB mod 4 = 3)).
    { intros -> ->. cbn in Hd. unfold days_in in Hd. cbn in Hd.
      assert (LY : leap y = true) by (destruct (leap y); [reflexivity|lia]).
      unfold leap in LY. change (y + 4800 - a) with (y + 4800 - 1) in YY. clear -LY YY.
      clearbody BB DD. 
      destruct (Z.eqb_spec (y mod 4) 0), (Z.eqb_spec (y mod 100) 0), (Z.eqb_spec (y mod 400) 0);
        cbn in LY; try discriminate; Z.div_mod_to_equations; lia. }
    clear -C Hd LP. unfold days_in in Hd.
    repeat (destruct C as [->|C]; [cbn [Z.eqb Z.leb Z.ltb Z.compare Pos.compare Pos.compare_cont Pos.eqb orb andb negb] in *; 
      try (destruct (leap y)); (split; [Z.div_mod_to_equations; lia|]);
      (split; [intros EQ; first [exfalso; Z.div_mod_to_equations; lia
                                |apply LP; [reflexivity|Z.div_mod_to_equations; lia]]|]);
      repeat split; Z.div_mod_to_equations; lia|]).
    subst m. cbn [Z.eqb Z.leb Z.ltb Z.compare Pos.compare Pos.compare_cont Pos.eqb orb andb negb] in *. (split; [Z.div_mod_to_equations; lia|]).
    split; [intros EQ; exfalso; Z.div_mod_to_equations; lia|].
    repeat split; Z.div_mod_to_equations; lia. }
  destruct HE as (E1 & E2 & E3 & E4 & E5 & E6).
  assert (HN : d + (153 * mm + 2) / 5 + 365 * yy + yy / 4 - BB + BB / 4 - 32045 + 32044
               = 36524 * BB + BB / 4 + CC).
  { rewrite Q4. unfold CC, EE. lia. }
  rewrite Q400 in *. fold BB in B |- *.
  set (n := d + (153 * mm + 2) / 5 + 365 * yy + yy / 4 - BB + BB / 4 - 32045) in *.
  assert (HC : 0 <= CC <= 36524 /\ (CC = 36524 -> BB mod 4 = 3)).
  { unfold CC. clear -YY E1 E2. clearbody BB DD EE. Z.div_mod_to_equations. lia. }
  assert (HB : 47 <= BB <= 248) by (clear -YY Hyy; clearbody BB DD; lia).
  unfold from_day_number.
  rewrite (u32_id (n + 32044)) by (rewrite HN; clear -HC HB; clearbody BB CC; Z.div_mod_to_equations; lia).
  rewrite HN.
  rewrite (u32_id (4 * (36524 * BB + BB / 4 + CC) + 3))
    by (clear -HC HB; clearbody BB CC; Z.div_mod_to_equations; lia).
  assert (R1 : (4 * (36524 * BB + BB / 4 + CC) + 3) / 146097 = BB).
  { symmetry. apply (Z.div_unique _ _ _ (4 * (36524 * BB + BB / 4 + CC) + 3 - 146097 * BB)); [|lia].
    left. clear -HC HB. clearbody BB CC. Z.div_mod_to_equations. lia. }
  rewrite R1. rewrite (u32_id (146097 * BB)) by lia.
  assert (R2 : 36524 * BB + BB / 4 + CC - 146097 * BB / 4 = CC).
  { clear -HB. clearbody BB CC. Z.div_mod_to_equations. lia. }
  rewrite R2. rewrite (u32_id CC) by lia. rewrite (u32_id (4 * CC + 3)) by lia.
  assert (R3 : (4 * CC + 3) / 1461 = DD).
  { symmetry. apply (Z.div_unique _ _ _ (4 * CC + 3 - 1461 * DD)); [|lia].
    left. unfold CC. clear -YY E1 E2. clearbody BB DD EE. Z.div_mod_to_equations. lia. }
  rewrite R3. rewrite (u32_id (1461 * DD)) by lia.
  assert (R4 : CC - 1461 * DD / 4 = EE).
  { unfold CC. clear -YY. clearbody BB DD EE. Z.div_mod_to_equations. lia. }
  rewrite R4. rewrite (u32_id EE) by lia. rewrite (u32_id (5 * EE + 2)) by lia.
  rewrite E3.
  assert (Hmm : 0 <= mm <= 11) by (unfold mm, a; destruct (Z.leb_spec m 2); lia).
  rewrite (u32_id (153 * mm + 2)) by lia.
  rewrite (u32_id (12 * (mm / 10))) by (rewrite E6; unfold a; destruct (m <=? 2); lia).
  rewrite E4, E5. rewrite (u32_id d), (u32_id m), (u16_id d), (u16_id m) by lia.
  replace (100 * BB + DD - 4800 + mm / 10) with y by (rewrite E6; destruct YY as [YY _]; unfold yy in YY; lia).
  rewrite u32_id, u16_id by lia. reflexivity.
Qed.

(** ** The days of the supported years *)

Lemma years_mono : forall a b, a <= b -> years a <= years b.
Proof.
  intros a b H. unfold years.
  assert (a / 4 <= b / 4) by (apply Z.div_le_mono; lia).
  assert (a / 400 <= b / 400) by (apply Z.div_le_mono; lia).
  assert (b / 100 <= a / 100 + (b - a)).
  { clear -H. Z.div_mod_to_equations. lia. }
  lia.
Qed.

Lemma jdn_in_year : forall y m d, valid_day (y, m, d) ->
  jdn y 1 1 <= jdn y m d <= jdn y 12 31.
Proof.
  intros y m d [Hm Hd]. pose proof (days_in_bounds y m) as B.
  pose proof (jdn_table y d) as T. pose proof (jdn_table y 1) as T1. pose proof (jdn_table y 31) as T2.
  assert (L : years (y + 4799) + 365 <= years (y + 4800) <= years (y + 4799) + 366).
  { unfold years.
    pose proof (quot_step y 4 1200 ltac:(lia)) as K4.
    pose proof (quot_step y 100 48 ltac:(lia)) as K100.
    pose proof (quot_step y 400 12 ltac:(lia)) as K400.
    change (1200 * 4) with 4800 in K4. change (48 * 100) with 4800 in K100.
    change (12 * 400) with 4800 in K400.
    replace (y + 4800 - 1) with (y + 4799) in * by lia.
    assert (M1 : y mod 400 = 0 -> y mod 100 = 0) by (clear; intros; Z.div_mod_to_equations; lia).
    assert (M2 : y mod 100 = 0 -> y mod 4 = 0) by (clear; intros; Z.div_mod_to_equations; lia).
    destruct (Z.eqb_spec (y mod 4) 0), (Z.eqb_spec (y mod 100) 0), (Z.eqb_spec (y mod 400) 0); lia. }
  assert (D2 : m = 2 -> d <= 29).
  { intros ->. unfold days_in in Hd. cbn in Hd. destruct (leap y); lia. }
  assert (C : m = 1 \/ m = 2 \/ m = 3 \/ m = 4 \/ m = 5 \/ m = 6 \/ m = 7 \/ m = 8 \/ m = 9
              \/ m = 10 \/ m = 11 \/ m = 12) by lia.
  repeat (destruct C as [->|C]; [lia|]). subst m. lia.
Qed.

Lemma jdn_years : forall y1 y2, y1 < y2 -> jdn y1 12 31 < jdn y2 1 1.
Proof.
  intros y1 y2 H. pose proof (jdn_table y1 31) as T1. pose proof (jdn_table y2 1) as T2.
  pose proof (years_mono (y1 + 4800) (y2 + 4799) ltac:(lia)). lia.
Qed.

Definition jdn_of (t : day) : Z := let '(y, m, d) := t in jdn y m d.
Definition year_of (t : day) : Z := let '(y, m, d) := t in y.

Lemma jdn_year_le : forall t y, valid_day t -> jdn_of t <= jdn y 12 31 -> year_of t <= y.
Proof.
  intros [[y' m] d] y V H. cbn [jdn_of year_of] in *.
  destruct (Z.le_gt_cases y' y) as [L|L]; [exact L|].
  pose proof (jdn_years y y' L). pose proof (jdn_in_year y' m d V). lia.
Qed.

Lemma jdn_year_ge : forall t y, valid_day t -> jdn y 1 1 <= jdn_of t -> y <= year_of t.
Proof.
  intros [[y' m] d] y V H. cbn [jdn_of year_of] in *.
  destruct (Z.le_gt_cases y y') as [L|L]; [exact L|].
  pose proof (jdn_years y' y L). pose proof (jdn_in_year y' m d V). lia.
Qed.

Lemma from_jdn_of : forall t, valid_day t -> 0 <= year_of t <= 20000 ->
  from_day_number (jdn_of t) = t.
Proof. intros [[y m] d] [Vm Vd] Y. apply from_jdn; assumption. Qed.

Lemma later_jdn : forall n t, valid_day t ->
  valid_day (days_later n t) /\ jdn_of (days_later n t) = jdn_of t + Z.of_nat n.
Proof.
  induction n as [|n IH]; intros t V; cbn [days_later]; [split; [exact V|lia]|].
  destruct (IH t V) as [V1 J1]. destruct (days_later n t) as [[y m] d].
  destruct V1 as [Vm Vd]. pose proof (jdn_next y m d Vm Vd) as K. cbn [jdn_of] in *.
  destruct (next_day (y, m, d)) as [[y' m'] d']. destruct K as [K1 K2].
  split; [exact K2|]. cbn [jdn_of]. lia.
Qed.

Lemma valid_unique : forall t1 t2, valid_day t1 -> valid_day t2 ->
  jdn 0 1 1 <= jdn_of t1 <= jdn 20000 12 31 -> jdn_of t1 = jdn_of t2 -> t1 = t2.
Proof.
  intros t1 t2 V1 V2 B E.
  rewrite <- (from_jdn_of t1 V1), <- (from_jdn_of t2 V2), E; [reflexivity| |].
  - split; [apply jdn_year_ge|apply jdn_year_le]; try assumption; lia.
  - split; [apply jdn_year_ge|apply jdn_year_le]; try assumption; lia.
Qed.

Lemma jdn_1960_1 : jdn 1960 1 1 = jdn_1960. Proof. reflexivity. Qed.
Lemma jdn_low : jdn 0 1 1 = 1721060. Proof. reflexivity. Qed.
Lemma jdn_high : jdn 20000 12 31 = 9026275. Proof. reflexivity. Qed.
Lemma jdn_first : jdn 1400 1 1 = 2232400. Proof. reflexivity. Qed.
Lemma jdn_last : jdn 9999 12 31 = 5373484. Proof. reflexivity. Qed.

Lemma epoch_valid : valid_day (1960, 1, 1).
Proof. unfold valid_day, days_in. cbn. lia. Qed.

(** The relation of the specification, with the day numbers. *)
Lemma days_from_jdn : forall n t, valid_day t -> supported t ->
  (days_from_1960 n t <-> jdn_of t = jdn_1960 + n).
Proof.
  intros n t V S.
  assert (B : 2232400 <= jdn_of t <= 5373484).
  { destruct t as [[y m] d]. cbn [supported] in S. pose proof (jdn_in_year y m d V) as Y.
    rewrite <- jdn_first, <- jdn_last. cbn [jdn_of].
    assert (G : jdn 1400 1 1 <= jdn y 1 1).
    { destruct (Z.eq_dec y 1400) as [->|N]; [lia|].
      pose proof (jdn_years 1400 y ltac:(lia)). pose proof (jdn_in_year 1400 1 1).
      unfold valid_day in H0. pose proof (days_in_bounds 1400 1). specialize (H0 ltac:(lia)). lia. }
    assert (G2 : jdn y 12 31 <= jdn 9999 12 31).
    { destruct (Z.eq_dec y 9999) as [->|N]; [lia|].
      pose proof (jdn_years y 9999 ltac:(lia)). pose proof (jdn_in_year 9999 1 1).
      unfold valid_day in H0. pose proof (days_in_bounds 9999 1). specialize (H0 ltac:(lia)). lia. }
    lia. }
  unfold jdn_1960. split.
  - intros (_ & P & Q). destruct (Z.le_gt_cases 0 n) as [L|L].
    + rewrite <- (P L). destruct (later_jdn (Z.to_nat n) (1960, 1, 1) epoch_valid) as [_ J].
      rewrite J. cbn [jdn_of]. rewrite jdn_1960_1. unfold jdn_1960. lia.
    + destruct (later_jdn (Z.to_nat (- n)) t V) as [_ J]. rewrite (Q L) in J. cbn [jdn_of] in J.
      rewrite jdn_1960_1 in J. unfold jdn_1960 in J. lia.
  - intros J. split; [exact V|]. split; intros L.
    + destruct (later_jdn (Z.to_nat n) (1960, 1, 1) epoch_valid) as [V2 J2].
      cbn [jdn_of] in J2. rewrite jdn_1960_1 in J2. unfold jdn_1960 in J2.
      apply valid_unique; [exact V2|exact V|rewrite jdn_low, jdn_high; lia|lia].
    + destruct (later_jdn (Z.to_nat (- n)) t V) as [V2 J2].
      apply valid_unique; [exact V2|exact epoch_valid|rewrite jdn_low, jdn_high; lia|].
      cbn [jdn_of]. rewrite jdn_1960_1. unfold jdn_1960. lia.
Qed.

(** Every day number of the supported years is a day. *)
Lemma day_exists : forall n, 2232400 <= n <= 5373484 ->
  exists t, valid_day t /\ supported t /\ jdn_of t = n.
Proof.
  intros n H.
  assert (V0 : valid_day (1400, 1, 1)).
  { unfold valid_day. pose proof (days_in_bounds 1400 1). lia. }
  destruct (later_jdn (Z.to_nat (n - 2232400)) (1400, 1, 1) V0) as [V J].
  cbn [jdn_of] in J. rewrite jdn_first in J.
  exists (days_later (Z.to_nat (n - 2232400)) (1400, 1, 1)).
  set (t := days_later _ _) in *. split; [exact V|]. split; [|lia].
  assert (G : 1400 <= year_of t <= 9999).
  { split; [apply jdn_year_ge|apply jdn_year_le]; try exact V; rewrite ?jdn_first, ?jdn_last; lia. }
  destruct t as [[y m] d]. exact G.
Qed.

Lemma day_of_number : forall t n, valid_day t -> supported t -> jdn_of t = n ->
  check_ymd (from_day_number n) = Ok t /\ day_number (year_of t) (snd (fst t)) (snd t) = n.
Proof.
  intros t n V S J. subst n.
  assert (Y : 0 <= year_of t <= 20000) by (destruct t as [[y m] d]; cbn in *; lia).
  rewrite from_jdn_of by assumption. destruct t as [[y m] d]. cbn [supported year_of] in *.
  destruct V as [Vm Vd]. pose proof (days_in_bounds y m) as B.
  split.
  - unfold check_ymd.
    destruct (Z.leb_spec 1400 y), (Z.leb_spec y 9999), (Z.leb_spec 1 m), (Z.leb_spec m 12),
      (Z.leb_spec 1 d), (Z.leb_spec d 31); try lia. reflexivity.
  - cbn [fst snd]. destruct (day_number_jdn y m d) as [E _]; try lia. exact E.
Qed.
