(** Proofs about the decimal texts of src/types.cpp: to_string of dates and times. *)
From Verif Require Import Base Lemmas Types DateTime Column SpecValues ProofValues SpecTime ProofCalendar ProofTime.
Local Open Scope Z_scope.

Lemma digits_last : forall w n, 0 <= n ->
  digits (S w) n = digits w (n / 10) ++ [digit (Z.to_N (n mod 10))].
Proof.
  induction w as [|w IH]; intros n H.
  - cbn [digits app Z.of_nat]. change (10 ^ 0) with 1. rewrite Z.div_1_r. unfold digit.
    pose proof (Z.mod_pos_bound n 10 ltac:(lia)) as B.
    rewrite Z2N.inj_add by lia. reflexivity.
  - change (digits (S (S w)) n) with
      (byte_of (Z.to_N (48 + (n / 10 ^ Z.of_nat (S w)) mod 10)) :: digits (S w) n).
    rewrite (IH n H). cbn [digits app]. f_equal.
    rewrite Nat2Z.inj_succ, Z.pow_succ_r by lia. rewrite Z.div_div by (try apply Z.pow_pos_nonneg; lia).
    reflexivity.
Qed.

Lemma last_digit : forall n, Z.to_N (Z.of_N n mod 10) = (n mod 10)%N.
Proof. intros n. change 10 with (Z.of_N 10). rewrite <- N2Z.inj_mod, N2Z.id. reflexivity. Qed.

Lemma dec_fuel_digits : forall k f n acc, (S k <= f)%nat ->
  (n < 10 ^ N.of_nat (S k))%N -> (k = O \/ (10 ^ N.of_nat k <= n)%N) ->
  dec_fuel f n acc = digits (S k) (Z.of_N n) ++ acc.
Proof.
  induction k as [|k IH]; intros f n acc HF HU HL; (destruct f as [|f]; [lia|]); cbn [dec_fuel].
  - change (10 ^ N.of_nat 1)%N with 10%N in HU. destruct (N.ltb_spec n 10) as [L|L]; [|lia].
    rewrite digits_last by lia. cbn [digits app]. rewrite last_digit. reflexivity.
  - destruct HL as [HL|HL]; [discriminate|].
    rewrite Nat2N.inj_succ, N.pow_succ_r' in HL, HU.
    assert (P : (0 < 10 ^ N.of_nat k)%N) by (apply N.neq_0_lt_0, N.pow_nonzero; discriminate).
    destruct (N.ltb_spec n 10) as [L|L]; [lia|].
    rewrite (IH f (n / 10)%N); [|lia| |].
    + rewrite (digits_last (S k)) by lia. rewrite <- app_assoc. cbn [app].
      rewrite N2Z.inj_div, last_digit. reflexivity.
    + apply N.div_lt_upper_bound; [discriminate|].
      rewrite Nat2N.inj_succ, N.pow_succ_r' in HU |- *. exact HU.
    + destruct k as [|k]; [left; reflexivity|right].
      apply N.div_le_lower_bound; [discriminate|].
      rewrite Nat2N.inj_succ, N.pow_succ_r' in HL |- *. exact HL.
Qed.

(** The number of digits. *)
Lemma width_exists : forall w n, (n < 10 ^ N.of_nat (S w))%N ->
  exists k, (k <= w)%nat /\ (n < 10 ^ N.of_nat (S k))%N /\ (k = O \/ (10 ^ N.of_nat k <= n)%N).
Proof.
  induction w as [|w IH]; intros n H.
  - exists O. split; [lia|]. split; [exact H|left; reflexivity].
  - destruct (N.lt_ge_cases n (10 ^ N.of_nat (S w))) as [L|L].
    + destruct (IH n L) as (k & A & B & C). exists k. split; [lia|]. split; assumption.
    + exists (S w). split; [lia|]. split; [exact H|right; exact L].
Qed.

Lemma log2_digits : forall k n, (10 ^ N.of_nat k <= n)%N -> (k <= N.to_nat (N.log2 n))%nat.
Proof.
  intros k n H.
  assert (Q : (2 ^ N.of_nat k <= n)%N).
  { apply (N.le_trans _ (10 ^ N.of_nat k)); [|exact H]. apply N.pow_le_mono_l. discriminate. }
  assert (P : (0 < 2 ^ N.of_nat k)%N) by (apply N.neq_0_lt_0, N.pow_nonzero; discriminate).
  apply N.log2_le_pow2 in Q; lia.
Qed.

Lemma dec_digits : forall k n, (n < 10 ^ N.of_nat (S k))%N -> (k = O \/ (10 ^ N.of_nat k <= n)%N) ->
  dec n = digits (S k) (Z.of_N n).
Proof.
  intros k n HU HL. unfold dec. rewrite (dec_fuel_digits k), app_nil_r; auto; try lia.
  destruct HL as [->|HL]; [lia|]. pose proof (log2_digits k n HL). lia.
Qed.

Lemma digits_length : forall w n, length (digits w n) = w.
Proof. induction w as [|w IH]; intros n; cbn; [reflexivity|]. rewrite IH. reflexivity. Qed.

Lemma digits_pad : forall a k n, 0 <= n < 10 ^ Z.of_nat k ->
  digits (a + k) n = repeat x30 a ++ digits k n.
Proof.
  induction a as [|a IH]; intros k n H; cbn [Nat.add repeat app]; [reflexivity|].
  cbn [digits]. rewrite Z.div_small.
  - f_equal. apply IH. exact H.
  - split; [lia|]. apply (Z.lt_le_trans _ (10 ^ Z.of_nat k)); [lia|].
    apply Z.pow_le_mono_r; lia.
Qed.

Lemma fmt0_digits : forall w n, 0 <= n < 10 ^ Z.of_nat (S w) -> fmt0 (S w) n = digits (S w) n.
Proof.
  intros w n H. unfold fmt0. destruct (Z.ltb_spec n 0) as [L|_]; [lia|].
  assert (HN : (Z.to_N n < 10 ^ N.of_nat (S w))%N).
  { apply N2Z.inj_lt. rewrite Z2N.id, N2Z.inj_pow, nat_N_Z by lia. exact (proj2 H). }
  destruct (width_exists w _ HN) as (k & K1 & K2 & K3).
  rewrite (dec_digits k _ K2 K3), Z2N.id by lia. unfold pad0. rewrite digits_length.
  rewrite <- digits_pad.
  - f_equal. lia.
  - split; [lia|]. apply N2Z.inj_lt in K2. rewrite Z2N.id, N2Z.inj_pow, nat_N_Z in K2 by lia. exact K2.
Qed.

Lemma digit_inj : forall a b, (a < 10)%N -> (b < 10)%N -> digit a = digit b -> a = b.
Proof.
  intros a b HA HB E. unfold digit in E. apply (f_equal b2n) in E.
  rewrite !b2n_n2b in E. rewrite !N.mod_small in E by lia. lia.
Qed.

Lemma digits_inj : forall w a b, 0 <= a < 10 ^ Z.of_nat w -> 0 <= b < 10 ^ Z.of_nat w ->
  digits w a = digits w b -> a = b.
Proof.
  induction w as [|w IH]; intros a b HA HB E.
  - cbn [Z.of_nat] in *. change (10 ^ 0) with 1 in *. lia.
  - rewrite !digits_last in E by lia. apply app_inj_tail in E. destruct E as [E1 E2].
    rewrite Nat2Z.inj_succ, Z.pow_succ_r in HA, HB by lia.
    apply IH in E1.
    + pose proof (Z.mod_pos_bound a 10 ltac:(lia)) as BA. pose proof (Z.mod_pos_bound b 10 ltac:(lia)) as BB.
      apply digit_inj in E2; [|lia|lia].
      apply Z2N.inj in E2; [|lia|lia].
      rewrite (Z.div_mod a 10), (Z.div_mod b 10), E1, E2 by lia. reflexivity.
    + split; [apply Z.div_pos; lia|]. apply Z.div_lt_upper_bound; lia.
    + split; [apply Z.div_pos; lia|]. apply Z.div_lt_upper_bound; lia.
Qed.

(** ** Dates and times of day *)

Lemma date_text_iso : forall t, supported t -> (let '(y, m, d) := t in 1 <= m <= 12 /\ 1 <= d <= 31) ->
  date_text t = iso_date t.
Proof.
  intros [[y m] d] S [HM HD]. cbn [supported] in S. unfold date_text, iso_date.
  rewrite !fmt0_digits by (cbn; lia). reflexivity.
Qed.

Lemma check_ok : forall t t', check_ymd t = Ok t' ->
  t' = t /\ supported t /\ (let '(y, m, d) := t in 1 <= m <= 12 /\ 1 <= d <= 31).
Proof.
  intros [[y m] d] t' H. unfold check_ymd in H.
  destruct (Z.leb_spec 1400 y), (Z.leb_spec y 9999), (Z.leb_spec 1 m), (Z.leb_spec m 12),
      (Z.leb_spec 1 d), (Z.leb_spec d 31); cbn [andb] in H; try discriminate.
  split; [congruence|]. split; [cbn; lia|lia].
Qed.

Lemma iso_date_length : forall t, lenN (iso_date t) = 10%N.
Proof.
  intros [[y m] d]. unfold lenN, iso_date. rewrite !app_length, !digits_length. reflexivity.
Qed.

Lemma iso_time_length : forall us, (lenN (iso_time us) <= 15)%N.
Proof.
  intros us. unfold lenN, iso_time. rewrite !app_length, !digits_length.
  destruct (us mod 1000000 =? 0); [cbn; lia|]. rewrite !app_length, !digits_length. cbn. lia.
Qed.

Lemma date_string : forall g t, date_ymd g = Ok t -> date_to_string g = Ok (iso_date t).
Proof.
  intros g t H. unfold date_to_string. rewrite H. cbn [bind].
  assert (E : date_text t = iso_date t).
  { destruct g as [|n]; cbn [date_ymd] in H; apply check_ok in H; destruct H as (-> & S & R);
      apply date_text_iso; assumption. }
  rewrite E. unfold from_buffer. rewrite iso_date_length. reflexivity.
Qed.

Lemma time_text_iso : forall us, 0 <= us < day_us -> time_text us = iso_time us.
Proof.
  intros us H. unfold time_text, iso_time, td_hours, td_minutes, td_seconds, td_fraction.
  unfold day_us in H.
  rewrite !Z.quot_div_nonneg by lia. rewrite !Z.rem_mod_nonneg by (try apply Z.div_pos; lia).
  assert (A1 : us / (3600 * 1000000) = us / 1000000 / 3600) by (rewrite Z.div_div by lia; f_equal).
  assert (A2 : us / (60 * 1000000) = us / 1000000 / 60) by (rewrite Z.div_div by lia; f_equal).
  rewrite A1, A2. set (s := us / 1000000) in *.
  assert (HS : 0 <= s < 86400).
  { split; [apply Z.div_pos; lia|]. apply Z.div_lt_upper_bound; lia. }
  assert (B1 : 0 <= s / 3600 < 24).
  { split; [apply Z.div_pos; lia|]. apply Z.div_lt_upper_bound; lia. }
  pose proof (Z.mod_pos_bound (s / 60) 60 ltac:(lia)) as B2.
  pose proof (Z.mod_pos_bound s 60 ltac:(lia)) as B3.
  pose proof (Z.mod_pos_bound us 1000000 ltac:(lia)) as B4.
  rewrite !(fmt0_digits 1) by (change (10 ^ Z.of_nat 2) with 100; lia).
  rewrite (fmt0_digits 5) by (change (10 ^ Z.of_nat 6) with 1000000; lia).
  reflexivity.
Qed.

Lemma time_string : forall us, 0 <= us < day_us -> time_to_string (TTicks us) = Ok (iso_time us).
Proof.
  intros us H. unfold time_to_string. cbn [td_ticks]. rewrite time_text_iso by exact H.
  unfold from_buffer. pose proof (iso_time_length us).
  destruct (N.leb_spec (lenN (iso_time us)) 16); [reflexivity|lia].
Qed.

Lemma datetime_string : forall n t us, days_from_1960 n t -> supported t -> 0 <= us < day_us ->
  datetime_to_string (PTicks (jdn_1960 * day_us + n * day_us + us))
  = Ok (iso_date t ++ bs " " ++ iso_time us).
Proof.
  intros n t us D S H. destruct (ticks_date n t us D S H) as (dn & A1 & _ & A3 & A4).
  unfold datetime_to_string. rewrite A1. cbn [bind]. rewrite A3. cbn [bind]. rewrite A4.
  cbn [td_ticks]. rewrite time_text_iso by exact H.
  assert (V : valid_day t) by apply D.
  rewrite date_text_iso; [|exact S|destruct t as [[y m] d]; destruct V; pose proof (days_in_bounds y m); lia].
  unfold from_buffer. change [x20] with (bs " ").
  destruct (N.leb_spec (lenN (iso_date t ++ bs " " ++ iso_time us)) 32) as [L|L]; [reflexivity|exfalso].
  pose proof (iso_date_length t). pose proof (iso_time_length us). unfold lenN in *.
  rewrite !app_length in L. change (length (bs " ")) with 1%nat in L. lia.
Qed.

Lemma column_texts : forall c p,
  (forall g t, c_type c = TDate -> c_get_date c p = Ok g -> date_ymd g = Ok t ->
     c_to_string c p = Ok (iso_date t))
  /\ (forall us, c_type c = TTime -> c_get_time c p = Ok (TTicks us) -> 0 <= us < day_us ->
     c_to_string c p = Ok (iso_time us))
  /\ (forall n t us, c_type c = TDateTime ->
     c_get_datetime c p = Ok (PTicks (jdn_1960 * day_us + n * day_us + us)) ->
     days_from_1960 n t -> supported t -> 0 <= us < day_us ->
     c_to_string c p = Ok (iso_date t ++ bs " " ++ iso_time us)).
Proof.
  intros c p. unfold c_to_string, c_get_date, c_get_time, c_get_datetime, fm_to_string.
  split; [|split].
  - intros g t T G Y. apply (proj1 (proj2 (type_kind c))) in T. rewrite T, G. cbn [bind].
    apply date_string. exact Y.
  - intros us T G H. apply (proj2 (proj2 (type_kind c))) in T. rewrite T, G. cbn [bind].
    apply time_string. exact H.
  - intros n t us T G D S H. apply (proj1 (type_kind c)) in T. rewrite T, G. cbn [bind].
    apply datetime_string; assumption.
Qed.

(** ** Distinct values, distinct texts *)

Lemma app_len_inj : forall (a b c d : bytes), length a = length c -> a ++ b = c ++ d -> a = c /\ b = d.
Proof.
  induction a as [|x a IH]; intros b [|y c] d L E; cbn in *; try discriminate.
  - split; [reflexivity|exact E].
  - injection E as -> E. destruct (IH b c d) as [-> ->]; [lia|exact E|]. split; reflexivity.
Qed.

Lemma iso_date_inj : forall t t', valid_day t -> supported t -> valid_day t' -> supported t' ->
  iso_date t = iso_date t' -> t = t'.
Proof.
  intros [[y m] d] [[y' m'] d'] [V1 V2] S [V1' V2'] S' E. cbn [supported] in *. unfold iso_date in E.
  pose proof (days_in_bounds y m). pose proof (days_in_bounds y' m').
  apply app_len_inj in E; [|rewrite !digits_length; reflexivity]. destruct E as [E1 E].
  apply app_len_inj in E; [|reflexivity]. destruct E as [_ E].
  apply app_len_inj in E; [|rewrite !digits_length; reflexivity]. destruct E as [E2 E].
  apply app_len_inj in E; [|reflexivity]. destruct E as [_ E3].
  apply digits_inj in E1; [|cbn; lia|cbn; lia].
  apply digits_inj in E2; [|cbn; lia|cbn; lia].
  apply digits_inj in E3; [|cbn; lia|cbn; lia]. congruence.
Qed.

Lemma iso_time_inj : forall a b, 0 <= a < day_us -> 0 <= b < day_us -> iso_time a = iso_time b -> a = b.
Proof.
  intros a b HA HB E. unfold day_us, iso_time in *.
  apply app_len_inj in E; [|rewrite !digits_length; reflexivity]. destruct E as [E1 E].
  apply app_len_inj in E; [|reflexivity]. destruct E as [_ E].
  apply app_len_inj in E; [|rewrite !digits_length; reflexivity]. destruct E as [E2 E].
  apply app_len_inj in E; [|reflexivity]. destruct E as [_ E].
  apply app_len_inj in E; [|rewrite !digits_length; reflexivity]. destruct E as [E3 E4].
  set (s := a / 1000000) in *. set (s' := b / 1000000) in *.
  assert (HS : 0 <= s < 86400).
  { split; [apply Z.div_pos; lia|]. apply Z.div_lt_upper_bound; lia. }
  assert (HS' : 0 <= s' < 86400).
  { split; [apply Z.div_pos; lia|]. apply Z.div_lt_upper_bound; lia. }
  assert (B1 : 0 <= s / 3600 < 24).
  { split; [apply Z.div_pos; lia|]. apply Z.div_lt_upper_bound; lia. }
  assert (B1' : 0 <= s' / 3600 < 24).
  { split; [apply Z.div_pos; lia|]. apply Z.div_lt_upper_bound; lia. }
  pose proof (Z.mod_pos_bound (s / 60) 60 ltac:(lia)) as B2.
  pose proof (Z.mod_pos_bound s 60 ltac:(lia)) as B3.
  pose proof (Z.mod_pos_bound a 1000000 ltac:(lia)) as B4.
  pose proof (Z.mod_pos_bound (s' / 60) 60 ltac:(lia)) as B2'.
  pose proof (Z.mod_pos_bound s' 60 ltac:(lia)) as B3'.
  pose proof (Z.mod_pos_bound b 1000000 ltac:(lia)) as B4'.
  apply digits_inj in E1; [|change (10 ^ Z.of_nat 2) with 100; lia|change (10 ^ Z.of_nat 2) with 100; lia].
  apply digits_inj in E2; [|change (10 ^ Z.of_nat 2) with 100; lia|change (10 ^ Z.of_nat 2) with 100; lia].
  apply digits_inj in E3; [|change (10 ^ Z.of_nat 2) with 100; lia|change (10 ^ Z.of_nat 2) with 100; lia].
  assert (ES : s = s').
  { assert (K : forall x, x = 3600 * (x / 3600) + 60 * ((x / 60) mod 60) + x mod 60).
    { intros x. assert (x / 3600 = x / 60 / 60) by (rewrite Z.div_div by lia; reflexivity).
      Z.div_mod_to_equations. lia. }
    rewrite (K s), (K s'), E1, E2, E3. reflexivity. }
  assert (EF : a mod 1000000 = b mod 1000000).
  { destruct (Z.eqb_spec (a mod 1000000) 0) as [Z1|Z1], (Z.eqb_spec (b mod 1000000) 0) as [Z2|Z2];
      try discriminate; [congruence|].
    apply app_len_inj in E4; [|reflexivity]. destruct E4 as [_ E4].
    apply digits_inj in E4; [exact E4| |]; change (10 ^ Z.of_nat 6) with 1000000; lia. }
  unfold s, s' in ES. rewrite (Z.div_mod a 1000000), (Z.div_mod b 1000000), ES, EF by lia. reflexivity.
Qed.

Lemma iso_datetime_inj : forall t us t' us', valid_day t -> supported t -> valid_day t' -> supported t' ->
  0 <= us < day_us -> 0 <= us' < day_us ->
  iso_date t ++ bs " " ++ iso_time us = iso_date t' ++ bs " " ++ iso_time us' -> t = t' /\ us = us'.
Proof.
  intros t us t' us' V S V' S' H H' E.
  apply app_len_inj in E.
  - destruct E as [E1 E]. apply app_len_inj in E; [|reflexivity]. destruct E as [_ E2].
    split; [apply iso_date_inj|apply iso_time_inj]; assumption.
  - pose proof (iso_date_length t) as L. pose proof (iso_date_length t') as L'. unfold lenN in *. lia.
Qed.

(** ** Missing values *)

Lemma missing_texts : forall c p bits, holds_bits c p bits -> double_nan bits ->
  (c_type c = TDate \/ c_type c = TDateTime -> exists e, c_to_string c p = Exn e)
  /\ (c_type c = TTime -> c_to_string c p = Undef UB_oob_read).
Proof.
  intros c p bits H N. split.
  - intros [T|T].
    + destruct (column_date_nan c p bits T H N) as [G _]. apply (proj1 (proj2 (type_kind c))) in T.
      exists E_bad_year.
      unfold c_to_string, fm_to_string. unfold c_get_date in G. rewrite T, G. vm_compute. reflexivity.
    + destruct (column_datetime_nan c p bits T H N) as [G _]. apply (proj1 (type_kind c)) in T.
      exists E_bad_year.
      unfold c_to_string, fm_to_string. unfold c_get_datetime in G. rewrite T, G. vm_compute. reflexivity.
  - intros T. pose proof (column_time_nan c p bits T H N) as G. apply (proj2 (proj2 (type_kind c))) in T.
    unfold c_to_string, fm_to_string. unfold c_get_time in G. rewrite T, G. vm_compute. reflexivity.
Qed.

Lemma missing_date_text : forall c p bits, holds_bits c p bits -> double_nan bits ->
  c_type c = TDate \/ c_type c = TDateTime -> exists e, c_to_string c p = Exn e.
Proof. intros c p bits H N. exact (proj1 (missing_texts c p bits H N)). Qed.

Lemma missing_time_text : forall c p bits, holds_bits c p bits -> double_nan bits ->
  c_type c = TTime -> c_to_string c p = Undef UB_oob_read.
Proof. intros c p bits H N. exact (proj2 (missing_texts c p bits H N)). Qed.

Lemma iso_distinct : forall t us t' us',
  valid_day t -> supported t -> valid_day t' -> supported t' ->
  0 <= us < day_us -> 0 <= us' < day_us ->
  (iso_date t = iso_date t' -> t = t')
  /\ (iso_time us = iso_time us' -> us = us')
  /\ (iso_date t ++ bs " " ++ iso_time us = iso_date t' ++ bs " " ++ iso_time us' -> t = t' /\ us = us').
Proof.
  intros t us t' us' V S V' S' H H'. split; [|split].
  - apply iso_date_inj; assumption.
  - apply iso_time_inj; assumption.
  - apply iso_datetime_inj; assumption.
Qed.
