(** Properties C50, C51, C52, C53, C54, C55: dates, times and their texts. *)
From Coq Require Import QArith Qabs.
From Verif Require Import Base Types DateTime Column SpecValues SpecTime ProofCalendar ProofTime ProofText.
Local Open Scope Z_scope.

(** A column of 8 bytes and a row that holds the given bits in it. *)
Definition the_column (k : fkind) : column := Column (bs "x") [] [] (Formatter k 1 8 Big).
Definition the_row (bits : N) : pview := PView (Some x00 :: map Some (write_int Big 8 bits)) 0.

Lemma the_row_holds : forall k bits, (bits < 2 ^ 64)%N -> holds_bits (the_column k) (the_row bits) bits.
Proof.
  intros k bits H. exists (write_int Big 8 bits). split; [reflexivity|]. split.
  - exists [Some x00], []. split; [cbn [the_row pv_mem]; rewrite app_nil_r; reflexivity|reflexivity].
  - rewrite <- ProofValues.get_val_value. apply ProofValues.get_val_write. exact H.
Qed.

(** C50. A datetime of q seconds: 1960-01-01 plus t microseconds, t being 10^6 q
    up to half a microsecond and 2^-35, exactly when q is an integer.  (The full
    claim, that t is 10^6 q rounded to the nearest, is refuted below: the last product
    is rounded before it is rounded to an integer.) *)
Theorem C50_datetime_partial : forall c p bits q,
  c_type c = TDateTime -> holds_bits c p bits ->
  double_value bits q -> (Qabs q < inject_Z (2 ^ 42))%Q ->
  exists t, c_get_datetime c p = Ok (PTicks (jdn_1960 * day_us + t))
    /\ (Qabs (inject_Z t - inject_Z 1000000 * q) <= (1 # 2) + (1 # 2 ^ 35))%Q
    /\ (forall n, (q == inject_Z n)%Q -> t = 1000000 * n).
Proof. exact column_datetime. Qed.
Print Assumptions C50_datetime_partial.

(** C50. 2020-01-01 00:00:00.25 is 1893456000.25 seconds. *)
Example C50_datetime_case :
  double_value 4745728538069434368 (7573824001 # 4)
  /\ c_get_datetime (the_column FDateTime) (the_row 4745728538069434368)
     = Ok (PTicks (jdn_1960 * day_us + 1893456000250000)).
Proof.
  split; [|vm_compute; reflexivity].
  exists 0%N, 1053%N, 3438130448302080%N. repeat split; vm_compute; reflexivity.
Qed.

(** C50. A datetime slightly under half a microsecond is returned as one
    microsecond. *)
Theorem C50_nearest_refuted : exists c p bits q t,
  c_type c = TDateTime /\ holds_bits c p bits /\ double_value bits q
  /\ (Qabs q < inject_Z (2 ^ 42))%Q
  /\ c_get_datetime c p = Ok (PTicks (jdn_1960 * day_us + t))
  /\ ~ nearest (inject_Z 1000000 * q) t.
Proof.
  exists (the_column FDateTime), (the_row 4512825593480736141), 4512825593480736141%N,
    (inject_Z (2 ^ 52 + 218766855499149) * (2 # 1) ^ (-73))%Q, 1.
  split; [reflexivity|]. split; [apply the_row_holds; reflexivity|].
  split; [exists 0%N, 1002%N, 218766855499149%N; repeat split; vm_compute; reflexivity|].
  split; [vm_compute; reflexivity|]. split; [vm_compute; reflexivity|].
  intros [H _]. apply Qle_not_lt in H. apply H. vm_compute. reflexivity.
Qed.
Print Assumptions C50_nearest_refuted.

(** C50. NaN is the missing datetime. *)
Theorem C50_missing : forall c p bits, c_type c = TDateTime -> holds_bits c p bits ->
  double_nan bits ->
  c_get_datetime c p = Ok NotADateTime /\ c_get_date c p = Ok NotADate /\ c_get_time c p = Ok NotATime.
Proof. exact column_datetime_nan. Qed.
Print Assumptions C50_missing.

(** The SAS missing value "." . *)
Lemma dot_nan : double_nan 18446741874686296064.
Proof. exists 1%N, 4501400604114944%N. repeat split; vm_compute; reflexivity. Qed.

Example C50_missing_case :
  c_get_datetime (the_column FDateTime) (the_row 18446741874686296064) = Ok NotADateTime.
Proof.
  apply (C50_missing _ _ 18446741874686296064);
    [reflexivity|apply the_row_holds; reflexivity|exact dot_nan].
Qed.

(** C50. The date and the time of day of a datetime column are those of its
    datetime. *)
Theorem C50_date_and_time : forall c p n t us, c_type c = TDateTime ->
  c_get_datetime c p = Ok (PTicks (jdn_1960 * day_us + n * day_us + us)) ->
  days_from_1960 n t -> supported t -> 0 <= us < day_us ->
  (exists g, c_get_date c p = Ok g /\ date_ymd g = Ok t) /\ c_get_time c p = Ok (TTicks us).
Proof. exact column_datetime_parts. Qed.
Print Assumptions C50_date_and_time.

Lemma day_2020 : days_from_1960 21915 (2020, 1, 1).
Proof. apply days_from_jdn; [cbn; lia|cbn; lia|vm_compute; reflexivity]. Qed.

Example C50_date_and_time_case :
  (exists g, c_get_date (the_column FDateTime) (the_row 4745728538069434368) = Ok g
             /\ date_ymd g = Ok (2020, 1, 1))
  /\ c_get_time (the_column FDateTime) (the_row 4745728538069434368) = Ok (TTicks 250000).
Proof.
  apply (C50_date_and_time _ _ 21915 (2020, 1, 1) 250000);
    [reflexivity|vm_compute; reflexivity|exact day_2020|cbn; lia|unfold day_us; lia].
Qed.

(** C51. A date of q days: the Gregorian date n days after 1960-01-01, n being the
    nearest integer; as a datetime, its midnight. *)
Theorem C51_date : forall c p bits q n t, c_type c = TDate -> holds_bits c p bits ->
  double_value bits q -> nearest q n -> days_from_1960 n t -> supported t ->
  (exists g, c_get_date c p = Ok g /\ date_ymd g = Ok t)
  /\ c_get_datetime c p = Ok (PTicks (jdn_1960 * day_us + n * day_us)).
Proof. exact column_date. Qed.
Print Assumptions C51_date.

(** 19359.5 days: half a day is rounded up, to 2013-01-02. *)
Example C51_date_case :
  exists g, c_get_date (the_column FDate) (the_row 4671050712795316224) = Ok g
            /\ date_ymd g = Ok (2013, 1, 2).
Proof.
  apply (C51_date _ _ 4671050712795316224 (38719 # 2) 19360 (2013, 1, 2)).
  - reflexivity.
  - apply the_row_holds. reflexivity.
  - exists 0%N, 1037%N, 817899212111872%N. repeat split; vm_compute; reflexivity.
  - split; [vm_compute; discriminate|]. intros _. vm_compute. reflexivity.
  - apply days_from_jdn; [cbn; lia|cbn; lia|vm_compute; reflexivity].
  - cbn. lia.
Qed.

(** C51. The numbers of days that have a date are these, and the date after is the
    next day of the calendar. *)
Theorem C51_range : forall n, -204535 <= n <= 2936549 <->
  exists t, days_from_1960 n t /\ supported t.
Proof. exact every_day. Qed.
Print Assumptions C51_range.

Theorem C51_next_day : forall n t t', supported t -> supported t' ->
  days_from_1960 n t -> days_from_1960 (n + 1) t' -> t' = next_day t.
Proof. exact calendar_steps. Qed.
Print Assumptions C51_next_day.

Example C51_next_day_case :
  next_day (1960, 2, 28) = (1960, 2, 29) /\ next_day (1900, 2, 28) = (1900, 3, 1)
  /\ next_day (2000, 2, 29) = (2000, 3, 1) /\ next_day (1959, 12, 31) = (1960, 1, 1).
Proof. vm_compute. repeat split. Qed.

(** C51. The missing date. *)
Theorem C51_missing : forall c p bits, c_type c = TDate -> holds_bits c p bits ->
  double_nan bits -> c_get_date c p = Ok NotADate /\ c_get_datetime c p = Ok NotADateTime.
Proof. exact column_date_nan. Qed.
Print Assumptions C51_missing.

Example C51_missing_case :
  c_get_date (the_column FDate) (the_row 18446741874686296064) = Ok NotADate.
Proof.
  apply (C51_missing _ _ 18446741874686296064);
    [reflexivity|apply the_row_holds; reflexivity|exact dot_nan].
Qed.

(** C52. A time from midnight to midnight. *)
Theorem C52_time_of_day_partial : forall c p bits q, c_type c = TTime -> holds_bits c p bits ->
  double_value bits q -> (0 <= q)%Q -> (q + (1 # 2 ^ 20) <= 86400)%Q ->
  exists t, c_get_time c p = Ok (TTicks t)
    /\ 0 <= t < day_us
    /\ (Qabs (inject_Z t - inject_Z 1000000 * q) <= (1 # 2) + (1 # 2 ^ 35))%Q
    /\ (forall n, (q == inject_Z n)%Q -> t = 1000000 * n).
Proof. exact column_time. Qed.
Print Assumptions C52_time_of_day_partial.

Example C52_time_of_day_case :
  double_value 4660135998305337344 (7201 # 2)
  /\ c_get_time (the_column FTime) (the_row 4660135998305337344) = Ok (TTicks 3600500000).
Proof.
  split; [|vm_compute; reflexivity].
  exists 0%N, 1034%N, 3413983604244480%N. repeat split; vm_compute; reflexivity.
Qed.

(** C52. What is returned for any number of seconds: the duration modulo one day.
    (The full claim is that it is the duration.) *)
Theorem C52_modulo_partial : forall c p bits q, c_type c = TTime -> holds_bits c p bits ->
  double_value bits q -> (Qabs q < inject_Z (2 ^ 37))%Q ->
  exists t, c_get_time c p = Ok (TTicks (t mod day_us))
    /\ (Qabs (inject_Z t - inject_Z 1000000 * q) <= (1 # 2) + (1 # 2 ^ 35))%Q
    /\ (forall n, (q == inject_Z n)%Q -> t = 1000000 * n).
Proof. exact column_time_mod. Qed.
Print Assumptions C52_modulo_partial.

(** C52. 25 hours are returned as one hour, -1 second as 23:59:59. *)
Theorem C52_duration_refuted : exists c p p' bits bits' t t',
  c_type c = TTime /\ holds_bits c p bits /\ holds_bits c p' bits'
  /\ double_value bits 90000 /\ double_value bits' (-1)
  /\ c_get_time c p = Ok (TTicks t) /\ t <> 1000000 * 90000
  /\ c_get_time c p' = Ok (TTicks t') /\ t' <> 1000000 * -1.
Proof.
  exists (the_column FTime), (the_row 4680921166116814848), (the_row 13830554455654793216),
    4680921166116814848%N, 13830554455654793216%N, 3600000000, 86399000000.
  split; [reflexivity|]. split; [apply the_row_holds; reflexivity|].
  split; [apply the_row_holds; reflexivity|].
  split; [exists 0%N, 1039%N, 1681153278869504%N; repeat split; vm_compute; reflexivity|].
  split; [exists 1%N, 1023%N, 0%N; repeat split; vm_compute; reflexivity|].
  split; [vm_compute; reflexivity|]. split; [lia|]. split; [vm_compute; reflexivity|lia].
Qed.
Print Assumptions C52_duration_refuted.

(** C53. Every date of the years 0-1399 and 10000-20000 kills the process: get_date
    is noexcept and the date library throws. *)
Theorem C53_unsupported_years : forall c p bits q n t, c_type c = TDate -> holds_bits c p bits ->
  double_value bits q -> nearest q n -> days_from_1960 n t ->
  (let '(y, _, _) := t in 0 <= y <= 20000) ->
  ~ supported t -> c_get_date c p = Abort.
Proof. exact column_date_abort_full. Qed.
Print Assumptions C53_unsupported_years.

Lemma int_double : forall b n, double_value b (inject_Z n) -> nearest (inject_Z n) n.
Proof.
  intros b n _. assert (E : (Qabs (inject_Z n - inject_Z n) == 0)%Q).
  { setoid_replace (inject_Z n - inject_Z n)%Q with 0%Q by ring. reflexivity. }
  split; rewrite E; [discriminate|]. intros K. discriminate K.
Qed.

Lemma value_2936550 : double_value 4703560604453961728 (inject_Z 2936550).
Proof. exists 0%N, 1044%N, 1802593479163904%N. repeat split; vm_compute; reflexivity. Qed.

Theorem C53_reported_refuted : exists c p bits q n,
  c_type c = TDate /\ holds_bits c p bits /\ double_value bits q /\ nearest q n
  /\ c_get_date c p = Abort.
Proof.
  exists (the_column FDate), (the_row 4703560604453961728), 4703560604453961728%N,
    (inject_Z 2936550), 2936550.
  split; [reflexivity|]. split; [apply the_row_holds; reflexivity|].
  split; [exact value_2936550|]. split; [apply (int_double _ _ value_2936550)|].
  vm_compute. reflexivity.
Qed.
Print Assumptions C53_reported_refuted.

(** C53. A year above 65535 is cut to 16 bits: the first day of the year 66936 is
    returned as the first day of 1400, without any error. *)
Theorem C53_wrong_date_refuted : exists c p bits q n g t,
  c_type c = TDate /\ holds_bits c p bits /\ double_value bits q /\ nearest q n
  /\ c_get_date c p = Ok g /\ date_ymd g = Ok t /\ ~ days_from_1960 n t.
Proof.
  exists (the_column FDate), (the_row 4717135719666024448), 4717135719666024448%N,
    (inject_Z 23731997), 23731997, (GDate 2232400), (1400, 1, 1).
  assert (V : double_value 4717135719666024448 (inject_Z 23731997)).
  { exists 0%N, 1047%N, 1866909809115136%N. repeat split; vm_compute; reflexivity. }
  split; [reflexivity|]. split; [apply the_row_holds; reflexivity|].
  split; [exact V|]. split; [apply (int_double _ _ V)|].
  split; [vm_compute; reflexivity|]. split; [vm_compute; reflexivity|].
  intros D. apply days_from_jdn in D; [|cbn; lia|cbn; lia]. vm_compute in D. discriminate D.
Qed.
Print Assumptions C53_wrong_date_refuted.

(** C53. What holds: missing values and the supported years give no error. *)
Theorem C53_supported_partial : forall c p bits, c_type c = TDate -> holds_bits c p bits ->
  double_nan bits \/ (exists q n, double_value bits q /\ nearest q n /\ -204535 <= n <= 2936549) ->
  exists g, c_get_date c p = Ok g.
Proof. exact column_date_ok. Qed.
Print Assumptions C53_supported_partial.

(** C54. The texts are the zero padded ISO texts (10, at most 15 and at most 26
    characters, in buffers of 16, 16 and 32). *)
Theorem C54_text : forall c p,
  (forall g t, c_type c = TDate -> c_get_date c p = Ok g -> date_ymd g = Ok t ->
     c_to_string c p = Ok (iso_date t))
  /\ (forall us, c_type c = TTime -> c_get_time c p = Ok (TTicks us) -> 0 <= us < day_us ->
     c_to_string c p = Ok (iso_time us))
  /\ (forall n t us, c_type c = TDateTime ->
     c_get_datetime c p = Ok (PTicks (jdn_1960 * day_us + n * day_us + us)) ->
     days_from_1960 n t -> supported t -> 0 <= us < day_us ->
     c_to_string c p = Ok (iso_date t ++ bs " " ++ iso_time us)).
Proof. exact column_texts. Qed.
Print Assumptions C54_text.

Example C54_text_case :
  iso_date (2013, 1, 2) = bs "2013-01-02" /\ iso_time 3600500000 = bs "01:00:00.500000"
  /\ iso_time 86399000000 = bs "23:59:59"
  /\ c_to_string (the_column FDate) (the_row 4671050712795316224) = Ok (bs "2013-01-02")
  /\ c_to_string (the_column FTime) (the_row 4660135998305337344) = Ok (bs "01:00:00.500000")
  /\ c_to_string (the_column FDateTime) (the_row 4745728538069434368)
     = Ok (bs "2020-01-01 00:00:00.250000").
Proof. vm_compute. repeat split. Qed.

(** C54. Distinct values, distinct texts. *)
Theorem C54_distinct : forall t us t' us',
  valid_day t -> supported t -> valid_day t' -> supported t' ->
  0 <= us < day_us -> 0 <= us' < day_us ->
  (iso_date t = iso_date t' -> t = t')
  /\ (iso_time us = iso_time us' -> us = us')
  /\ (iso_date t ++ bs " " ++ iso_time us = iso_date t' ++ bs " " ++ iso_time us' -> t = t' /\ us = us').
Proof. exact iso_distinct. Qed.
Print Assumptions C54_distinct.

(** C55. Printing a missing date or datetime throws ... *)
Theorem C55_dates_partial : forall c p bits, holds_bits c p bits -> double_nan bits ->
  c_type c = TDate \/ c_type c = TDateTime -> exists e, c_to_string c p = Exn e.
Proof. exact missing_date_text. Qed.
Print Assumptions C55_dates_partial.

(** C55. ... and printing a missing time reads outside its buffer, always. *)
Theorem C55_missing_time : forall c p bits, holds_bits c p bits -> double_nan bits ->
  c_type c = TTime -> c_to_string c p = Undef UB_oob_read.
Proof. exact missing_time_text. Qed.
Print Assumptions C55_missing_time.

Theorem C55_safe_refuted : exists c p bits, c_type c = TTime /\ holds_bits c p bits /\ double_nan bits
  /\ c_to_string c p = Undef UB_oob_read.
Proof.
  exists (the_column FTime), (the_row 18446741874686296064), 18446741874686296064%N.
  split; [reflexivity|]. split; [apply the_row_holds; reflexivity|]. split; [exact dot_nan|].
  vm_compute. reflexivity.
Qed.
Print Assumptions C55_safe_refuted.
