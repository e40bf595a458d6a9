(** Dates on 3 to 7 bytes: lemmas. *)
From Coq Require Import QArith Qabs Qpower.
From Verif Require Import Base Types Float DateTime Column SpecValues SpecTime SpecShort Lemmas ProofValues ProofRound ProofCalendar
  ProofTime.
Local Open Scope N_scope.

(** ** Bytes *)

Lemma msb_from : forall l a, fold_left (fun acc b => 256 * acc + Byte.to_N b) l a = a * 256 ^ lenN l + value_msb_first l.
Proof.
  unfold value_msb_first. induction l as [|b l IH]; intros a; cbn [fold_left]; [unfold lenN; cbn; lia|].
  rewrite IH, (IH (256 * 0 + Byte.to_N b)). replace (lenN (b :: l)) with (N.succ (lenN l)) by (unfold lenN; cbn [length]; lia).
  rewrite N.pow_succ_r'. lia.
Qed.

Lemma big_join : forall l after, value_of Big (l ++ after) = value_of Big l * 256 ^ lenN after + value_of Big after.
Proof. intros l after. cbn [value_of]. unfold value_msb_first at 1. rewrite fold_left_app, msb_from. reflexivity. Qed.

Lemma little_join : forall l after, value_of Little (l ++ after) = value_of Little l + 256 ^ lenN l * value_of Little after.
Proof.
  cbn [value_of]. unfold value_lsb_first. induction l as [|b l IH]; intros after; cbn [app fold_right]; [unfold lenN; cbn [length N.of_nat]; rewrite N.pow_0_r; lia|].
  rewrite IH. replace (lenN (b :: l)) with (N.succ (lenN l)) by (unfold lenN; cbn [length]; lia).
  rewrite N.pow_succ_r'. lia.
Qed.

Lemma value_below : forall e l, value_of e l < 256 ^ lenN l.
Proof.
  assert (L : forall l, value_lsb_first l < 256 ^ lenN l).
  { unfold value_lsb_first. induction l as [|b l IH]; [reflexivity|]. cbn [fold_right].
    replace (lenN (b :: l)) with (N.succ (lenN l)) by (unfold lenN; cbn [length]; lia). rewrite N.pow_succ_r'.
    pose proof (Byte.to_N_bounded b). lia. }
  intros [] l; cbn [value_of]; [apply L|].
  rewrite value_msb_rev. replace (lenN l) with (lenN (rev l)) by (unfold lenN; rewrite rev_length; reflexivity). apply L.
Qed.

(** ** Doubles *)

(** The double with these parts. *)
Definition parts_value (s ex ma : N) : Q :=
  ((if (s =? 0)%N then 1 else -1)
   * (if (ex =? 0)%N then inject_Z (Z.of_N ma) * (2 # 1) ^ (-1074)
      else inject_Z (Z.of_N (2 ^ 52 + ma)) * (2 # 1) ^ (Z.of_N ex - 1075)))%Q.

(** Its magnitude in units of 2^-1200. *)
Definition parts_units (ex ma : N) : Z :=
  (if (ex =? 0)%N then Z.of_N ma * 2 ^ 126 else (2 ^ 52 + Z.of_N ma) * 2 ^ (Z.of_N ex + 125))%Z.

Lemma parts_scaled : forall s ex ma,
  (parts_value s ex ma * inject_Z U == inject_Z (if (s =? 0)%N then parts_units ex ma else - parts_units ex ma))%Q.
Proof.
  intros s ex ma. unfold parts_value, parts_units.
  assert (H : ((if (ex =? 0)%N then inject_Z (Z.of_N ma) * (2 # 1) ^ (-1074)
      else inject_Z (Z.of_N (2 ^ 52 + ma)) * (2 # 1) ^ (Z.of_N ex - 1075)) * inject_Z U
      == inject_Z (if (ex =? 0)%N then Z.of_N ma * 2 ^ 126 else (2 ^ 52 + Z.of_N ma) * 2 ^ (Z.of_N ex + 125)))%Q).
  { destruct (N.eqb_spec ex 0).
    - rewrite <- Qmult_assoc, pow_scale by lia. rewrite inject_Z_mult. reflexivity.
    - rewrite <- Qmult_assoc, pow_scale by lia. rewrite inject_Z_mult.
      replace (Z.of_N (2 ^ 52 + ma)) with (2 ^ 52 + Z.of_N ma)%Z by (rewrite N2Z.inj_add; reflexivity).
      replace (Z.of_N ex - 1075 + 1200)%Z with (Z.of_N ex + 125)%Z by lia. reflexivity. }
  rewrite <- Qmult_assoc, H. destruct (s =? 0); [apply Qmult_1_l|]. rewrite inject_Z_opp. ring.
Qed.

Lemma units_pos : forall ex ma, (0 <= parts_units ex ma)%Z.
Proof.
  intros ex ma. unfold parts_units. destruct (ex =? 0).
  - apply Z.mul_nonneg_nonneg; [lia|]. apply Z.pow_nonneg. lia.
  - apply Z.mul_nonneg_nonneg; [change (2 ^ 52)%Z with 4503599627370496%Z; lia|]. apply Z.pow_nonneg. lia.
Qed.

Lemma U_q : (0 < inject_Z U)%Q.
Proof. change 0%Q with (inject_Z 0). rewrite <- Zlt_Qlt. exact U_pos. Qed.

(** ** Little-endian: the last byte behind the column is the sign and the exponent *)

Lemma top_small : forall b rest, b < 256 -> b mod 128 <= 61 -> rest < 2 ^ 56 ->
  exists q, double_value (b * 2 ^ 56 + rest) q /\ (Qabs q < 1 # 2 ^ 31)%Q.
Proof.
  intros b rest B T R. set (s := b / 128). set (ex := (b mod 128) * 16 + rest / 2 ^ 52). set (ma := rest mod 2 ^ 52).
  assert (R52 : rest / 2 ^ 52 < 16).
  { apply N.div_lt_upper_bound; [discriminate|]. change (2 ^ 52 * 16) with (2 ^ 56). exact R. }
  assert (M : ma < 2 ^ 52) by (apply N.mod_lt; discriminate).
  assert (EX : ex <= 991) by (unfold ex; lia).
  exists (parts_value s ex ma). split.
  - exists s, ex, ma. split; [apply N.div_lt_upper_bound; lia|]. split; [lia|]. split; [exact M|]. split; [|reflexivity].
    unfold s, ex, ma. pose proof (N.div_mod' b 128) as D1. pose proof (N.div_mod' rest (2 ^ 52)) as D2.
    change (2 ^ 63) with (128 * 16 * 2 ^ 52). change (2 ^ 56) with (16 * 2 ^ 52). set (w := 2 ^ 52) in *. clearbody w. nia.
  - apply (Qmult_lt_r _ _ (inject_Z U) U_q).
    assert (A : (Qabs (parts_value s ex ma) * inject_Z U == inject_Z (parts_units ex ma))%Q).
    { rewrite <- (Qabs_pos (inject_Z U)) at 1 by (apply Qlt_le_weak; exact U_q). rewrite <- Qabs_Qmult, parts_scaled.
      change (Qabs (inject_Z (if s =? 0 then parts_units ex ma else - parts_units ex ma)))
        with (inject_Z (Z.abs (if s =? 0 then parts_units ex ma else - parts_units ex ma))).
      pose proof (units_pos ex ma). replace (Z.abs (if s =? 0 then parts_units ex ma else - parts_units ex ma)) with (parts_units ex ma)
        by (destruct (s =? 0); lia). reflexivity. }
    rewrite A. assert (X : (parts_units ex ma < 2 ^ 1169)%Z).
    { unfold parts_units. assert (MZ : (Z.of_N ma < 2 ^ 52)%Z) by (change (2 ^ 52)%Z with (Z.of_N (2 ^ 52)); lia).
      destruct (N.eqb_spec ex 0) as [->|E].
      - apply Z.lt_le_trans with (2 ^ 52 * 2 ^ 126)%Z; [apply Z.mul_lt_mono_pos_r; [apply Z.pow_pos_nonneg; lia|exact MZ]|].
        rewrite <- Z.pow_add_r by lia. apply Z.pow_le_mono_r; lia.
      - apply Z.lt_le_trans with (2 ^ 53 * 2 ^ (Z.of_N ex + 125))%Z.
        + apply Z.mul_lt_mono_pos_r; [apply Z.pow_pos_nonneg; lia|]. change (2 ^ 53)%Z with (2 ^ 52 + 2 ^ 52)%Z. lia.
        + rewrite <- Z.pow_add_r by lia. apply Z.pow_le_mono_r; lia. }
    assert (E : ((1 # 2 ^ 31) * inject_Z U == inject_Z (2 ^ 1169))%Q).
    { change U with (2 ^ (31 + 1169))%Z. rewrite Z.pow_add_r, inject_Z_mult by lia. rewrite Qmult_assoc.
      rewrite <- (Qmult_1_l (inject_Z (2 ^ 1169))) at 2. apply Qmult_comp; reflexivity. }
    rewrite E. rewrite <- Zlt_Qlt. exact X.
Qed.

Lemma little_bits : forall c p l a b, fm_endian (c_fm c) = Little -> short_cell c p l (a ++ [b]) ->
  exists rest, rest < 2 ^ 56 /\ holds_bits c p (Byte.to_N b * 2 ^ 56 + rest).
Proof.
  intros c p l a b E (L1 & L2 & L3 & H). exists (value_of Little (l ++ a)).
  rewrite lenN_app in L3. change (lenN [b]) with 1 in L3.
  assert (L : lenN (l ++ a) = 7) by (rewrite lenN_app; lia). split.
  - pose proof (value_below Little (l ++ a)) as V. rewrite L in V. exact V.
  - exists (l ++ a ++ [b]). split; [rewrite app_assoc, lenN_app, L; reflexivity|]. split; [exact H|].
    rewrite E, app_assoc, little_join, L. cbn [value_of]. unfold value_lsb_first at 2. cbn [fold_right].
    change (256 ^ 7) with (2 ^ 56). lia.
Qed.

Lemma tiny_nearest : forall q, (Qabs q < 1 # 2 ^ 31)%Q -> nearest q 0.
Proof.
  intros q H. assert (E : (Qabs (inject_Z 0 - q) == Qabs q)%Q).
  { setoid_replace (inject_Z 0 - q)%Q with (- q)%Q by (unfold inject_Z; ring). apply Qabs_opp. }
  split; rewrite E.
  - apply Qlt_le_weak. eapply Qlt_trans; [exact H|]. reflexivity.
  - intros K. rewrite K in H. discriminate H.
Qed.

Lemma tiny_time : forall q t, (Qabs q < 1 # 2 ^ 31)%Q ->
  (Qabs (inject_Z t - inject_Z 1000000 * q) <= (1 # 2) + (1 # 2 ^ 35))%Q -> t = 0%Z.
Proof.
  intros q t H D.
  assert (A : (Qabs (inject_Z t) <= (1 # 2) + (1 # 2 ^ 35) + (1000000 # 2 ^ 31))%Q).
  { setoid_replace (inject_Z t) with ((inject_Z t - inject_Z 1000000 * q) + inject_Z 1000000 * q)%Q by ring.
    eapply Qle_trans; [apply Qabs_triangle|]. apply Qplus_le_compat; [exact D|].
    rewrite Qabs_Qmult. setoid_replace (1000000 # 2 ^ 31)%Q with (inject_Z 1000000 * (1 # 2 ^ 31))%Q by reflexivity.
    change (Qabs (inject_Z 1000000)) with (inject_Z 1000000).
    rewrite (Qmult_comm _ (Qabs q)), (Qmult_comm _ (1 # 2 ^ 31)). apply Qmult_le_compat_r; [apply Qlt_le_weak; exact H|discriminate]. }
  assert (B : (Qabs (inject_Z t) < inject_Z 1)%Q) by (eapply Qle_lt_trans; [exact A|reflexivity]).
  change (Qabs (inject_Z t)) with (inject_Z (Z.abs t)) in B. rewrite <- Zlt_Qlt in B. lia.
Qed.

Lemma day_zero : days_from_1960 0 (1960, 1, 1)%Z.
Proof. split; [cbn; lia|]. split; [reflexivity|lia]. Qed.

Lemma short_little : forall c p l a b, fm_endian (c_fm c) = Little -> short_cell c p l (a ++ [b]) ->
  Byte.to_N b mod 128 <= 61 ->
  (c_type c = TDate -> exists g, c_get_date c p = Ok g /\ date_ymd g = Ok (1960, 1, 1)%Z)
  /\ (c_type c = TDateTime -> c_get_datetime c p = Ok (PTicks (jdn_1960 * day_us)))
  /\ (c_type c = TTime -> c_get_time c p = Ok (TTicks 0)).
Proof.
  intros c p l a b E H B. destruct (little_bits c p l a b E H) as (rest & R & HB).
  destruct (top_small (Byte.to_N b) rest) as (q & DV & Q); [pose proof (Byte.to_N_bounded b); lia|exact B|exact R|].
  split; [|split]; intros T.
  - apply (proj1 (column_date c p _ q 0 (1960, 1, 1)%Z T HB DV (tiny_nearest q Q) day_zero ltac:(cbn; lia))).
  - destruct (column_datetime c p _ q T HB DV) as (t & G & D & _).
    { eapply Qlt_trans; [exact Q|reflexivity]. }
    rewrite (tiny_time q t Q D), Z.add_0_r in G. exact G.
  - destruct (column_time_mod c p _ q T HB DV) as (t & G & D & _).
    { eapply Qlt_trans; [exact Q|reflexivity]. }
    rewrite (tiny_time q t Q D) in G. exact G.
Qed.

(** ** Big-endian: what is behind the column is the end of the fraction *)

Lemma units_more : forall ex ma r, (parts_units ex (ma + r) - parts_units ex ma
  = Z.of_N r * 2 ^ (if (ex =? 0)%N then 126 else Z.of_N ex + 125))%Z.
Proof. intros ex ma r. unfold parts_units. rewrite N2Z.inj_add. destruct (ex =? 0); ring. Qed.

Lemma close_value : forall s ex ma k r n, ex < 2047 -> ma < 2 ^ 52 -> 3 <= k < 8 -> r < 256 ^ (8 - k) ->
  (parts_value s ex ma == inject_Z n)%Q -> (Z.abs n < 2 ^ (8 * Z.of_N k - 12))%Z ->
  nearest (parts_value s ex (ma + r)) n.
Proof.
  intros s ex ma k r n EX M K R V B.
  set (X := parts_units ex ma). set (X' := parts_units ex (ma + r)).
  assert (P0 : (0 <= X)%Z) by apply units_pos.
  assert (XN : X = (Z.abs n * U)%Z).
  { pose proof (parts_scaled s ex ma) as S1. rewrite V in S1. rewrite <- inject_Z_mult in S1. apply (proj1 (inject_Z_injective _ _)) in S1.
    fold X in S1. pose proof U_pos as UP. rewrite <- (Z.abs_eq U) at 1 by lia. rewrite <- Z.abs_mul, S1. destruct (s =? 0); lia. }
  assert (RZ : (Z.of_N r < 2 ^ (64 - 8 * Z.of_N k))%Z).
  { replace (2 ^ (64 - 8 * Z.of_N k))%Z with (Z.of_N (256 ^ (8 - k))); [lia|].
    change 256 with (2 ^ 8). rewrite <- N.pow_mul_r, N2Z.inj_pow. f_equal. lia. }
  assert (D : (2 * (X' - X) < U)%Z).
  { unfold X, X'. rewrite units_more. change U with (2 ^ 1200)%Z. destruct (N.eqb_spec ex 0) as [E|E].
    - assert (Z.of_N r * 2 ^ 126 < 2 ^ 1199)%Z; [|change (2 ^ 1200)%Z with (2 * 2 ^ 1199)%Z; lia].
      apply Z.lt_le_trans with (2 ^ (64 - 8 * Z.of_N k) * 2 ^ 126)%Z;
        [apply Z.mul_lt_mono_pos_r; [apply Z.pow_pos_nonneg; lia|exact RZ]|].
      rewrite <- Z.pow_add_r by lia. apply Z.pow_le_mono_r; lia.
    - assert (EB : (Z.of_N ex + 177 < 8 * Z.of_N k + 1188)%Z).
      { apply (Z.pow_lt_mono_r_iff 2); [lia|lia|]. apply Z.le_lt_trans with X.
        - unfold X, parts_units. destruct (N.eqb_spec ex 0); [contradiction|].
          replace (Z.of_N ex + 177)%Z with (52 + (Z.of_N ex + 125))%Z by lia. rewrite Z.pow_add_r by lia.
          apply Z.mul_le_mono_nonneg_r; [apply Z.pow_nonneg; lia|lia].
        - rewrite XN. replace (8 * Z.of_N k + 1188)%Z with (8 * Z.of_N k - 12 + 1200)%Z by lia. rewrite Z.pow_add_r by lia.
          change (2 ^ 1200)%Z with U. apply Z.mul_lt_mono_pos_r; [exact U_pos|exact B]. }
      assert (Z.of_N r * 2 ^ (Z.of_N ex + 125) < 2 ^ 1199)%Z; [|change (2 ^ 1200)%Z with (2 * 2 ^ 1199)%Z; lia].
      apply Z.lt_le_trans with (2 ^ (64 - 8 * Z.of_N k) * 2 ^ (Z.of_N ex + 125))%Z;
        [apply Z.mul_lt_mono_pos_r; [apply Z.pow_pos_nonneg; lia|exact RZ]|].
      rewrite <- Z.pow_add_r by lia. apply Z.pow_le_mono_r; lia. }
  assert (D0 : (0 <= X' - X)%Z).
  { unfold X, X'. rewrite units_more. apply Z.mul_nonneg_nonneg; [lia|]. apply Z.pow_nonneg. lia. }
  assert (A : (Qabs (inject_Z n - parts_value s ex (ma + r)) * inject_Z U == inject_Z (X' - X))%Q).
  { rewrite <- (Qabs_pos (inject_Z U)) at 1 by (apply Qlt_le_weak; exact U_q). rewrite <- Qabs_Qmult.
    setoid_replace ((inject_Z n - parts_value s ex (ma + r)) * inject_Z U)%Q
      with (inject_Z n * inject_Z U - parts_value s ex (ma + r) * inject_Z U)%Q by ring.
    rewrite <- V, !parts_scaled. fold X X'. unfold Qminus. rewrite <- inject_Z_opp, <- inject_Z_plus.
    change (Qabs (inject_Z ((if (s =? 0)%N then X else - X) + - (if (s =? 0)%N then X' else - X'))))
      with (inject_Z (Z.abs ((if (s =? 0)%N then X else - X) + - (if (s =? 0)%N then X' else - X')))).
    replace (Z.abs ((if (s =? 0)%N then X else - X) + - (if (s =? 0)%N then X' else - X')))%Z with (X' - X)%Z by (destruct (s =? 0); lia).
    reflexivity. }
  assert (L : (Qabs (inject_Z n - parts_value s ex (ma + r)) < 1 # 2)%Q).
  { apply (Qmult_lt_r _ _ (inject_Z U) U_q). rewrite A. unfold Qlt, Qmult, inject_Z. cbn [Qnum Qden]. rewrite Pos.mul_1_r. lia. }
  split; [apply Qlt_le_weak; exact L|]. intros Q. rewrite Q in L. discriminate L.
Qed.

Lemma short_big : forall c p l after n t, c_type c = TDate -> fm_endian (c_fm c) = Big -> short_cell c p l after ->
  double_value (short_bits Big l) (inject_Z n) -> (Z.abs n < 2 ^ (8 * Z.of_N (lenN l) - 12))%Z ->
  days_from_1960 n t -> supported t ->
  exists g, c_get_date c p = Ok g /\ date_ymd g = Ok t.
Proof.
  intros c p l after n t T E (L1 & L2 & L3 & H) (s & ex & ma & S1 & X1 & M1 & BE & V) B D S.
  assert (LA : lenN after = 8 - lenN l) by lia.
  set (w := 256 ^ (8 - lenN l)) in *. set (r := value_of Big after).
  assert (R : r < w) by (unfold r, w; rewrite <- LA; apply value_below).
  assert (W0 : 0 < w) by (unfold w; apply N.neq_0_lt_0, N.pow_nonzero; discriminate).
  assert (WD : exists v, 2 ^ 52 = v * w).
  { exists (2 ^ (52 - 8 * (8 - lenN l))). unfold w. change 256 with (2 ^ 8). rewrite <- N.pow_mul_r, <- N.pow_add_r. f_equal. lia. }
  destruct WD as [v WD].
  assert (MR : ma + r < 2 ^ 52).
  { unfold short_bits in BE. fold w in BE.
    assert (MM : ma mod w = 0).
    { assert (Z0 : (s * 2 ^ 63 + ex * 2 ^ 52 + ma) mod w = 0) by (rewrite <- BE; apply N.mod_mul; lia).
      replace (s * 2 ^ 63 + ex * 2 ^ 52 + ma) with (ma + (s * 2048 + ex) * v * w) in Z0
        by (change (2 ^ 63) with (2048 * 2 ^ 52); rewrite WD; lia).
      rewrite N.mod_add in Z0 by lia. exact Z0. }
    pose proof (N.div_mod' ma w) as DM. rewrite MM in DM. rewrite WD in M1 |- *. set (u := ma / w) in *.
    assert (u < v) by nia. nia. }
  refine (proj1 (column_date c p (short_bits Big l + r) (parts_value s ex (ma + r)) n t T _ _ _ D S)).
  - exists (l ++ after). split; [rewrite lenN_app; lia|]. split; [exact H|]. rewrite E, big_join, LA. reflexivity.
  - exists s, ex, (ma + r). split; [exact S1|]. split; [exact X1|]. split; [exact MR|]. split; [rewrite BE; lia|reflexivity].
  - apply (close_value s ex ma (lenN l)); auto. rewrite V. reflexivity.
Qed.
