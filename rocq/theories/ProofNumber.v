(** The texts of integers and numbers. *)
From Coq Require Import QArith Qabs Qpower Lqa Floats.SpecFloat.
From Verif Require Import Base Types Float DateTime Column Lemmas SpecValues SpecTime SpecSinks SpecNumber
  ProofRound ProofTime ProofText ProofCsv.
Local Open Scope Z_scope.

(** ** Integers *)

Lemma digit_zero : forall n, (n < 10)%N -> digit n = x30 -> n = 0%N.
Proof. intros n H E. apply digit_inj; [exact H|reflexivity|exact E]. Qed.

Lemma digits_head : forall k z, 0 <= z ->
  digits (S k) z = digit (Z.to_N (z / 10 ^ Z.of_nat k mod 10)) :: digits k z.
Proof.
  intros k z H. cbn [digits]. f_equal. unfold digit.
  pose proof (Z.mod_pos_bound (z / 10 ^ Z.of_nat k) 10 eq_refl).
  rewrite Z2N.inj_add by lia. reflexivity.
Qed.

Lemma dec_short : forall n r, dec n = x30 :: r -> dec n = [x30].
Proof.
  intros n r E.
  assert (W : (n < 10 ^ N.of_nat (S (N.to_nat n)))%N).
  { apply (N.lt_le_trans _ (2 ^ N.of_nat (S (N.to_nat n)))).
    - replace (N.of_nat (S (N.to_nat n))) with (N.succ n) by lia.
      apply (N.lt_trans _ (N.succ n)); [lia|]. apply N.pow_gt_lin_r. lia.
    - apply N.pow_le_mono_l. lia. }
  destruct (width_exists _ _ W) as (k & _ & K1 & K2).
  rewrite (dec_digits k n K1 K2) in *. destruct k as [|k].
  - rewrite digits_head in E by lia. apply (f_equal (hd x00)) in E. cbn [hd] in E. rewrite digits_head by lia.
    rewrite E. reflexivity.
  - destruct K2 as [K2|K2]; [discriminate|].
    rewrite digits_head in E by lia. apply (f_equal (hd x00)) in E. cbn [hd] in E. exfalso.
    assert (P : 0 < 10 ^ Z.of_nat (S k)) by (apply Z.pow_pos_nonneg; lia).
    assert (L : 10 ^ Z.of_nat (S k) <= Z.of_N n).
    { rewrite <- nat_N_Z. change 10 with (Z.of_N 10). rewrite <- N2Z.inj_pow. lia. }
    assert (U : Z.of_N n < 10 * 10 ^ Z.of_nat (S k)).
    { rewrite <- Z.pow_succ_r by lia. rewrite <- Nat2Z.inj_succ, <- nat_N_Z.
      change 10 with (Z.of_N 10). rewrite <- N2Z.inj_pow. lia. }
    assert (D1 : 1 <= Z.of_N n / 10 ^ Z.of_nat (S k)) by (apply Z.div_le_lower_bound; lia).
    assert (D2 : Z.of_N n / 10 ^ Z.of_nat (S k) < 10) by (apply Z.div_lt_upper_bound; lia).
    rewrite Z.mod_small in E by lia. apply digit_zero in E; lia.
Qed.

Lemma dec_Z_short : forall z, short_decimal (dec_Z z) z.
Proof.
  intros z. split; [apply dec_Z_decimal|]. intros r H. unfold dec_Z in *.
  destruct (Z.ltb_spec z 0) as [L|L].
  - destruct H as [H|H]; [discriminate H|]. injection H as H.
    pose proof (dec_value (Z.to_N (- z))) as [_ V]. rewrite (dec_short _ _ H) in V.
    cbn in V. injection V as V. lia.
  - destruct H as [H|H]; [apply (dec_short _ _ H)|].
    pose proof (dec_value (Z.to_N z)) as [_ V]. rewrite H in V. discriminate V.
Qed.

Lemma digits_low : forall k j x y, (j <= k)%nat -> 0 <= x -> 0 <= y ->
  digits j (x * 10 ^ Z.of_nat k + y) = digits j y.
Proof.
  intros k j x y J X Y. pose proof (Z.pow_pos_nonneg 10 (Z.of_nat k) eq_refl ltac:(lia)) as P.
  induction j as [|j IH]; [reflexivity|].
  rewrite !digits_head by nia. rewrite IH by lia. f_equal. f_equal. f_equal.
  replace (Z.of_nat k) with (Z.of_nat (k - j) + Z.of_nat j) by lia.
  rewrite Z.pow_add_r, Z.mul_assoc by lia.
  rewrite Z.div_add_l by (pose proof (Z.pow_pos_nonneg 10 (Z.of_nat j)); lia).
  rewrite <- Z.add_mod_idemp_l by lia.
  replace (x * 10 ^ Z.of_nat (k - j)) with (x * 10 ^ Z.of_nat (k - j - 1) * 10).
  - rewrite Z.mod_mul by lia. reflexivity.
  - rewrite <- Z.mul_assoc, (Z.mul_comm _ 10), <- Z.pow_succ_r by lia. do 2 f_equal. lia.
Qed.

(** A short decimal text is unique. *)
Lemma digits_value_bytes : forall t acc v, digits_value acc t = Some v ->
  0 <= acc -> exists w, v = acc * 10 ^ Z.of_nat (length t) + w /\ 0 <= w < 10 ^ Z.of_nat (length t)
    /\ t = digits (length t) w.
Proof.
  induction t as [|b t IH]; intros acc v H A; cbn [digits_value length] in *.
  - injection H as <-. exists 0. change (10 ^ Z.of_nat 0) with 1. split; [lia|]. split; [lia|reflexivity].
  - destruct (Z.leb_spec 0 (Z.of_N (b2n b) - 48)); [|discriminate].
    destruct (Z.leb_spec (Z.of_N (b2n b) - 48) 9); [|discriminate]. cbn [andb] in H.
    set (d := Z.of_N (b2n b) - 48) in *.
    destruct (IH (acc * 10 + d) v H) as (w & W1 & W2 & W3); [lia|].
    assert (P : 10 ^ Z.of_nat (S (length t)) = 10 * 10 ^ Z.of_nat (length t))
      by (rewrite Nat2Z.inj_succ, Z.pow_succ_r by lia; reflexivity).
    assert (P0 : 0 < 10 ^ Z.of_nat (length t)) by (apply Z.pow_pos_nonneg; lia).
    exists (d * 10 ^ Z.of_nat (length t) + w).
    split; [rewrite W1, P; ring|]. split; [rewrite P; nia|].
    rewrite digits_head by nia.
    assert (Q : (d * 10 ^ Z.of_nat (length t) + w) / 10 ^ Z.of_nat (length t) = d).
    { rewrite Z.div_add_l by lia. rewrite Z.div_small by lia. lia. }
    rewrite Q, Z.mod_small by lia. f_equal.
    + unfold digit. apply b2n_inj. rewrite b2n_n2b. subst d.
      replace (48 + Z.to_N (Z.of_N (b2n b) - 48))%N with (b2n b) by lia.
      rewrite N.mod_small; [reflexivity|]. apply b2n_lt.
    + rewrite W3 at 1. rewrite digits_low; [reflexivity|lia|lia|lia].
Qed.

Lemma digits_first : forall k w r, 0 <= w < 10 ^ Z.of_nat (S k) -> 10 ^ Z.of_nat k <= w ->
  digits (S k) w <> x30 :: r.
Proof.
  intros k w r W L E. rewrite digits_head in E by lia.
  apply (f_equal (hd x00)) in E. cbn [hd] in E.
  assert (P : 0 < 10 ^ Z.of_nat k) by (apply Z.pow_pos_nonneg; lia).
  rewrite Nat2Z.inj_succ, Z.pow_succ_r in W by lia.
  assert (D1 : 1 <= w / 10 ^ Z.of_nat k) by (apply Z.div_le_lower_bound; lia).
  assert (D2 : w / 10 ^ Z.of_nat k < 10) by (apply Z.div_lt_upper_bound; lia).
  rewrite Z.mod_small in E by lia. apply digit_zero in E; lia.
Qed.

Lemma digits_first_zero : forall k w, 0 <= w < 10 ^ Z.of_nat k ->
  digits (S k) w = x30 :: digits k w.
Proof.
  intros k w W. rewrite digits_head, Z.div_small by lia. reflexivity.
Qed.

Lemma unsigned_unique : forall t u z, digits_value 0 t = Some z -> digits_value 0 u = Some z ->
  t <> [] -> u <> [] -> (forall r, t = x30 :: r -> t = [x30]) -> (forall r, u = x30 :: r -> u = [x30]) ->
  t = u.
Proof.
  assert (G : forall t z, digits_value 0 t = Some z -> t <> [] ->
    (forall r, t = x30 :: r -> t = [x30]) ->
    exists k, 0 <= z < 10 ^ Z.of_nat (S k) /\ (k = O \/ 10 ^ Z.of_nat k <= z) /\ t = digits (S k) z).
  { intros t z V NE C. destruct (digits_value_bytes t 0 z V) as (w & E & W & T); [lia|].
    replace z with w by lia. clear E V.
    destruct (length t) as [|k] eqn:L; [destruct t; [contradiction|discriminate L]|].
    exists k. split; [exact W|]. split; [|exact T].
    destruct k as [|k]; [left; reflexivity|right].
    destruct (Z.le_gt_cases (10 ^ Z.of_nat (S k)) w) as [K|K]; [exact K|]. exfalso.
    rewrite digits_first_zero in T by lia. specialize (C _ T). rewrite C in L. discriminate L. }
  intros t u z T U NT NU CT CU.
  destruct (G t z T NT CT) as (k & K1 & K2 & K3). destruct (G u z U NU CU) as (j & J1 & J2 & J3).
  assert (k = j).
  { assert (M : forall a b, 0 <= z < 10 ^ Z.of_nat (S a) -> (b = O \/ 10 ^ Z.of_nat b <= z) -> (b <= a)%nat).
    { intros a b A [->|B]; [lia|]. destruct (Nat.le_gt_cases b a) as [L|L]; [exact L|]. exfalso.
      assert (10 ^ Z.of_nat (S a) <= 10 ^ Z.of_nat b) by (apply Z.pow_le_mono_r; lia). lia. }
    pose proof (M k j K1 J2). pose proof (M j k J1 K2). lia. }
  subst j. congruence.
Qed.

Lemma short_decimal_unique : forall t u z, short_decimal t z -> short_decimal u z -> t = u.
Proof.
  intros t u z [(r & N1 & V1 & E1) C1] [(s & N2 & V2 & E2) C2].
  destruct (z <? 0)%Z eqn:S.
  - subst t u. f_equal. apply (unsigned_unique r s (Z.abs z)); try assumption.
    + intros x X. subst r. pose proof (C1 x (or_intror eq_refl)) as K. discriminate K.
    + intros x X. subst s. pose proof (C2 x (or_intror eq_refl)) as K. discriminate K.
  - subst t u. apply (unsigned_unique r s (Z.abs z)); try assumption.
    + intros x X. apply (C1 x). left. exact X.
    + intros x X. apply (C2 x). left. exact X.
Qed.

(** Texts of integer columns. *)
Lemma integer_text : forall c p z, c_type c = TInteger -> c_get_integer c p = Ok z ->
  exists t, c_to_string c p = Ok t /\ short_decimal t z.
Proof.
  intros c p z T G. exists (dec_Z z). split; [|apply dec_Z_short].
  unfold c_type, c_get_integer, c_to_string, fm_to_string in *.
  destruct (fm_kind (c_fm c)) eqn:K; try discriminate T; rewrite G; reflexivity.
Qed.

(** ** Numbers *)

Lemma half_even_spec : forall N D, 0 <= N -> 0 < D ->
  let n := round_half_even N D in
  0 <= n /\ 2 * Z.abs (n * D - N) <= D /\ (2 * Z.abs (n * D - N) = D -> Z.even n = true).
Proof.
  intros N D HN HD. unfold round_half_even. cbv zeta.
  pose proof (Z.mod_pos_bound N D HD) as B. pose proof (Z.div_mod N D ltac:(lia)) as E.
  assert (P : 0 <= N / D) by (apply Z.div_pos; lia).
  set (q := N / D) in *. set (r := N mod D) in *.
  destruct (Z.compare_spec (2 * r) D) as [K|K|K].
  - destruct (Z.even q) eqn:EV.
    + split; [exact P|]. split; [|intros _; exact EV]. replace (q * D - N) with (- r) by lia. lia.
    + split; [lia|]. split.
      * replace ((q + 1) * D - N) with (D - r) by lia. lia.
      * intros _. rewrite Z.even_add, EV. reflexivity.
  - split; [exact P|]. replace (q * D - N) with (- r) by lia. split; lia.
  - split; [lia|]. replace ((q + 1) * D - N) with (D - r) by lia. split; lia.
Qed.

Lemma Qabs_scaled : forall a d (q : Q), (0 < d) -> (q * inject_Z d == inject_Z a)%Q ->
  (Qabs q * inject_Z d == inject_Z (Z.abs a))%Q.
Proof.
  intros a d q D E.
  assert (DA : (Qabs (inject_Z d) == inject_Z d)%Q).
  { apply Qabs_pos. change 0%Q with (inject_Z 0). rewrite <- Zle_Qle. lia. }
  rewrite <- DA at 1. rewrite <- Qabs_Qmult, E. unfold inject_Z, Qabs. reflexivity.
Qed.

Lemma frac_nearest_even : forall x N D n, 0 < D -> (x * inject_Z D == inject_Z N)%Q ->
  2 * Z.abs (n * D - N) <= D -> (2 * Z.abs (n * D - N) = D -> Z.even n = true) -> nearest_even x n.
Proof.
  intros x N D n HD E B T.
  assert (S : (Qabs (inject_Z n - x) * inject_Z D == inject_Z (Z.abs (n * D - N)))%Q).
  { apply Qabs_scaled; [exact HD|]. unfold Z.sub.
    rewrite inject_Z_plus, inject_Z_mult, inject_Z_opp, <- E. ring. }
  assert (P : (0 < inject_Z D)%Q) by (change 0%Q with (inject_Z 0); rewrite <- Zlt_Qlt; exact HD).
  assert (H2 : (inject_Z (2 * Z.abs (n * D - N)) == 2 * (Qabs (inject_Z n - x) * inject_Z D))%Q).
  { rewrite inject_Z_mult, S. reflexivity. }
  split.
  - apply (Qmult_le_r _ _ (inject_Z D) P).
    apply (Qmult_le_l _ _ 2); [reflexivity|]. rewrite <- H2.
    setoid_replace (2 * ((1 # 2) * inject_Z D))%Q with (inject_Z D) by ring.
    rewrite <- Zle_Qle. exact B.
  - intros Q. apply T. rewrite Q in H2.
    setoid_replace (2 * ((1 # 2) * inject_Z D))%Q with (inject_Z D) in H2 by ring.
    unfold inject_Z, Qeq in H2. cbn [Qnum Qden] in H2. lia.
Qed.

Lemma fixed6_spec : forall m e (q : Q), -1200 <= e ->
  (q * inject_Z U == inject_Z (Zpos m * 2 ^ (e + 1200)))%Q ->
  exists n, nearest_even (inject_Z 1000000 * q) n /\ 0 <= n /\ six_decimals n (fixed6 m e).
Proof.
  intros m e q HE V. pose proof U_pos as UP.
  assert (UNZ : ~ (inject_Z U == 0)%Q).
  { unfold inject_Z, Qeq. cbn [Qnum Qden]. lia. }
  unfold fixed6. set (n := if 0 <=? e then _ else _). exists n.
  assert (H : nearest_even (inject_Z 1000000 * q) n /\ 0 <= n).
  { subst n. destruct (Z.leb_spec 0 e) as [L|L].
    - assert (K : (q == inject_Z (Zpos m * 2 ^ e))%Q).
      { apply (Qmult_inj_r _ _ (inject_Z U) UNZ). rewrite V, pow_U by lia.
        rewrite Z.mul_assoc, inject_Z_mult. reflexivity. }
      pose proof (Z.pow_pos_nonneg 2 e eq_refl L) as P2. split; [|nia].
      apply (frac_nearest_even _ (Zpos m * 2 ^ e * 1000000) 1); [lia| | |].
      + rewrite K, <- !inject_Z_mult. f_equiv. lia.
      + rewrite Z.mul_1_r, Z.sub_diag. cbn. lia.
      + rewrite Z.mul_1_r, Z.sub_diag. cbn. lia.
    - pose proof (Z.pow_pos_nonneg 2 (- e) eq_refl ltac:(lia)) as P2.
      pose proof (Z.pow_pos_nonneg 2 (e + 1200) eq_refl ltac:(lia)) as P3.
      assert (P3Q : ~ (inject_Z (2 ^ (e + 1200)) == 0)%Q).
      { unfold inject_Z, Qeq. cbn [Qnum Qden]. lia. }
      assert (K : (q * inject_Z (2 ^ (- e)) == inject_Z (Zpos m))%Q).
      { apply (Qmult_inj_r _ _ (inject_Z (2 ^ (e + 1200))) P3Q).
        rewrite <- Qmult_assoc, <- !inject_Z_mult, <- pow_U_neg by lia. exact V. }
      destruct (half_even_spec (Zpos m * 1000000) (2 ^ (- e))) as (A & B & C); [lia|exact P2|].
      split; [|exact A]. apply (frac_nearest_even _ (Zpos m * 1000000) (2 ^ (- e))); [exact P2| |exact B|exact C].
      rewrite <- Qmult_assoc, K, <- inject_Z_mult. f_equiv. lia. }
  clearbody n. destruct H as [H1 H2]. split; [exact H1|]. split; [exact H2|].
  exists (dec (Z.to_N (n / 1000000))). split.
  - assert (D : 0 <= n / 1000000) by (apply Z.div_pos; lia).
    pose proof (dec_Z_short (n / 1000000)) as S. unfold dec_Z in S.
    destruct (Z.ltb_spec (n / 1000000) 0); [lia|exact S].
  - do 2 f_equal. pose proof (Z.mod_pos_bound n 1000000 eq_refl) as B.
    pose proof (fmt0_digits 5 (n mod 1000000) B) as F. unfold fmt0 in F.
    destruct (Z.ltb_spec (n mod 1000000) 0); [lia|exact F].
Qed.

Lemma minus_sign : forall s ex ma, (s < 2)%N -> (ex < 2048)%N -> (ma < 2 ^ 52)%N ->
  let bits := (s * 2 ^ 63 + ex * 2 ^ 52 + ma)%N in
  (if N.testbit bits 63 then [x2d] else []) = minus bits.
Proof.
  intros s ex ma Hs He Hm bits. destruct (bits_fields s ex ma Hs He Hm) as [F _].
  fold bits in F. rewrite F. unfold minus.
  assert (P : (2 ^ 63 = 2048 * 2 ^ 52)%N) by reflexivity.
  assert (B : (ex * 2 ^ 52 + ma < 2 ^ 63)%N).
  { rewrite P. set (w := (2 ^ 52)%N) in *. clearbody w. clear - He Hm. nia. }
  assert (E : bits = (s * 2 ^ 63 + (ex * 2 ^ 52 + ma))%N) by (unfold bits; lia).
  clearbody bits. subst bits. set (v := (ex * 2 ^ 52 + ma)%N) in *. clearbody v.
  set (h := (2 ^ 63)%N) in *. clearbody h. clear P Hm He F ex ma.
  assert (s = 0 \/ s = 1)%N as [->| ->] by lia.
  - destruct (N.leb_spec h (0 * h + v)); [lia|reflexivity].
  - destruct (N.leb_spec h (1 * h + v)); [reflexivity|lia].
Qed.

Lemma minus_value : forall bits q, double_value bits q ->
  (if N.testbit bits 63 then [x2d] else []) = minus bits.
Proof. intros bits q (s & ex & ma & Hs & He & Hm & B & _). subst bits. apply minus_sign; lia. Qed.

Lemma number_string : forall bits q, double_value bits q ->
  exists n t, double_to_string bits = minus bits ++ t
    /\ nearest_even (inject_Z 1000000 * Qabs q) n /\ six_decimals n t.
Proof.
  intros bits q V. destruct (value_fz bits q V) as (OK & _ & _ & E).
  unfold double_to_string. rewrite (minus_value bits q V). pose proof U_pos as UP.
  assert (UNZ : ~ (inject_Z U == 0)%Q) by (unfold inject_Z, Qeq; cbn [Qnum Qden]; lia).
  destruct (sf_of_bits bits) as [s|s| |s m e]; try contradiction.
  - exists 0, (bs "0.000000"). split; [reflexivity|].
    assert (Z0 : (q == 0)%Q).
    { apply (Qmult_inj_r _ _ (inject_Z U) UNZ). rewrite <- E. reflexivity. }
    split.
    + assert (K : (Qabs (inject_Z 0 - inject_Z 1000000 * Qabs q) == 0)%Q).
      { rewrite Z0. reflexivity. }
      split; rewrite K; [discriminate|]. intros H. discriminate H.
    + exists (bs "0"). split; [|reflexivity]. split.
      * exists (bs "0"). split; [discriminate|]. split; reflexivity.
      * intros r [H|H]; [reflexivity|discriminate H].
  - cbn [okf fz] in *. destruct (fixed6_spec m e (Qabs q)) as (n & A & _ & B); [lia| |].
    + rewrite (Qabs_scaled (cond_Zopp s (Zpos m * 2 ^ (e + 1200))) U q UP) by (symmetry; exact E).
      rewrite cond_opp_abs; [reflexivity|].
      pose proof (Z.pow_pos_nonneg 2 (e + 1200) eq_refl ltac:(lia)). lia.
    + exists n, (fixed6 m e). split; [reflexivity|]. split; assumption.
Qed.

Lemma number_text : forall c p bits q, c_type c = TNumber -> c_get_number c p = Ok bits ->
  double_value bits q ->
  exists n t, c_to_string c p = Ok (minus bits ++ t)
    /\ nearest_even (inject_Z 1000000 * Qabs q) n /\ six_decimals n t.
Proof.
  intros c p bits q T G V. destruct (number_string bits q V) as (n & t & A & B & C).
  exists n, t. split; [|split; assumption].
  unfold c_type, c_get_number, c_to_string, fm_to_string in *.
  destruct (fm_kind (c_fm c)); try discriminate T; rewrite G; cbn [bind]; rewrite A; reflexivity.
Qed.

Lemma number_text_special : forall c p bits, c_type c = TNumber -> c_get_number c p = Ok bits ->
  (double_nan bits -> c_to_string c p = Ok (minus bits ++ bs "nan"))
  /\ (double_infinity bits -> c_to_string c p = Ok (minus bits ++ bs "inf")).
Proof.
  intros c p bits T G.
  assert (K : c_to_string c p = Ok (double_to_string bits)).
  { unfold c_type, c_get_number, c_to_string, fm_to_string in *.
    destruct (fm_kind (c_fm c)); try discriminate T; rewrite G; reflexivity. }
  rewrite K. split.
  - intros N. unfold double_to_string. rewrite (nan_bits bits N).
    destruct N as (s & ma & Hs & Hm & B). subst bits. rewrite minus_sign by lia. reflexivity.
  - intros (s & Hs & B).
    assert (B' : bits = (s * 2 ^ 63 + 2047 * 2 ^ 52 + 0)%N) by lia. clear B. subst bits.
    destruct (bits_fields s 2047 0 Hs ltac:(lia) ltac:(reflexivity)) as (F1 & F2 & F3).
    unfold double_to_string. rewrite minus_sign by (try reflexivity; lia).
    unfold sf_of_bits at 1. rewrite F2, F3. cbn [Z.of_N Z.eqb Pos.eqb]. reflexivity.
Qed.

(** Every pattern is one of the three. *)
Lemma double_cases : forall bits, (bits < 2 ^ 64)%N ->
  (exists q, double_value bits q) \/ double_nan bits \/ double_infinity bits.
Proof.
  intros bits H.
  set (s := (bits / 2 ^ 63)%N). set (ex := (bits mod 2 ^ 63 / 2 ^ 52)%N).
  set (ma := (bits mod 2 ^ 52)%N).
  assert (Hs : (s < 2)%N) by (apply N.div_lt_upper_bound; [discriminate|exact H]).
  assert (Hm : (ma < 2 ^ 52)%N) by (apply N.mod_lt; discriminate).
  assert (He : (ex < 2048)%N).
  { apply N.div_lt_upper_bound; [discriminate|].
    change (2 ^ 52 * 2048)%N with (2 ^ 63)%N. apply N.mod_lt. discriminate. }
  assert (E : bits = (s * 2 ^ 63 + ex * 2 ^ 52 + ma)%N).
  { assert (M : (ma = bits mod 2 ^ 63 mod 2 ^ 52)%N).
    { change (2 ^ 63)%N with (2 ^ 52 * 2 ^ 11)%N. rewrite N.mod_mul_r by discriminate.
      rewrite N.add_mod, (N.mul_comm (2 ^ 52) _), N.mod_mul, N.add_0_r, !N.mod_mod by discriminate.
      reflexivity. }
    rewrite M, <- N.add_assoc.
    pose proof (N.div_mod bits (2 ^ 63) ltac:(discriminate)) as D1.
    pose proof (N.div_mod (bits mod 2 ^ 63) (2 ^ 52) ltac:(discriminate)) as D2.
    fold s in D1. fold ex in D2. rewrite D1 at 1. rewrite D2 at 1. f_equal; [apply N.mul_comm|].
    f_equal. apply N.mul_comm. }
  clearbody s ex ma. clear H.
  destruct (N.eq_dec ex 2047) as [->|NE].
  - right. destruct (N.eq_dec ma 0) as [->|NM].
    + right. exists s. split; [exact Hs|]. rewrite E. apply N.add_0_r.
    + left. exists s, ma. split; [exact Hs|]. split; [split; [lia|exact Hm]|exact E].
  - left. eexists. exists s, ex, ma. split; [exact Hs|]. split; [lia|]. split; [exact Hm|].
    split; [exact E|]. reflexivity.
Qed.

(** ** Equal texts *)

Lemma app_tail_inj : forall (a b c d : bytes), length b = length d -> a ++ b = c ++ d -> a = c /\ b = d.
Proof.
  intros a b c d L E. pose proof (f_equal (@length _) E) as LE. rewrite !app_length in LE.
  apply app_len_inj in E; [exact E|]. lia.
Qed.

Lemma six_decimals_inj : forall n m t, six_decimals n t -> six_decimals m t -> n = m.
Proof.
  intros n m t (ip & D1 & E1) (jp & D2 & E2). rewrite E1 in E2.
  apply app_tail_inj in E2; [|rewrite !app_length, !digits_length; reflexivity]. destruct E2 as [-> E2].
  apply app_len_inj in E2; [|reflexivity]. destruct E2 as [_ E2].
  pose proof (Z.mod_pos_bound n 1000000 eq_refl). pose proof (Z.mod_pos_bound m 1000000 eq_refl).
  apply digits_inj in E2; [|cbn; lia|cbn; lia].
  destruct D1 as [D1 _], D2 as [D2 _]. pose proof (decimal_inj _ _ _ D1 D2) as K.
  rewrite (Z.div_mod n 1000000), (Z.div_mod m 1000000) by lia. congruence.
Qed.

Lemma six_decimals_sign : forall n t r, 0 <= n -> six_decimals n t -> t <> x2d :: r.
Proof.
  intros n t r H (ip & [(u & NE & V & E) _] & T) K. subst t.
  destruct (Z.ltb_spec (n / 1000000) 0) as [L|_]; [pose proof (Z.div_pos n 1000000 H eq_refl); lia|]. subst ip.
  destruct u as [|b u]; [apply NE; reflexivity|]. cbn [app] in K. injection K as -> _. discriminate V.
Qed.

Lemma nearest_even_pos : forall q n, (0 <= q)%Q -> nearest_even q n -> 0 <= n.
Proof.
  intros q n Q [H _]. apply Qabs_Qle_condition in H. destruct H as [H _].
  assert (K : (-1 < inject_Z n)%Q) by lra. change (-1)%Q with (inject_Z (-1)) in K. rewrite <- Zlt_Qlt in K. lia.
Qed.

Lemma minus_cases : forall bits q, double_value bits q ->
  (minus bits = [] /\ (0 <= q)%Q) \/ (minus bits = [x2d] /\ (q <= 0)%Q).
Proof.
  intros bits q (s & ex & ma & Hs & He & Hm & B & V). unfold minus.
  set (a := (if (ex =? 0)%N then inject_Z (Z.of_N ma) * (2 # 1) ^ (-1074)
             else inject_Z (Z.of_N (2 ^ 52 + ma)) * (2 # 1) ^ (Z.of_N ex - 1075))%Q) in *.
  assert (A : (0 <= a)%Q).
  { subst a. assert (P : forall k, (0 <= (2 # 1) ^ k)%Q) by (intros k; apply Qpower_pos; discriminate).
    destruct (ex =? 0)%N; apply Qmult_le_0_compat; try apply P; change 0%Q with (inject_Z 0); rewrite <- Zle_Qle; lia. }
  clearbody a.
  assert (S2 : s = 0%N \/ s = 1%N) by lia. destruct S2; subst s.
  - left. cbn [N.eqb] in V. rewrite Qmult_1_l in V. split; [|rewrite V; exact A].
    destruct (N.leb_spec (2 ^ 63) bits) as [L|_]; [|reflexivity]. exfalso. clear V A a.
    change (2 ^ 63)%N with (2048 * 2 ^ 52)%N in *. set (w := (2 ^ 52)%N) in *. clearbody w. subst bits. nia.
  - right. cbn [N.eqb] in V. split; [|rewrite V; lra].
    destruct (N.leb_spec (2 ^ 63) bits) as [_|L]; [reflexivity|]. exfalso. lia.
Qed.

Lemma number_apart : forall c p bits q c' p' bits' q' t,
  c_type c = TNumber -> c_get_number c p = Ok bits -> double_value bits q ->
  c_type c' = TNumber -> c_get_number c' p' = Ok bits' -> double_value bits' q' ->
  c_to_string c p = Ok t -> c_to_string c' p' = Ok t -> (Qabs (q - q') <= 1 # 1000000)%Q.
Proof.
  intros c p bits q c' p' bits' q' t T G V T' G' V' S S'.
  destruct (number_text c p bits q T G V) as (n & u & A & B & C).
  destruct (number_text c' p' bits' q' T' G' V') as (n' & u' & A' & B' & C').
  rewrite S in A. rewrite S' in A'. injection A as A. injection A' as A'. rewrite A in A'. clear S S' A t.
  assert (P : forall x : Q, (0 <= inject_Z 1000000 * Qabs x)%Q).
  { intros x. apply Qmult_le_0_compat; [discriminate|apply Qabs_nonneg]. }
  pose proof (nearest_even_pos _ _ (P q) B) as N0. pose proof (nearest_even_pos _ _ (P q') B') as N0'.
  destruct B as [B _]. destruct B' as [B' _]. apply Qabs_Qle_condition in B, B'.
  assert (E : minus bits = minus bits' /\ u = u').
  { destruct (minus_cases bits q V) as [[M _]|[M _]]; destruct (minus_cases bits' q' V') as [[M' _]|[M' _]];
      rewrite M, M' in *; cbn [app] in A'.
    - auto.
    - exfalso. exact (six_decimals_sign n u u' N0 C A').
    - exfalso. exact (six_decimals_sign n' u' u N0' C' (eq_sym A')).
    - injection A' as ->. auto. }
  destruct E as [EM ->]. pose proof (six_decimals_inj _ _ _ C C') as <-. clear C C' P A' T T' G G'.
  apply Qabs_Qle_condition. change (inject_Z 1000000) with 1000000%Q in *.
  destruct (minus_cases bits q V) as [[M Q1]|[M Q1]]; destruct (minus_cases bits' q' V') as [[M' Q2]|[M' Q2]];
    rewrite M, M' in EM; try discriminate EM.
  - rewrite (Qabs_pos q Q1) in B. rewrite (Qabs_pos q' Q2) in B'. split; lra.
  - rewrite (Qabs_neg q Q1) in B. rewrite (Qabs_neg q' Q2) in B'. split; lra.
Qed.
