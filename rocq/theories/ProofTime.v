(** Proofs about dates and times: the conversions of src/types.hpp and their texts. *)
From Coq Require Import Floats.SpecFloat QArith Qabs Qpower.
From Coq Require Import Lqa.
From Verif Require Import Base Types Float DateTime Column SpecValues ProofValues SpecTime ProofRound ProofCalendar.
Local Open Scope Z_scope.

(** ** The value of the bits *)

Lemma pow_scale : forall e, -1200 <= e ->
  ((2 # 1) ^ e * inject_Z U == inject_Z (2 ^ (e + 1200)))%Q.
Proof.
  intros e H. unfold U. rewrite !Zpower_Qpower by lia. change (inject_Z 2) with (2 # 1).
  rewrite <- Qpower_plus by (intros K; discriminate K). reflexivity.
Qed.

(** A double of the file: normal, or subnormal with the least exponent. *)
Definition canonical (x : double) : Prop :=
  match x with
  | S754_finite s m e => Zpos m < 2 ^ 53 /\ (2 ^ 52 <= Zpos m \/ e = -1074)
  | _ => True
  end.

Lemma bits_fields : forall s ex ma, (s < 2)%N -> (ex < 2048)%N -> (ma < 2 ^ 52)%N ->
  let bits := (s * 2 ^ 63 + ex * 2 ^ 52 + ma)%N in
  N.testbit bits 63 = (s =? 1)%N
  /\ N.land (N.shiftr bits 52) 2047 = ex
  /\ N.land bits (2 ^ 52 - 1) = ma.
Proof.
  intros s ex ma Hs He Hm bits.
  assert (D52 : (bits / 2 ^ 52 = s * 2 ^ 11 + ex)%N).
  { symmetry. apply (N.div_unique _ _ _ ma Hm). unfold bits.
    change (2 ^ 63)%N with (2 ^ 52 * 2 ^ 11)%N. ring. }
  assert (D63 : (bits / 2 ^ 63 = s)%N).
  { symmetry. apply (N.div_unique _ _ _ (ex * 2 ^ 52 + ma)%N); [|unfold bits; ring].
    change (2 ^ 63)%N with (2 ^ 52 * 2 ^ 11)%N. change (2 ^ 11)%N with 2048%N.
    set (w := (2 ^ 52)%N) in *. clearbody w. nia. }
  split; [|split].
  - rewrite N.testbit_eqb, D63.
    assert (s = 0 \/ s = 1)%N as [->| ->] by lia; reflexivity.
  - rewrite N.shiftr_div_pow2, D52. change 2047%N with (N.ones 11). rewrite N.land_ones.
    change (2 ^ 11)%N with 2048%N.
    rewrite N.add_comm, N.mod_add by lia. apply N.mod_small. exact He.
  - change (2 ^ 52 - 1)%N with (N.ones 52). rewrite N.land_ones.
    unfold bits. change (2 ^ 63)%N with (2 ^ 11 * 2 ^ 52)%N.
    rewrite N.mul_assoc, <- N.mul_add_distr_r, N.add_comm, N.mod_add by discriminate.
    apply N.mod_small. exact Hm.
Qed.

Lemma value_fz : forall bits q, double_value bits q ->
  okf (sf_of_bits bits) /\ canonical (sf_of_bits bits)
  /\ sf_isnan (sf_of_bits bits) = false
  /\ (inject_Z (fz (sf_of_bits bits)) == q * inject_Z U)%Q.
Proof.
  intros bits q (s & ex & ma & Hs & He & Hm & B & V).
  destruct (bits_fields s ex ma Hs ltac:(lia) Hm) as (F1 & F2 & F3). rewrite <- B in *.
  unfold sf_of_bits. rewrite F1, F2, F3. clear F1 F2 F3 B.
  assert (SG : forall z : Z, (inject_Z (cond_Zopp (s =? 1)%N z)
              == (if (s =? 0)%N then 1 else -1) * inject_Z z)%Q).
  { intros z. assert (s = 0 \/ s = 1)%N as [->| ->] by lia; cbn [N.eqb Pos.eqb cond_Zopp].
    - ring.
    - rewrite inject_Z_opp. ring. }
  destruct (N.eqb_spec ex 0) as [E0|E0].
  - subst ex. cbn [Z.of_N Z.eqb]. rewrite V. clear V.
    destruct ma as [|p]; cbn [Z.of_N okf canonical sf_isnan fz].
    + split; [exact I|]. split; [exact I|]. split; [reflexivity|].
      change (inject_Z 0) with 0%Q. ring.
    + split; [lia|]. split; [split; [change (2 ^ 53) with (2 * 2 ^ 52); lia|right; reflexivity]|].
      split; [reflexivity|]. rewrite SG, inject_Z_mult, <- pow_scale by lia. ring.
  - destruct (Z.eqb_spec (Z.of_N ex) 0) as [E1|E1]; [lia|].
    destruct (Z.eqb_spec (Z.of_N ex) 2047) as [E2|E2]; [lia|].
    replace (Z.of_N (2 ^ 52 + ma)) with (Z.of_N ma + 2 ^ 52) in V
      by (rewrite N2Z.inj_add; change (Z.of_N (2 ^ 52)) with (2 ^ 52); lia).
    assert (MB : Z.of_N ma < 2 ^ 52) by (change (2 ^ 52) with (Z.of_N (2 ^ 52)); lia).
    assert (P52 : 2 ^ 53 = 2 * 2 ^ 52) by reflexivity.
    assert (Q52 : 0 < 2 ^ 52) by reflexivity.
    destruct (Z.of_N ma + 2 ^ 52) as [|p|p] eqn:EM; [lia| |lia].
    cbn [okf canonical sf_isnan fz].
    split; [lia|]. split; [lia|]. split; [reflexivity|].
    rewrite V, SG, inject_Z_mult, <- pow_scale by lia. ring.
Qed.

Lemma nan_bits : forall bits, double_nan bits -> sf_of_bits bits = S754_nan.
Proof.
  intros bits (s & ma & Hs & [Hm0 Hm] & B).
  destruct (bits_fields s 2047 ma Hs ltac:(lia) Hm) as (F1 & F2 & F3). rewrite <- B in *.
  unfold sf_of_bits. rewrite F2, F3. cbn [Z.of_N Z.eqb Pos.eqb].
  destruct ma as [|p]; [lia|reflexivity].
Qed.

(** Comparisons in Q, in units of 2^-1200. *)
Lemma scale_lt : forall q X c, (inject_Z X == q * inject_Z U)%Q ->
  (Qabs q < inject_Z c)%Q -> Z.abs X < c * U.
Proof.
  intros q X c H L. pose proof U_pos as P.
  rewrite Zlt_Qlt. rewrite inject_Z_mult.
  assert (A : (inject_Z (Z.abs X) == Qabs q * inject_Z U)%Q).
  { change (inject_Z (Z.abs X)) with (Qabs (inject_Z X)). rewrite H, Qabs_Qmult.
    rewrite (Qabs_pos (inject_Z U)); [reflexivity|]. change 0%Q with (inject_Z 0). rewrite <- Zle_Qle. lia. }
  rewrite A. apply Qmult_lt_r; [|exact L]. change 0%Q with (inject_Z 0). rewrite <- Zlt_Qlt. lia.
Qed.

(** Distances: |c*U - d*X| <= a*U/b says |c - d*q| <= a/b. *)
Lemma scale_dist : forall q X c d a (b : positive), (inject_Z X == q * inject_Z U)%Q ->
  Zpos b * Z.abs (c * U - d * X) <= a * U ->
  (Qabs (inject_Z c - inject_Z d * q) <= a # b)%Q.
Proof.
  intros q X c d a b H L. pose proof U_pos as P.
  assert (PQ : (0 < inject_Z U)%Q) by (change 0%Q with (inject_Z 0); rewrite <- Zlt_Qlt; lia).
  apply (Qmult_le_r _ _ (inject_Z U) PQ).
  assert (A : (Qabs (inject_Z c - inject_Z d * q) * inject_Z U == inject_Z (Z.abs (c * U - d * X)))%Q).
  { change (inject_Z (Z.abs (c * U - d * X))) with (Qabs (inject_Z (c * U - d * X))).
    rewrite <- (Qabs_pos (inject_Z U)) at 1 by (apply Qlt_le_weak; exact PQ).
    rewrite <- Qabs_Qmult. apply Qabs_wd. unfold Zminus.
    rewrite inject_Z_plus, inject_Z_opp, !inject_Z_mult, H. ring. }
  rewrite A. unfold Qle, Qmult, inject_Z. cbn [Qnum Qden].
  rewrite Pos.mul_1_r. lia.
Qed.

Lemma scale_eq : forall q X n, (inject_Z X == q * inject_Z U)%Q -> (q == inject_Z n)%Q -> X = n * U.
Proof.
  intros q X n H E. rewrite E in H. rewrite <- inject_Z_mult in H.
  apply inject_Z_injective. exact H.
Qed.

Lemma nearest_scale : forall q X n, (inject_Z X == q * inject_Z U)%Q -> nearest q n ->
  2 * Z.abs (n * U - X) <= U /\ (2 * Z.abs (n * U - X) = U -> Z.abs X < Z.abs n * U).
Proof.
  intros q X n H [N1 N2]. pose proof U_pos as P.
  assert (PQ : (0 < inject_Z U)%Q) by (change 0%Q with (inject_Z 0); rewrite <- Zlt_Qlt; lia).
  assert (A : (Qabs (inject_Z n - q) * inject_Z U == inject_Z (Z.abs (n * U - X)))%Q).
  { change (inject_Z (Z.abs (n * U - X))) with (Qabs (inject_Z (n * U - X))).
    rewrite <- (Qabs_pos (inject_Z U)) at 1 by (apply Qlt_le_weak; exact PQ).
    rewrite <- Qabs_Qmult. apply Qabs_wd. unfold Zminus.
    rewrite inject_Z_plus, inject_Z_opp, !inject_Z_mult, H. ring. }
  assert (B : (Qabs q * inject_Z U == inject_Z (Z.abs X))%Q).
  { change (inject_Z (Z.abs X)) with (Qabs (inject_Z X)). rewrite H, Qabs_Qmult.
    rewrite (Qabs_pos (inject_Z U)) by (apply Qlt_le_weak; exact PQ). reflexivity. }
  split.
  - apply (Qmult_le_r _ _ (inject_Z U) PQ) in N1. rewrite A in N1.
    unfold Qle, Qmult, inject_Z in N1. cbn [Qnum Qden] in N1. lia.
  - intros E. assert (K : (Qabs (inject_Z n - q) == 1 # 2)%Q).
    { apply (Qmult_inj_r _ _ (inject_Z U)); [intros Z0; rewrite Z0 in PQ; discriminate PQ|].
      rewrite A. unfold Qeq, Qmult, inject_Z. cbn [Qnum Qden]. lia. }
    apply N2 in K. apply (Qmult_lt_r _ _ (inject_Z U) PQ) in K. rewrite B in K.
    change (Qabs (inject_Z n)) with (inject_Z (Z.abs n)) in K.
    rewrite <- inject_Z_mult, <- Zlt_Qlt in K. exact K.
Qed.

(** std::lround: ties away from zero. *)
Lemma lround_ties : forall x d, okf x -> lround x = Ok d ->
  2 * Z.abs (d * U - fz x) <= U /\ (2 * Z.abs (d * U - fz x) = U -> Z.abs (fz x) < Z.abs d * U).
Proof.
  intros x d OX L. pose proof U_pos as P.
  destruct x as [s|s| |s m e]; try contradiction.
  - cbn in L. injection L as <-. cbn [fz]. lia.
  - cbn [okf] in OX. unfold lround in L.
    destruct (int64_ok _); [|discriminate]. injection L as <-. cbn [fz].
    destruct (Z.le_gt_cases 0 e) as [G|G].
    + unfold mag_round. destruct (Z.leb_spec 0 e); [|lia]. rewrite Z.shiftl_mul_pow2 by lia.
      rewrite pow_U by lia.
      replace (cond_Zopp s (Z.pos m * (2 ^ e * U))) with (cond_Zopp s (Z.pos m * 2 ^ e) * U)
        by (destruct s; unfold cond_Zopp; ring).
      rewrite Z.sub_diag. cbn [Z.abs]. lia.
    + unfold mag_round. destruct (Z.leb_spec 0 e); [lia|].
      rewrite Z.shiftr_div_pow2, Z.shiftl_mul_pow2, Z.mul_1_l by lia.
      set (h := 2 ^ (- e - 1)).
      assert (PH : 0 < h) by (apply Z.pow_pos_nonneg; lia).
      assert (D : 2 ^ (- e) = 2 * h).
      { unfold h. rewrite <- Z.pow_succ_r by lia. f_equal. lia. }
      rewrite D. pose proof (Z.div_mod (Z.pos m + h) (2 * h) ltac:(lia)) as DM.
      pose proof (Z.mod_pos_bound (Z.pos m + h) (2 * h) ltac:(lia)) as MB.
      assert (Z0 : 0 <= (Z.pos m + h) / (2 * h)) by (apply Z.div_pos; lia).
      set (z := (Z.pos m + h) / (2 * h)) in *. set (k := (Z.pos m + h) mod (2 * h)) in *.
      assert (P2 : 0 < 2 ^ (e + 1200)) by (apply Z.pow_pos_nonneg; lia).
      assert (D2 : U = 2 * h * 2 ^ (e + 1200)).
      { unfold U. rewrite <- D, <- Z.pow_add_r by lia. f_equal. lia. }
      set (w := 2 ^ (e + 1200)) in *. clearbody h w z k.
      assert (E1 : z * U - Z.pos m * w = (h - k) * w) by (rewrite D2; nia).
      assert (BB : - h * w < (h - k) * w <= h * w) by nia.
      assert (MP : 0 < Zpos m * w) by nia.
      assert (UU : U = 2 * (h * w)) by lia.
      assert (ZU : 0 <= z * U) by nia.
      assert (AZ : Z.abs (cond_Zopp s z) = z) by (apply cond_opp_abs; lia).
      assert (AX : Z.abs (cond_Zopp s (Z.pos m * w)) = Z.pos m * w) by (apply cond_opp_abs; lia).
      rewrite AZ, AX.
      assert (AD : Z.abs (cond_Zopp s z * U - cond_Zopp s (Z.pos m * w)) = Z.abs (z * U - Z.pos m * w)).
      { destruct s; unfold cond_Zopp; [|reflexivity].
        replace (- z * U - - (Z.pos m * w)) with (- (z * U - Z.pos m * w)) by ring. apply Z.abs_opp. }
      rewrite AD, E1. lia.
Qed.

Lemma nearest_unique : forall X n d,
  2 * Z.abs (n * U - X) <= U -> (2 * Z.abs (n * U - X) = U -> Z.abs X < Z.abs n * U) ->
  2 * Z.abs (d * U - X) <= U -> (2 * Z.abs (d * U - X) = U -> Z.abs X < Z.abs d * U) ->
  n = d.
Proof.
  intros X n d A1 A2 B1 B2. pose proof U_pos as P.
  destruct (Z.eq_dec n d) as [E|E]; [exact E|exfalso].
  assert (D : n = d + 1 \/ d = n + 1).
  { assert (Z.abs (n - d) <= 1) by nia. lia. }
  destruct D as [-> | ->].
  - assert (2 * X = (2 * d + 1) * U) by nia.
    specialize (A2 ltac:(lia)). specialize (B2 ltac:(lia)).
    assert (d >= 0 \/ d <= -1) as [?|?] by lia; nia.
  - assert (2 * X = (2 * n + 1) * U) by nia.
    specialize (A2 ltac:(lia)). specialize (B2 ltac:(lia)).
    assert (n >= 0 \/ n <= -1) as [?|?] by lia; nia.
Qed.

Lemma lround_nearest : forall bits q n, double_value bits q -> nearest q n -> Z.abs n < 2 ^ 49 ->
  lround (sf_of_bits bits) = Ok n.
Proof.
  intros bits q n V N B. destruct (value_fz bits q V) as (OK & CN & _ & F).
  pose proof U_pos as P.
  destruct (nearest_scale _ _ _ F N) as [N1 N2].
  destruct (round_int (sf_of_bits bits) OK) as (d & _ & _ & _ & _ & L & _).
  { change (2 ^ 50) with (2 * 2 ^ 49). change (2 ^ 49) with 562949953421312 in *. nia. }
  destruct (lround_ties _ _ OK L) as [L1 L2]. rewrite L. f_equal.
  symmetry. apply (nearest_unique (fz (sf_of_bits bits))); assumption.
Qed.

(** ** Datetimes *)

Lemma epoch_value : epoch_ticks = jdn_1960 * day_us. Proof. reflexivity. Qed.

Lemma int64_small : forall z, Z.abs z < 2 ^ 63 -> int64_ok z = true.
Proof.
  intros z H. unfold int64_ok.
  destruct (Z.leb_spec (- 2 ^ 63) z), (Z.ltb_spec z (2 ^ 63)); try reflexivity; lia.
Qed.

Lemma cancel_le : forall a b w, 0 < w -> a * w <= b * w -> a <= b.
Proof. intros a b w P H. apply (Z.mul_le_mono_pos_r a b w P). exact H. Qed.
Lemma cancel_lt : forall a b w, 0 < w -> a * w < b * w -> a < b.
Proof. intros a b w P H. apply (Z.mul_lt_mono_pos_r w a b P). exact H. Qed.
Lemma abs_unit : forall d w, 0 < w -> d <> 0 -> w <= Z.abs (d * w).
Proof. intros d w P H. rewrite Z.abs_mul, (Z.abs_eq w) by lia. assert (1 <= Z.abs d) by lia. nia. Qed.
Lemma abs_scaled : forall d w, 0 < w -> Z.abs (d * w) = Z.abs d * w.
Proof. intros d w P. rewrite Z.abs_mul, (Z.abs_eq w) by lia. reflexivity. Qed.

Lemma eps_ok : forall k e, e + k = 1200 -> 0 <= e /\ 0 <= k -> 2 ^ e * 2 ^ k = U /\ 0 < 2 ^ e.
Proof.
  intros k e H [H1 H2]. split; [|apply Z.pow_pos_nonneg; lia].
  unfold U. rewrite <- H. symmetry. apply Z.pow_add_r; lia.
Qed.

(** x = d days + s seconds + a rest, and the rest is a double. *)
Lemma datetime_parts : forall x, okf x -> canonical x -> Z.abs (fz x) < 2 ^ 42 * U ->
  let days := sf_round (sf_div x seconds_in_a_day) in
  let x1 := sf_sub x (sf_mul days seconds_in_a_day) in
  let secs := sf_round x1 in
  let rest := sf_sub x1 secs in
  exists d s, lround days = Ok d /\ lround secs = Ok s
    /\ Z.abs d <= 2 ^ 26 /\ Z.abs s <= 43201
    /\ okf rest /\ fz rest = fz x - (86400 * d + s) * U
    /\ 2 * Z.abs (fz rest) <= U.
Proof.
  intros x OX CX BX days x1 secs rest. pose proof U_pos as P.
  set (X := fz x) in *.
  unfold seconds_in_a_day in *. change (24 * 60 * 60) with 86400 in *.
  destruct (div_near x 86400 26 OX) as [OQ EQ]; [lia|lia|fold X; rewrite pow_U; lia|].
  fold X in EQ. destruct (eps_ok 28 (26 - 54 + 1200) eq_refl ltac:(lia)) as [EPS PE].
  set (eps := 2 ^ (26 - 54 + 1200)) in *. clearbody eps.
  change (2 ^ 42) with 4398046511104 in BX. change (2 ^ 28) with 268435456 in EPS.
  set (Q := fz (sf_div x (sf_of_Z 86400))) in *.
  destruct (round_int _ OQ) as (d & OD & FD & ED & LD & _ & _).
  { fold Q. lia. }
  fold Q days in OD, FD, ED, LD. 
  assert (BD : Z.abs d <= 2 ^ 26) by (change (2 ^ 26) with 67108864; apply (cancel_le _ _ U P); rewrite <- (abs_scaled d U P); lia).
  change (2 ^ 26) with 67108864 in BD.
  (* days * 86400 *)
  destruct (mul_near days 86400 44 OD) as (OM & _ & XM); [lia|lia| |].
  { rewrite FD, (pow_U 44), abs_scaled, Z.mul_assoc by (exact P || lia). change (2 ^ 44) with 17592186044416.
    apply Z.mul_lt_mono_pos_r; [exact P|lia]. }
  specialize (XM d).
  specialize (XM FD ltac:(change (2 ^ 53) with 9007199254740992; lia)).
  set (prod := sf_mul days (sf_of_Z 86400)) in *.
  assert (B1 : Z.abs (X - 86400 * d * U) < 43201 * U) by lia.
  (* x - prod is a double *)
  assert (REP : exists M E, X - 86400 * d * U = M * 2 ^ (E + 1200) /\ Z.abs M < 2 ^ 53
                /\ -1074 <= E <= 0 /\ (-53 <= E \/ 2 * Z.abs (X - 86400 * d * U) < U)).
  { destruct x as [sx|sx| |sx m e]; try contradiction; cbn [fz okf canonical] in *.
    - assert (d = 0) as ->.
      { destruct (Z.eq_dec d 0) as [D0|D0]; [exact D0|exfalso].
        pose proof (abs_unit d U P D0). unfold X in *. lia. }
      exists 0, 0. unfold X. lia.
    - destruct CX as [CM CC].
      assert (PW : 0 < 2 ^ (e + 1200)) by (apply Z.pow_pos_nonneg; lia).
      destruct (Z.le_gt_cases 0 e) as [G|G].
      + (* an integer *)
        exists (cond_Zopp sx (Zpos m * 2 ^ e) - 86400 * d), 0.
        assert (EX : X = cond_Zopp sx (Zpos m * 2 ^ e) * U) by (unfold X; rewrite pow_U by lia; destruct sx; unfold cond_Zopp; ring).
        rewrite (pow_U 0) by (clear; lia). change (2 ^ 0) with 1.
        split; [rewrite EX; ring|]. split; [|lia].
        change (2 ^ 53) with 9007199254740992. rewrite EX, <- Z.mul_sub_distr_r, abs_scaled in B1 by exact P.
        apply cancel_lt in B1; [|exact P]. lia.
      + assert (SP : U = 2 ^ (- e) * 2 ^ (e + 1200)).
        { unfold U. rewrite <- Z.pow_add_r by lia. f_equal. lia. }
        assert (PN : 0 < 2 ^ (- e)) by (apply Z.pow_pos_nonneg; lia).
        assert (AX : Z.abs X = Zpos m * 2 ^ (e + 1200)) by (unfold X; apply cond_opp_abs, Z.mul_nonneg_nonneg; lia).
        exists (cond_Zopp sx (Zpos m) - 86400 * d * 2 ^ (- e)), e.
        assert (EX : X - 86400 * d * U = (cond_Zopp sx (Zpos m) - 86400 * d * 2 ^ (- e)) * 2 ^ (e + 1200)).
        { rewrite SP. unfold X. destruct sx; unfold cond_Zopp; ring. }
        split; [exact EX|].
        destruct (Z.eq_dec d 0) as [D0|D0].
        * subst d. split; [rewrite Z.mul_0_r, Z.mul_0_l, Z.sub_0_r, cond_opp_abs by lia; lia|].
          split; [lia|].
          destruct (Z.le_gt_cases (-53) e) as [G53|G53]; [left; lia|right].
          rewrite Z.mul_0_r, Z.mul_0_l, Z.sub_0_r, AX.
          assert (2 ^ 54 <= 2 ^ (- e)) by (apply Z.pow_le_mono_r; lia).
          rewrite SP, Z.mul_assoc. apply Z.mul_lt_mono_pos_r; [exact PW|].
          change (2 ^ 54) with (2 * 2 ^ 53) in *. lia.
        * assert (LX : 43199 * U <= Z.abs X).
          { pose proof (abs_unit d U P D0). lia. }
          assert (E37 : -37 <= e).
          { destruct (Z.le_gt_cases (-37) e) as [G37|G37]; [exact G37|exfalso].
            assert (2 ^ 38 <= 2 ^ (- e)) by (apply Z.pow_le_mono_r; lia).
            rewrite AX in LX. rewrite SP in LX.
            rewrite Z.mul_assoc in LX. apply cancel_le in LX; [|exact PW].
            change (2 ^ 53) with 9007199254740992 in *. change (2 ^ 38) with 274877906944 in *. lia. }
          split; [|lia].
          assert (UB : 2 ^ (- e) <= 2 ^ 37) by (apply Z.pow_le_mono_r; lia).
          change (2 ^ 37) with 137438953472 in UB. change (2 ^ 53) with 9007199254740992.
          set (M := cond_Zopp sx (Zpos m) - 86400 * d * 2 ^ (- e)) in *.
          rewrite EX, Z.abs_mul, (Z.abs_eq (2 ^ (e + 1200))) in B1 by lia.
          rewrite SP in B1. set (w := 2 ^ (e + 1200)) in *. set (h := 2 ^ (- e)) in *.
          rewrite Z.mul_assoc in B1. apply cancel_lt in B1; [|exact PW]. lia. }
  destruct REP as (M & E & EX1 & BM & BE & SM).
  destruct (sub_exact x prod M E OX OM) as [O1 F1].
  { fold X. rewrite XM. exact EX1. }
  { exact BM. } { lia. }
  { fold X. rewrite XM. change (2 ^ 50) with 1125899906842624. clear -B1 P. lia. }
  fold X x1 in F1. fold x1 in O1. rewrite XM in F1.
  destruct (round_int x1 O1) as (s & OS & FS & ES & LS & _ & _).
  { rewrite F1. change (2 ^ 50) with 1125899906842624. lia. }
  fold secs in OS, FS, LS. rewrite F1 in ES.
  set (X1 := X - 86400 * d * U) in *.
  assert (BS : Z.abs s <= 43201).
  { assert (K : Z.abs s * U < 43202 * U) by (rewrite <- (abs_scaled s U P); clear -B1 ES P; lia).
    apply cancel_lt in K; [lia|exact P]. }
  assert (REP2 : exists M', X1 - s * U = M' * 2 ^ (E + 1200) /\ Z.abs M' < 2 ^ 53).
  { assert (SP : U = 2 ^ (- E) * 2 ^ (E + 1200)).
    { unfold U. rewrite <- Z.pow_add_r by lia. f_equal. lia. }
    exists (M - s * 2 ^ (- E)).
    assert (EE : X1 - s * U = (M - s * 2 ^ (- E)) * 2 ^ (E + 1200)) by (rewrite EX1, SP; ring).
    split; [exact EE|].
    assert (PN : 0 < 2 ^ (- E)) by (apply Z.pow_pos_nonneg; lia).
    assert (PW : 0 < 2 ^ (E + 1200)) by (apply Z.pow_pos_nonneg; lia).
    destruct SM as [SM|SM].
    - assert (UB : 2 ^ (- E) <= 2 ^ 53) by (apply Z.pow_le_mono_r; lia).
      assert (B2 : 2 * Z.abs (X1 - s * U) <= U) by (clear -ES; lia).
      rewrite EE, Z.abs_mul, (Z.abs_eq (2 ^ (E + 1200))) in B2 by lia. rewrite SP in B2.
      set (M' := M - s * 2 ^ (- E)) in *. set (w := 2 ^ (E + 1200)) in *. set (h := 2 ^ (- E)) in *.
      rewrite Z.mul_assoc in B2. apply cancel_le in B2; [clear -B2 UB; clearbody h M'; lia|exact PW].
    - assert (s = 0) as ->.
      { destruct (Z.eq_dec s 0) as [S0|S0]; [exact S0|exfalso].
        pose proof (abs_unit s U P S0) as AU. clear -AU ES SM; clearbody X1; lia. }
      rewrite Z.mul_0_l, Z.sub_0_r. exact BM. }
  destruct REP2 as (M' & EX2 & BM').
  destruct (sub_exact x1 secs M' E O1 OS) as [OR FR].
  { rewrite F1, FS. exact EX2. }
  { exact BM'. } { lia. }
  { rewrite F1, FS. change (2 ^ 50) with 1125899906842624. clear -ES P; clearbody X1; lia. }
  fold rest in OR, FR. exists d, s.
  split; [exact LD|]. split; [exact LS|]. split; [exact BD|]. split; [exact BS|].
  split; [exact OR|]. rewrite FR, F1, FS. unfold X1. split; [ring|]. fold X1. clear -ES; clearbody X1; lia.
Qed.

Lemma datetime_of : forall x, okf x -> canonical x -> sf_isnan x = false ->
  Z.abs (fz x) < 2 ^ 42 * U ->
  exists t, get_datetime_from_epoch x = Ok (PTicks t)
    /\ 2 ^ 35 * Z.abs ((t - jdn_1960 * day_us) * U - 1000000 * fz x) <= (2 ^ 34 + 1) * U
    /\ (forall n, fz x = n * U -> t = jdn_1960 * day_us + 1000000 * n).
Proof.
  intros x OX CX NX BX. pose proof U_pos as P.
  destruct (datetime_parts x OX CX BX) as (d & s & LD & LS & BD & BS & OR & FR & BR).
  unfold get_datetime_from_epoch. rewrite NX.
  set (days := sf_round (sf_div x seconds_in_a_day)) in *.
  set (x1 := sf_sub x (sf_mul days seconds_in_a_day)) in *.
  set (secs := sf_round x1) in *. set (rest := sf_sub x1 secs) in *.
  destruct (mul_near rest 1000000 19 OR) as (OM & EM & XM); [lia|lia| |].
  { rewrite (pow_U 19) by (clear; lia). change (2 ^ 19) with 524288. lia. }
  fold million in OM, EM, XM. set (Y := fz (sf_mul rest million)) in *.
  destruct (eps_ok 35 (19 - 54 + 1200) eq_refl ltac:(lia)) as [EPS PE].
  set (eps := 2 ^ (19 - 54 + 1200)) in *. clearbody eps.
  change (2 ^ 35) with 34359738368 in *. change (2 ^ 34) with 17179869184.
  change (2 ^ 26) with 67108864 in *.
  destruct (round_int _ OM) as (u & _ & _ & EU & LU & _ & _).
  { fold Y. change (2 ^ 50) with 1125899906842624. lia. }
  fold Y in EU.
  assert (BU : Z.abs u <= 1000000).
  { apply (cancel_le _ _ U P). rewrite <- (abs_scaled u U P). lia. }
  rewrite LD, LS, LU. cbn [bind].
  assert (I1 : add_days epoch_ticks d = Ok (epoch_ticks + d * us_per_day)).
  { unfold add_days, mul_i64, add_i64. rewrite epoch_value. unfold jdn_1960, day_us, us_per_day.
    rewrite int64_small by (change (2 ^ 63) with 9223372036854775808; lia). cbn [bind].
    rewrite int64_small by (change (2 ^ 63) with 9223372036854775808; lia). reflexivity. }
  rewrite I1. cbn [bind]. unfold mul_i64, add_i64.
  rewrite int64_small by (change (2 ^ 63) with 9223372036854775808; lia). cbn [bind].
  rewrite epoch_value. unfold us_per_day.
  rewrite int64_small by (unfold jdn_1960, day_us; change (2 ^ 63) with 9223372036854775808; lia). cbn [bind].
  rewrite int64_small by (unfold jdn_1960, day_us; change (2 ^ 63) with 9223372036854775808; lia). cbn [bind noexcept].
  exists (jdn_1960 * day_us + d * (86400 * 1000000) + s * 1000000 + u).
  split; [reflexivity|]. split; [|].
  - replace ((jdn_1960 * day_us + d * (86400 * 1000000) + s * 1000000 + u - jdn_1960 * day_us) * U - 1000000 * fz x)
      with (u * U - 1000000 * fz rest) by (rewrite FR; ring).
    lia.
  - intros n FN.
    assert (R0 : fz rest = (n - (86400 * d + s)) * U) by (rewrite FR, FN; ring).
    assert (N0 : n = 86400 * d + s).
    { destruct (Z.eq_dec n (86400 * d + s)) as [N0|N0]; [exact N0|exfalso].
      pose proof (abs_unit (n - (86400 * d + s)) U P ltac:(lia)). lia. }
    assert (FY : Y = 0).
    { rewrite (XM 0); [ring|rewrite R0, N0; ring|cbn [Z.abs]; lia]. }
    assert (u = 0) as ->.
    { destruct (Z.eq_dec u 0) as [U0|U0]; [exact U0|exfalso].
      pose proof (abs_unit u U P U0). lia. }
    rewrite N0. ring.
Qed.

(** The bits of the row. *)
Lemma read_bits : forall c p bits,
  fm_kind (c_fm c) = FDateTime \/ fm_kind (c_fm c) = FDate \/ fm_kind (c_fm c) = FTime ->
  holds_bits c p bits -> fm_get_double (c_fm c) p = Ok (sf_of_bits bits).
Proof.
  intros c p bits K (l & L8 & RH & V). unfold fm_get_double, fm_get_number.
  pose proof (row_has_read (c_fm c) p l RH) as R. rewrite L8 in R.
  destruct K as [K|[K|K]]; rewrite K, R; cbn [bind]; rewrite get_val_value, V; reflexivity.
Qed.

Lemma type_kind : forall c,
  (c_type c = TDateTime <-> fm_kind (c_fm c) = FDateTime)
  /\ (c_type c = TDate <-> fm_kind (c_fm c) = FDate)
  /\ (c_type c = TTime <-> fm_kind (c_fm c) = FTime).
Proof.
  intros c. unfold c_type, fkind_type. destruct (fm_kind (c_fm c)); intuition congruence.
Qed.

Lemma half_more : forall a b, (b <= (2 ^ 34 + 1) # (2 ^ 35))%Q -> (a <= b)%Q -> (a <= (1 # 2) + (1 # 2 ^ 35))%Q.
Proof. intros a b H1 H2. change ((2 ^ 34 + 1) # (2 ^ 35))%Q with (17179869185 # 34359738368)%Q in H1.
  change (1 # 2 ^ 35)%Q with (1 # 34359738368)%Q. lra. Qed.

Lemma near_Q : forall q X t, (inject_Z X == q * inject_Z U)%Q ->
  2 ^ 35 * Z.abs (t * U - 1000000 * X) <= (2 ^ 34 + 1) * U ->
  (Qabs (inject_Z t - inject_Z 1000000 * q) <= (1 # 2) + (1 # 2 ^ 35))%Q.
Proof.
  intros q X t F H.
  eapply half_more; [|apply (scale_dist q X t 1000000 (2 ^ 34 + 1) (2 ^ 35) F); exact H].
  apply Qle_refl.
Qed.

Lemma datetime_value : forall bits q, double_value bits q -> (Qabs q < inject_Z (2 ^ 42))%Q ->
  exists t, get_datetime_from_epoch (sf_of_bits bits) = Ok (PTicks (jdn_1960 * day_us + t))
    /\ (Qabs (inject_Z t - inject_Z 1000000 * q) <= (1 # 2) + (1 # 2 ^ 35))%Q
    /\ (forall n, (q == inject_Z n)%Q -> t = 1000000 * n).
Proof.
  intros bits q V B. destruct (value_fz bits q V) as (OK & CN & NN & F).
  pose proof (scale_lt q _ _ F B) as BX.
  destruct (datetime_of _ OK CN NN BX) as (t & G & E & X).
  exists (t - jdn_1960 * day_us). split; [rewrite G; do 2 f_equal; ring|]. split.
  - apply (near_Q q _ _ F). exact E.
  - intros n QN. rewrite (X n); [ring|]. apply (scale_eq q); assumption.
Qed.

Lemma column_datetime : forall c p bits q, c_type c = TDateTime -> holds_bits c p bits ->
  double_value bits q -> (Qabs q < inject_Z (2 ^ 42))%Q ->
  exists t, c_get_datetime c p = Ok (PTicks (jdn_1960 * day_us + t))
    /\ (Qabs (inject_Z t - inject_Z 1000000 * q) <= (1 # 2) + (1 # 2 ^ 35))%Q
    /\ (forall n, (q == inject_Z n)%Q -> t = 1000000 * n).
Proof.
  intros c p bits q T H V B. destruct (datetime_value bits q V B) as (t & G & E & X).
  exists t. split; [|split; assumption]. apply (proj1 (type_kind c)) in T.
  unfold c_get_datetime, fm_get_datetime. rewrite T, (read_bits c p bits) by auto.
  cbn [bind]. rewrite G. reflexivity.
Qed.

Lemma column_datetime_nan : forall c p bits, c_type c = TDateTime -> holds_bits c p bits ->
  double_nan bits ->
  c_get_datetime c p = Ok NotADateTime /\ c_get_date c p = Ok NotADate /\ c_get_time c p = Ok NotATime.
Proof.
  intros c p bits T H N. apply (proj1 (type_kind c)) in T. apply nan_bits in N.
  unfold c_get_datetime, fm_get_datetime, c_get_date, fm_get_date, c_get_time, fm_get_time.
  rewrite T, (read_bits c p bits) by auto. rewrite N. repeat split; reflexivity.
Qed.

(** ** The date of a number of days *)

Lemma supported_range : forall n t, days_from_1960 n t -> supported t ->
  valid_day t /\ jdn_of t = jdn_1960 + n /\ -204535 <= n <= 2936549.
Proof.
  intros n t D S. assert (V : valid_day t) by apply D.
  pose proof (proj1 (days_from_jdn n t V S) D) as J. split; [exact V|]. split; [exact J|].
  assert (Y : 1400 <= year_of t <= 9999) by (destruct t as [[y m] d]; exact S).
  unfold jdn_1960 in J.
  assert (L : 2232400 <= jdn_of t).
  { destruct (Z.le_gt_cases 2232400 (jdn_of t)) as [G|G]; [exact G|exfalso].
    pose proof (jdn_year_le t 1399 V) as K. change (jdn 1399 12 31) with 2232399 in K. lia. }
  assert (H : jdn_of t <= 5373484).
  { destruct (Z.le_gt_cases (jdn_of t) 5373484) as [G|G]; [exact G|exfalso].
    pose proof (jdn_year_ge t 10000 V) as K. change (jdn 10000 1 1) with 5373485 in K. lia. }
  lia.
Qed.

Lemma ticks_date : forall n t us, days_from_1960 n t -> supported t -> 0 <= us < day_us ->
  exists dn, ptime_date (PTicks (jdn_1960 * day_us + n * day_us + us)) = Ok (GDate dn)
    /\ Z.of_N dn = jdn_1960 + n /\ date_ymd (GDate dn) = Ok t
    /\ ptime_tod (PTicks (jdn_1960 * day_us + n * day_us + us)) = TTicks us.
Proof.
  intros n t us D S HU. destruct (supported_range n t D S) as (V & J & R).
  exists (Z.to_N (jdn_1960 + n)). unfold jdn_1960 in *.
  assert (E : Z.of_N (Z.to_N (2436935 + n)) = 2436935 + n) by (apply Z2N.id; lia).
  destruct (day_of_number t (2436935 + n) V S J) as [C1 C2].
  split; [|split; [exact E|split]].
  - cbn [ptime_date].
    assert (Q : Z.quot (2436935 * day_us + n * day_us + us) us_per_day = 2436935 + n).
    { change us_per_day with day_us. rewrite Z.quot_div_nonneg by (unfold day_us in *; lia).
      symmetry. apply (Z.div_unique _ _ _ us); [left; exact HU|ring]. }
    rewrite Q. rewrite u32_id by (change (2 ^ 32) with 4294967296; lia).
    rewrite C1. cbn [bind]. destruct t as [[y m] d]. cbn [year_of fst snd] in C2. rewrite C2. reflexivity.
  - cbn [date_ymd]. rewrite E. exact C1.
  - cbn [ptime_tod]. f_equal. change us_per_day with day_us.
    rewrite Z.rem_mod_nonneg by (unfold day_us in *; lia).
    symmetry. apply (Z.mod_unique _ _ (2436935 + n)); [left; exact HU|ring].
Qed.

(** A datetime column: the date and the time of day of the datetime. *)
Lemma column_datetime_parts : forall c p n t us, c_type c = TDateTime ->
  c_get_datetime c p = Ok (PTicks (jdn_1960 * day_us + n * day_us + us)) ->
  days_from_1960 n t -> supported t -> 0 <= us < day_us ->
  (exists g, c_get_date c p = Ok g /\ date_ymd g = Ok t) /\ c_get_time c p = Ok (TTicks us).
Proof.
  intros c p n t us T G D S HU. apply (proj1 (type_kind c)) in T.
  destruct (ticks_date n t us D S HU) as (dn & A1 & _ & A3 & A4).
  unfold c_get_datetime, fm_get_datetime, c_get_date, fm_get_date, c_get_time, fm_get_time in *.
  rewrite T in *. destruct (fm_get_double (c_fm c) p) as [x| | | |]; try discriminate.
  cbn [bind] in *. destruct (get_datetime_from_epoch x) as [u| | | |]; try discriminate.
  cbn [noexcept] in G. apply (f_equal (fun r => match r with Ok a => a | _ => u end)) in G.
  cbv beta iota in G. subst u. cbn [bind noexcept].
  rewrite A1, A4. split; [|reflexivity].
  exists (GDate dn). split; [reflexivity|exact A3].
Qed.

Lemma days_ok : forall n, Z.abs n <= 2 ^ 26 -> add_days epoch_ticks n = Ok ((jdn_1960 + n) * day_us).
Proof.
  intros n H. unfold add_days, mul_i64, add_i64. rewrite epoch_value.
  change (2 ^ 26) with 67108864 in H. unfold jdn_1960, day_us, us_per_day.
  rewrite int64_small by (change (2 ^ 63) with 9223372036854775808; lia). cbn [bind].
  rewrite int64_small by (change (2 ^ 63) with 9223372036854775808; lia). f_equal. ring.
Qed.

Lemma date_value : forall bits q n t, double_value bits q -> nearest q n ->
  days_from_1960 n t -> supported t ->
  exists g, get_date_from_epoch (sf_of_bits bits) = Ok g /\ date_ymd g = Ok t
            /\ ptime_of_date g = PTicks (jdn_1960 * day_us + n * day_us).
Proof.
  intros bits q n t V N D S. destruct (supported_range n t D S) as (_ & _ & R).
  destruct (value_fz bits q V) as (_ & _ & NN & _).
  destruct (ticks_date n t 0 D S ltac:(unfold day_us; lia)) as (dn & A1 & A2 & A3 & _).
  exists (GDate dn). split; [|split; [exact A3|]].
  - unfold get_date_from_epoch, get_date_from_epoch_days. rewrite NN.
    rewrite (lround_nearest bits q n V N) by (change (2 ^ 49) with 562949953421312; lia).
    cbn [bind]. rewrite days_ok by (change (2 ^ 26) with 67108864; lia). cbn [bind].
    rewrite Z.add_0_r, <- Z.mul_add_distr_r in A1. rewrite A1. reflexivity.
  - cbn [ptime_of_date]. rewrite A2. change us_per_day with day_us. f_equal. ring.
Qed.

Lemma column_date : forall c p bits q n t, c_type c = TDate -> holds_bits c p bits ->
  double_value bits q -> nearest q n -> days_from_1960 n t -> supported t ->
  (exists g, c_get_date c p = Ok g /\ date_ymd g = Ok t)
  /\ c_get_datetime c p = Ok (PTicks (jdn_1960 * day_us + n * day_us)).
Proof.
  intros c p bits q n t T H V N D S. apply (proj1 (proj2 (type_kind c))) in T.
  destruct (date_value bits q n t V N D S) as (g & G & Y & M).
  unfold c_get_date, c_get_datetime, fm_get_date, fm_get_datetime, fm_get_date.
  rewrite T, (read_bits c p bits) by auto. cbn [bind].
  rewrite G. cbn [noexcept bind]. rewrite M. split; [|reflexivity].
  exists g. split; [reflexivity|exact Y].
Qed.

Lemma every_day : forall n, -204535 <= n <= 2936549 <->
  exists t, days_from_1960 n t /\ supported t.
Proof.
  intros n. split.
  - intros H. destruct (day_exists (jdn_1960 + n)) as (t & V & S & J); [unfold jdn_1960; lia|].
    exists t. split; [|exact S]. apply days_from_jdn; assumption.
  - intros (t & D & S). apply (supported_range n t D S).
Qed.

Lemma later_add : forall a b t, days_later (a + b) t = days_later a (days_later b t).
Proof. induction a as [|a IH]; intros b t; cbn; [reflexivity|]. rewrite IH. reflexivity. Qed.

(** The relation is the one of a calendar: one date for a number, one number for a
    date, and the next number is the next day. *)
Lemma calendar_steps : forall n t t', supported t -> supported t' ->
  days_from_1960 n t -> days_from_1960 (n + 1) t' -> t' = next_day t.
Proof.
  intros n t t' S S' D D'.
  destruct (supported_range n t D S) as (V & J & R).
  destruct (supported_range (n + 1) t' D' S') as (V' & J' & R').
  destruct t as [[y m] d]. destruct V as [Vm Vd]. pose proof (jdn_next y m d Vm Vd) as K.
  destruct (next_day (y, m, d)) as [[y1 m1] d1]. destruct K as [K1 K2].
  apply valid_unique; [exact V'|exact K2| |].
  - rewrite jdn_low, jdn_high, J'. unfold jdn_1960. lia.
  - cbn [jdn_of] in *. lia.
Qed.

(** ** Dates outside the years of the library *)

Lemma year_bounds_abort : forall t, valid_day t -> 0 <= year_of t <= 20000 -> ~ supported t ->
  check_ymd (from_day_number (jdn_of t)) = Exn E_bad_year.
Proof.
  intros t V Y S. rewrite from_jdn_of by assumption. destruct t as [[y m] d].
  cbn [supported year_of] in *. unfold check_ymd.
  destruct (Z.leb_spec 1400 y), (Z.leb_spec y 9999); cbn [andb]; try reflexivity. lia.
Qed.

Lemma column_date_abort : forall c p bits q n t, c_type c = TDate -> holds_bits c p bits ->
  double_value bits q -> nearest q n -> days_from_1960 n t -> 0 <= year_of t <= 20000 ->
  ~ supported t -> c_get_date c p = Abort.
Proof.
  intros c p bits q n t T H V N D Y S. apply (proj1 (proj2 (type_kind c))) in T.
  destruct (value_fz bits q V) as (_ & _ & NN & _).
  assert (VT : valid_day t) by apply D.
  assert (B : 1721060 <= jdn_of t <= 9026275).
  { rewrite <- jdn_low, <- jdn_high. destruct t as [[y m] d]. cbn [year_of jdn_of] in *.
    pose proof (jdn_in_year y m d VT) as I.
    assert (V0 : valid_day (0, 1, 1)) by (unfold valid_day; pose proof (days_in_bounds 0 1); lia).
    assert (V2 : valid_day (20000, 1, 1)) by (unfold valid_day; pose proof (days_in_bounds 20000 1); lia).
    split.
    - destruct (Z.eq_dec y 0) as [->|NE]; [lia|].
      pose proof (jdn_years 0 y ltac:(lia)). pose proof (jdn_in_year 0 1 1 V0). lia.
    - destruct (Z.eq_dec y 20000) as [->|NE]; [lia|].
      pose proof (jdn_years y 20000 ltac:(lia)). pose proof (jdn_in_year 20000 1 1 V2). lia. }
  assert (J : jdn_of t = jdn_1960 + n).
  { unfold jdn_1960. destruct D as (_ & P & Q). destruct (Z.le_gt_cases 0 n) as [L|L].
    + rewrite <- (P L). destruct (later_jdn (Z.to_nat n) (1960, 1, 1) epoch_valid) as [_ J].
      rewrite J. cbn [jdn_of]. rewrite jdn_1960_1. unfold jdn_1960. lia.
    + destruct (later_jdn (Z.to_nat (- n)) t VT) as [_ J]. rewrite (Q L) in J. cbn [jdn_of] in J.
      rewrite jdn_1960_1 in J. unfold jdn_1960 in J. lia. }
  unfold jdn_1960 in J.
  unfold c_get_date, fm_get_date. rewrite T, (read_bits c p bits) by auto. cbn [bind].
  unfold get_date_from_epoch, get_date_from_epoch_days. rewrite NN.
  rewrite (lround_nearest bits q n V N) by (change (2 ^ 49) with 562949953421312; lia).
  cbn [bind]. rewrite days_ok by (change (2 ^ 26) with 67108864; lia). cbn [bind ptime_date].
  change us_per_day with day_us. rewrite Z.quot_mul by (unfold day_us; lia).
  unfold jdn_1960. rewrite <- J. rewrite u32_id by (change (2 ^ 32) with 4294967296; lia).
  rewrite year_bounds_abort by assumption. reflexivity.
Qed.

Lemma column_date_nan : forall c p bits, c_type c = TDate -> holds_bits c p bits ->
  double_nan bits -> c_get_date c p = Ok NotADate /\ c_get_datetime c p = Ok NotADateTime.
Proof.
  intros c p bits T H N. apply (proj1 (proj2 (type_kind c))) in T. apply nan_bits in N.
  unfold c_get_datetime, fm_get_datetime, c_get_date, fm_get_date.
  rewrite T, (read_bits c p bits) by auto. rewrite N. split; reflexivity.
Qed.

(** ** Times *)

Lemma column_time_mod : forall c p bits q, c_type c = TTime -> holds_bits c p bits ->
  double_value bits q -> (Qabs q < inject_Z (2 ^ 37))%Q ->
  exists t, c_get_time c p = Ok (TTicks (t mod day_us))
    /\ (Qabs (inject_Z t - inject_Z 1000000 * q) <= (1 # 2) + (1 # 2 ^ 35))%Q
    /\ (forall n, (q == inject_Z n)%Q -> t = 1000000 * n).
Proof.
  intros c p bits q T H V B. apply (proj2 (proj2 (type_kind c))) in T.
  destruct (datetime_value bits q V) as (t & G & E & X).
  { apply (Qlt_trans _ _ _ B). reflexivity. }
  exists t. split; [|split; assumption].
  unfold c_get_time, fm_get_time. rewrite T, (read_bits c p bits) by auto. cbn [bind].
  unfold get_time_from_epoch. rewrite G. cbn [bind noexcept ptime_tod]. do 2 f_equal.
  change us_per_day with day_us.
  assert (TB : Z.abs t < 2 ^ 58).
  { rewrite Zlt_Qlt. change (inject_Z (Z.abs t)) with (Qabs (inject_Z t)).
    change (inject_Z (2 ^ 37)) with 137438953472%Q in B.
    change (inject_Z (2 ^ 58)) with 288230376151711744%Q. change (1 # 2 ^ 35)%Q with (1 # 34359738368)%Q in E.
    change (inject_Z 1000000) with 1000000%Q in E.
    pose proof (Qabs_triangle (inject_Z t - 1000000 * q) (1000000 * q)) as K.
    assert (K2 : (Qabs (inject_Z t - 1000000 * q + 1000000 * q) == Qabs (inject_Z t))%Q)
      by (apply Qabs_wd; ring).
    rewrite K2, Qabs_Qmult in K. change (Qabs 1000000) with 1000000%Q in K.
    set (a := Qabs (inject_Z t)) in *. set (b := Qabs q) in *.
    set (e := Qabs (inject_Z t - 1000000 * q)) in *. lra. }
  assert (TP : 0 <= jdn_1960 * day_us + t).
  { assert (t > - 210000000000000000); [|unfold jdn_1960, day_us; lia].
    assert (TB2 : Z.abs t < 138 * 10 ^ 15); [|lia].
    rewrite Zlt_Qlt. change (inject_Z (Z.abs t)) with (Qabs (inject_Z t)).
    change (inject_Z (2 ^ 37)) with 137438953472%Q in B.
    change (inject_Z (138 * 10 ^ 15)) with 138000000000000000%Q.
    change (1 # 2 ^ 35)%Q with (1 # 34359738368)%Q in E.
    change (inject_Z 1000000) with 1000000%Q in E.
    pose proof (Qabs_triangle (inject_Z t - 1000000 * q) (1000000 * q)) as K.
    assert (K2 : (Qabs (inject_Z t - 1000000 * q + 1000000 * q) == Qabs (inject_Z t))%Q)
      by (apply Qabs_wd; ring).
    rewrite K2, Qabs_Qmult in K. change (Qabs 1000000) with 1000000%Q in K.
    set (a := Qabs (inject_Z t)) in *. set (b := Qabs q) in *.
    set (e := Qabs (inject_Z t - 1000000 * q)) in *. lra. }
  rewrite Z.rem_mod_nonneg by (try exact TP; reflexivity).
  rewrite Z.add_comm, Z.mod_add by (unfold day_us; lia). reflexivity.
Qed.

Lemma column_time : forall c p bits q, c_type c = TTime -> holds_bits c p bits ->
  double_value bits q -> (0 <= q)%Q -> (q + (1 # 2 ^ 20) <= 86400)%Q ->
  exists t, c_get_time c p = Ok (TTicks t)
    /\ 0 <= t < day_us
    /\ (Qabs (inject_Z t - inject_Z 1000000 * q) <= (1 # 2) + (1 # 2 ^ 35))%Q
    /\ (forall n, (q == inject_Z n)%Q -> t = 1000000 * n).
Proof.
  intros c p bits q T H V L U1. change (1 # 2 ^ 20)%Q with (1 # 1048576)%Q in U1.
  destruct (column_time_mod c p bits q T H V) as (t & G & E & X).
  { rewrite Qabs_pos by exact L. change (inject_Z (2 ^ 37)) with 137438953472%Q. lra. }
  exists t.
  assert (R : 0 <= t < day_us).
  { change (1 # 2 ^ 35)%Q with (1 # 34359738368)%Q in E. change (inject_Z 1000000) with 1000000%Q in E.
    apply Qabs_Qle_condition in E. destruct E as [E1 E2].
    split.
    - assert (-1 < t); [|lia]. rewrite Zlt_Qlt. change (inject_Z (-1)) with (-1)%Q. lra.
    - rewrite Zlt_Qlt. change (inject_Z day_us) with 86400000000%Q. lra. }
  split; [rewrite G; do 2 f_equal; apply Z.mod_small; exact R|].
  split; [exact R|]. split; assumption.
Qed.

Lemma column_time_nan : forall c p bits, c_type c = TTime -> holds_bits c p bits ->
  double_nan bits -> c_get_time c p = Ok NotATime.
Proof.
  intros c p bits T H N. apply (proj2 (proj2 (type_kind c))) in T. apply nan_bits in N.
  unfold c_get_time, fm_get_time. rewrite T, (read_bits c p bits) by auto. rewrite N. reflexivity.
Qed.

Lemma column_date_abort_full : forall c p bits q n t, c_type c = TDate -> holds_bits c p bits ->
  double_value bits q -> nearest q n -> days_from_1960 n t ->
  (let '(y, _, _) := t in 0 <= y <= 20000) ->
  ~ supported t -> c_get_date c p = Abort.
Proof.
  intros c p bits q n [[y m] d] T H V N D Y S.
  exact (column_date_abort c p bits q n (y, m, d) T H V N D Y S).
Qed.

Lemma column_date_ok : forall c p bits, c_type c = TDate -> holds_bits c p bits ->
  double_nan bits \/ (exists q n, double_value bits q /\ nearest q n /\ -204535 <= n <= 2936549) ->
  exists g, c_get_date c p = Ok g.
Proof.
  intros c p bits T H [N|(q & n & V & N & R)].
  - exists NotADate. apply (column_date_nan c p bits T H N).
  - apply every_day in R. destruct R as (t & D & S).
    destruct (column_date c p bits q n t T H V N D S) as ((g & G & _) & _). exists g. exact G.
Qed.
