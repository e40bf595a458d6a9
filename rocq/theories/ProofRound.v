(** The arithmetic of the doubles of Coq.Floats.SpecFloat: error bounds and
    exactness.  The values are compared on the scale of 2^-1200, where every double
    is an integer. *)
From Coq Require Import Floats.SpecFloat.
From Verif Require Import Base Float SpecValues ProofFloat.
Local Open Scope Z_scope.

(** ** Truncated quotients *)

(** A record of a shift describes N / D: its integer part, and where the rest is. *)
Definition rec_ok (N D : Z) (r : shr_record) : Prop :=
  shr_m r = N / D
  /\ shr_r r = (D <=? 2 * (N mod D))
  /\ shr_s r = negb ((N mod D =? 0) || (2 * (N mod D) =? D)).

Lemma div2_parts : forall N D, 0 <= N -> 0 < D ->
  N / (D * 2) = (N / D) / 2 /\ N mod (D * 2) = (N / D) mod 2 * D + N mod D.
Proof.
  intros N D HN HD. split; [rewrite Z.div_div by lia; reflexivity|].
  rewrite Z.rem_mul_r by lia. lia.
Qed.

Lemma shr_1_ok : forall N D r, 0 <= N -> 0 < D -> rec_ok N D r -> rec_ok N (D * 2) (shr_1 r).
Proof.
  intros N D [m b s] HN HD (M & R & T). cbn [shr_m shr_r shr_s] in *.
  destruct (div2_parts N D HN HD) as [Q1 Q2].
  pose proof (Z.mod_pos_bound N D HD) as B.
  assert (P : 0 <= m) by (rewrite M; apply Z.div_pos; lia).
  assert (S : (b || s)%bool = negb (N mod D =? 0)).
  { rewrite R, T. destruct (Z.leb_spec D (2 * (N mod D))), (Z.eqb_spec (N mod D) 0),
      (Z.eqb_spec (2 * (N mod D)) D); try reflexivity; lia. }
  assert (G : shr_1 (Build_shr_record m b s) = Build_shr_record (m / 2) (m mod 2 =? 1) (b || s)).
  { unfold shr_1. destruct m as [|p|p]; [reflexivity| |lia].
    assert (EQ : forall a1 a2 b1 b2 c, a1 = a2 -> b1 = b2 ->
      Build_shr_record a1 b1 c = Build_shr_record a2 b2 c) by (intros; subst; reflexivity).
    destruct p as [p|p|]; [| |reflexivity]; apply EQ.
    - rewrite Pos2Z.inj_xI. apply (Z.div_unique _ 2 _ 1); lia.
    - rewrite Pos2Z.inj_xI. replace ((2 * Z.pos p + 1) mod 2) with 1; [reflexivity|].
      apply (Z.mod_unique _ 2 (Z.pos p)); lia.
    - rewrite Pos2Z.inj_xO. apply (Z.div_unique _ 2 _ 0); lia.
    - rewrite Pos2Z.inj_xO. replace ((2 * Z.pos p) mod 2) with 0; [reflexivity|].
      apply (Z.mod_unique _ 2 (Z.pos p)); lia. }
  rewrite G. unfold rec_ok. cbn [shr_m shr_r shr_s]. rewrite Q1, Q2, <- M, S.
  pose proof (Z.mod_pos_bound m 2 ltac:(lia)) as B2.
  split; [reflexivity|].
  assert (C : m mod 2 = 0 \/ m mod 2 = 1) by lia.
  destruct C as [-> | ->]; split.
  - destruct (Z.eqb_spec 0 1); [lia|]. destruct (Z.leb_spec (D * 2) (2 * (0 * D + N mod D))); [lia|reflexivity].
  - f_equal. destruct (Z.eqb_spec (N mod D) 0), (Z.eqb_spec (0 * D + N mod D) 0),
      (Z.eqb_spec (2 * (0 * D + N mod D)) (D * 2)); try reflexivity; lia.
  - destruct (Z.eqb_spec 1 1); [|lia]. destruct (Z.leb_spec (D * 2) (2 * (1 * D + N mod D))); [reflexivity|lia].
  - f_equal. destruct (Z.eqb_spec (N mod D) 0), (Z.eqb_spec (1 * D + N mod D) 0),
      (Z.eqb_spec (2 * (1 * D + N mod D)) (D * 2)); try reflexivity; lia.
Qed.

Lemma iter_ok : forall p N D r, 0 <= N -> 0 < D -> rec_ok N D r ->
  rec_ok N (D * 2 ^ Zpos p) (@SpecFloat.iter_pos _ shr_1 p r).
Proof.
  induction p as [p IH|p IH|]; intros N D r HN HD H; cbn [SpecFloat.iter_pos].
  - assert (P : 0 < 2 ^ Zpos p) by (apply Z.pow_pos_nonneg; lia).
    replace (D * 2 ^ Zpos p~1) with (D * 2 * 2 ^ Zpos p * 2 ^ Zpos p).
    + apply IH; [exact HN|nia|]. apply IH; [exact HN|lia|]. apply shr_1_ok; assumption.
    + replace (Zpos p~1) with (1 + Zpos p + Zpos p) by lia. rewrite !Z.pow_add_r by lia.
      change (2 ^ 1) with 2. ring.
  - assert (P : 0 < 2 ^ Zpos p) by (apply Z.pow_pos_nonneg; lia).
    replace (D * 2 ^ Zpos p~0) with (D * 2 ^ Zpos p * 2 ^ Zpos p).
    + apply IH; [exact HN|nia|]. apply IH; assumption.
    + replace (Zpos p~0) with (Zpos p + Zpos p) by lia. rewrite Z.pow_add_r by lia. ring.
  - change (2 ^ 1) with 2. apply shr_1_ok; assumption.
Qed.

(** Where N / D is, for the rounding. *)
Definition loc_ok (N D : Z) (l : location) : Prop :=
  rec_ok N D (shr_record_of_loc (N / D) l).

Lemma loc_exact : forall N, 0 <= N -> loc_ok N 1 loc_Exact.
Proof.
  intros N H. unfold loc_ok, rec_ok. cbn [shr_record_of_loc shr_m shr_r shr_s].
  rewrite Z.mod_1_r. repeat split; reflexivity.
Qed.

Lemma loc_quotient : forall N D, 0 <= N -> 0 < D -> loc_ok N D (new_location D (N mod D)).
Proof.
  intros N D HN HD. pose proof (Z.mod_pos_bound N D HD) as B. set (k := N mod D) in *.
  unfold loc_ok, rec_ok. fold k. unfold new_location, new_location_even, new_location_odd.
  destruct (Z.even D) eqn:EV.
  - destruct (Zeq_bool k 0) eqn:K0.
    + apply Zeq_bool_eq in K0. rewrite K0. cbn [shr_record_of_loc shr_m shr_r shr_s].
      split; [reflexivity|]. split; [|reflexivity]. destruct (Z.leb_spec D (2 * 0)); [lia|reflexivity].
    + apply Zeq_bool_neq in K0.
      destruct (Z.compare_spec (2 * k) D); cbn [shr_record_of_loc shr_m shr_r shr_s];
        (split; [reflexivity|]); split;
        destruct (Z.leb_spec D (2 * k)), (Z.eqb_spec k 0), (Z.eqb_spec (2 * k) D);
        try reflexivity; lia.
  - assert (OD : D mod 2 = 1).
    { rewrite Zmod_odd. rewrite <- Z.negb_even, EV. reflexivity. }
    destruct (Zeq_bool k 0) eqn:K0.
    + apply Zeq_bool_eq in K0. rewrite K0. cbn [shr_record_of_loc shr_m shr_r shr_s].
      split; [reflexivity|]. split; [|reflexivity]. destruct (Z.leb_spec D (2 * 0)); [lia|reflexivity].
    + apply Zeq_bool_neq in K0.
      assert (NE : 2 * k <> D).
      { intros E. rewrite <- E in OD. rewrite Z.mul_comm, Z_mod_mult in OD. discriminate. }
      destruct (Z.compare_spec (2 * k + 1) D); cbn [shr_record_of_loc shr_m shr_r shr_s];
        (split; [reflexivity|]); split;
        destruct (Z.leb_spec D (2 * k)), (Z.eqb_spec k 0), (Z.eqb_spec (2 * k) D);
        try reflexivity; lia.
Qed.

(** Rounding gives one of the nearest integers. *)
Lemma round_near : forall N D r, 0 <= N -> 0 < D -> rec_ok N D r ->
  let v := round_nearest_even (shr_m r) (loc_of_shr_record r) in
  2 * Z.abs (v * D - N) <= D /\ N / D <= v <= N / D + 1 /\ (N mod D = 0 -> v = N / D).
Proof.
  intros N D [m b s] HN HD (M & R & T) v. cbn [shr_m shr_r shr_s] in *.
  pose proof (Z.mod_pos_bound N D HD) as B. pose proof (Z.div_mod N D ltac:(lia)) as E.
  unfold v. cbn [shr_m]. rewrite <- M in *. set (k := N mod D) in *. rewrite Z.mul_comm in E.
  destruct b, s; cbn [loc_of_shr_record round_nearest_even];
    destruct (Z.leb_spec D (2 * k)), (Z.eqb_spec k 0), (Z.eqb_spec (2 * k) D);
    try discriminate; cbn [orb negb] in *; try discriminate; try lia;
    try (destruct (Z.even m); lia).
Qed.

Lemma digits_bounds : forall m, 0 < m -> 2 ^ (Zdigits2 m - 1) <= m < 2 ^ Zdigits2 m.
Proof. intros [|p|p] H; [lia| |lia]. apply digits2_bounds. Qed.

Lemma digits_nonneg : forall m, 0 <= Zdigits2 m.
Proof. intros [|p|p]; cbn; lia. Qed.

Lemma digits_le : forall m n, 0 <= n -> 0 <= m < 2 ^ n -> Zdigits2 m <= n.
Proof.
  intros m n Hn [H1 H2]. destruct (Z.eq_dec m 0) as [->|N]; [exact Hn|].
  pose proof (digits_bounds m ltac:(lia)) as B.
  destruct (Z.le_gt_cases (Zdigits2 m) n) as [L|L]; [exact L|].
  assert (2 ^ n <= 2 ^ (Zdigits2 m - 1)) by (apply Z.pow_le_mono_r; lia). lia.
Qed.

(** The shift of a mantissa with too many digits, or of too small a number. *)
Definition shift_of (m e : Z) : Z := Z.max 0 (fexp 53 1024 (Zdigits2 m + e) - e).

Lemma shr_fexp_ok : forall N D e l, 0 <= N -> 0 < D -> loc_ok N D l ->
  exists r, shr_fexp 53 1024 (N / D) e l = (r, e + shift_of (N / D) e)
    /\ rec_ok N (D * 2 ^ shift_of (N / D) e) r.
Proof.
  intros N D e l HN HD L. unfold shr_fexp, shift_of.
  set (n := fexp 53 1024 (Zdigits2 (N / D) + e) - e). unfold shr.
  destruct n as [|p|p]; cbn [Z.max Z.compare].
  - exists (shr_record_of_loc (N / D) l). rewrite Z.add_0_r, Z.pow_0_r, Z.mul_1_r.
    split; [reflexivity|exact L].
  - exists (@SpecFloat.iter_pos _ shr_1 p (shr_record_of_loc (N / D) l)). split; [reflexivity|].
    apply iter_ok; assumption.
  - exists (shr_record_of_loc (N / D) l). rewrite Z.add_0_r, Z.pow_0_r, Z.mul_1_r.
    split; [reflexivity|exact L].
Qed.

(** The result of a rounding: v or, when v = 2^53, half of it. *)
Lemma round_aux : forall s N D e l, 0 <= N -> 0 < D -> loc_ok N D l ->
  let n := shift_of (N / D) e in
  exists v, 2 * Z.abs (v * (D * 2 ^ n) - N) <= D * 2 ^ n
    /\ 0 <= v <= 2 ^ 53 /\ (N mod (D * 2 ^ n) = 0 -> v = N / (D * 2 ^ n))
    /\ (e + n + 1 <= 971 ->
        binary_round_aux 53 1024 s (N / D) e l
        = match v with
          | Zpos p => if v =? 2 ^ 53 then S754_finite s (2 ^ 52) (e + n + 1) else S754_finite s p (e + n)
          | _ => S754_zero s
          end).
Proof.
  intros s N D e l HN HD L n.
  destruct (shr_fexp_ok N D e l HN HD L) as (r & E & R). fold n in E, R.
  assert (P : 0 < 2 ^ n) by (apply Z.pow_pos_nonneg; unfold n, shift_of; lia).
  assert (HD' : 0 < D * 2 ^ n) by nia.
  destruct (round_near N (D * 2 ^ n) r HN HD' R) as (V1 & V2 & V3).
  set (v := round_nearest_even (shr_m r) (loc_of_shr_record r)) in *.
  assert (Q : 0 <= N / (D * 2 ^ n)) by (apply Z.div_pos; lia).
  assert (MB : N / (D * 2 ^ n) < 2 ^ 53).
  { rewrite <- Z.div_div by lia. set (m := N / D) in *.
    assert (M0 : 0 <= m) by (apply Z.div_pos; lia).
    apply Z.div_lt_upper_bound; [exact P|]. rewrite Z.mul_comm.
    rewrite <- Z.pow_add_r by (unfold n, shift_of; lia).
    destruct (Z.eq_dec m 0) as [->|NZ]; [apply Z.pow_pos_nonneg; unfold n, shift_of; lia|].
    pose proof (digits_bounds m ltac:(lia)) as B.
    apply (Z.lt_le_trans _ (2 ^ Zdigits2 m)); [lia|]. apply Z.pow_le_mono_r; [lia|].
    unfold n, shift_of, fexp, emin. lia. }
  exists v. split; [exact V1|]. split; [lia|]. split; [exact V3|]. intros RG.
  unfold binary_round_aux. rewrite E. fold v.
  assert (EM : -1074 <= e + n) by (unfold n, shift_of, fexp, emin; lia).
  destruct (Z.eqb_spec v (2 ^ 53)) as [V53|V53].
  - rewrite V53. unfold shr_fexp. change (Zdigits2 (2 ^ 53)) with 54.
    assert (F : fexp 53 1024 (54 + (e + n)) - (e + n) = 1) by (unfold fexp, emin; lia).
    rewrite F. cbn [shr_record_of_loc shr].
    change (@SpecFloat.iter_pos _ shr_1 1 {| shr_m := 2 ^ 53; shr_r := false; shr_s := false |})
      with {| shr_m := 2 ^ 52; shr_r := false; shr_s := false |}.
    cbn [shr_m]. change (2 ^ 52) with (Zpos (2 ^ 52)). change (2 ^ 53) with (Zpos (2 ^ 53)).
    cbv iota beta. destruct (Z.leb_spec (e + n + 1) (1024 - 53)); [reflexivity|lia].
  - unfold shr_fexp.
    assert (DV : Zdigits2 v <= 53) by (apply digits_le; lia).
    assert (F : fexp 53 1024 (Zdigits2 v + (e + n)) - (e + n) <= 0).
    { unfold fexp, emin. lia. }
    assert (SH : shr (shr_record_of_loc v loc_Exact) (e + n)
                   (fexp 53 1024 (Zdigits2 v + (e + n)) - (e + n))
                 = (shr_record_of_loc v loc_Exact, e + n)).
    { unfold shr. destruct (fexp _ _ _ - _); [reflexivity|lia|reflexivity]. }
    rewrite SH. cbn [shr_record_of_loc shr_m].
    destruct v as [|p|p]; [reflexivity| |lia].
    destruct (Z.leb_spec (e + n) (1024 - 53)); [reflexivity|lia].
Qed.

(** ** The scale of 2^-1200 *)

(** The unit, kept folded: the proofs never need the number. *)
Definition U : Z := 2 ^ 1200.

Lemma U_pos : 0 < U. Proof. unfold U. apply Z.pow_pos_nonneg; lia. Qed.

Lemma pow_U : forall e, 0 <= e -> 2 ^ (e + 1200) = 2 ^ e * U.
Proof. intros e H. unfold U. apply Z.pow_add_r; lia. Qed.

Lemma pow_U_neg : forall e, -1200 <= e < 0 -> U = 2 ^ (- e) * 2 ^ (e + 1200).
Proof. intros e H. unfold U. rewrite <- Z.pow_add_r by lia. f_equal. lia. Qed.

Definition fz (x : double) : Z :=
  match x with
  | S754_finite s m e => cond_Zopp s (Zpos m * 2 ^ (e + 1200))
  | _ => 0
  end.

Definition okf (x : double) : Prop :=
  match x with
  | S754_zero _ => True
  | S754_finite s m e => -1074 <= e <= 971
  | _ => False
  end.

Lemma cond_opp_abs : forall s z, 0 <= z -> Z.abs (cond_Zopp s z) = z.
Proof. intros [] z H; unfold cond_Zopp; lia. Qed.

(** A rounded quotient: close to the quotient, and equal to it when that is a
    double. *)
Lemma rounded : forall s N D e l k, 0 < N -> 0 < D -> loc_ok N D l -> -1200 <= e ->
  N * 2 ^ (e + 1200) < D * 2 ^ (k + 1200) -> -1021 <= k <= 900 ->
  (D = 1 \/ e <= fexp 53 1024 (Zdigits2 (N / D) + e)) ->
  let r := binary_round_aux 53 1024 s (N / D) e l in
  okf r
  /\ exists V, fz r = cond_Zopp s V /\ 0 <= V
     /\ Z.abs (V * D - N * 2 ^ (e + 1200)) <= D * 2 ^ (k - 54 + 1200)
     /\ (D = 1 -> forall M E, N * 2 ^ (e + 1200) = M * 2 ^ (E + 1200) -> 0 <= M < 2 ^ 53 ->
         -1074 <= E -> V = N * 2 ^ (e + 1200)).
Proof.
  intros s N D e l k HN HD L He HB Hk HE r. set (n := shift_of (N / D) e).
  assert (n0 : 0 <= n) by (unfold n, shift_of; lia).
  assert (M0 : 0 <= N / D) by (apply Z.div_pos; lia).
  assert (DP : N / D <> 0 -> 0 < Zdigits2 (N / D)).
  { intros NZ. destruct (N / D) as [|p|p]; cbn; lia. }
  assert (PE : 0 < 2 ^ (e + 1200)) by (apply Z.pow_pos_nonneg; lia).
  assert (DG : N / D <> 0 -> Zdigits2 (N / D) + e <= k).
  { intros NZ. pose proof (digits_bounds (N / D) ltac:(lia)) as B.
    assert (B1 : 2 ^ (Zdigits2 (N / D) - 1) * D <= N).
    { pose proof (Z.mul_div_le N D HD). nia. }
    destruct (Z.le_gt_cases (Zdigits2 (N / D) + e) k) as [G|G]; [exact G|exfalso].
    specialize (DP NZ).
    assert (2 ^ (k + 1200) <= 2 ^ (Zdigits2 (N / D) - 1) * 2 ^ (e + 1200)).
    { rewrite <- Z.pow_add_r by lia. apply Z.pow_le_mono_r; lia. }
    nia. }
  assert (D1 : D = 1 -> N / D <> 0) by (intros ->; rewrite Z.div_1_r; lia).
  assert (EN : -1074 <= e + n) by (unfold n, shift_of, fexp, emin; lia).
  assert (EN2 : e + n <= k - 53 \/ D = 1 /\ n = 0 /\ e <= k).
  { unfold n, shift_of. destruct HE as [HD1|HE].
    - specialize (DG (D1 HD1)). specialize (DP (D1 HD1)). revert DG. unfold fexp, emin. lia.
    - left. destruct (Z.eq_dec (N / D) 0) as [Z0|NZ].
      + rewrite Z0 in *. cbn [Zdigits2] in *. unfold fexp, emin in *. lia.
      + specialize (DG NZ). unfold fexp, emin in *. lia. }
  destruct (round_aux s N D e l ltac:(lia) HD L) as (v & V1 & V2 & V3 & V4).
  fold n in V1, V3, V4. specialize (V4 ltac:(lia)). fold r in V4.
  assert (P : 0 < 2 ^ n) by (apply Z.pow_pos_nonneg; lia).
  assert (PS : 2 ^ (e + n + 1200) = 2 ^ n * 2 ^ (e + 1200)).
  { rewrite <- Z.pow_add_r by lia. f_equal. lia. }
  assert (FV : okf r /\ fz r = cond_Zopp s (v * 2 ^ (e + n + 1200))).
  { rewrite V4. destruct v as [|p|p]; [|destruct (Z.eqb_spec (Zpos p) (2 ^ 53)) as [V53|V53]|lia].
    - split; [exact I|]. cbn [fz]. destruct s; reflexivity.
    - split; [cbn [okf]; lia|]. rewrite V53. cbn [fz]. f_equal.
      change (Z.pos (2 ^ 52)) with (2 ^ 52).
      replace (e + n + 1 + 1200) with (e + n + 1200 + 1) by lia.
      rewrite (Z.pow_add_r 2 (e + n + 1200) 1) by lia. change (2 ^ 53) with (2 ^ 52 * 2).
      change (2 ^ 1) with 2. ring.
    - split; [cbn [okf]; lia|]. reflexivity. }
  destruct FV as [F1 F2]. split; [exact F1|].
  exists (v * 2 ^ (e + n + 1200)). split; [exact F2|].
  split; [apply Z.mul_nonneg_nonneg; [lia|apply Z.pow_nonneg; lia]|]. split.
  - assert (K : v * 2 ^ (e + n + 1200) * D - N * 2 ^ (e + 1200)
              = (v * (D * 2 ^ n) - N) * 2 ^ (e + 1200)) by (rewrite PS; ring).
    rewrite K, Z.abs_mul, (Z.abs_eq (2 ^ (e + 1200))) by lia.
    destruct EN2 as [G|(G1 & G2 & G3)].
    + assert (2 ^ (k - 54 + 1200) * 2 >= 2 ^ n * 2 ^ (e + 1200)).
      { rewrite <- PS. change 2 with (2 ^ 1) at 2. rewrite <- Z.pow_add_r by lia.
        apply Z.le_ge, Z.pow_le_mono_r; lia. }
      assert (0 < 2 ^ (k - 54 + 1200)) by (apply Z.pow_pos_nonneg; lia). nia.
    + rewrite G2 in *. rewrite V3.
      * rewrite Z.pow_0_r, Z.mul_1_r. rewrite G1, Z.div_1_r, Z.mul_1_r, Z.sub_diag. cbn [Z.abs].
        rewrite Z.mul_0_l. apply Z.mul_nonneg_nonneg; [lia|apply Z.pow_nonneg; lia].
      * rewrite Z.pow_0_r, Z.mul_1_r, G1. apply Z.mod_1_r.
  - intros HD1 M E EQ HM HEm. subst D.
    assert (HS : n = shift_of N e) by (unfold n; rewrite Z.div_1_r; reflexivity).
    clearbody n. rewrite Z.div_1_r in *. rewrite Z.mul_1_l in *.
    specialize (D1 eq_refl). specialize (DG D1). specialize (DP D1).
    pose proof (digits_bounds N HN) as B.
    assert (EL : e + n <= E \/ n = 0).
    { destruct (Z.eq_dec n 0) as [Hn|Hn]; [right; exact Hn|left].
      assert (e + n = Z.max (Zdigits2 N + e - 53) (-1074)).
      { unfold shift_of, fexp, emin in *. lia. }
      destruct (Z.le_gt_cases (Zdigits2 N + e - 53) E) as [G|G]; [lia|exfalso].
      assert (2 ^ (Zdigits2 N - 1) * 2 ^ (e + 1200) >= 2 ^ 53 * 2 ^ (E + 1200)).
      { rewrite <- !Z.pow_add_r by lia. apply Z.le_ge, Z.pow_le_mono_r; lia. }
      assert (0 < 2 ^ (E + 1200)) by (apply Z.pow_pos_nonneg; lia). nia. }
    assert (DV : N mod 2 ^ n = 0).
    { destruct EL as [EL|Hn]; [|rewrite Hn; apply Z.mod_1_r].
      replace N with (M * 2 ^ (E - e - n) * 2 ^ n); [apply Z_mod_mult|].
      apply (Z.mul_reg_r _ _ (2 ^ (e + 1200))); [lia|]. rewrite EQ.
      replace (2 ^ (E + 1200)) with (2 ^ (E - e - n) * 2 ^ n * 2 ^ (e + 1200)).
      - ring.
      - rewrite <- !Z.pow_add_r by lia. f_equal. lia. }
    rewrite (V3 DV), PS. rewrite Z.mul_assoc. f_equal.
    apply Z.div_exact in DV; [|lia]. rewrite Z.mul_comm. symmetry. exact DV.
Qed.

(** ** The operations *)

Lemma fz_of_Z : forall z, Z.abs z < 2 ^ 53 -> okf (sf_of_Z z) /\ fz (sf_of_Z z) = z * U.
Proof.
  intros z B. destruct (Z.eq_dec z 0) as [->|N]; [split; [exact I|reflexivity]|].
  destruct (sf_of_Z_spec z N B) as [m [e [E [Re [Rm V]]]]]. rewrite E. cbn [okf fz].
  split; [lia|]. rewrite V. unfold cond_Zopp.
  assert (K : Z.abs z * 2 ^ (- e) * 2 ^ (e + 1200) = Z.abs z * U).
  { unfold U. rewrite <- Z.mul_assoc, <- Z.pow_add_r by lia. f_equal. f_equal. lia. }
  rewrite K. destruct (Z.ltb_spec z 0); lia.
Qed.

(** Division by a positive integer. *)
Lemma div_near : forall x c k, okf x -> 0 < c < 2 ^ 53 -> -1021 <= k <= 900 ->
  Z.abs (fz x) < c * 2 ^ (k + 1200) ->
  okf (sf_div x (sf_of_Z c)) /\ Z.abs (fz (sf_div x (sf_of_Z c)) * c - fz x) <= c * 2 ^ (k - 54 + 1200).
Proof.
  intros x c k OX HC HK HB.
  assert (P : 0 < 2 ^ (k - 54 + 1200)) by (apply Z.pow_pos_nonneg; lia).
  destruct (sf_of_Z_spec c ltac:(lia) ltac:(lia)) as [mc [ec [E [Re [Rm V]]]]].
  rewrite E. destruct x as [s|s| |s m e]; try contradiction.
  - split; [exact I|]. cbn [fz sf_div SFdiv]. nia.
  - cbn [okf] in OX. unfold sf_div, SFdiv, SFdiv_core_binary.
    set (e' := Z.min (fexp 53 1024 (Zdigits2 (Z.pos m) + e - (Zdigits2 (Z.pos mc) + ec))) (e - ec)).
    assert (EP : 0 <= e - ec - e') by (unfold e'; lia).
    assert (MM : match e - ec - e' with
                 | 0 => Z.pos m
                 | Z.pos _ => Z.shiftl (Z.pos m) (e - ec - e')
                 | Z.neg _ => 0
                 end = Zpos m * 2 ^ (e - ec - e')).
    { destruct (e - ec - e') as [|p|p] eqn:X; [rewrite Z.pow_0_r; lia| |lia].
      apply Z.shiftl_mul_pow2. lia. }
    rewrite MM. set (N := Zpos m * 2 ^ (e - ec - e')).
    assert (HN : 0 < N) by (unfold N; apply Z.mul_pos_pos; [lia|apply Z.pow_pos_nonneg; lia]).
    rewrite (surjective_pairing (Z.div_eucl N (Z.pos mc))).
    change (fst (Z.div_eucl N (Z.pos mc))) with (N / Z.pos mc).
    replace (snd (Z.div_eucl N (Z.pos mc))) with (N mod Z.pos mc).
    2:{ unfold Z.modulo. destruct (Z.div_eucl N (Z.pos mc)). reflexivity. }
    assert (EE : -1200 <= e') by (unfold e', fexp, emin; lia).
    assert (VAL : N * 2 ^ (e' + 1200) = Zpos m * 2 ^ (e + 1200) * 2 ^ (- ec)).
    { unfold N. rewrite <- !Z.mul_assoc, <- !Z.pow_add_r by lia. f_equal. f_equal. lia. }
    rewrite Z.abs_eq in V by lia.
    assert (PC : 0 < 2 ^ (- ec)) by (apply Z.pow_pos_nonneg; lia).
    cbn [fz] in HB. rewrite cond_opp_abs in HB by (apply Z.mul_nonneg_nonneg; [lia|apply Z.pow_nonneg; lia]).
    assert (DIG : Zdigits2 (Z.pos m) + (e - ec - e') - Zdigits2 (Z.pos mc) <= Zdigits2 (N / Z.pos mc)).
    { pose proof (digits_bounds (Z.pos m) ltac:(lia)) as B1.
      pose proof (digits_bounds (Z.pos mc) ltac:(lia)) as B2.
      set (a := Zdigits2 (Z.pos m)) in *. set (b := Zdigits2 (Z.pos mc)) in *.
      set (n := e - ec - e') in *.
      pose proof (digits_nonneg (N / Z.pos mc)) as DN.
      assert (A1 : 1 <= a) by (unfold a; cbn [Zdigits2]; lia).
      assert (A2 : 1 <= b) by (unfold b; cbn [Zdigits2]; lia).
      destruct (Z.le_gt_cases (a + n - b) (Zdigits2 (N / Z.pos mc))) as [G|G]; [exact G|exfalso].
      assert (QL : 2 ^ (a + n - b - 1) <= N / Z.pos mc).
      { apply Z.div_le_lower_bound; [lia|]. unfold N.
        apply (Z.le_trans _ (2 ^ (a - 1) * 2 ^ n)); [|apply Z.mul_le_mono_nonneg_r; [apply Z.pow_nonneg; lia|lia]].
        apply (Z.le_trans _ (2 ^ b * 2 ^ (a + n - b - 1))); [apply Z.mul_le_mono_nonneg_r; [apply Z.pow_nonneg; lia|lia]|].
        rewrite <- !Z.pow_add_r by lia. apply Z.pow_le_mono_r; lia. }
      assert (QP : 0 < N / Z.pos mc).
      { apply (Z.lt_le_trans _ (2 ^ (a + n - b - 1))); [apply Z.pow_pos_nonneg; lia|exact QL]. }
      pose proof (digits_bounds (N / Z.pos mc) QP) as B3.
      assert (2 ^ Zdigits2 (N / Z.pos mc) <= 2 ^ (a + n - b - 1)) by (apply Z.pow_le_mono_r; lia).
      lia. }
    assert (HE : e' <= fexp 53 1024 (Zdigits2 (N / Z.pos mc) + e')).
    { unfold e' at 1. unfold fexp, emin in *. lia. }
    destruct (rounded (xorb s (c <? 0)) N (Z.pos mc) e' (new_location (Z.pos mc) (N mod Z.pos mc)) k
                HN ltac:(lia) (loc_quotient N (Z.pos mc) (Z.lt_le_incl _ _ HN) ltac:(lia)) EE) as (O & W & FW & W0 & WE & _);
      [|exact HK|right; exact HE|].
    + rewrite VAL, V. nia.
    + split; [exact O|]. rewrite FW. cbn [fz].
      destruct (Z.ltb_spec c 0); [lia|]. rewrite xorb_false_r. rewrite VAL, V in WE.
      set (X := Z.pos m * 2 ^ (e + 1200)) in *. set (H2 := 2 ^ (k - 54 + 1200)) in *.
      assert (AB : Z.abs (cond_Zopp s W * c - cond_Zopp s X) = Z.abs (W * c - X))
        by (destruct s; unfold cond_Zopp; lia).
      rewrite AB. clear - WE PC HC.
      replace (W * (c * 2 ^ (- ec)) - X * 2 ^ (- ec)) with ((W * c - X) * 2 ^ (- ec)) in WE by ring.
      rewrite Z.abs_mul, (Z.abs_eq (2 ^ (- ec))) in WE by lia. nia.
Qed.

(** Multiplication by a positive integer: close, and exact when the product is an
    integer of at most 53 bits. *)
Lemma mul_near : forall x c k, okf x -> 0 < c < 2 ^ 53 -> -1021 <= k <= 900 ->
  c * Z.abs (fz x) < 2 ^ (k + 1200) ->
  okf (sf_mul x (sf_of_Z c))
  /\ Z.abs (fz (sf_mul x (sf_of_Z c)) - c * fz x) <= 2 ^ (k - 54 + 1200)
  /\ (forall d, fz x = d * U -> c * Z.abs d < 2 ^ 53 ->
       fz (sf_mul x (sf_of_Z c)) = c * d * U).
Proof.
  intros x c k OX HC HK HB.
  assert (P : 0 < 2 ^ (k - 54 + 1200)) by (apply Z.pow_pos_nonneg; lia).
  destruct (sf_of_Z_spec c ltac:(lia) ltac:(lia)) as [mc [ec [E [Re [Rm V]]]]].
  rewrite E. destruct x as [s|s| |s m e]; try contradiction.
  - split; [exact I|]. cbn [fz sf_mul SFmul]. split; [lia|].
    intros d H _. pose proof U_pos. nia.
  - cbn [okf] in OX. unfold sf_mul, SFmul.
    rewrite Z.abs_eq in V by lia.
    assert (VAL : Z.pos (m * mc) * 2 ^ (e + ec + 1200) = c * (Zpos m * 2 ^ (e + 1200))).
    { rewrite Pos2Z.inj_mul, V.
      replace (2 ^ (e + 1200)) with (2 ^ (- ec) * 2 ^ (e + ec + 1200)); [ring|].
      rewrite <- Z.pow_add_r by lia. f_equal. lia. }
    cbn [fz] in *. rewrite cond_opp_abs in HB by (apply Z.mul_nonneg_nonneg; [lia|apply Z.pow_nonneg; lia]).
    set (X := Z.pos m * 2 ^ (e + 1200)) in *.
    destruct (rounded (xorb s (c <? 0)) (Z.pos (m * mc)) 1 (e + ec) loc_Exact k
                ltac:(lia) ltac:(lia) (loc_exact (Z.pos (m * mc)) ltac:(lia)) ltac:(lia)) as (O & W & FW & W0 & WE & WX);
      [lia|exact HK|left; reflexivity|].
    rewrite Z.div_1_r in *. destruct (Z.ltb_spec c 0); [lia|]. rewrite xorb_false_r in *.
    split; [exact O|]. rewrite FW. split.
    + rewrite VAL in WE. destruct s; unfold cond_Zopp; lia.
    + intros d HX HD.
      assert (AX : X = Z.abs d * U).
      { pose proof U_pos.
        assert (0 <= X) by (apply Z.mul_nonneg_nonneg; [lia|apply Z.pow_nonneg; lia]).
        destruct s; unfold cond_Zopp in HX; nia. }
      rewrite (WX eq_refl (c * Z.abs d) 0); [|rewrite VAL, AX, pow_U by lia; ring|lia|lia].
      rewrite VAL. destruct s; unfold cond_Zopp in *; nia.
Qed.

(** Subtraction, when the difference is a double. *)
Lemma sub_exact : forall x y M E, okf x -> okf y -> fz x - fz y = M * 2 ^ (E + 1200) ->
  Z.abs M < 2 ^ 53 -> -1074 <= E -> Z.abs (fz x - fz y) < 2 ^ 50 * U ->
  okf (sf_sub x y) /\ fz (sf_sub x y) = fz x - fz y.
Proof.
  intros x y M E OX OY HM BM BE BZ.
  destruct x as [sx|sx| |sx mx ex]; try contradiction; destruct y as [sy|sy| |sy my ey]; try contradiction.
  - unfold sf_sub, SFsub. destruct (Bool.eqb sx (negb sy)); split; try exact I; reflexivity.
  - unfold sf_sub, SFsub. split; [exact OY|]. cbn [fz]. destruct sy; unfold cond_Zopp; cbn [negb]; lia.
  - unfold sf_sub, SFsub. split; [exact OX|]. cbn [fz]. lia.
  - cbn [okf] in *. unfold sf_sub, SFsub. set (ez := Z.min ex ey).
    assert (AL : forall m e, ez <= e -> Zpos (fst (shl_align m e ez)) * 2 ^ (ez + 1200) = Zpos m * 2 ^ (e + 1200)
                 ).
    { intros m e L. unfold shl_align. destruct (ez - e) as [|q|q] eqn:Q; [|lia|]; cbn [fst].
      - replace ez with e by lia. reflexivity.
      - rewrite shift_pos_correct. change (Zpower_pos 2 q) with (2 ^ Zpos q).
        replace (2 ^ (e + 1200)) with (2 ^ Zpos q * 2 ^ (ez + 1200)); [ring|].
        rewrite <- Z.pow_add_r by lia. f_equal. lia. }
    pose proof (AL mx ex ltac:(lia)) as A1. pose proof (AL my ey ltac:(lia)) as A2.
    set (px := fst (shl_align mx ex ez)) in *. set (py := fst (shl_align my ey ez)) in *.
    set (z := cond_Zopp sx (Z.pos px) - cond_Zopp sy (Z.pos py)).
    assert (VZ : z * 2 ^ (ez + 1200) = fz (S754_finite sx mx ex) - fz (S754_finite sy my ey)).
    { cbn [fz]. rewrite <- A1, <- A2. unfold z. destruct sx, sy; unfold cond_Zopp; ring. }
    rewrite <- VZ in HM, BZ |- *.
    assert (PZ : 0 < 2 ^ (ez + 1200)) by (apply Z.pow_pos_nonneg; lia).
    assert (G : forall s p, Z.abs z = Zpos p ->
      okf (binary_round 53 1024 s p ez) /\ fz (binary_round 53 1024 s p ez) = cond_Zopp s (Zpos p * 2 ^ (ez + 1200))).
    { intros s p HP. unfold binary_round.
      destruct (shl_align p ez (fexp 53 1024 (Z.pos (digits2_pos p) + ez))) as [mz e2] eqn:SA.
      assert (S2 : -1074 <= e2 /\ Zpos mz * 2 ^ (e2 + 1200) = Zpos p * 2 ^ (ez + 1200)).
      { unfold shl_align in SA.
        assert (F : -1074 <= fexp 53 1024 (Z.pos (digits2_pos p) + ez)) by (unfold fexp, emin; lia).
        set (f := fexp 53 1024 (Z.pos (digits2_pos p) + ez)) in *.
        destruct (f - ez) as [|q|q] eqn:Q; injection SA as <- <-; (split; [lia|]); try reflexivity.
        rewrite shift_pos_correct. change (Zpower_pos 2 q) with (2 ^ Zpos q).
        replace (2 ^ (ez + 1200)) with (2 ^ Zpos q * 2 ^ (f + 1200)); [ring|].
        rewrite <- Z.pow_add_r by lia. f_equal. lia. }
      destruct S2 as [S2 S3].
      assert (AZ : Zpos p * 2 ^ (ez + 1200) = Z.abs M * 2 ^ (E + 1200)).
      { rewrite <- HP. assert (0 < 2 ^ (E + 1200)) by (apply Z.pow_pos_nonneg; lia).
        destruct (Z.abs_spec z), (Z.abs_spec M); nia. }
      destruct (rounded s (Z.pos mz) 1 e2 loc_Exact 50 ltac:(lia) ltac:(lia)
                  (loc_exact (Z.pos mz) ltac:(lia)) ltac:(lia)) as (O & W & FW & W0 & WE & WX);
        [rewrite S3, <- HP, Z.mul_1_l, (pow_U 50) by (clear; lia); rewrite Z.abs_mul, (Z.abs_eq (2 ^ (ez + 1200))) in BZ by (clear -PZ; lia); exact BZ|clear; lia|left; reflexivity|].
      rewrite Z.div_1_r in *. split; [exact O|]. rewrite FW. f_equal.
      rewrite (WX eq_refl (Z.abs M) E); [exact S3|rewrite S3; exact AZ|lia|exact BE]. }
    unfold binary_normalize. destruct z as [|p|p] eqn:EZ.
    + split; [exact I|]. cbn [fz]. lia.
    + destruct (G false p eq_refl) as [G1 G2]. split; [exact G1|]. rewrite G2. reflexivity.
    + destruct (G true p eq_refl) as [G1 G2]. split; [exact G1|]. rewrite G2. cbn [cond_Zopp]. lia.
Qed.

(** std::round and std::lround: an integer at a distance of at most one half. *)
Lemma mag_round_near : forall m e, -1074 <= e < 0 ->
  2 * Z.abs (mag_round m e * U - Zpos m * 2 ^ (e + 1200)) <= U
  /\ 0 <= mag_round m e.
Proof.
  intros m e HE. unfold mag_round. destruct (Z.leb_spec 0 e); [lia|].
  rewrite Z.shiftr_div_pow2, Z.shiftl_mul_pow2, Z.mul_1_l by lia.
  set (h := 2 ^ (- e - 1)).
  assert (P : 0 < h) by (apply Z.pow_pos_nonneg; lia).
  assert (D : 2 ^ (- e) = 2 * h).
  { unfold h. rewrite <- Z.pow_succ_r by lia. f_equal. lia. }
  rewrite D. pose proof (Z.div_mod (Z.pos m + h) (2 * h) ltac:(lia)) as DM.
  pose proof (Z.mod_pos_bound (Z.pos m + h) (2 * h) ltac:(lia)) as MB.
  set (z := (Z.pos m + h) / (2 * h)) in *. set (k := (Z.pos m + h) mod (2 * h)) in *.
  assert (P2 : 0 < 2 ^ (e + 1200)) by (apply Z.pow_pos_nonneg; lia).
  assert (D2 : U = 2 * h * 2 ^ (e + 1200)).
  { unfold U. rewrite <- D, <- Z.pow_add_r by lia. f_equal. lia. }
  rewrite D2. split; [|apply Z.div_pos; lia].
  replace (z * (2 * h * 2 ^ (e + 1200)) - Z.pos m * 2 ^ (e + 1200))
    with ((z * (2 * h) - Zpos m) * 2 ^ (e + 1200)) by ring.
  rewrite Z.abs_mul, (Z.abs_eq (2 ^ (e + 1200))) by lia. nia.
Qed.

Lemma round_int : forall x, okf x -> Z.abs (fz x) < 2 ^ 50 * U ->
  exists d, okf (sf_round x) /\ fz (sf_round x) = d * U
    /\ 2 * Z.abs (d * U - fz x) <= U /\ lround (sf_round x) = Ok d
    /\ lround x = Ok d /\ Z.abs d <= 2 ^ 50.
Proof.
  intros x OX BX. pose proof U_pos as P.
  destruct x as [s|s| |s m e]; try contradiction.
  - exists 0. cbn [sf_round fz lround]. repeat split; lia.
  - cbn [okf] in OX. cbn [fz] in *.
    assert (PE : 0 < 2 ^ (e + 1200)) by (apply Z.pow_pos_nonneg; lia).
    rewrite cond_opp_abs in BX by (apply Z.mul_nonneg_nonneg; lia).
    unfold sf_round. destruct (Z.leb_spec 0 e) as [L|L].
    + assert (EQ : 2 ^ (e + 1200) = 2 ^ e * U) by (apply pow_U; lia).
      rewrite EQ in *. exists (cond_Zopp s (Z.pos m * 2 ^ e)).
      assert (B : Z.pos m * 2 ^ e < 2 ^ 50) by nia.
      assert (0 < 2 ^ e) by (apply Z.pow_pos_nonneg; lia).
      split; [exact OX|]. cbn [fz]. rewrite EQ.
      assert (F : cond_Zopp s (Z.pos m * (2 ^ e * U)) = cond_Zopp s (Z.pos m * 2 ^ e) * U)
        by (destruct s; unfold cond_Zopp; ring).
      split; [exact F|]. rewrite F, Z.sub_diag. split; [cbn [Z.abs]; lia|].
      assert (LR : lround (S754_finite s m e) = Ok (cond_Zopp s (Z.pos m * 2 ^ e))).
      { unfold lround, mag_round. destruct (Z.leb_spec 0 e); [|lia].
        rewrite Z.shiftl_mul_pow2 by lia. unfold int64_ok.
        destruct (Z.leb_spec (- 2 ^ 63) (cond_Zopp s (Z.pos m * 2 ^ e)));
          [|destruct s; unfold cond_Zopp in *; lia].
        destruct (Z.ltb_spec (cond_Zopp s (Z.pos m * 2 ^ e)) (2 ^ 63));
          [reflexivity|destruct s; unfold cond_Zopp in *; lia]. }
      split; [exact LR|]. split; [exact LR|]. rewrite cond_opp_abs by nia. lia.
    + destruct (mag_round_near m e ltac:(lia)) as [N0 N1].
      set (z := mag_round m e) in *.
      assert (ZB : z <= 2 ^ 50).
      { destruct (Z.le_gt_cases z (2 ^ 50)) as [G|G]; [exact G|exfalso]. nia. }
      assert (LX : lround (S754_finite s m e) = Ok (cond_Zopp s z)).
      { unfold lround. fold z. unfold int64_ok.
        destruct (Z.leb_spec (- 2 ^ 63) (cond_Zopp s z)); [|destruct s; unfold cond_Zopp in *; lia].
        destruct (Z.ltb_spec (cond_Zopp s z) (2 ^ 63)); [reflexivity|destruct s; unfold cond_Zopp in *; lia]. }
      exists (cond_Zopp s z).
      assert (R : match z with
                  | 0 => S754_zero s
                  | Z.pos p => sf_of_Z (cond_Zopp s (Z.pos p))
                  | Z.neg p => sf_of_Z (cond_Zopp s (Z.neg p))
                  end
                  = if z =? 0 then S754_zero s else sf_of_Z (cond_Zopp s z))
        by (destruct z; reflexivity).
      rewrite R. clear R. destruct (Z.eqb_spec z 0) as [Z0|Z0].
      * rewrite Z0 in *. rewrite LX. replace (cond_Zopp s 0) with 0 in * by (destruct s; reflexivity).
        cbn [okf fz lround]. split; [exact I|]. split; [lia|]. split; [destruct s; unfold cond_Zopp; lia|].
        split; [reflexivity|]. split; [reflexivity|]. cbn [Z.abs]. lia.
      * assert (AZ : Z.abs (cond_Zopp s z) = z) by (apply cond_opp_abs; lia).
        destruct (fz_of_Z (cond_Zopp s z)) as [F1 F2]; [rewrite AZ; lia|].
        split; [exact F1|]. split; [exact F2|].
        split; [destruct s; unfold cond_Zopp; lia|].
        split; [|split; [exact LX|lia]].
        destruct (sf_of_Z_spec (cond_Zopp s z)) as [m2 [e2 [E [Re [Rm V]]]]]; [destruct s; unfold cond_Zopp; lia|lia|].
        rewrite E. unfold lround.
        assert (MR : mag_round m2 e2 = z).
        { unfold mag_round. rewrite AZ in V. destruct (Z.leb_spec 0 e2) as [L2|L2].
          - replace e2 with 0 in * by lia. rewrite Z.shiftl_0_r. rewrite V. cbn [Z.opp]. lia.
          - rewrite Z.shiftr_div_pow2, Z.shiftl_mul_pow2, Z.mul_1_l, V by lia.
            assert (P2 : 0 < 2 ^ (- e2 - 1)) by (apply Z.pow_pos_nonneg; lia).
            assert (D : 2 ^ (- e2) = 2 * 2 ^ (- e2 - 1)).
            { rewrite <- Z.pow_succ_r by lia. f_equal. lia. }
            symmetry. apply (Z.div_unique _ _ _ (2 ^ (- e2 - 1))); lia. }
        rewrite MR.
        assert (SG : cond_Zopp (cond_Zopp s z <? 0) z = cond_Zopp s z).
        { destruct s; unfold cond_Zopp in *.
          - destruct (Z.ltb_spec (- z) 0); lia.
          - destruct (Z.ltb_spec z 0); lia. }
        rewrite SG. unfold lround in LX. fold z in LX. exact LX.
Qed.
