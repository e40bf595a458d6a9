(** Lemmas about the integers as doubles. *)
From Coq Require Import Floats.SpecFloat.
From Verif Require Import Base Float SpecValues.
Local Open Scope Z_scope.

Lemma digits2_bounds : forall p,
  2 ^ (Zpos (digits2_pos p) - 1) <= Zpos p < 2 ^ Zpos (digits2_pos p).
Proof.
  induction p as [p IH|p IH|]; cbn [digits2_pos]; [| |cbn; lia];
    rewrite Pos2Z.inj_succ;
    replace (Z.succ (Z.pos (digits2_pos p)) - 1)
      with (Z.succ (Z.pos (digits2_pos p) - 1)) by lia;
    rewrite !Z.pow_succ_r by lia; lia.
Qed.

Lemma digits2_unique : forall p n, 0 < n -> 2 ^ (n - 1) <= Zpos p < 2 ^ n ->
  Zpos (digits2_pos p) = n.
Proof.
  intros p n N B. pose proof (digits2_bounds p) as D.
  set (d := Zpos (digits2_pos p)) in *.
  destruct (Z.lt_trichotomy d n) as [L|[E|L]]; [|exact E|]; exfalso.
  - assert (2 ^ d <= 2 ^ (n - 1)) by (apply Z.pow_le_mono_r; lia). lia.
  - assert (2 ^ n <= 2 ^ (d - 1)) by (apply Z.pow_le_mono_r; lia). lia.
Qed.

(** An integer of at most 53 bits becomes a normal number of the same value. *)
Lemma binary_round_int : forall s p, Zpos p < 2 ^ 53 ->
  exists m e, binary_round 53 1024 s p 0 = S754_finite s m e
    /\ -52 <= e <= 0 /\ 2 ^ 52 <= Zpos m < 2 ^ 53 /\ Zpos m = Zpos p * 2 ^ (- e).
Proof.
  intros s p P. pose proof (digits2_bounds p) as D.
  unfold binary_round. set (d := Zpos (digits2_pos p)) in *.
  assert (Hd : d <= 53).
  { destruct (Z.le_gt_cases d 53) as [L|G]; [exact L|].
    assert (2 ^ 53 <= 2 ^ (d - 1)) by (apply Z.pow_le_mono_r; lia). lia. }
  assert (Hd1 : 1 <= d) by (unfold d; lia).
  assert (F : fexp 53 1024 (d + 0) = d - 53) by (unfold fexp, emin; lia).
  rewrite F. clear F.
  assert (A : forall m e, -52 <= e <= 0 -> 2 ^ 52 <= Zpos m < 2 ^ 53 ->
    binary_round_aux 53 1024 s (Zpos m) e loc_Exact = S754_finite s m e).
  { intros m e E M.
    assert (Z53 : Zpos (digits2_pos m) = 53) by (apply digits2_unique; [lia|exact M]).
    assert (G : fexp 53 1024 (Zdigits2 (Zpos m) + e) - e = 0).
    { unfold Zdigits2. rewrite Z53. unfold fexp, emin. lia. }
    unfold binary_round_aux, shr_fexp. cbn [shr_record_of_loc].
    rewrite G. cbn [shr shr_m loc_of_shr_record round_nearest_even]. rewrite G.
    cbn [shr shr_m]. destruct (Z.leb_spec e (1024 - 53)); [reflexivity|lia]. }
  unfold shl_align. destruct (d - 53 - 0) as [|q|q] eqn:Q; [|lia|].
  - exists p, 0. replace d with 53 in * by lia.
    rewrite A by (cbn; lia). split; [reflexivity|]. cbn. lia.
  - set (m := shift_pos q p).
    assert (M : Zpos m = Zpos p * 2 ^ Zpos q).
    { unfold m.
      rewrite shift_pos_correct. rewrite Zpower_pos_nat.
      rewrite <- Zpower_pos_nat. change (Z.pow_pos 2 q) with (2 ^ Zpos q). ring. }
    exists m, (d - 53).
    assert (B : 2 ^ 52 <= Zpos m < 2 ^ 53).
    { rewrite M.
      replace (2 ^ 52) with (2 ^ (d - 1) * 2 ^ Zpos q)
        by (rewrite <- Z.pow_add_r by lia; f_equal; lia).
      replace (2 ^ 53) with (2 ^ d * 2 ^ Zpos q)
        by (rewrite <- Z.pow_add_r by lia; f_equal; lia).
      assert (0 < 2 ^ Zpos q) by (apply Z.pow_pos_nonneg; lia). nia. }
    rewrite A by lia. split; [reflexivity|]. split; [lia|]. split; [exact B|].
    rewrite M. f_equal. f_equal. lia.
Qed.

Lemma sf_of_Z_spec : forall z, z <> 0 -> Z.abs z < 2 ^ 53 ->
  exists m e, sf_of_Z z = S754_finite (z <? 0) m e
    /\ -52 <= e <= 0 /\ 2 ^ 52 <= Zpos m < 2 ^ 53 /\ Zpos m = Z.abs z * 2 ^ (- e).
Proof.
  intros z N B. unfold sf_of_Z, binary_normalize.
  destruct z as [|p|p]; [congruence| |]; apply binary_round_int; exact B.
Qed.

Lemma int_bits : forall z, Z.abs z < 2 ^ 53 ->
  double_bits_of_int (bits_of_sf (sf_of_Z z)) z.
Proof.
  intros z B. destruct (Z.eq_dec z 0) as [->|N]; [left; split; reflexivity|].
  destruct (sf_of_Z_spec z N B) as [m [e [E [Re [Rm V]]]]]. rewrite E.
  cbn [bits_of_sf]. right.
  destruct (N.ltb_spec (Npos m) (2 ^ 52)) as [L|L]; [lia|].
  exists (if z <? 0 then 1%N else 0%N), (Z.to_N (e + 1075)), (Npos m - 2 ^ 52)%N.
  split; [destruct (z <? 0); lia|]. split; [lia|]. split; [lia|].
  split; [unfold sign_bit; destruct (z <? 0); lia|]. split.
  - replace (Z.of_N (2 ^ 52 + (N.pos m - 2 ^ 52))) with (Zpos m) by lia.
    rewrite Z2N.id by lia. rewrite V, <- Z.mul_assoc, <- Z.pow_add_r by lia.
    f_equal. f_equal. lia.
  - destruct (Z.ltb_spec z 0); split; intros; lia || discriminate || reflexivity.
Qed.
