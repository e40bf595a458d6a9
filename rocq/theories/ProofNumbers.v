(** The numbers given to a Reader: the conversions. *)
From Coq Require Import QArith Qpower Qround Floats.SpecFloat.
From Verif Require Import Base Types Float Buffer Column Metadata Data Reader Drive Sinks Callbacks Python Cli PyArgs RPackage
  RArgs Numbers Lemmas SpecValues SpecTime SpecNumber SpecNumbers ProofFloat ProofRound ProofTime ProofNumber.
Local Open Scope Z_scope.

(** ** static_cast<size_t> *)

Lemma to_size_quot : forall x, okf x ->
  to_size x = let z := Z.quot (fz x) U in
              if (0 <=? z) && (z <? 2 ^ 64) then Ok (Z.to_N z) else Undef UB_overflow.
Proof.
  intros x K. pose proof U_pos as P. destruct x as [s|s| |s m e]; cbn [okf] in K; try contradiction.
  - cbn [fz to_size]. rewrite Z.quot_0_l by lia. reflexivity.
  - cbn [to_size fz]. cbv zeta.
    assert (E : Z.quot (cond_Zopp s (Zpos m * 2 ^ (e + 1200))) U
                = cond_Zopp s (if 0 <=? e then Z.shiftl (Zpos m) e else Z.shiftr (Zpos m) (- e))).
    { assert (P2 : 0 < 2 ^ (e + 1200)) by (apply Z.pow_pos_nonneg; lia).
      assert (D : Z.quot (Zpos m * 2 ^ (e + 1200)) U
                  = if 0 <=? e then Z.shiftl (Zpos m) e else Z.shiftr (Zpos m) (- e)).
      { rewrite Z.quot_div_nonneg by lia.
        destruct (Z.leb_spec 0 e) as [L|L].
        - rewrite pow_U by exact L. rewrite Z.mul_assoc, Z.div_mul by lia.
          rewrite Z.shiftl_mul_pow2 by lia. reflexivity.
        - rewrite (pow_U_neg e) by lia. rewrite Z.div_mul_cancel_r by lia.
          rewrite Z.shiftr_div_pow2 by lia. reflexivity. }
      destruct s; cbn [cond_Zopp]; [|exact D]. rewrite Z.quot_opp_l by lia. rewrite D. reflexivity. }
    rewrite E. reflexivity.
Qed.

Lemma scaled_le : forall X (q : Q) a, (inject_Z X == q * inject_Z U)%Q -> (inject_Z a <= q)%Q -> a * U <= X.
Proof.
  intros X q a E H. rewrite Zle_Qle, inject_Z_mult, E. apply Qmult_le_compat_r; [exact H|].
  change 0%Q with (inject_Z 0). rewrite <- Zle_Qle. pose proof U_pos. lia.
Qed.
Lemma scaled_ge : forall X (q : Q) a, (inject_Z X == q * inject_Z U)%Q -> (q <= inject_Z a)%Q -> X <= a * U.
Proof.
  intros X q a E H. rewrite Zle_Qle, inject_Z_mult, E. apply Qmult_le_compat_r; [exact H|].
  change 0%Q with (inject_Z 0). rewrite <- Zle_Qle. pose proof U_pos. lia.
Qed.
Lemma scaled_lt : forall X (q : Q) a, (inject_Z X == q * inject_Z U)%Q -> (q < inject_Z a)%Q -> X < a * U.
Proof.
  intros X q a E H. rewrite Zlt_Qlt, inject_Z_mult, E. apply Qmult_lt_compat_r; [|exact H].
  change 0%Q with (inject_Z 0). rewrite <- Zlt_Qlt. apply U_pos.
Qed.
Lemma scaled_gt : forall X (q : Q) a, (inject_Z X == q * inject_Z U)%Q -> (inject_Z a < q)%Q -> a * U < X.
Proof.
  intros X q a E H. rewrite Zlt_Qlt, inject_Z_mult, E. apply Qmult_lt_compat_r; [|exact H].
  change 0%Q with (inject_Z 0). rewrite <- Zlt_Qlt. apply U_pos.
Qed.

Lemma to_size_whole : forall bits q n, double_value bits q -> whole_part q n -> to_size (sf_of_bits bits) = Ok n.
Proof.
  intros bits q n V [B W]. destruct (value_fz bits q V) as (K & _ & _ & E).
  rewrite (to_size_quot _ K). cbv zeta. pose proof U_pos as P.
  set (X := fz (sf_of_bits bits)) in *. clearbody X.
  assert (BX : X < 2 ^ 64 * U) by (apply (scaled_lt X q _ E); exact B).
  assert (Q : Z.quot X U = Z.of_N n).
  { destruct W as [[L H]|[[L H] ->]].
    - pose proof (scaled_le X q _ E L) as L'.
      assert (H' : X < (Z.of_N n + 1) * U).
      { apply (scaled_lt X q _ E). rewrite inject_Z_plus. exact H. }
      rewrite Z.quot_div_nonneg by nia. symmetry. apply (Z.div_unique X U (Z.of_N n) (X - Z.of_N n * U)); nia.
    - pose proof (scaled_gt X q (-1) E L) as L'. pose proof (scaled_lt X q 0 E H) as H'.
      replace X with (- (- X)) by lia. rewrite Z.quot_opp_l by lia. rewrite Z.quot_small by lia. reflexivity. }
  rewrite Q.
  assert (R : Z.of_N n < 2 ^ 64).
  { rewrite <- Q. destruct (Z.le_gt_cases 0 X) as [G|G].
    - rewrite Z.quot_div_nonneg by lia. apply Z.div_lt_upper_bound; [lia|]. rewrite Z.mul_comm. exact BX.
    - replace X with (- (- X)) by lia. rewrite Z.quot_opp_l by lia. rewrite Z.quot_div_nonneg by lia.
      pose proof (Z.div_pos (- X) U ltac:(lia) P). change (2 ^ 64) with 18446744073709551616. lia. }
  destruct (Z.leb_spec 0 (Z.of_N n)); [|lia]. destruct (Z.ltb_spec (Z.of_N n) (2 ^ 64)); [|lia].
  cbn [andb]. rewrite N2Z.id. reflexivity.
Qed.

Lemma to_size_unfit : forall bits q, double_value bits q -> (q <= -(1) \/ 2 ^ 64 <= q)%Q ->
  to_size (sf_of_bits bits) = Undef UB_overflow.
Proof.
  intros bits q V W. destruct (value_fz bits q V) as (K & _ & _ & E).
  rewrite (to_size_quot _ K). cbv zeta. pose proof U_pos as P.
  set (X := fz (sf_of_bits bits)) in *. clearbody X.
  destruct W as [W|W].
  - pose proof (scaled_ge X q (-1) E W) as L.
    assert (Z.quot X U <= -1).
    { replace X with (- (- X)) by lia. rewrite Z.quot_opp_l by lia. rewrite Z.quot_div_nonneg by lia.
      pose proof (Z.div_le_lower_bound (- X) U 1 P ltac:(lia)). lia. }
    destruct (Z.leb_spec 0 (Z.quot X U)); [lia|]. reflexivity.
  - pose proof (scaled_le X q (2 ^ 64) E W) as L.
    assert (2 ^ 64 <= Z.quot X U).
    { rewrite Z.quot_div_nonneg by nia. apply Z.div_le_lower_bound; [lia|]. rewrite Z.mul_comm. exact L. }
    destruct (Z.ltb_spec (Z.quot X U) (2 ^ 64)); [lia|]. rewrite andb_false_r. reflexivity.
Qed.

Lemma to_size_missing : forall bits, double_nan bits \/ double_infinity bits ->
  to_size (sf_of_bits bits) = Undef UB_overflow.
Proof.
  intros bits [H|(s & Hs & B)]; [rewrite (nan_bits bits H); reflexivity|].
  assert (B' : bits = (s * 2 ^ 63 + 2047 * 2 ^ 52 + 0)%N) by lia. clear B. subst bits.
  destruct (bits_fields s 2047 0 Hs ltac:(lia) ltac:(reflexivity)) as (F1 & F2 & F3).
  unfold sf_of_bits. rewrite F2, F3. reflexivity.
Qed.

(** ** Integers as doubles *)

Lemma int_value : forall z, Z.abs z < 2 ^ 53 -> double_value (double_of z) (inject_Z z).
Proof.
  intros z B. destruct (int_bits z B) as [[-> E]|(s & e & f & Hs & He & Hf & Eb & V & Sg)]; unfold double_of.
  - rewrite E. exists 0%N, 0%N, 0%N. repeat split; reflexivity.
  - exists s, e, f. split; [exact Hs|]. split; [lia|]. split; [exact Hf|]. split; [exact Eb|].
    destruct (N.eqb_spec e 0) as [->|_]; [lia|].
    set (M := Z.of_N (2 ^ 52 + f)) in *. clearbody M.
    assert (A : (inject_Z (Z.abs z) == inject_Z M * (2 # 1) ^ (Z.of_N e - 1075))%Q).
    { assert (Q2 : ~ (2 # 1 == 0)%Q) by discriminate.
      unfold Z.sub. rewrite Qpower_plus by exact Q2.
      assert (C : (inject_Z (Z.abs z) * (2 # 1) ^ 1075 == inject_Z M * (2 # 1) ^ (Z.of_N e))%Q).
      { rewrite <- (Zpower_Qpower 2 1075) by lia. rewrite <- (Zpower_Qpower 2 (Z.of_N e)) by lia.
        rewrite <- !inject_Z_mult, V. reflexivity. }
      rewrite Qmult_assoc, <- C, <- Qmult_assoc, <- Qpower_plus by exact Q2.
      change (1075 + - (1075)) with 0. cbn [Qpower]. rewrite Qmult_1_r. reflexivity. }
    destruct (N.eqb_spec s 0) as [S0|S0].
    + rewrite <- A. rewrite Z.abs_eq; [ring|]. destruct (Z.lt_ge_cases z 0) as [L|L]; [|exact L].
      apply Sg in L. lia.
    + assert (L : z < 0) by (apply Sg; lia). rewrite <- A, Z.abs_neq by lia. rewrite inject_Z_opp. ring.
Qed.

Lemma na_nan : double_nan na_real.
Proof. exists 0%N, 1954%N. split; [reflexivity|]. split; [split; reflexivity|]. reflexivity. Qed.

(** ** The meanings *)

Lemma wrap_means : forall a f m, size_means a f m ->
  match m with
  | MeansOp o => exists n, extract_size a = Ok n /\ o = f n
  | MeansError e => extract_size a = Exn e
  | _ => False
  end.
Proof.
  intros a f m H. destruct H as [n f L|z f L|n f L|f]; cbn [extract_size].
  - exists n. split; [|reflexivity]. unfold W64 in L.
    assert (Z.of_N n < 2 ^ 64) by (change (2 ^ 64) with (Z.of_N (2 ^ 64)); lia).
    destruct (Z.leb_spec 0 (Z.of_N n)); [|lia]. destruct (Z.ltb_spec (Z.of_N n) (2 ^ 64)); [|lia].
    cbn [andb]. rewrite N2Z.id. reflexivity.
  - destruct (Z.leb_spec 0 z); [lia|]. reflexivity.
  - unfold W64 in L. assert (2 ^ 64 <= Z.of_N n) by (change (2 ^ 64) with (Z.of_N (2 ^ 64)); lia).
    destruct (Z.ltb_spec (Z.of_N n) (2 ^ 64)); [lia|]. rewrite andb_false_r. reflexivity.
  - reflexivity.
Qed.

Lemma single_size : forall x v, r_single x v ->
  exists b, r_length x = 1%N /\ r_size x = to_size (sf_of_bits b)
    /\ match v with Some q => double_value b q | None => double_nan b \/ double_infinity b end.
Proof.
  assert (I : forall z : Z, Z.abs z < 2 ^ 31 -> double_value (double_of z) (inject_Z z)).
  { intros z B. apply int_value. change (2 ^ 53) with (2 ^ 22 * 2 ^ 31). lia. }
  intros x v H. destruct H as [b q V|b V|z B| |b| |b].
  - exists b. auto.
  - exists b. auto.
  - exists (double_of z). auto.
  - exists na_real. split; [reflexivity|]. split; [reflexivity|left; exact na_nan].
  - exists (double_of (if b then 1 else 0)). split; [reflexivity|]. split; [reflexivity|].
    destruct b; apply (I _); reflexivity.
  - exists na_real. split; [reflexivity|]. split; [reflexivity|left; exact na_nan].
  - exists (double_of (Z.of_N (b2n b))). split; [reflexivity|]. split; [reflexivity|].
    apply I. pose proof (b2n_lt b). lia.
Qed.

Lemma num_converts : forall a f m, num_means a f m ->
  match m with
  | MeansOp o => exists n, r_size a = Ok n /\ o = f n
  | MeansError e => r_size a = Exn e
  | MeansUndefined => r_size a = Undef UB_overflow
  | MeansIndex => False
  end.
Proof.
  intros a f m H. destruct H as [x q n f Sg W|x q f Sg W|x f Sg|x f L|f].
  - destruct (single_size _ _ Sg) as (b & _ & E & V). exists n. split; [|reflexivity].
    rewrite E. apply (to_size_whole b q n V W).
  - destruct (single_size _ _ Sg) as (b & _ & E & V). rewrite E. apply (to_size_unfit b q V W).
  - destruct (single_size _ _ Sg) as (b & _ & E & V). rewrite E. apply (to_size_missing b V).
  - unfold r_size. destruct (N.eqb_spec (r_length x) 1); [contradiction|]. reflexivity.
  - reflexivity.
Qed.

Lemma wrap_exists : forall a f, exists m, size_means a f m.
Proof.
  intros [z|] f; [|eexists; constructor].
  destruct (Z.lt_ge_cases z 0) as [L|L]; [eexists; apply size_negative; exact L|].
  rewrite <- (Z2N.id z L). destruct (N.lt_ge_cases (Z.to_N z) W64) as [B|B].
  - eexists. apply size_fits. exact B.
  - eexists. apply size_big. exact B.
Qed.

Lemma part_exists : forall q, (q <= -(1) \/ 2 ^ 64 <= q)%Q \/ exists n, whole_part q n.
Proof.
  intros q. destruct (Qlt_le_dec q (2 ^ 64)) as [B|B]; [|left; right; exact B].
  destruct (Qlt_le_dec (-(1)) q) as [L|L]; [|left; left; exact L].
  right. destruct (Qlt_le_dec q 0) as [G|G].
  - exists 0%N. split; [exact B|]. right. split; [split; assumption|reflexivity].
  - exists (Z.to_N (Qfloor q)). split; [exact B|]. left.
    assert (F : 0 <= Qfloor q). { change 0 with (Qfloor 0). apply Qfloor_resp_le. exact G. }
    rewrite Z2N.id by exact F. split; [apply Qfloor_le|].
    pose proof (Qlt_floor q) as H. rewrite inject_Z_plus in H. exact H.
Qed.

Lemma num_exists : forall a f, r_value a -> exists m, num_means a f m.
Proof.
  assert (O : forall x v f, r_single x v -> exists m, num_means x f m).
  { intros x [q|] f Sg; [|eexists; apply num_missing; exact Sg].
    destruct (part_exists q) as [W|[n W]].
    - eexists. apply (num_unfit x q f Sg W).
    - eexists. apply (num_fits x q n f Sg W). }
  intros a f R. destruct (N.eq_dec (r_length a) 1) as [E|E]; [|eexists; apply num_length; exact E].
  destruct a as [l|l|l|l|n]; cbn [r_length r_value] in *;
    try (destruct l as [|v [|w l]]; [discriminate E| |exfalso; unfold lenN in E; cbn [length] in E; lia]).
  - inversion R as [|? ? B]; subst. destruct (double_cases v B) as [[q V]|V].
    + apply (O _ (Some q)). constructor. exact V.
    + apply (O _ None). constructor. exact V.
  - inversion R as [|? ? B]; subst. destruct v as [z|].
    + apply (O _ _ f (single_int z B)).
    + apply (O _ _ f single_na).
  - destruct v as [b|]; [apply (O _ _ f (single_logical b))|apply (O _ _ f single_logical_na)].
  - apply (O _ _ f (single_raw v)).
  - subst n. eexists. apply num_type.
Qed.

(** ** The calls *)

Lemma py_do_reader : forall S c (src : source S) cls o p x p', py_do c src cls o p = (x, p') ->
  pg_reader p <> None -> pg_reader p' <> None.
Proof.
  intros S c src cls o p x p' H N. unfold py_do in H. destruct (pg_reader p) as [r|]; [|contradiction].
  destruct (drive_step c src (class_sink cls) o r (pg_st p)) as [[[x0 r'] st] ev].
  destruct (settle x0 st) as [y st']. injection H as <- <-. discriminate.
Qed.


Lemma py_method_means : forall S c (src : source S) cls q m p, py_means q m -> pg_reader p <> None ->
  py_method c src cls q p
  = match m with
    | MeansOp o => py_act c src cls o p
    | MeansIndex => (Ok (py_at p), p)
    | MeansError e => (Exn e, p)
    | MeansUndefined => (Undef UB_overflow, p)
    end.
Proof.
  intros S c src cls q m p H N. unfold py_method, py_at. destruct (pg_reader p) as [r|]; [|contradiction].
  destruct H as [|a m H| |a m H| |]; try reflexivity;
    apply wrap_means in H; destruct m as [o| |e|]; try contradiction;
    try (destruct H as (n & -> & ->); reflexivity); rewrite H; reflexivity.
Qed.

Lemma py_calls_follow : forall S c (src : source S) cls l ms p, pg_reader p <> None ->
  Forall2 py_means l ms ->
  py_methods c src cls l p = follow (py_act c src cls) py_at ms p.
Proof.
  intros S c src cls l ms p N H. revert p N. induction H as [|q m l ms Hq H IH]; intros p N; [reflexivity|].
  cbn [py_methods]. rewrite (py_method_means S c src cls q m p Hq N).
  destruct m as [o| |e|]; cbn [follow].
  - destruct (py_act c src cls o p) as [x p1] eqn:E.
    assert (N1 : pg_reader p1 <> None).
    { unfold py_act in E. destruct (py_do c src cls o p) as [x0 p0] eqn:D. injection E as <- <-.
      apply (py_do_reader _ _ _ _ _ _ _ _ D N). }
    destruct x; try reflexivity; rewrite (IH p1 N1); reflexivity.
  - rewrite (IH p N). reflexivity.
  - rewrite (IH p N). reflexivity.
  - reflexivity.
Qed.

Lemma py_calls_mean : forall l, exists ms, Forall2 py_means l ms.
Proof.
  induction l as [|q l [ms H]]; [exists []; constructor|].
  assert (Q : exists m, py_means q m).
  { destruct q; try (eexists; constructor; fail);
      destruct (wrap_exists n OpReadRows) as [m1 H1]; destruct (wrap_exists n OpSkip) as [m2 H2];
      eexists; constructor; eassumption. }
  destruct Q as [m Q]. exists (m :: ms). constructor; assumption.
Qed.


Lemma r_do_reader : forall S c (src : source S) mk cls o p x p', r_do c src mk cls o p = (x, p') ->
  rp_reader p <> None -> rp_reader p' <> None.
Proof.
  intros S c src mk cls o p x p' H N. unfold r_do in H. destruct (rp_reader p) as [r|]; [|contradiction].
  destruct (drive_step c src (r_class_sink mk cls) o r (rp_st p)) as [[[x0 r'] st] ev].
  injection H as <- <-. discriminate.
Qed.

Lemma r_method_means : forall S c (src : source S) mk cls q m p, r_means q m -> rp_reader p <> None ->
  r_method c src mk cls q p
  = match m with
    | MeansOp o => r_act c src mk cls o p
    | MeansIndex => (Ok (r_at p), p)
    | MeansError e => (Exn e, p)
    | MeansUndefined => (Undef UB_overflow, p)
    end.
Proof.
  intros S c src mk cls q m p H N. unfold r_method, r_at. destruct (rp_reader p) as [r|]; [|contradiction].
  destruct H as [|a m H| |a m H| |]; try reflexivity;
    apply num_converts in H; destruct m as [o| |e|]; try contradiction;
    try (destruct H as (n & -> & ->); reflexivity); rewrite H; reflexivity.
Qed.

Lemma r_calls_follow : forall S c (src : source S) mk cls l ms p, rp_reader p <> None ->
  Forall2 r_means l ms ->
  r_methods_of c src mk cls l p = follow (r_act c src mk cls) r_at ms p.
Proof.
  intros S c src mk cls l ms p N H. revert p N. induction H as [|q m l ms Hq H IH]; intros p N; [reflexivity|].
  cbn [r_methods_of]. rewrite (r_method_means S c src mk cls q m p Hq N).
  destruct m as [o| |e|]; cbn [follow].
  - destruct (r_act c src mk cls o p) as [x p1] eqn:E.
    assert (N1 : rp_reader p1 <> None).
    { unfold r_act in E. destruct (r_do c src mk cls o p) as [x0 p0] eqn:D. injection E as <- <-.
      apply (r_do_reader _ _ _ _ _ _ _ _ _ D N). }
    destruct x; try reflexivity; rewrite (IH p1 N1); reflexivity.
  - rewrite (IH p N). reflexivity.
  - rewrite (IH p N). reflexivity.
  - reflexivity.
Qed.


Lemma r_calls_mean : forall l, Forall r_call_value l -> exists ms, Forall2 r_means l ms.
Proof.
  induction 1 as [|q l R H [ms IH]]; [exists []; constructor|].
  assert (Q : exists m, r_means q m).
  { destruct q; cbn [r_call_value] in R; try (eexists; constructor; fail);
      destruct (num_exists n OpReadRows R) as [m1 H1]; destruct (num_exists n OpSkip R) as [m2 H2];
      eexists; constructor; eassumption. }
  destruct Q as [m Q]. exists (m :: ms). constructor; assumption.
Qed.

(** The state after the calls is that of the operations alone. *)
Lemma r_calls_drive : forall S c (src : source S) mk cls ms r a,
  let '(t, r', a') := drive c src (r_class_sink mk cls) (asked_ops ms) r a in
  snd (follow (r_act c src mk cls) r_at ms (RProgram (Some r) a)) = RProgram (Some r') a'.
Proof.
  intros S c src mk cls ms. induction ms as [|m ms IH]; intros r a; [reflexivity|].
  destruct m as [o| |e|]; cbn [asked_ops follow]; [|..|reflexivity].
  - cbn [drive]. unfold r_act at 1, r_do. cbn [rp_reader rp_st].
    destruct (drive_step c src (r_class_sink mk cls) o r a) as [[[x r1] a1] ev].
    specialize (IH r1 a1).
    destruct (drive c src (r_class_sink mk cls) (asked_ops ms) r1 a1) as [[t r2] a2].
    destruct (follow (r_act c src mk cls) r_at ms (RProgram (Some r1) a1)) as [xs p2].
    destruct x; cbn [rmap bind]; try reflexivity; exact IH.
  - specialize (IH r a).
    destruct (drive c src (r_class_sink mk cls) (asked_ops ms) r a) as [[t r2] a2].
    destruct (follow (r_act c src mk cls) r_at ms (RProgram (Some r) a)) as [xs p2]. exact IH.
  - specialize (IH r a).
    destruct (drive c src (r_class_sink mk cls) (asked_ops ms) r a) as [[t r2] a2].
    destruct (follow (r_act c src mk cls) r_at ms (RProgram (Some r) a)) as [xs p2]. exact IH.
Qed.

(** ** The index and the chunk size *)

Lemma r_index_exact : forall S (p : r_program S) i, current_row_index (rp_reader p) = i -> (i < 2 ^ 53)%N ->
  exists b, r_at p = RaNum b /\ double_value b (inject_Z (Z.of_N i)).
Proof.
  intros S p i E B. unfold r_at. rewrite E. eexists. split; [reflexivity|]. apply int_value.
  change (2 ^ 53) with (Z.of_N (2 ^ 53)). lia.
Qed.

Lemma whole_of_N : forall n, (n < W64)%N -> whole_part (inject_Z (Z.of_N n)) n.
Proof.
  intros n B. unfold whole_part. split.
  - change (2 ^ 64)%Q with (inject_Z (2 ^ 64)). rewrite <- Zlt_Qlt. unfold W64 in B.
    change (2 ^ 64) with (Z.of_N (2 ^ 64)). lia.
  - left. split; [apply Qle_refl|]. change 1%Q with (inject_Z 1). rewrite <- inject_Z_plus, <- Zlt_Qlt. lia.
Qed.

Lemma r_read_size : forall c first fs mk cls x n f file inc exc, num_means x f (MeansOp (f n)) ->
  (forall a b, f a = f b -> a = b) ->
  r_read_sized c first fs mk cls x file inc exc
  = r_read_args c first fs mk cls match cls with RSinkByChunk => n | _ => 0%N end file inc exc.
Proof.
  intros c first fs mk cls x n f file inc exc H Inj. apply num_converts in H. destruct H as (n' & E & F).
  apply Inj in F. subst n'. unfold r_read_sized, r_read_args. rewrite E.
  destruct (r_file_name file) as [name| | | |]; cbn [bind]; destruct cls; reflexivity.
Qed.

(** ** One meaning each *)

Lemma wrap_one : forall a f m m', size_means a f m -> size_means a f m' -> m = m'.
Proof.
  intros a f m m' H H'. apply wrap_means in H. apply wrap_means in H'.
  destruct m, m'; try contradiction;
    repeat match goal with H : exists _, _ /\ _ |- _ => destruct H as (? & ? & ?) end; congruence.
Qed.

Lemma num_one : forall a f m m', num_means a f m -> num_means a f m' -> m = m'.
Proof.
  intros a f m m' H H'. apply num_converts in H. apply num_converts in H'.
  destruct m, m'; try contradiction;
    repeat match goal with H : exists _, _ /\ _ |- _ => destruct H as (? & ? & ?) end; congruence.
Qed.

Lemma py_one : forall q m m', py_means q m -> py_means q m' -> m = m'.
Proof.
  intros q m m' H H'. destruct H; inversion H'; subst; try reflexivity; eapply wrap_one; eassumption.
Qed.

Lemma r_one : forall q m m', r_means q m -> r_means q m' -> m = m'.
Proof.
  intros q m m' H H'. destruct H; inversion H'; subst; try reflexivity; eapply num_one; eassumption.
Qed.

Lemma py_numbers : forall S c (src : source S) cls l p, pg_reader p <> None ->
  exists ms, Forall2 py_means l ms /\ (forall ms', Forall2 py_means l ms' -> ms' = ms)
    /\ py_methods c src cls l p = follow (py_act c src cls) py_at ms p.
Proof.
  intros S c src cls l p N. destruct (py_calls_mean l) as [ms H]. exists ms. split; [exact H|].
  split; [|apply py_calls_follow; assumption].
  clear N p. induction H as [|q m l ms Hq H IH]; intros ms' H'; inversion H'; subst; [reflexivity|].
  f_equal; [apply (py_one q); assumption|apply IH; assumption].
Qed.

Lemma r_numbers : forall S c (src : source S) mk cls l p, rp_reader p <> None -> Forall r_call_value l ->
  exists ms, Forall2 r_means l ms /\ (forall ms', Forall2 r_means l ms' -> ms' = ms)
    /\ r_methods_of c src mk cls l p = follow (r_act c src mk cls) r_at ms p.
Proof.
  intros S c src mk cls l p N R. destruct (r_calls_mean l R) as [ms H]. exists ms. split; [exact H|].
  split; [|apply r_calls_follow; assumption].
  clear N p R. induction H as [|q m l ms Hq H IH]; intros ms' H'; inversion H'; subst; [reflexivity|].
  f_equal; [apply (r_one q); assumption|apply IH; assumption].
Qed.

Lemma r_state : forall S c (src : source S) mk cls l ms r a t r' a', Forall2 r_means l ms ->
  drive c src (r_class_sink mk cls) (asked_ops ms) r a = (t, r', a') ->
  snd (r_methods_of c src mk cls l (RProgram (Some r) a)) = RProgram (Some r') a'.
Proof.
  intros S c src mk cls l ms r a t r' a' H D.
  rewrite (r_calls_follow S c src mk cls l ms (RProgram (Some r) a) ltac:(cbn; discriminate) H).
  pose proof (r_calls_drive S c src mk cls ms r a) as K. rewrite D in K. exact K.
Qed.

(** The index given back as a number of rows. *)
Lemma r_index_back : forall S (p : r_program S) i, current_row_index (rp_reader p) = i -> (i < 2 ^ 53)%N ->
  exists b, r_at p = RaNum b /\ double_value b (inject_Z (Z.of_N i))
    /\ r_means (RcSkip (RDoubles [b])) (MeansOp (OpSkip i))
    /\ r_means (RcRows (RDoubles [b])) (MeansOp (OpReadRows i)).
Proof.
  intros S p i E B. destruct (r_index_exact S p i E B) as (b & H & V). exists b. split; [exact H|]. split; [exact V|].
  assert (W : whole_part (inject_Z (Z.of_N i)) i).
  { apply whole_of_N. unfold W64. change (2 ^ 64)%N with (2 ^ 11 * 2 ^ 53)%N. lia. }
  split; constructor; apply (num_fits _ _ _ _ (single_double b _ V) W).
Qed.

Lemma r_chunk_size : forall c first fs mk cls x n file inc exc, num_means x OpSkip (MeansOp (OpSkip n)) ->
  r_read_sized c first fs mk cls x file inc exc
  = r_read_args c first fs mk cls match cls with RSinkByChunk => n | _ => 0%N end file inc exc.
Proof.
  intros c first fs mk cls x n file inc exc H. apply (r_read_size c first fs mk cls x n OpSkip); [exact H|].
  intros a b E. congruence.
Qed.

Lemma r_no_chunk_size : forall c first fs mk cls x file inc exc, cls <> RSinkByChunk ->
  r_read_sized c first fs mk cls x file inc exc = r_read_args c first fs mk cls 0%N file inc exc.
Proof.
  intros c first fs mk cls x file inc exc N. unfold r_read_sized, r_read_args.
  destruct cls; [|contradiction N; reflexivity|]; destruct (r_file_name file); reflexivity.
Qed.

Lemma r_chunk_refused : forall c first fs mk x e file name inc exc, num_means x OpSkip (MeansError e) ->
  r_file_name file = Ok name ->
  r_read_sized c first fs mk RSinkByChunk x file inc exc = (Exn e, r_nothing).
Proof.
  intros c first fs mk x e file name inc exc H F. apply num_converts in H.
  unfold r_read_sized. rewrite F. cbn [bind]. rewrite H. reflexivity.
Qed.
