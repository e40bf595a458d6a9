(** Proofs about integers, strings, numbers, column types, filters, encodings. *)
From Verif Require Import Base Types Float DateTime Buffer Encodings Column Metadata
  Lemmas SpecValues ProofFloat.
From Coq Require Import ZifyBool ZifyNat ZifyN Permutation.
Local Open Scope N_scope.

(** ** Integers *)

Lemma le_val_lsb : forall l, le_val l = value_lsb_first l.
Proof. induction l as [|b l IH]; cbn; [reflexivity|]. rewrite IH. reflexivity. Qed.

Lemma value_msb_rev : forall l, value_msb_first l = value_lsb_first (rev l).
Proof.
  intros l. unfold value_msb_first, value_lsb_first.
  rewrite <- (rev_involutive l) at 1. generalize (rev l). clear l.
  intros l. rewrite <- fold_left_rev_right, rev_involutive.
  induction l as [|b r IH]; [reflexivity|].
  cbn [fold_right]. rewrite IH. apply N.add_comm.
Qed.

Lemma get_val_value : forall e l, get_val e l = value_of e l.
Proof.
  intros [] l; cbn; rewrite le_val_lsb; [reflexivity|].
  symmetry. apply value_msb_rev.
Qed.

Lemma byte_of_n2b : forall n, byte_of n = n2b n.
Proof. reflexivity. Qed.

Lemma value_write_lsb : forall w v,
  v < 256 ^ N.of_nat w -> value_lsb_first (write_lsb_first w v) = v.
Proof.
  induction w as [|w IH]; intros v H.
  - cbn in *. lia.
  - cbn [write_lsb_first value_lsb_first fold_right].
    fold (value_lsb_first (write_lsb_first w (v / 256))).
    rewrite IH.
    + rewrite byte_of_n2b. fold (b2n (n2b v)). rewrite b2n_n2b.
      pose proof (N.div_mod v 256). lia.
    + apply N.div_lt_upper_bound; [lia|].
      rewrite <- N.pow_succ_r'. replace (N.succ (N.of_nat w)) with (N.of_nat (S w)) by lia.
      exact H.
Qed.

Lemma write_int_length : forall e w v, length (write_int e w v) = w.
Proof.
  assert (A : forall w v, length (write_lsb_first w v) = w)
    by (induction w as [|w IH]; intros v; cbn; [|rewrite IH]; reflexivity).
  intros [] w v; cbn; [|rewrite rev_length]; apply A.
Qed.

Lemma get_val_write : forall e w v,
  v < 256 ^ N.of_nat w -> get_val e (write_int e w v) = v.
Proof.
  intros [] w v H; cbn; rewrite ?rev_involutive, le_val_lsb;
    apply value_write_lsb; exact H.
Qed.

Lemma le_val_lt : forall l, le_val l < 256 ^ lenN l.
Proof.
  induction l as [|b l IH]; [cbn; lia|].
  rewrite lenN_cons. replace (1 + lenN l) with (N.succ (lenN l)) by lia.
  rewrite N.pow_succ_r'. cbn [le_val]. pose proof (b2n_lt b). lia.
Qed.

Lemma get_val_lt : forall e l, get_val e l < 256 ^ lenN l.
Proof.
  intros [] l; cbn; [|rewrite <- lenN_rev]; apply le_val_lt.
Qed.

Lemma write_lsb_value : forall l, write_lsb_first (length l) (le_val l) = l.
Proof.
  induction l as [|b l IH]; [reflexivity|].
  cbn [length write_lsb_first le_val].
  assert (E : (b2n b + 256 * le_val l) / 256 = le_val l).
  { rewrite N.mul_comm, N.div_add by lia. pose proof (b2n_lt b).
    rewrite N.div_small by lia. lia. }
  rewrite E, IH. f_equal. rewrite byte_of_n2b. apply b2n_inj. rewrite b2n_n2b.
  rewrite N.mul_comm, N.mod_add by lia. apply N.mod_small. apply b2n_lt.
Qed.

Lemma write_get_val : forall e l, write_int e (length l) (get_val e l) = l.
Proof.
  intros [] l; cbn.
  - apply write_lsb_value.
  - rewrite <- rev_length, write_lsb_value. apply rev_involutive.
Qed.

Lemma to_int16_spec : forall v, v < 65536 -> twos_complement16 v (to_int16 v).
Proof.
  intros v H. unfold to_int16, twos_complement16.
  destruct (N.ltb_spec v 32768); split; lia.
Qed.

Lemma twos_complement16_unique : forall v z1 z2,
  twos_complement16 v z1 -> twos_complement16 v z2 -> z1 = z2.
Proof.
  intros v z1 z2 [R1 M1] [R2 M2].
  pose proof (Z.div_mod z1 65536). pose proof (Z.div_mod z2 65536).
  lia.
Qed.

(** ** Strings *)

Lemma blank_dec : forall b, blank b <-> (beq b x00 || isspace b) = true.
Proof.
  assert (A : forall b, existsb (fun c => beq c b) blanks = (beq b x00 || isspace b)).
  { intros b; destruct b; vm_compute; reflexivity. }
  intros b. rewrite <- A, existsb_exists. unfold blank. split.
  - intros H. exists b. split; [exact H|apply beq_refl].
  - intros [x [H E]]. apply beq_true in E. congruence.
Qed.

Lemma drop_while_split : forall p l,
  exists t, l = t ++ drop_while p l /\ Forall (fun b => p b = true) t
            /\ match drop_while p l with [] => True | b :: _ => p b = false end.
Proof.
  induction l as [|b l IH].
  - exists []. cbn. auto.
  - cbn. destruct (p b) eqn:E.
    + destruct IH as [t [E1 [E2 E3]]]. exists (b :: t). cbn. split; [congruence|].
      split; [constructor; assumption|exact E3].
    + exists []. cbn. auto.
Qed.

Lemma drop_while_end_split : forall p l,
  exists t, l = drop_while_end p l ++ t /\ Forall (fun b => p b = true) t
            /\ (drop_while_end p l = []
                \/ exists r b, drop_while_end p l = r ++ [b] /\ p b = false).
Proof.
  intros p l. unfold drop_while_end.
  destruct (drop_while_split p (rev l)) as [t [E1 [E2 E3]]].
  exists (rev t). split; [|split].
  - rewrite <- rev_app_distr, <- E1. symmetry. apply rev_involutive.
  - apply Forall_rev. exact E2.
  - destruct (drop_while p (rev l)) as [|b r].
    + left. reflexivity.
    + right. exists (rev r), b. split; [reflexivity|exact E3].
Qed.

Lemma trim_0_right_trimmed : forall l, right_trimmed l (get_string_trim_0 l).
Proof.
  intros l. unfold get_string_trim_0.
  destruct (drop_while_end_split (fun b => beq b x00 || isspace b) l)
    as [t [E1 [E2 E3]]].
  exists t. split; [exact E1|]. split.
  - eapply Forall_impl; [|exact E2]. intros b H. apply blank_dec. exact H.
  - destruct E3 as [E3|[r [b [E3 E4]]]]; [left; exact E3|].
    right. exists r, b. split; [exact E3|]. rewrite blank_dec. congruence.
Qed.

Lemma right_trimmed_unique : forall l r1 r2,
  right_trimmed l r1 -> right_trimmed l r2 -> r1 = r2.
Proof.
  assert (A : forall l r1 r2 t1 t2,
    l = r1 ++ t1 -> l = r2 ++ t2 -> Forall blank t1 ->
    (r2 = [] \/ exists r' b, r2 = r' ++ [b] /\ ~ blank b) ->
    (length r2 <= length r1)%nat).
  { intros l r1 r2 t1 t2 E1 E2 F H.
    destruct (Nat.le_gt_cases (length r2) (length r1)) as [C|C]; [exact C|].
    exfalso. destruct H as [->|[r' [b [-> Hb]]]]; [cbn in C; lia|].
    rewrite app_length in C. cbn in C.
    assert (I : In b t1).
    { rewrite E1, <- app_assoc in E2. clear E1 F l.
      revert r' E2 C. induction r1 as [|x r1 IH]; intros r' E2 C.
      - cbn in E2. rewrite E2. apply in_or_app. right. left. reflexivity.
      - destruct r' as [|y r']; cbn in *; [lia|].
        injection E2 as -> E2. apply (IH r' E2). lia. }
    rewrite Forall_forall in F. apply Hb, F, I. }
  intros l r1 r2 [t1 [E1 [F1 H1]]] [t2 [E2 [F2 H2]]].
  assert (L : length r1 = length r2).
  { apply Nat.le_antisymm; [apply (A l r2 r1 t2 t1)|apply (A l r1 r2 t1 t2)];
      assumption. }
  rewrite E1 in E2. clear - E2 L. revert r2 E2 L.
  induction r1 as [|x r1 IH]; intros [|y r2] E L; try discriminate; [reflexivity|].
  cbn in E. injection E as -> E. f_equal. apply IH; [exact E|].
  cbn in L. lia.
Qed.

(** ** Reading the bytes of a column *)

Lemma row_has_read : forall f p l,
  row_has p (fm_offset f) l -> fm_read f p (lenN l) = Ok l.
Proof.
  intros f p l [before [after [E L]]]. unfold fm_read.
  rewrite E. apply read_cells_init.
  - rewrite !lenN_app, lenN_map. lia.
  - apply slice_app_exact; [exact L|apply lenN_map].
Qed.

Lemma row_has_read_prefix : forall f p l n,
  row_has p (fm_offset f) l -> n <= lenN l ->
  fm_read f p n = Ok (firstn (N.to_nat n) l).
Proof.
  intros f p l n [before [after [E L]]] H.
  assert (R : row_has p (fm_offset f) (firstn (N.to_nat n) l)).
  { exists before, (map Some (skipn (N.to_nat n) l) ++ after). split; [|exact L].
    rewrite E. f_equal. rewrite app_assoc, <- map_app, firstn_skipn. reflexivity. }
  apply row_has_read in R. rewrite lenN_firstn in R.
  replace (N.min (N.of_nat (N.to_nat n)) (lenN l)) with n in R by lia. exact R.
Qed.

Lemma get_string_spec : forall c p l,
  c_type c = TString -> lenN l = c_length c ->
  row_has p (fm_offset (c_fm c)) l ->
  exists r, c_get_string c p = Ok r /\ right_trimmed l r.
Proof.
  intros c p l T L R. unfold c_type, c_length, c_get_string, fm_get_string in *.
  destruct (fm_kind (c_fm c)); try discriminate T.
  rewrite <- L, row_has_read by exact R. cbn.
  eexists. split; [reflexivity|apply trim_0_right_trimmed].
Qed.

(** ** Numbers *)

Lemma get_val_pad : forall e l, (length l <= 8)%nat ->
  get_val e (complete_double e l) = get_val e l * 256 ^ (8 - lenN l).
Proof.
  assert (A : forall n l, le_val (repeat x00 n ++ l) = le_val l * 256 ^ N.of_nat n).
  { induction n as [|n IH]; intros l.
    - cbn. lia.
    - cbn [repeat app le_val]. rewrite IH.
      replace (N.of_nat (S n)) with (N.succ (N.of_nat n)) by lia.
      rewrite N.pow_succ_r'. change (b2n x00) with 0. lia. }
  intros e l H. unfold lenN.
  assert (R : 8 - N.of_nat (length l) = N.of_nat (8 - length l)) by lia.
  rewrite R. destruct e; unfold get_val, complete_double.
  - apply A.
  - rewrite rev_app_distr.
    replace (rev (repeat x00 (8 - length l))) with (repeat x00 (8 - length l)).
    + apply A.
    + generalize (8 - length l)%nat. clear. intros n.
      induction n as [|n IH]; [reflexivity|].
      cbn. rewrite <- IH. clear. induction n; cbn; congruence.
Qed.

Lemma column_kind_number : forall c,
  built_column c -> c_type c = TNumber ->
  (c_length c = 8 /\ fm_kind (c_fm c) = FDouble)
  \/ (3 <= c_length c <= 7 /\ fm_kind (c_fm c) = FIncomplete (c_length c)).
Proof.
  intros c [k [K E]]. unfold c_type, c_length. rewrite E. clear E.
  generalize (fm_length (c_fm c)) (c_format c). intros n g.
  destruct K as [-> | ->]; [|discriminate]. unfold column_kind.
  repeat match goal with
  | |- context [?a =? ?b] => destruct (N.eqb_spec a b); [subst; cbn; try discriminate|]
  | |- context [if ?a then _ else _] => destruct a; [cbn; try discriminate|]
  end; intros T; try discriminate T;
  first [left; split; reflexivity | right; split; [lia|reflexivity]].
Qed.

Lemma get_number_spec : forall c p l,
  built_column c -> c_type c = TNumber -> lenN l = c_length c ->
  row_has p (fm_offset (c_fm c)) l ->
  3 <= c_length c <= 8
  /\ c_get_number c p
     = Ok (value_of (fm_endian (c_fm c)) l * 256 ^ (8 - c_length c)).
Proof.
  intros c p l B T L R. rewrite <- get_val_value.
  unfold c_get_number, fm_get_number.
  destruct (column_kind_number c B T) as [[N8 K]|[N37 K]]; rewrite K.
  - split; [lia|].
    replace 8 with (lenN l) at 1 by lia. rewrite row_has_read by exact R. cbn [bind].
    rewrite N8. cbn. rewrite N.mul_1_r. reflexivity.
  - split; [lia|].
    rewrite <- L, row_has_read by exact R. cbn [bind].
    rewrite get_val_pad; [reflexivity|]. unfold lenN, c_length in *. lia.
Qed.

Lemma column_kind_integer : forall c,
  built_column c -> c_type c = TInteger ->
  (c_length c = 1 /\ fm_kind (c_fm c) = FSmallInt)
  \/ (c_length c = 2 /\ fm_kind (c_fm c) = FInt16).
Proof.
  intros c [k [K E]]. unfold c_type, c_length. rewrite E. clear E.
  generalize (fm_length (c_fm c)) (c_format c). intros n g.
  destruct K as [-> | ->]; [|discriminate]. unfold column_kind.
  repeat match goal with
  | |- context [?a =? ?b] => destruct (N.eqb_spec a b); [subst; cbn; auto; try discriminate|]
  | |- context [if ?a then _ else _] => destruct a; [cbn; try discriminate|]
  end; intros T; discriminate T.
Qed.

Lemma get_integer_spec : forall c p l,
  built_column c -> c_type c = TInteger -> lenN l = c_length c ->
  row_has p (fm_offset (c_fm c)) l ->
  exists z bits, c_get_integer c p = Ok z /\ c_get_number c p = Ok bits
    /\ double_bits_of_int bits z
    /\ ((c_length c = 1 /\ z = Z.of_N (value_of (fm_endian (c_fm c)) l))
        \/ (c_length c = 2
            /\ twos_complement16 (value_of (fm_endian (c_fm c)) l) z)).
Proof.
  intros c p l B T L R. rewrite <- get_val_value.
  unfold c_get_integer, c_get_number, fm_get_number, fm_get_integer.
  destruct (column_kind_integer c B T) as [[N1 K]|[N2 K]]; rewrite K.
  - replace 1 with (lenN l) by lia. rewrite row_has_read by exact R. cbn [bind].
    destruct l as [|b [|b' l]]; [discriminate (eq_trans L N1)| |
      exfalso; rewrite N1, !lenN_cons in L; lia].
    eexists _, _. split; [reflexivity|]. split; [reflexivity|]. split.
    + apply int_bits. cbn. pose proof (b2n_lt b). lia.
    + left. split; [lia|]. destruct (fm_endian (c_fm c)); reflexivity.
  - replace 2 with (lenN l) by lia. rewrite row_has_read by exact R. cbn [bind].
    assert (V : get_val (fm_endian (c_fm c)) l < 65536).
    { pose proof (get_val_lt (fm_endian (c_fm c)) l) as G.
      rewrite L, N2 in G. exact G. }
    pose proof (to_int16_spec _ V) as S16.
    eexists _, _. split; [reflexivity|]. split; [reflexivity|]. split.
    + apply int_bits. pose proof S16 as [S16r _]. lia.
    + right. split; [lia|exact S16].
Qed.

(** ** Getters of the wrong kind *)

Lemma wrong_kind : forall c p,
  (c_type c <> TString -> c_get_string c p = Ok [])
  /\ (c_type c <> TInteger -> c_get_integer c p = Ok 0%Z)
  /\ (c_type c = TUnknown \/ c_type c = TString ->
      exists bits, c_get_number c p = Ok bits
                   /\ 0x7FF0000000000000 < bits < 0x8000000000000000)
  /\ (c_type c <> TDateTime -> c_type c <> TDate -> c_get_date c p = Ok NotADate)
  /\ (c_type c <> TDateTime -> c_type c <> TDate -> c_type c <> TTime ->
      c_get_time c p = Ok NotATime)
  /\ (c_type c <> TDateTime -> c_type c <> TDate -> c_type c <> TTime ->
      c_get_datetime c p = Ok NotADateTime)
  /\ (c_type c = TDate -> c_get_time c p = Ok (TTicks 0))
  /\ (forall t, c_type c = TTime -> c_get_time c p = Ok t -> c_get_datetime c p = Ok NotADateTime).
Proof.
  intros c p.
  assert (TT : forall t, c_type c = TTime -> c_get_time c p = Ok t -> c_get_datetime c p = Ok NotADateTime).
  { unfold c_type, c_get_time, c_get_datetime. intros t T E. unfold fm_get_datetime.
    destruct (fm_kind (c_fm c)); try discriminate T. rewrite E. reflexivity. }
  repeat match goal with |- _ /\ _ => split end; try exact TT; clear TT;
    unfold c_type, c_get_string, fm_get_string, c_get_integer, fm_get_integer,
      c_get_number, fm_get_number, c_get_date, fm_get_date, c_get_time, fm_get_time,
      c_get_datetime, fm_get_datetime;
    destruct (fm_kind (c_fm c)); cbn; intros; try congruence; try reflexivity;
    repeat match goal with H : _ \/ _ |- _ => destruct H end; try discriminate;
    try (eexists; split; [reflexivity|]; vm_compute; split; reflexivity).
Qed.

(** ** Locality of the getters *)

Definition date_like (t : ctype) : Prop := t = TDateTime \/ t = TDate \/ t = TTime.

Lemma same_bytes_read : forall f p q len n,
  same_bytes p q (fm_offset f) len -> n <= len -> fm_read f p n = fm_read f q n.
Proof.
  intros f p q len n [l [L [R1 R2]]] H.
  rewrite (row_has_read_prefix f p l n) by (assumption || lia).
  rewrite (row_has_read_prefix f q l n) by (assumption || lia). reflexivity.
Qed.

Lemma getters_local : forall c p q,
  built_column c -> (date_like (c_type c) -> 8 <= c_length c) ->
  same_bytes p q (fm_offset (c_fm c)) (c_length c) ->
  c_get_string c p = c_get_string c q /\ c_get_integer c p = c_get_integer c q
  /\ c_get_number c p = c_get_number c q /\ c_get_date c p = c_get_date c q
  /\ c_get_time c p = c_get_time c q /\ c_get_datetime c p = c_get_datetime c q
  /\ c_to_string c p = c_to_string c q.
Proof.
  intros c p q B D S.
  pose proof (same_bytes_read (c_fm c) p q (c_length c)) as RD.
  specialize (fun n => RD n S).
  pose proof (column_kind_number c B) as CN.
  pose proof (column_kind_integer c B) as CI.
  unfold date_like, c_type in *.
  unfold c_get_string, c_get_integer, c_get_number, c_get_date, c_get_time,
    c_get_datetime, c_to_string, fm_to_string, fm_get_datetime, fm_get_time, fm_get_date,
    fm_get_double, fm_get_number, fm_get_integer, fm_get_string, c_length in *.
  destruct (fm_kind (c_fm c)); cbn in *;
    repeat match goal with |- _ /\ _ => split end; try reflexivity;
    try (rewrite (RD (fm_length (c_fm c))) by lia; reflexivity);
    try (rewrite (RD 8) by (apply D; auto); reflexivity);
    try (destruct (CI eq_refl) as [[? ?]|[? ?]]; try discriminate;
         try (rewrite (RD 1) by lia); try (rewrite (RD 2) by lia); reflexivity);
    destruct (CN eq_refl) as [[? ?]|[? K]]; try discriminate;
    try (injection K as ->; rewrite (RD (fm_length (c_fm c))) by lia; reflexivity);
    rewrite (RD 8) by lia; reflexivity.
Qed.

(** ** The type decision table *)

Lemma match_format_In : forall l f, match_column_format l f = true <-> In f l.
Proof.
  intros l f. unfold match_column_format. rewrite existsb_exists. split.
  - intros [x [I E]]. apply bytes_eqb_true in E. congruence.
  - intros I. exists f. split; [exact I|apply bytes_eqb_refl].
Qed.

Definition incl_b (a b : list bytes) : bool :=
  forallb (fun x => existsb (bytes_eqb x) b) a.

Lemma incl_b_sound : forall a b, incl_b a b = true -> forall x, In x a -> In x b.
Proof.
  intros a b H x I. unfold incl_b in H. rewrite forallb_forall in H.
  specialize (H x I). rewrite existsb_exists in H. destruct H as [y [J E]].
  apply bytes_eqb_true in E. congruence.
Qed.

Lemma datetime_iff : forall f, is_datetime_format f = true <-> In f datetime_names.
Proof.
  intros f. unfold is_datetime_format. rewrite match_format_In.
  split; apply incl_b_sound; vm_compute; reflexivity.
Qed.
Lemma date_iff : forall f, is_date_format f = true <-> In f date_names.
Proof.
  intros f. unfold is_date_format. rewrite match_format_In.
  split; apply incl_b_sound; vm_compute; reflexivity.
Qed.
Lemma time_iff : forall f, is_time_format f = true <-> In f time_names.
Proof.
  intros f. unfold is_time_format. rewrite match_format_In.
  split; apply incl_b_sound; vm_compute; reflexivity.
Qed.

Lemma iff_false : forall (b : bool) P, (b = true <-> P) -> (b = false <-> ~ P).
Proof.
  intros b P H. rewrite <- H. destruct b; split; congruence.
Qed.

(** No format name is in two lists. *)
Lemma names_disjoint : forall f,
  ~ (In f datetime_names /\ In f date_names)
  /\ ~ (In f datetime_names /\ In f time_names)
  /\ ~ (In f date_names /\ In f time_names).
Proof.
  assert (A : forall a b, forallb (fun x => negb (existsb (bytes_eqb x) b)) a = true ->
    forall f, ~ (In f a /\ In f b)).
  { intros a b H f [I J]. rewrite forallb_forall in H. specialize (H f I).
    apply negb_true_iff in H. enough (existsb (bytes_eqb f) b = true) by congruence.
    apply existsb_exists. exists f. split; [exact J|apply bytes_eqb_refl]. }
  intros f. split; [|split]; apply A; vm_compute; reflexivity.
Qed.

Lemma column_kind_table : forall kind len fmt t,
  kind = TNumber \/ kind = TString ->
  (fkind_type (column_kind kind len fmt) = t <-> reported_type kind len fmt t).
Proof.
  intros kind len fmt t K.
  pose proof (datetime_iff fmt) as I1. pose proof (date_iff fmt) as I2.
  pose proof (time_iff fmt) as I3.
  destruct (names_disjoint fmt) as [D1 [D2 D3]].
  pose proof (iff_false _ _ I1) as J1. pose proof (iff_false _ _ I2) as J2.
  pose proof (iff_false _ _ I3) as J3.
  unfold column_kind.
  revert I1 I2 I3 J1 J2 J3. generalize (is_datetime_format fmt)
    (is_date_format fmt) (is_time_format fmt). intros b1 b2 b3 I1 I2 I3 J1 J2 J3.
  split.
  - intros <-. destruct K as [->| ->]; [|constructor].
    destruct (N.eqb_spec len 1); [subst; constructor|].
    destruct (N.eqb_spec len 2); [subst; constructor|].
    destruct b1; [apply rt_datetime; tauto|].
    destruct b2; [apply rt_date; tauto|].
    destruct b3; [apply rt_time; tauto|].
    apply proj1 in J1, J2, J3. specialize (J1 eq_refl). specialize (J2 eq_refl).
    specialize (J3 eq_refl).
    repeat match goal with |- context [?a =? ?b] =>
      destruct (N.eqb_spec a b); [apply rt_number; (assumption || lia)|] end.
    apply rt_unknown; try assumption. lia.
  - intros H. inversion H; subst; try reflexivity;
    repeat match goal with
    | |- context [?a =? ?b] => destruct (N.eqb_spec a b); try lia
    end;
    destruct b1; try (exfalso; tauto); try reflexivity;
    destruct b2; try (exfalso; tauto); try reflexivity;
    destruct b3; try (exfalso; tauto); reflexivity.
Qed.

(** ** Filters *)

Lemma in_set_In : forall n s, in_set n s = true <-> In n s.
Proof.
  induction s as [|x s IH]; cbn.
  - split; [discriminate|tauto].
  - rewrite orb_true_iff, IH, bytes_eqb_true. tauto.
Qed.

Lemma filters_spec : forall inc exc c,
  accept_all c = true
  /\ (include_accept inc c = true <-> In (c_name c) inc)
  /\ (exclude_accept exc c = true <-> ~ In (c_name c) exc)
  /\ (include_exclude_accept inc exc c = true <->
      (inc <> [] /\ In (c_name c) inc) \/ (inc = [] /\ ~ In (c_name c) exc)).
Proof.
  intros inc exc c. unfold include_accept, exclude_accept, include_exclude_accept.
  split; [reflexivity|]. split; [apply in_set_In|].
  assert (E : forall s, negb (in_set (c_name c) s) = true <-> ~ In (c_name c) s).
  { intros s. rewrite negb_true_iff. apply iff_false, in_set_In. }
  split; [apply E|].
  destruct inc as [|i inc].
  - destruct exc as [|x exc].
    + split; [intros _; right; split; [reflexivity|intros []]|reflexivity].
    + rewrite E. split; intros H; [right; split; [reflexivity|exact H]|].
      destruct H as [[H _]|[_ H]]; [congruence|exact H].
  - rewrite in_set_In. split; intros H; [left; split; [discriminate|exact H]|].
    destruct H as [[_ H]|[H _]]; [exact H|discriminate].
Qed.

(** ** Grouping *)

Lemma ctype_eqb_true : forall a b, ctype_eqb a b = true <-> a = b.
Proof. intros [] []; cbn; split; congruence. Qed.

Lemma get_columns_filter : forall cs t,
  get_columns cs t = filter (fun c => ctype_eqb (c_type c) t) cs.
Proof. induction cs as [|c cs IH]; intros t; cbn; [reflexivity|]. rewrite IH. reflexivity. Qed.

Lemma filter_subsequence : forall A p (l : list A), subsequence (filter p l) l.
Proof.
  induction l as [|x l IH]; cbn; [constructor|].
  destruct (p x); constructor; exact IH.
Qed.

Lemma group_spec : forall cs t,
  subsequence (get_columns cs t) cs
  /\ (forall c, In c (get_columns cs t) <-> In c cs /\ c_type c = t).
Proof.
  intros cs t. rewrite get_columns_filter. split; [apply filter_subsequence|].
  intros c. rewrite filter_In, ctype_eqb_true. tauto.
Qed.

Lemma groups_named : forall cs,
  let g := columns_of cs in
  let group l t := subsequence l cs /\ forall c, In c l <-> In c cs /\ c_type c = t in
  group (cs_strings g) TString /\ group (cs_numbers g) TNumber /\ group (cs_integers g) TInteger
  /\ group (cs_datetimes g) TDateTime /\ group (cs_dates g) TDate /\ group (cs_times g) TTime.
Proof. intros cs. cbn. repeat (split; [apply group_spec|]). apply group_spec. Qed.

Lemma groups_partition : forall cs,
  let g := columns_of cs in
  Permutation
    (cs_strings g ++ cs_numbers g ++ cs_integers g ++ cs_datetimes g ++ cs_dates g
     ++ cs_times g ++ filter (fun c => ctype_eqb (c_type c) TUnknown) cs) cs.
Proof.
  intros cs. cbn. induction cs as [|c cs IH]; [cbn; constructor|].
  cbn. destruct (c_type c); cbn;
    repeat first [ apply perm_skip; exact IH
                 | apply Permutation_sym, Permutation_cons_app; apply Permutation_sym;
                   rewrite <- ?app_assoc; exact IH
                 | rewrite app_assoc ].
Qed.

(** ** Encodings *)

Lemma encoding_spec : forall b,
  (forall name, In (b2n b, name) encoding_names -> get_encoding b = name)
  /\ (~ In (b2n b) (map fst encoding_names) -> get_encoding b = bs "WINDOWS-1252")
  /\ get_encoding b <> [].
Proof.
  assert (A : forall b,
    forallb (fun p => negb (fst p =? b2n b) || bytes_eqb (get_encoding b) (snd p))
      encoding_names
    && (existsb (fun p => fst p =? b2n b) encoding_names
        || bytes_eqb (get_encoding b) (bs "WINDOWS-1252"))
    && negb (bytes_eqb (get_encoding b) []) = true)
    by (intros b; destruct b; vm_compute; reflexivity).
  intros b. specialize (A b). apply andb_prop in A. destruct A as [A A3].
  apply andb_prop in A. destruct A as [A1 A2]. split; [|split].
  - intros name I. rewrite forallb_forall in A1. specialize (A1 _ I). cbn in A1.
    rewrite N.eqb_refl in A1. cbn in A1. apply bytes_eqb_true in A1. exact A1.
  - intros I. apply orb_prop in A2. destruct A2 as [A2|A2].
    + exfalso. apply I. rewrite existsb_exists in A2. destruct A2 as [[n m] [J E]].
      apply N.eqb_eq in E. cbn in E. rewrite <- E.
      apply (in_map fst _ (n, m)). exact J.
    + apply bytes_eqb_true in A2. exact A2.
  - intros E. rewrite E in A3. discriminate A3.
Qed.

(** ** Integers read from a buffer *)

Lemma get_uint_bytes : forall a e n b off l before after,
  mem b = before ++ map Some l ++ after -> lenN before = off -> lenN l = n ->
  get_uint a e n b off = Ok (value_of e l).
Proof.
  intros a e n b off l before after E L1 L2. unfold get_uint, get_raw.
  rewrite <- get_val_value. rewrite (read_cells_init (mem b) off n l).
  - destruct a; reflexivity.
  - rewrite E, !lenN_app, lenN_map. lia.
  - rewrite E. apply slice_app_exact; [exact L1|rewrite lenN_map; exact L2].
Qed.

Lemma decode_written : forall a e w b off v before after,
  mem b = before ++ map Some (write_int e w v) ++ after -> lenN before = off ->
  v < 256 ^ N.of_nat w -> get_uint a e (N.of_nat w) b off = Ok v.
Proof.
  intros a e w b off v before after E L V.
  rewrite (get_uint_bytes a e _ b off _ _ _ E L).
  - rewrite <- get_val_value, get_val_write by exact V. reflexivity.
  - unfold lenN. rewrite write_int_length. reflexivity.
Qed.

Lemma value_of_facts : forall l,
  value_of Big l = value_of Little (rev l)
  /\ (forall e, value_of e l < 256 ^ lenN l)
  /\ (forall e l', length l' = length l -> value_of e l' = value_of e l -> l' = l).
Proof.
  intros l. split; [apply value_msb_rev|]. split.
  - intros e. rewrite <- get_val_value. apply get_val_lt.
  - intros e l' L E. rewrite <- !get_val_value in E.
    rewrite <- (write_get_val e l), <- (write_get_val e l'), L, E. reflexivity.
Qed.

(** ** Witnesses *)

(** A DATE column stored on 4 bytes, as SAS allows. *)
Definition short_date : column :=
  Column (bs "D") [] (bs "DATE") (Formatter FDate 0 4 Little).

Lemma short_date_built : built_column short_date.
Proof. exists TNumber. split; [left; reflexivity|vm_compute; reflexivity]. Qed.

(** Two rows of 8 bytes: equal on the 4 bytes of the column, then different. *)
Definition row_a : pview := PView (map Some [x00; x00; x00; x00; x00; x00; xf0; x3f]) 0.
Definition row_b : pview := PView (map Some [x00; x00; x00; x00; x00; x00; x00; x40]) 0.

Lemma rows_same : same_bytes row_a row_b 0 4.
Proof.
  exists [x00; x00; x00; x00]. split; [reflexivity|]. split.
  - exists [], (map Some [x00; x00; xf0; x3f]). split; reflexivity.
  - exists [], (map Some [x00; x00; x00; x40]). split; reflexivity.
Qed.

Lemma short_date_differs :
  exists c p q, built_column c /\ c_type c = TDate /\ c_length c = 4
    /\ same_bytes p q (fm_offset (c_fm c)) (c_length c)
    /\ c_get_date c p = Ok (GDate 2436936) /\ c_get_date c q = Ok (GDate 2436937).
Proof.
  exists short_date, row_a, row_b.
  split; [exact short_date_built|]. split; [reflexivity|]. split; [reflexivity|].
  split; [exact rows_same|]. split; vm_compute; reflexivity.
Qed.

(** With nothing after the row, reading the column leaves the row buffer. *)
Lemma short_date_oob :
  exists c p, built_column c /\ row_has p (fm_offset (c_fm c)) [x00; x00; x00; x00]
    /\ c_length c = 4 /\ c_get_date c p = Undef UB_oob_read.
Proof.
  exists short_date, (PView (map Some [x00; x00; x00; x00]) 0).
  split; [exact short_date_built|]. split; [|split; [reflexivity|vm_compute; reflexivity]].
  exists [], []. split; reflexivity.
Qed.

(** ** The width of the values *)

Lemma fm_read_has : forall f p n,
  (exists l, fm_read f p n = Ok l) <-> (exists l, lenN l = n /\ row_has p (fm_offset f) l).
Proof.
  intros f p n. split.
  - intros [l R]. unfold fm_read in R. apply read_cells_Ok in R. destruct R as (L & S & W).
    exists l. split; [exact W|]. exists (firstn (N.to_nat (pv_off p + fm_offset f)) (pv_mem p)).
    exists (skipn (N.to_nat n) (skipn (N.to_nat (pv_off p + fm_offset f)) (pv_mem p))).
    split; [|unfold lenN in *; rewrite firstn_length; lia].
    rewrite <- S. unfold slice. rewrite firstn_skipn, firstn_skipn. reflexivity.
  - intros (l & L & R). exists l. subst n. apply row_has_read. exact R.
Qed.

Lemma value_width_read : forall kind len fmt off e p,
  kind = TNumber \/ kind = TString ->
  let f := Formatter (column_kind kind len fmt) off len e in
  let t := fkind_type (fm_kind f) in
  t <> TUnknown ->
  ((match kind with TString => exists x, fm_get_string f p = Ok x | _ => exists x, fm_get_number f p = Ok x end)
   <-> exists l, lenN l = value_width t len /\ row_has p off l).
Proof.
  intros kind len fmt off e p K f t NU. subst t.
  change off with (fm_offset f) at 1. rewrite <- fm_read_has. destruct K as [-> | ->].
  - unfold fm_get_number, fm_get_integer. cbn [fm_kind f] in *. unfold column_kind in *.
    repeat (match goal with |- context [if ?b then _ else _] => destruct b eqn:? end);
      repeat match goal with H : (len =? _) = true |- _ => apply N.eqb_eq in H; rewrite H in * end;
      cbn [fkind_type value_width fm_length] in *; try congruence;
      (split; [intros [x X]; destruct (fm_read f p _) as [l| | | |] eqn:R; try discriminate X; eauto
              |intros [l ->]; cbn [bind]; eauto]).
  - unfold fm_get_string. cbn [fm_kind f column_kind fkind_type value_width fm_length].
    split; [intros [x X]; destruct (fm_read f p _) as [l| | | |] eqn:R; try discriminate X; eauto
           |intros [l ->]; cbn [bind]; eauto].
Qed.
