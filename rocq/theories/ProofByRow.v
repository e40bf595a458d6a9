(** Proofs about the sink classes of the R package called by hand. *)
From Coq Require Import QArith Qabs.
From Verif Require Import Base Types Float Callbacks Sinks RPackage SpecTime ProofTime Lemmas ProofObjects SpecByRow.
Local Open Scope N_scope.

Lemma extent_of : forall b n, double_value b (inject_Z (Z.of_N n)) -> n < 2 ^ 31 -> r_extent b = N.to_nat n.
Proof.
  intros b n V L. unfold r_extent. rewrite (lround_nearest b _ (Z.of_N n) V).
  - rewrite <- (N2Z.id n) at 2. rewrite Z_N_nat. reflexivity.
  - split.
    + assert (E : (inject_Z (Z.of_N n) - inject_Z (Z.of_N n) == 0)%Q) by ring. rewrite E. discriminate.
    + assert (E : (inject_Z (Z.of_N n) - inject_Z (Z.of_N n) == 0)%Q) by ring. rewrite E. discriminate.
  - change (2 ^ 31) with 2147483648 in L. change (2 ^ 49)%Z with 562949953421312%Z. lia.
Qed.

Lemma nested_columns : forall p names n m, nested p names n m -> r_columns_of p = Ok names.
Proof.
  intros p names n m (md & l & bn & bm & A & B & C & _). unfold r_columns_of. rewrite A. cbn [bind]. rewrite B.
  cbn [bind r_names]. rewrite C. reflexivity.
Qed.

Lemma nested_frame : forall p names n m, nested p names n m -> n < 2 ^ 31 -> m < 2 ^ 31 ->
  r_by_row_frame p names = Ok (combine names (repeat (repeat (Some RNa) (N.to_nat n)) (N.to_nat m))).
Proof.
  intros p names n m (md & l & bn & bm & A & B & C & D & E & F & G) L1 L2. unfold r_by_row_frame.
  rewrite A. cbn [bind]. rewrite D. cbn [bind]. rewrite F. cbn [bind r_matrix_frame].
  rewrite (extent_of _ _ E L1), (extent_of _ _ G L2). reflexivity.
Qed.

Definition has_rows (gs : list given) (names : list bytes) (n : N) (f : rframe) : Prop :=
  map fst f = names
  /\ forall j name col, nth_error f j = Some (name, col) ->
       lenN col = n /\ forall i, i < n -> nth_error col (N.to_nat i) = Some (Some (last_given gs i j)).

Lemma put_row_nth : forall i row f j,
  nth_error (r_put_row i row f) j
  = match nth_error f j with
    | Some (n, col) => Some (n, match nth_error row j with Some x => r_put i x col | None => col end)
    | None => None
    end.
Proof.
  intros i row. induction row as [|x row IH]; intros [|[n col] f] [|j]; cbn; try reflexivity.
  - destruct (nth_error f j) as [[? ?]|]; reflexivity.
  - apply IH.
Qed.

Lemma put_row_names : forall i row f, map fst (r_put_row i row f) = map fst f.
Proof.
  intros i row. induction row as [|x row IH]; intros [|[n col] f]; cbn; try reflexivity. rewrite IH. reflexivity.
Qed.

Lemma nth_error_upd : forall A n m (a : A) l, (n < length l)%nat ->
  nth_error (upd n a l) m = if Nat.eqb m n then Some a else nth_error l m.
Proof.
  intros A n m a l. revert n m. induction l as [|x l IH]; intros [|n] [|m] H; cbn in *; try lia; auto.
  apply IH. lia.
Qed.

Lemma put_inside : forall i x col, i < lenN col ->
  lenN (r_put i x col) = lenN col
  /\ forall k, nth_error (r_put i x col) (N.to_nat k)
     = match x with Some _ => if i =? k then Some x else nth_error col (N.to_nat k) | None => nth_error col (N.to_nat k) end.
Proof.
  intros i [y|] col L; cbn [r_put]; [|auto]. replace (i + 1 - lenN col) with 0 by lia. cbn [N.to_nat repeat].
  rewrite app_nil_r. unfold lenN in *. rewrite upd_len. split; [reflexivity|]. intros k. rewrite nth_error_upd by lia.
  destruct (Nat.eqb_spec (N.to_nat k) (N.to_nat i)), (N.eqb_spec i k); try reflexivity; lia.
Qed.

Lemma put_has : forall gs names n f g, has_rows gs names n f -> fst g < n ->
  has_rows (gs ++ [g]) names n (r_put_row (fst g) (snd g) f).
Proof.
  intros gs names n f g [A B] L. split; [rewrite put_row_names; exact A|].
  intros j name col H. rewrite put_row_nth in H. destruct (nth_error f j) as [[nm c0]|] eqn:F; [|discriminate].
  injection H as <- <-. destruct (B _ _ _ F) as [B1 B2].
  assert (LG : forall i, last_given (gs ++ [g]) i j
     = match nth_error (snd g) j with
       | Some (Some x) => if fst g =? i then x else last_given gs i j
       | _ => last_given gs i j end).
  { intros i. unfold last_given. rewrite fold_left_app. reflexivity. }
  destruct (nth_error (snd g) j) as [x|] eqn:X.
  - destruct (put_inside (fst g) x c0) as [P1 P2]; [lia|]. split; [lia|]. intros i Li. rewrite P2, LG.
    destruct x as [y|]; [destruct (fst g =? i); [reflexivity|]|]; apply B2; exact Li.
  - split; [exact B1|]. intros i Li. rewrite LG. apply B2, Li.
Qed.

Lemma rows_put : forall mk p names n gs l f, has_rows gs names n f -> Forall (fun g => fst g < n) l ->
  exists f', r_calls (r_methods mk RSinkByRow) (map push_row l) (RObject p names (DfOwn f))
             = (Ok tt, RObject p names (DfOwn f'))
  /\ has_rows (gs ++ l) names n f'.
Proof.
  intros mk p names n gs l. revert gs. induction l as [|g l IH]; intros gs f H F.
  - exists f. rewrite app_nil_r. auto.
  - inversion F; subst. pose proof (put_has gs names n f g H ltac:(assumption)) as H1.
    destruct (IH _ _ H1 ltac:(assumption)) as (f' & E & G). exists f'.
    split; [|rewrite <- app_assoc in G; exact G].
    cbn [map r_calls push_row r_methods r_contents rob_df nth rob_properties rob_columns]. exact E.
Qed.

Lemma start_rows : forall names n, has_rows [] names n
  (combine names (repeat (repeat (Some RNa) (N.to_nat n)) (length names))).
Proof.
  intros names n. split.
  - induction names as [|a names IH]; cbn; [reflexivity|]. rewrite IH. reflexivity.
  - intros j name col H. apply nth_error_In, in_combine_r, repeat_spec in H. subst col. split.
    + unfold lenN. rewrite repeat_length. lia.
    + intros i L. cbn. rewrite nth_error_repeat by lia. reflexivity.
Qed.

Lemma rows_kept : forall mk p names n gs, nested p names n (lenN names) -> n < 2 ^ 31 -> lenN names < 2 ^ 31 ->
  Forall (fun g => fst g < n) gs ->
  exists f, r_calls (r_methods mk RSinkByRow) (RqProps p :: map push_row gs) r_new
            = (Ok tt, RObject p names (DfOwn f))
  /\ map fst f = names
  /\ forall j name col, nth_error f j = Some (name, col) ->
       lenN col = n /\ forall i, i < n -> nth_error col (N.to_nat i) = Some (Some (last_given gs i j)).
Proof.
  intros mk p names n gs NS L1 L2 F.
  destruct (rows_put mk p names n [] gs _ (start_rows names n) F) as (f & E & G).
  exists f. split; [|exact G]. cbn [r_calls r_methods].
  rewrite (nested_columns _ _ _ _ NS). cbn [r_outcome].
  rewrite (nested_frame _ _ _ _ NS L1 L2). cbn [r_outcome]. unfold lenN. rewrite Nat2N.id. exact E.
Qed.

Lemma columns_kept : forall mk cls p names n m o, cls <> RSinkByRow -> nested p names n m ->
  r_methods mk cls (RqProps p) o = (Ok tt, RObject p names (rob_df o)).
Proof.
  intros mk [] p names n m o C NS; [congruence| |]; cbn [r_methods]; rewrite (nested_columns _ _ _ _ NS); reflexivity.
Qed.
