(** Facts about the basic definitions, used by the proof files. *)
From Verif Require Import Base Types.
From Coq Require Import ZifyBool ZifyNat ZifyN.
Local Open Scope N_scope.

(** ** Bytes *)

Lemma b2n_lt : forall b, b2n b < 256.
Proof. intros b; destruct b; vm_compute; reflexivity. Qed.

Lemma n2b_b2n : forall b, n2b (b2n b) = b.
Proof. intros b; destruct b; vm_compute; reflexivity. Qed.

Lemma b2n_n2b : forall n, b2n (n2b n) = n mod 256.
Proof.
  intros n. unfold n2b.
  destruct (Byte.of_N (n mod 256)) eqn:E.
  - apply Byte.to_of_N in E. exact E.
  - apply Byte.of_N_None_iff in E.
    assert (n mod 256 < 256) by (apply N.mod_lt; lia). lia.
Qed.

Lemma b2n_inj : forall a b, b2n a = b2n b -> a = b.
Proof. intros a b H. rewrite <- (n2b_b2n a), <- (n2b_b2n b), H. reflexivity. Qed.

Lemma beq_true : forall a b, beq a b = true <-> a = b.
Proof. intros a b. unfold beq. split.
  - apply Byte.byte_dec_bl.
  - apply Byte.byte_dec_lb.
Qed.

Lemma beq_refl : forall a, beq a a = true.
Proof. intros a. apply beq_true. reflexivity. Qed.

Lemma beq_false : forall a b, beq a b = false <-> a <> b.
Proof.
  intros a b. split; intros H.
  - intros E. apply beq_true in E. congruence.
  - destruct (beq a b) eqn:E; [|reflexivity]. apply beq_true in E. contradiction.
Qed.

Lemma bytes_eqb_true : forall a b, bytes_eqb a b = true <-> a = b.
Proof.
  induction a as [|x a IH]; destruct b as [|y b]; cbn; split; intros H;
    try discriminate; try reflexivity.
  - apply andb_prop in H. destruct H as [H1 H2].
    apply beq_true in H1. apply IH in H2. congruence.
  - injection H as -> ->. rewrite beq_refl. cbn. apply IH. reflexivity.
Qed.

Lemma bytes_eqb_refl : forall a, bytes_eqb a a = true.
Proof. intros a. apply bytes_eqb_true. reflexivity. Qed.

Lemma bytes_eqb_false : forall a b, bytes_eqb a b = false <-> a <> b.
Proof.
  intros a b. split; intros H.
  - intros E. apply bytes_eqb_true in E. congruence.
  - destruct (bytes_eqb a b) eqn:E; [|reflexivity].
    apply bytes_eqb_true in E. contradiction.
Qed.

(** ** Lists *)

Lemma lenN_nil : forall A, lenN (@nil A) = 0.
Proof. reflexivity. Qed.

Lemma lenN_cons : forall A (a : A) l, lenN (a :: l) = 1 + lenN l.
Proof. intros. unfold lenN. cbn [length]. lia. Qed.

Lemma lenN_app : forall A (a b : list A), lenN (a ++ b) = lenN a + lenN b.
Proof. intros. unfold lenN. rewrite app_length. lia. Qed.

Lemma lenN_map : forall A B (f : A -> B) l, lenN (map f l) = lenN l.
Proof. intros. unfold lenN. rewrite map_length. reflexivity. Qed.

Lemma lenN_repeat : forall A (a : A) n, lenN (repeat a n) = N.of_nat n.
Proof. intros. unfold lenN. rewrite repeat_length. reflexivity. Qed.

Lemma lenN_rev : forall A (l : list A), lenN (rev l) = lenN l.
Proof. intros. unfold lenN. rewrite rev_length. reflexivity. Qed.

Lemma lenN_firstn : forall A n (l : list A),
  lenN (firstn n l) = N.min (N.of_nat n) (lenN l).
Proof. intros. unfold lenN. rewrite firstn_length. lia. Qed.

Lemma lenN_skipn : forall A n (l : list A),
  lenN (skipn n l) = lenN l - N.of_nat n.
Proof. intros. unfold lenN. rewrite skipn_length. lia. Qed.

Lemma lenN_slice : forall A off len (l : list A),
  lenN (slice off len l) = N.min len (lenN l - off).
Proof. intros. unfold slice. rewrite lenN_firstn, lenN_skipn. lia. Qed.

Lemma lenN_slice_le : forall A off len (l : list A),
  off + len <= lenN l -> lenN (slice off len l) = len.
Proof. intros. rewrite lenN_slice. lia. Qed.

Lemma slice_all : forall A (l : list A), slice 0 (lenN l) l = l.
Proof.
  intros. unfold slice, lenN. cbn. rewrite Nnat.Nat2N.id. apply firstn_all.
Qed.

Lemma slice_0 : forall A off (l : list A), slice off 0 l = [].
Proof. reflexivity. Qed.

Lemma slice_app1 : forall A off len (a b : list A),
  off + len <= lenN a -> slice off len (a ++ b) = slice off len a.
Proof.
  intros A off len a b H. unfold slice, lenN in *.
  rewrite skipn_app, firstn_app, skipn_length.
  replace (N.to_nat len - (length a - N.to_nat off))%nat with 0%nat by lia.
  cbn. rewrite app_nil_r. reflexivity.
Qed.

Lemma slice_app2 : forall A off len (a b : list A),
  lenN a <= off -> slice off len (a ++ b) = slice (off - lenN a) len b.
Proof.
  intros A off len a b H. unfold slice, lenN in *.
  rewrite skipn_app, skipn_all2 by lia. cbn.
  f_equal. f_equal. lia.
Qed.

Lemma slice_app_exact : forall A off len (a b c : list A),
  lenN a = off -> lenN b = len -> slice off len (a ++ b ++ c) = b.
Proof.
  intros A off len a b c <- <-. rewrite slice_app2 by lia.
  rewrite N.sub_diag, slice_app1 by (rewrite N.add_0_l; lia).
  apply slice_all.
Qed.

Lemma slice_map : forall A B (g : A -> B) off len l,
  slice off len (map g l) = map g (slice off len l).
Proof. intros. unfold slice. rewrite skipn_map, firstn_map. reflexivity. Qed.

Lemma skipn_skipn' : forall A n m (l : list A),
  skipn n (skipn m l) = skipn (m + n) l.
Proof.
  intros A n m. revert n. induction m as [|m IH]; intros n l; cbn; [reflexivity|].
  destruct l as [|a l]; [destruct n; reflexivity|]. apply IH.
Qed.

Lemma slice_slice : forall A o1 l1 o2 l2 (l : list A),
  o2 + l2 <= l1 -> slice o2 l2 (slice o1 l1 l) = slice (o1 + o2) l2 l.
Proof.
  intros A o1 l1 o2 l2 l H. unfold slice.
  rewrite N2Nat.inj_add, <- (skipn_skipn' _ (N.to_nat o2) (N.to_nat o1)).
  set (k := skipn (N.to_nat o1) l).
  rewrite <- (firstn_skipn (N.to_nat l1) k) at 2.
  rewrite skipn_app, firstn_app, skipn_length.
  destruct (Nat.le_gt_cases (N.to_nat l1) (length k)) as [C|C].
  - rewrite firstn_length_le by lia.
    replace (N.to_nat l2 - (N.to_nat l1 - N.to_nat o2))%nat with 0%nat by lia.
    cbn. rewrite app_nil_r. reflexivity.
  - rewrite (skipn_all2 k) by lia. rewrite skipn_nil, firstn_nil, app_nil_r.
    reflexivity.
Qed.

Lemma nth_error_slice : forall A off len (l : list A) i,
  N.of_nat i < len ->
  nth_error (slice off len l) i = nth_error l (N.to_nat off + i).
Proof.
  intros A off len l i H. unfold slice.
  rewrite <- (firstn_skipn (N.to_nat off) l) at 2.
  destruct (Nat.le_gt_cases (length l) (N.to_nat off)) as [C|C].
  - rewrite skipn_all2 by lia. rewrite firstn_nil, app_nil_r.
    transitivity (@None A); [destruct i; reflexivity|symmetry].
    apply nth_error_None. rewrite firstn_length. lia.
  - rewrite nth_error_app2 by (rewrite firstn_length; lia).
    rewrite firstn_length_le by lia.
    replace (N.to_nat off + i - N.to_nat off)%nat with i by lia.
    assert (L : (i < N.to_nat len)%nat) by lia.
    generalize dependent (N.to_nat len). generalize (skipn (N.to_nat off) l).
    clear. intros l n. revert i l. induction n as [|n IH]; intros i l L; [lia|].
    destruct l as [|a l]; cbn; [destruct i; reflexivity|].
    destruct i as [|i]; cbn; [reflexivity|]. apply IH. lia.
Qed.

Lemma list_ext_nth_error : forall A (a b : list A),
  (forall i, nth_error a i = nth_error b i) -> a = b.
Proof.
  induction a as [|x a IH]; intros [|y b] H.
  - reflexivity.
  - specialize (H 0%nat). discriminate.
  - specialize (H 0%nat). discriminate.
  - f_equal.
    + specialize (H 0%nat). cbn in H. congruence.
    + apply IH. intros i. apply (H (S i)).
Qed.

Lemma lenN_splice : forall A off (new l : list A),
  off + lenN new <= lenN l -> lenN (splice off new l) = lenN l.
Proof.
  intros. unfold splice. rewrite !lenN_app, lenN_firstn, lenN_skipn.
  unfold lenN in *. lia.
Qed.

Lemma nth_error_splice : forall A off (new l : list A) i,
  off + lenN new <= lenN l ->
  nth_error (splice off new l) i =
  if N.of_nat i <? off then nth_error l i
  else if N.of_nat i <? off + lenN new then nth_error new (i - N.to_nat off)
  else nth_error l i.
Proof.
  intros A off new l i H. unfold splice, lenN in *.
  destruct (N.ltb_spec (N.of_nat i) off) as [C|C].
  - rewrite nth_error_app1 by (rewrite firstn_length_le; lia).
    rewrite <- (firstn_skipn (N.to_nat off) l) at 2.
    rewrite nth_error_app1 by (rewrite firstn_length_le; lia). reflexivity.
  - rewrite nth_error_app2 by (rewrite firstn_length_le; lia).
    rewrite firstn_length_le by lia.
    destruct (N.ltb_spec (N.of_nat i) (off + N.of_nat (length new))) as [D|D].
    + rewrite nth_error_app1 by lia. reflexivity.
    + rewrite nth_error_app2 by lia.
      rewrite <- (firstn_skipn (N.to_nat off + length new) l) at 2.
      rewrite nth_error_app2 by (rewrite firstn_length_le; lia).
      rewrite firstn_length_le by lia. f_equal. lia.
Qed.

Lemma nth_error_ge : forall A (l : list A) i,
  lenN l <= N.of_nat i -> nth_error l i = None.
Proof. intros. apply nth_error_None. unfold lenN in *. lia. Qed.

Lemma slice_splice_before : forall A off (new l : list A) o n,
  off + lenN new <= lenN l -> o + n <= off ->
  slice o n (splice off new l) = slice o n l.
Proof.
  intros A off new l o n H1 H2. apply list_ext_nth_error. intros i.
  destruct (N.lt_ge_cases (N.of_nat i) n) as [C|C].
  - rewrite !nth_error_slice by assumption. rewrite nth_error_splice by assumption.
    destruct (N.ltb_spec (N.of_nat (N.to_nat o + i)) off); [reflexivity|lia].
  - rewrite !nth_error_ge; [reflexivity| |]; rewrite lenN_slice; lia.
Qed.

Lemma slice_splice_after : forall A off (new l : list A) o n,
  off + lenN new <= lenN l -> off + lenN new <= o ->
  slice o n (splice off new l) = slice o n l.
Proof.
  intros A off new l o n H1 H2. apply list_ext_nth_error. intros i.
  destruct (N.lt_ge_cases (N.of_nat i) n) as [C|C].
  - rewrite !nth_error_slice by assumption. rewrite nth_error_splice by assumption.
    destruct (N.ltb_spec (N.of_nat (N.to_nat o + i)) off); [lia|].
    destruct (N.ltb_spec (N.of_nat (N.to_nat o + i)) (off + lenN new));
      [lia|reflexivity].
  - rewrite !nth_error_ge; [reflexivity| |]; rewrite lenN_slice; lia.
Qed.

Lemma slice_splice_same : forall A off (new l : list A),
  off + lenN new <= lenN l -> slice off (lenN new) (splice off new l) = new.
Proof.
  intros A off new l H. unfold splice.
  apply slice_app_exact; [|reflexivity].
  rewrite lenN_firstn. lia.
Qed.

Lemma firstn_splice : forall A off (new l : list A),
  off + lenN new <= lenN l ->
  firstn (N.to_nat (off + lenN new)) (splice off new l)
  = firstn (N.to_nat off) l ++ new.
Proof.
  intros A off new l H. unfold splice. rewrite app_assoc.
  rewrite firstn_app.
  rewrite firstn_all2 by (rewrite app_length, firstn_length; unfold lenN in *; lia).
  rewrite app_length, firstn_length_le by (unfold lenN in *; lia).
  replace (N.to_nat (off + lenN new) - (N.to_nat off + length new))%nat
    with 0%nat by (unfold lenN; lia).
  cbn. apply app_nil_r.
Qed.

Lemma slice_split : forall A off n m (l : list A),
  slice off (n + m) l = slice off n l ++ slice (off + n) m l.
Proof.
  intros A off n m l. unfold slice.
  rewrite !N2Nat.inj_add, <- (skipn_skipn' _ (N.to_nat n) (N.to_nat off)).
  generalize (skipn (N.to_nat off) l). intros k.
  rewrite <- (firstn_skipn (N.to_nat n) k) at 1.
  destruct (Nat.le_gt_cases (N.to_nat n) (length k)) as [C|C].
  - rewrite firstn_app, firstn_length_le by lia.
    rewrite firstn_all2 by (rewrite firstn_length; lia).
    f_equal. f_equal. lia.
  - rewrite (skipn_all2 k) by lia. rewrite firstn_nil, !app_nil_r.
    apply firstn_all2. rewrite firstn_length. lia.
Qed.

(** ** Memory cells *)

Lemma all_some_map : forall l, all_some (map Some l) = Some l.
Proof. induction l as [|b l IH]; cbn; [reflexivity|]. rewrite IH. reflexivity. Qed.

Lemma all_some_inv : forall l v, all_some l = Some v -> l = map Some v.
Proof.
  induction l as [|c l IH]; cbn; intros v H.
  - injection H as <-. reflexivity.
  - destruct c as [b|]; [|discriminate].
    destruct (all_some l) as [r|]; [|discriminate].
    injection H as <-. cbn. rewrite (IH r) by reflexivity. reflexivity.
Qed.

Lemma read_cells_map : forall l off len,
  off + len <= lenN l -> read_cells (map Some l) off len = Ok (slice off len l).
Proof.
  intros l off len H. unfold read_cells. rewrite lenN_map.
  destruct (N.leb_spec (off + len) (lenN l)); [|lia].
  rewrite slice_map, all_some_map. reflexivity.
Qed.

Lemma read_cells_init : forall m off len v,
  off + len <= lenN m -> slice off len m = map Some v ->
  read_cells m off len = Ok v.
Proof.
  intros m off len v H E. unfold read_cells.
  destruct (N.leb_spec (off + len) (lenN m)); [|lia].
  rewrite E, all_some_map. reflexivity.
Qed.

Lemma read_cells_Ok : forall m off len v,
  read_cells m off len = Ok v ->
  off + len <= lenN m /\ slice off len m = map Some v /\ lenN v = len.
Proof.
  intros m off len v H. unfold read_cells in H.
  destruct (N.leb_spec (off + len) (lenN m)); [|discriminate].
  destruct (all_some (slice off len m)) as [w|] eqn:E; [|discriminate].
  injection H as <-. apply all_some_inv in E. repeat split; try assumption.
  rewrite <- (lenN_map _ _ (@Some byte)), <- E. apply lenN_slice_le. assumption.
Qed.

Lemma read_cells_oob : forall m off len,
  lenN m < off + len -> read_cells m off len = Undef UB_oob_read.
Proof.
  intros m off len H. unfold read_cells.
  destruct (N.leb_spec (off + len) (lenN m)); [lia|reflexivity].
Qed.

(** A read never throws, aborts or runs out of fuel. *)
Lemma read_cells_cases : forall m off len,
  (exists v, read_cells m off len = Ok v) \/ (exists u, read_cells m off len = Undef u).
Proof.
  intros m off len. unfold read_cells.
  destruct (off + len <=? lenN m); [|right; eauto].
  destruct (all_some (slice off len m)); eauto.
Qed.

Lemma write_cells_Ok : forall m off new,
  off + lenN new <= lenN m -> write_cells m off new = Ok (splice off new m).
Proof.
  intros m off new H. unfold write_cells.
  destruct (N.leb_spec (off + lenN new) (lenN m)); [reflexivity|lia].
Qed.

(** ** 64 bit arithmetic *)

Lemma u64_small : forall x, x < W64 -> u64 x = x.
Proof. intros. unfold u64. apply N.mod_small. assumption. Qed.

Lemma u64_lt : forall x, u64 x < W64.
Proof. intros. unfold u64. apply N.mod_lt. discriminate. Qed.

Lemma add64_small : forall a b, a + b < W64 -> a +! b = a + b.
Proof. intros. unfold add64. apply u64_small. assumption. Qed.

Lemma sub64_small : forall a b, b <= a -> a < W64 -> a -! b = a - b.
Proof.
  intros a b H1 H2. unfold sub64, u64.
  rewrite (N.mod_small b) by lia.
  replace (a + W64 - b) with (a - b + 1 * W64) by lia.
  rewrite N.mod_add by discriminate. apply N.mod_small. lia.
Qed.

(** ** Outcomes *)

Lemma bind_Ok : forall A B (m : res A) (k : A -> res B) b,
  bind m k = Ok b -> exists a, m = Ok a /\ k a = Ok b.
Proof. intros A B m k b H. destruct m; cbn in H; try discriminate. eauto. Qed.

Lemma noexcept_Ok : forall A (m : res A) a, noexcept m = Ok a <-> m = Ok a.
Proof. intros A m a. destruct m; cbn; split; congruence. Qed.

Lemma noexcept_not_Exn : forall A (m : res A) e, noexcept m <> Exn e.
Proof. intros A m e. destruct m; cbn; discriminate. Qed.

Lemma map_repeat : forall A B (f : A -> B) a n, map f (repeat a n) = repeat (f a) n.
Proof. intros. induction n; cbn; congruence. Qed.
