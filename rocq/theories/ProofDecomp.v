(** Proofs about the decompressors: each refines a decoder on lists. *)
From Verif Require Import Base Types Buffer Decomp Lemmas SpecValues SpecBuffer SpecDecomp.
From Coq Require Import ZifyBool ZifyNat ZifyN.
Local Open Scope N_scope.

(** ** Results related through a relation on the values *)

Definition res_rel {A B} (R : A -> B -> Prop) (x : res A) (y : res B) : Prop :=
  match x, y with
  | Ok a, Ok b => R a b
  | Exn e, Exn e' => e = e'
  | Abort, Abort => True
  | Undef u, Undef u' => u = u'
  | Fuel, Fuel => True
  | _, _ => False
  end.

Lemma res_rel_bind : forall A B A' B' (R : A -> B -> Prop) (R' : A' -> B' -> Prop)
    x y (f : A -> res A') (g : B -> res B'),
  res_rel R x y -> (forall a b, R a b -> res_rel R' (f a) (g b)) ->
  res_rel R' (bind x f) (bind y g).
Proof. intros A B A' B' R R' x y f g H K. destruct x, y; cbn in *; auto; contradiction. Qed.

(** ** The destination *)

(** The row of [n] bytes starts with [out]; the next byte goes after it. *)
Definition has (n : N) (d : dst) (out : bytes) : Prop :=
  d_n d = n /\ d_i d = lenN out /\ lenN (d_mem d) = n
  /\ exists junk, d_mem d = map Some out ++ junk.

Lemma has_le : forall n d out, has n d out -> lenN out <= n.
Proof.
  intros n d out [_ [_ [L [j E]]]]. rewrite E, lenN_app, lenN_map in L. lia.
Qed.

Definition p_check (n k : N) (out : bytes) : res unit :=
  if lenN out + k <=? n then Ok tt else Exn E_cannot_decompress.

Lemma check_rel : forall n d out k, has n d out -> n < row_limit -> k <= 8192 ->
  dst_assert_check d k = p_check n k out.
Proof.
  intros n d out k H B K. pose proof (has_le _ _ _ H) as L.
  destruct H as [Hn [Hi _]]. unfold dst_assert_check, p_check.
  rewrite Hn, Hi, add64_small; [reflexivity|]. unfold row_limit, W64 in *. lia.
Qed.

Lemma write_has : forall n d out new, has n d out -> lenN out + lenN new <= n ->
  exists m, write_cells (d_mem d) (d_i d) (map Some new) = Ok m
    /\ has n (Dst m (d_n d) (d_i d + lenN new)) (out ++ new).
Proof.
  intros n d out new [Hn [Hi [Hl [j Hm]]]] L.
  rewrite Hi, write_cells_Ok by (rewrite lenN_map; lia).
  eexists. split; [reflexivity|]. unfold has. cbn [d_n d_i d_mem].
  split; [exact Hn|]. split; [rewrite lenN_app; reflexivity|]. split.
  - rewrite lenN_splice by (rewrite lenN_map; lia). exact Hl.
  - rewrite Hm. unfold splice. exists (skipn (length new) j).
    assert (O : N.to_nat (lenN out) = length (map (@Some byte) out))
      by (rewrite map_length; unfold lenN; lia).
    rewrite O, firstn_app, firstn_all, Nat.sub_diag. cbn [firstn].
    rewrite app_nil_r, map_app, <- app_assoc. f_equal. f_equal.
    rewrite skipn_app, skipn_all2 by lia. cbn. rewrite map_length. f_equal.
    rewrite !map_length. lia.
Qed.

Definition p_store (n : N) (out : bytes) (v : byte) (k : N) : res bytes :=
  _ <- p_check n k out ;; Ok (out ++ times k v).

Lemma store_rel : forall n d out v k, has n d out -> n < row_limit -> k <= 8192 ->
  res_rel (has n) (store_value d v k) (p_store n out v k).
Proof.
  intros n d out v k H B K. unfold store_value, p_store.
  rewrite (check_rel n d out k H B K). unfold p_check.
  destruct (N.leb_spec (lenN out + k) n) as [L|L]; cbn [bind]; [|reflexivity].
  assert (LT : lenN (times k v) = k) by (unfold times; rewrite lenN_repeat; lia).
  destruct (write_has n d out (times k v) H) as [m [E W]]; [lia|].
  rewrite LT in W. unfold times in E.
  rewrite map_repeat in E. rewrite E. cbn. exact W.
Qed.

Lemma fill_rel : forall n d out, has n d out -> n < row_limit ->
  exists d', dst_fill d = Ok d' /\ has n d' (zero_padded n out).
Proof.
  intros n d out H B. pose proof (has_le _ _ _ H) as L.
  destruct H as [Hn [Hi [Hl Hm]]] eqn:HH. unfold dst_fill.
  rewrite Hn, Hi, sub64_small by (unfold row_limit, W64 in *; lia).
  unfold zero_padded. destruct (N.eqb_spec (n - lenN out) 0) as [Z|Z].
  - exists d. split; [reflexivity|]. rewrite Z. cbn. rewrite app_nil_r.
    unfold has. auto.
  - unfold store_value, dst_assert_check. rewrite Hn, Hi, add64_small
      by (unfold row_limit, W64 in *; lia).
    destruct (N.leb_spec (lenN out + (n - lenN out)) n); [|lia]. cbn [bind].
    assert (LT : lenN (times (n - lenN out) zero_char) = n - lenN out)
      by (unfold times; rewrite lenN_repeat; lia).
    destruct (write_has n d out (times (n - lenN out) zero_char)) as [m [E W]];
      [unfold has; auto|lia|].
    rewrite LT, Hi, Hn in W. unfold times in E. rewrite map_repeat, Hi in E.
    unfold C_NULL. fold zero_char. rewrite E. cbn. eexists. split; [reflexivity|].
    exact W.
Qed.

Definition p_pattern (n : N) (out : bytes) (ofs k : N) : res bytes :=
  _ <- p_check n k out ;;
  if lenN out <? ofs then Undef UB_oob_read
  else if ofs <? k then Undef UB_overlap
  else Ok (out ++ back_copy ofs k out).

Lemma pattern_rel : forall n d out ofs k, has n d out -> n < row_limit -> k <= 8192 ->
  res_rel (has n) (store_pattern d ofs k) (p_pattern n out ofs k).
Proof.
  intros n d out ofs k H B K. unfold store_pattern, p_pattern.
  rewrite (check_rel n d out k H B K). unfold p_check.
  destruct (N.leb_spec (lenN out + k) n) as [L|L]; cbn [bind]; [|reflexivity].
  destruct H as [Hn [Hi [Hl [j Hm]]]] eqn:HH. rewrite Hi.
  destruct (N.ltb_spec (lenN out) ofs) as [O|O]; [reflexivity|].
  destruct (N.ltb_spec ofs k) as [P|P]; [reflexivity|].
  assert (E0 : slice (lenN out - ofs) k (d_mem d) = map Some (back_copy ofs k out)).
  { rewrite Hm, slice_app1 by (rewrite lenN_map; lia). rewrite slice_map. f_equal.
    unfold back_copy, slice. f_equal. f_equal. unfold lenN. lia. }
  assert (LB : lenN (back_copy ofs k out) = k).
  { unfold back_copy. rewrite lenN_firstn, lenN_skipn. unfold lenN in *. lia. }
  destruct (write_has n d out (back_copy ofs k out)) as [m [E W]];
    [unfold has; eauto 6|lia|].
  rewrite Hi in E. rewrite E0, E. cbn. rewrite LB in W. rewrite Hi in W. exact W.
Qed.

Definition p_copy (n : N) (src : bytes) (out : bytes) (k : N) : res (bytes * bytes) :=
  let k := N.min k (lenN src) in
  _ <- p_check n k out ;;
  Ok (skipn (N.to_nat k) src, out ++ firstn (N.to_nat k) src).

Definition has2 (n : N) (a : bytes * dst) (b : bytes * bytes) : Prop :=
  fst a = fst b /\ has n (snd a) (snd b).

Lemma copy_rel : forall n d out src k, has n d out -> n < row_limit -> k <= 8192 ->
  res_rel (has2 n) (store_values src d k) (p_copy n src out k).
Proof.
  intros n d out src k H B K. unfold store_values, p_copy.
  set (k' := N.min k (lenN src)).
  rewrite (check_rel n d out k' H B) by lia. unfold p_check.
  destruct (N.leb_spec (lenN out + k') n) as [L|L]; cbn [bind]; [|reflexivity].
  assert (LF : lenN (firstn (N.to_nat k') src) = k').
  { rewrite lenN_firstn. lia. }
  destruct (write_has n d out (firstn (N.to_nat k') src) H) as [m [E W]]; [lia|].
  rewrite E, LF in *. cbn. split; [reflexivity|exact W].
Qed.

(** ** RLE *)

Definition p_rle_step (n : N) (src out : bytes) : res (bytes * bytes) :=
  '(val, src) <- pop src ;;
  let command := b2n val / 16 in
  let low := b2n val mod 16 in
  let insert := fun src v k => out' <- p_store n out v k ;; Ok (src, out') in
  match command with
  | 0 => '(x, src) <- pop src ;; p_copy n src out (low * 256 + b2n x + 64)
  | 4 => '(x, src) <- pop src ;;
         '(v, src) <- pop src ;; insert src v (low * 16 + b2n x + 18)
  | 5 => '(x, src) <- pop src ;; insert src C_AT (low * 256 + b2n x + 17)
  | 6 => '(x, src) <- pop src ;; insert src C_SPACE (low * 256 + b2n x + 17)
  | 7 => '(x, src) <- pop src ;; insert src C_NULL (low * 256 + b2n x + 17)
  | 8 => p_copy n src out (low + 1)
  | 9 => p_copy n src out (low + 17)
  | 10 => p_copy n src out (low + 33)
  | 11 => p_copy n src out (low + 49)
  | 12 => '(v, src) <- pop src ;; insert src v (low + 3)
  | 13 => insert src C_AT (low + 2)
  | 14 => insert src C_SPACE (low + 2)
  | 15 => insert src C_NULL (low + 2)
  | _ => Exn E_cannot_decompress
  end.

Lemma insert_rel : forall n d out src v k, has n d out -> n < row_limit -> k <= 8192 ->
  res_rel (has2 n) (d' <- store_value d v k ;; Ok (src, d'))
    (out' <- p_store n out v k ;; Ok (src, out')).
Proof.
  intros n d out src v k H B K.
  eapply res_rel_bind; [apply store_rel; assumption|].
  intros d' out' H'. cbn. split; [reflexivity|exact H'].
Qed.

Lemma pop_rel : forall A B (R : A -> B -> Prop) src f g,
  (forall x r, res_rel R (f (x, r)) (g (x, r))) ->
  res_rel R (bind (pop src) f) (bind (pop src) g).
Proof. intros A B R src f g H. destruct src; cbn; auto. Qed.

Lemma rle_step_rel : forall n d out src, has n d out -> n < row_limit ->
  res_rel (has2 n) (rle_step src d) (p_rle_step n src out).
Proof.
  intros n d out src H B. unfold rle_step, p_rle_step.
  apply pop_rel. intros val r.
  pose proof (b2n_lt val) as V.
  assert (LW : b2n val mod 16 < 16) by (apply N.mod_lt; discriminate).
  assert (CM : b2n val / 16 < 16) by (apply N.div_lt_upper_bound; lia).
  set (low := b2n val mod 16) in *. set (cmd := b2n val / 16) in *. clearbody low cmd.
  assert (P : forall (k : N -> N), (forall x, x < 256 -> k x <= 8192) -> forall v,
    res_rel (has2 n)
      (bind (pop r) (fun '(x, s) => d' <- store_value d v (k (b2n x)) ;; Ok (s, d')))
      (bind (pop r) (fun '(x, s) => out' <- p_store n out v (k (b2n x)) ;; Ok (s, out')))).
  { intros k K v. apply pop_rel. intros x s. apply insert_rel; auto.
    apply K. apply b2n_lt. }
  assert (C : cmd = 0 \/ cmd = 1 \/ cmd = 2 \/ cmd = 3 \/ cmd = 4 \/ cmd = 5 \/ cmd = 6
    \/ cmd = 7 \/ cmd = 8 \/ cmd = 9 \/ cmd = 10 \/ cmd = 11 \/ cmd = 12 \/ cmd = 13
    \/ cmd = 14 \/ cmd = 15) by lia.
  repeat (destruct C as [-> | C]); try subst cmd;
    try reflexivity;
    try (apply copy_rel; [exact H|exact B|lia]);
    try (apply insert_rel; [exact H|exact B|lia]).
  - apply pop_rel. intros x s. pose proof (b2n_lt x). apply copy_rel; [exact H|exact B|lia].
  - apply pop_rel. intros x s. pose proof (b2n_lt x).
    apply pop_rel. intros v s'. apply insert_rel; [exact H|exact B|lia].
  - apply pop_rel. intros x s. pose proof (b2n_lt x). apply insert_rel; [exact H|exact B|lia].
  - apply pop_rel. intros x s. pose proof (b2n_lt x). apply insert_rel; [exact H|exact B|lia].
  - apply pop_rel. intros x s. pose proof (b2n_lt x). apply insert_rel; [exact H|exact B|lia].
  - apply pop_rel. intros x s. apply insert_rel; [exact H|exact B|lia].
Qed.

Fixpoint p_rle_loop (fuel : nat) (n : N) (src out : bytes) : res bytes :=
  if (2 <=? lenN src) && (lenN out <? n) then
    match fuel with
    | O => Fuel
    | S fuel' => '(src', out') <- p_rle_step n src out ;; p_rle_loop fuel' n src' out'
    end
  else Ok out.

(** The loop leaves a destination of the right shape, whatever happens. *)
Definition loop_rel (n : N) (x : res unit * dst) (y : res bytes) : Prop :=
  exists out', has n (snd x) out'
    /\ match fst x with
       | Ok tt => y = Ok out'
       | Exn e => y = Exn e
       | Abort => y = Abort
       | Undef u => y = Undef u
       | Fuel => y = Fuel
       end.

Lemma dst_check_rel : forall n d out, has n d out -> dst_check d = (lenN out <? n).
Proof. intros n d out [Hn [Hi _]]. unfold dst_check. rewrite Hn, Hi. reflexivity. Qed.

Lemma rle_loop_rel : forall n, n < row_limit -> forall fuel src d out, has n d out ->
  loop_rel n (rle_loop fuel src d) (p_rle_loop fuel n src out).
Proof.
  intros n B. induction fuel as [|fuel IH]; intros src d out H; cbn [rle_loop p_rle_loop];
    rewrite (dst_check_rel n d out H);
    (destruct ((2 <=? lenN src) && (lenN out <? n)); [|exists out; split; [exact H|reflexivity]]).
  - exists out. split; [exact H|reflexivity].
  - pose proof (rle_step_rel n d out src H B) as R.
    destruct (rle_step src d) as [[s1 d1]| | | |],
      (p_rle_step n src out) as [[s2 o2]| | | |]; cbn in R; try contradiction; subst;
      try (exists out; split; [exact H|reflexivity]).
    destruct R as [R1 R2]; cbn in R1, R2; subst. cbn [bind]. apply IH. exact R2.
Qed.

Lemma wf_has : forall n d, row_buffer n d -> has n (dst_reset d) [].
Proof.
  intros n d [H1 H2]. unfold has. cbn. repeat split; auto. exists (d_mem d). reflexivity.
Qed.

Lemma has_wf : forall n d out, has n d out -> row_buffer n d.
Proof. intros n d out [H1 [_ [H2 _]]]. split; assumption. Qed.

Lemma finish_rel : forall n x y, n < row_limit -> loop_rel n x y ->
  let '(r, d') := finish x in
  row_buffer n d' /\ r = (out <- y ;; Ok (zero_padded n out)).
Proof.
  intros n [r d] y B [out [H E]]. cbn [fst snd] in *. unfold finish.
  destruct r as [[]|e| |u|]; subst y; cbn [bind];
    try (split; [eapply has_wf; exact H|reflexivity]).
  destruct (fill_rel n d out H B) as [d' [-> H']].
  split; [eapply has_wf; exact H'|].
  destruct H' as [Hn [Hi [Hl [j Hm]]]]. rewrite Hn.
  assert (LZ : lenN (zero_padded n out) = n).
  { pose proof (has_le _ _ _ H). unfold zero_padded, times.
    rewrite lenN_app, lenN_repeat. lia. }
  apply read_cells_init; [lia|].
  rewrite Hm. rewrite slice_app1 by (rewrite lenN_map; lia).
  rewrite <- (lenN_map _ _ Some) in LZ. rewrite <- LZ at 1. apply slice_all.
Qed.

Definition p_rle (n : N) (src : bytes) : res bytes :=
  out <- p_rle_loop (length src) n src [] ;; Ok (zero_padded n out).

Lemma rle_refines : forall n src d, row_buffer n d -> n < row_limit ->
  row_buffer n (snd (rle src d)) /\ fst (rle src d) = p_rle n src.
Proof.
  intros n src d W B. unfold rle.
  pose proof (rle_loop_rel n B (length src) src (dst_reset d) [] (wf_has n d W)) as R.
  pose proof (finish_rel n _ _ B R) as F.
  destruct (finish _) as [r d']. exact F.
Qed.

(** *** What one command does *)

Lemma p_store_ok : forall n out v k, lenN out + k <= n ->
  p_store n out v k = Ok (out ++ times k v).
Proof.
  intros. unfold p_store, p_check.
  destruct (N.leb_spec (lenN out + k) n); [reflexivity|lia].
Qed.

Lemma p_store_over : forall n out v k, n < lenN out + k ->
  p_store n out v k = Exn E_cannot_decompress.
Proof.
  intros. unfold p_store, p_check.
  destruct (N.leb_spec (lenN out + k) n); [lia|reflexivity].
Qed.

Lemma p_copy_ok : forall n data rest out k, lenN data = k -> lenN out + k <= n ->
  p_copy n (data ++ rest) out k = Ok (rest, out ++ data).
Proof.
  intros n data rest out k L H. unfold p_copy, p_check.
  rewrite lenN_app. replace (N.min k (lenN data + lenN rest)) with k by lia.
  destruct (N.leb_spec (lenN out + k) n); [|lia]. cbn [bind].
  assert (K : N.to_nat k = length data) by (unfold lenN in L; lia).
  rewrite K, skipn_app, skipn_all, Nat.sub_diag, firstn_app, firstn_all, Nat.sub_diag.
  cbn. rewrite app_nil_r. reflexivity.
Qed.

Lemma p_copy_over : forall n data rest out k, lenN data = k -> n < lenN out + k ->
  p_copy n (data ++ rest) out k = Exn E_cannot_decompress.
Proof.
  intros n data rest out k L H. unfold p_copy, p_check.
  rewrite lenN_app. replace (N.min k (lenN data + lenN rest)) with k by lia.
  destruct (N.leb_spec (lenN out + k) n); [lia|reflexivity].
Qed.

Lemma b2n_byte_of : forall x, x < 256 -> b2n (byte_of x) = x.
Proof.
  intros x H. change (byte_of x) with (n2b x). rewrite b2n_n2b. apply N.mod_small. exact H.
Qed.

Lemma cmd_byte_code : forall code l, code < 16 -> l < 16 ->
  b2n (cmd_byte code l) / 16 = code /\ b2n (cmd_byte code l) mod 16 = l.
Proof.
  intros code l H1 H2. unfold cmd_byte. rewrite b2n_byte_of by lia.
  split.
  - symmetry. apply (N.div_unique (16 * code + l) 16 code l); lia.
  - symmetry. apply (N.mod_unique (16 * code + l) 16 code l); lia.
Qed.

Lemma rle_step_cmd : forall n c rest out, rle_valid c ->
  p_rle_step n (rle_bytes c ++ rest) out
  = if lenN out + lenN (rle_expand c) <=? n
    then Ok (rest, out ++ rle_expand c) else Exn E_cannot_decompress.
Proof.
  assert (LT : forall k v, lenN (times k v) = k)
    by (intros; unfold times; rewrite lenN_repeat; lia).
  intros n c rest out V.
  destruct (N.leb_spec (lenN out + lenN (rle_expand c)) n) as [L|L];
  destruct c; cbn [rle_valid rle_bytes rle_expand app] in *; unfold p_rle_step;
    rewrite ?LT in L; cbn [pop bind];
    repeat match goal with H : _ /\ _ |- _ => destruct H end;
    match goal with |- context [cmd_byte ?code ?l] =>
      let A := fresh in let B := fresh in
      destruct (cmd_byte_code code l) as [A B]; [lia|lia|]; rewrite A, B; cbn [pop bind]
    end;
    rewrite ?b2n_byte_of by assumption;
    try match goal with
    | |- context [p_copy n (?d ++ ?r) out ?k] =>
        (rewrite (p_copy_ok n d r out k) by lia; reflexivity) ||
        (rewrite (p_copy_over n d r out k) by lia; reflexivity)
    | |- context [p_store n out ?v ?k] =>
        (rewrite (p_store_ok n out v k) by lia; cbn [bind]; do 3 f_equal; f_equal; lia)
        || (rewrite (p_store_over n out v k) by lia; reflexivity)
    end.
Qed.

Lemma rle_bytes_nonempty : forall c, 1 <= lenN (rle_bytes c).
Proof. destruct c; cbn [rle_bytes app]; rewrite ?lenN_cons; lia. Qed.

Lemma rle_expand_nonempty : forall c, rle_valid c -> 1 <= lenN (rle_expand c).
Proof.
  assert (LT : forall k v, lenN (times k v) = k)
    by (intros; unfold times; rewrite lenN_repeat; lia).
  destruct c; cbn [rle_valid rle_expand]; rewrite ?LT; lia.
Qed.

(** More fuel changes nothing: each command takes at least one byte. *)
Lemma p_rle_step_shrinks : forall n src out src' out',
  p_rle_step n src out = Ok (src', out') ->
  (length src' < length src)%nat /\ (lenN out <= n -> lenN out' <= n).
Proof.
  assert (PC : forall n s o k s' o', p_copy n s o k = Ok (s', o') ->
    (length s' <= length s)%nat /\ lenN o' <= n).
  { intros n s o k s' o' H. unfold p_copy, p_check in H.
    destruct (N.leb_spec (lenN o + N.min k (lenN s)) n); [|discriminate].
    injection H as <- <-. rewrite skipn_length, lenN_app, lenN_firstn. lia. }
  assert (PS : forall n (s : bytes) o v k (s' o' : bytes),
    (out' <- p_store n o v k ;; Ok (s, out')) = Ok (s', o') ->
    (length s' <= length s)%nat /\ lenN o' <= n).
  { intros n s o v k s' o' H. unfold p_store, p_check in H.
    destruct (N.leb_spec (lenN o + k) n); [|discriminate].
    injection H as <- <-. unfold times. rewrite lenN_app, lenN_repeat. lia. }
  assert (PP : forall A (s : bytes) (f : byte * bytes -> res A) r,
    bind (pop s) f = Ok r -> exists x s', s = x :: s' /\ f (x, s') = Ok r).
  { intros A s f r H. destruct s; [discriminate|]. eauto. }
  intros n src out src' out' H. unfold p_rle_step in H.
  apply PP in H. destruct H as [val [r [-> H]]]. cbn [length].
  generalize dependent (b2n val mod 16). intros low H.
  destruct (b2n val / 16) as [|p]; [|do 5 (try destruct p as [p|p|])]; cbv iota beta in H;
    try discriminate H;
    repeat (let x := fresh "x" in let s := fresh "s" in let E := fresh "E" in
            apply PP in H; destruct H as [x [s [E H]]]; subst; cbn [length]);
    try (apply PC in H; lia); try (apply PS in H; lia).
Qed.

Lemma p_rle_loop_fuel : forall n fuel src out, (length src <= fuel)%nat ->
  p_rle_loop fuel n src out = p_rle_loop (length src) n src out.
Proof.
  intros n fuel. induction fuel as [fuel IH] using (well_founded_induction lt_wf).
  intros src out L.
  destruct fuel as [|fuel].
  { destruct src; [reflexivity|cbn in L; lia]. }
  destruct src as [|b src]; [reflexivity|]. cbn [length p_rle_loop].
  destruct ((2 <=? lenN (b :: src)) && (lenN out <? n)); [|reflexivity].
  destruct (p_rle_step n (b :: src) out) as [[s' o']| | | |] eqn:E; cbn [bind]; try reflexivity.
  apply p_rle_step_shrinks in E. destruct E as [E _]. cbn [length] in *.
  rewrite (IH fuel) by lia.
  destruct (Nat.eq_dec fuel (length src)) as [->|D].
  - symmetry. apply IH; lia.
  - symmetry. rewrite (IH (length src)) by lia. reflexivity.
Qed.

Lemma p_rle_loop_eq : forall n src out,
  p_rle_loop (length src) n src out
  = if (2 <=? lenN src) && (lenN out <? n) then
      '(src', out') <- p_rle_step n src out ;; p_rle_loop (length src') n src' out'
    else Ok out.
Proof.
  intros n src out. destruct src as [|b src]; [reflexivity|]. cbn [length p_rle_loop].
  destruct ((2 <=? lenN (b :: src)) && (lenN out <? n)); [|reflexivity].
  destruct (p_rle_step n (b :: src) out) as [[s' o']| | | |] eqn:E; cbn [bind]; try reflexivity.
  apply p_rle_step_shrinks in E. destruct E as [E _]. cbn [length] in E.
  apply p_rle_loop_fuel. lia.
Qed.

(** The loop over the encoding of valid commands which fit. *)
Lemma p_rle_loop_cmds : forall n rest cs out,
  Forall rle_valid cs -> lenN out + lenN (rle_expansion cs) <= n ->
  (rest <> [] \/ last_is_long cs) ->
  p_rle_loop (length (rle_encoding cs ++ rest)) n (rle_encoding cs ++ rest) out
  = p_rle_loop (length rest) n rest (out ++ rle_expansion cs).
Proof.
  intros n rest cs. induction cs as [|c cs IH]; intros out V L T.
  - cbn. rewrite app_nil_r. reflexivity.
  - inversion V; subst. unfold rle_expansion, rle_encoding in *. cbn [map concat] in *.
    rewrite lenN_app in L. rewrite <- app_assoc.
    pose proof (rle_expand_nonempty c H1) as E1. pose proof (rle_bytes_nonempty c) as B1.
    rewrite p_rle_loop_eq.
    assert (G : 2 <= lenN (rle_bytes c ++ concat (map rle_bytes cs) ++ rest)).
    { rewrite !lenN_app. destruct T as [T|T].
      - destruct rest; [congruence|]. rewrite lenN_cons. lia.
      - destruct cs as [|c' cs].
        + specialize (T [] c eq_refl). cbn. lia.
        + pose proof (rle_bytes_nonempty c'). cbn [map concat]. rewrite lenN_app. lia. }
    destruct (N.leb_spec 2 (lenN (rle_bytes c ++ concat (map rle_bytes cs) ++ rest)));
      [|lia].
    destruct (N.ltb_spec (lenN out) n); [|lia]. cbn [andb].
    rewrite rle_step_cmd by assumption.
    destruct (N.leb_spec (lenN out + lenN (rle_expand c)) n); [|lia]. cbn [bind].
    rewrite IH; [rewrite <- app_assoc; reflexivity|assumption|rewrite lenN_app; lia|].
    destruct T as [T|T]; [left; exact T|right].
    intros cs' c' E. apply (T (c :: cs') c'). rewrite E. reflexivity.
Qed.

Lemma p_rle_loop_stop : forall n src out,
  lenN src <= 1 \/ lenN out = n -> p_rle_loop (length src) n src out = Ok out.
Proof.
  intros n src out H. rewrite p_rle_loop_eq.
  destruct (N.leb_spec 2 (lenN src)); [|reflexivity].
  destruct (N.ltb_spec (lenN out) n); [lia|reflexivity].
Qed.

(** C25. *)
Lemma rle_decodes : forall n d cs tail,
  row_buffer n d -> n < row_limit -> Forall rle_valid cs ->
  lenN (rle_expansion cs) <= n ->
  lenN tail <= 1 \/ lenN (rle_expansion cs) = n ->
  tail <> [] \/ last_is_long cs ->
  fst (rle (rle_encoding cs ++ tail) d) = Ok (zero_padded n (rle_expansion cs)).
Proof.
  intros n d cs tail W B V L T1 T2.
  destruct (rle_refines n (rle_encoding cs ++ tail) d W B) as [_ ->]. unfold p_rle.
  rewrite p_rle_loop_cmds by (cbn; auto). cbn [app].
  rewrite p_rle_loop_stop by (destruct T1; auto). reflexivity.
Qed.

(** C26: at most the last command is lost, and it was one byte long. *)
Lemma rle_loses_one : forall n d cs,
  row_buffer n d -> n < row_limit -> Forall rle_valid cs ->
  lenN (rle_expansion cs) <= n ->
  exists cs' lost, cs = cs' ++ lost /\ lenN (rle_encoding lost) <= 1
    /\ fst (rle (rle_encoding cs) d) = Ok (zero_padded n (rle_expansion cs')).
Proof.
  intros n d cs W B V L. destruct cs as [|c cs] using rev_ind.
  - exists [], []. split; [reflexivity|]. split; [cbn; lia|].
    rewrite <- (app_nil_r (rle_encoding [])). apply rle_decodes; auto.
    + cbn. lia.
    + right. intros cs' c E. destruct cs'; discriminate.
  - clear IHcs. destruct (N.le_gt_cases 2 (lenN (rle_bytes c))) as [G|G].
    + exists (cs ++ [c]), []. rewrite app_nil_r. split; [reflexivity|].
      split; [cbn; lia|]. rewrite <- (app_nil_r (rle_encoding (cs ++ [c]))).
      apply rle_decodes; auto; [cbn; lia|]. right. intros cs' c' E.
      apply app_inj_tail in E. destruct E as [_ <-]. exact G.
    + exists cs, [c]. split; [reflexivity|]. unfold rle_encoding, rle_expansion in *.
      rewrite !map_app, !concat_app in *. cbn [map concat] in *. rewrite app_nil_r in *.
      split; [lia|]. apply Forall_app in V. destruct V as [V Vc].
      inversion Vc; subst. rewrite lenN_app in L.
      apply (rle_decodes n d cs (rle_bytes c) W B V).
      * unfold rle_expansion. lia.
      * left. lia.
      * left. pose proof (rle_bytes_nonempty c). intros E. rewrite E in H. cbn in H. lia.
Qed.

(** The lost command does no harm when it stands for zeros. *)
Lemma rle_final_zeros : forall n d cs l,
  row_buffer n d -> n < row_limit -> Forall rle_valid (cs ++ [RZero2 l]) ->
  lenN (rle_expansion (cs ++ [RZero2 l])) <= n ->
  fst (rle (rle_encoding (cs ++ [RZero2 l])) d)
  = Ok (zero_padded n (rle_expansion (cs ++ [RZero2 l]))).
Proof.
  intros n d cs l W B V L.
  unfold rle_encoding, rle_expansion in *. rewrite !map_app, !concat_app in *.
  cbn [map concat] in *. rewrite !app_nil_r in *. rewrite lenN_app in L.
  apply Forall_app in V. destruct V as [V Vc].
  transitivity (Ok (zero_padded n (rle_expansion cs))).
  1: apply (rle_decodes n d cs (rle_bytes (RZero2 l)) W B V).
  - unfold rle_expansion. lia.
  - left. cbn. lia.
  - left. discriminate.
  - f_equal. unfold zero_padded, rle_expansion. rewrite <- app_assoc, lenN_app. f_equal.
    cbn [rle_expand] in *. unfold times in *. rewrite lenN_repeat in *.
    rewrite <- repeat_app. f_equal. lia.
Qed.

(** C27. *)
Lemma rle_bad_command : forall n d cs v tail,
  row_buffer n d -> n < row_limit -> Forall rle_valid cs ->
  lenN (rle_expansion cs) < n -> 0x10 <= b2n v < 0x40 -> tail <> [] ->
  fst (rle (rle_encoding cs ++ v :: tail) d) = Exn E_cannot_decompress.
Proof.
  intros n d cs v tail W B V L R T.
  destruct (rle_refines n (rle_encoding cs ++ v :: tail) d W B) as [_ ->]. unfold p_rle.
  rewrite p_rle_loop_cmds; [|assumption|cbn; lia|left; discriminate].
  cbn [app]. rewrite p_rle_loop_eq.
  destruct tail as [|t tail]; [congruence|].
  destruct (N.leb_spec 2 (lenN (v :: t :: tail))) as [_|G];
    [|rewrite !lenN_cons in G; lia].
  destruct (N.ltb_spec (lenN (rle_expansion cs)) n); [|lia]. cbn [andb].
  unfold p_rle_step. cbn [pop bind].
  assert (C : b2n v / 16 = 1 \/ b2n v / 16 = 2 \/ b2n v / 16 = 3).
  { assert (1 <= b2n v / 16) by (apply N.div_le_lower_bound; lia).
    assert (b2n v / 16 < 4) by (apply N.div_lt_upper_bound; lia). lia. }
  destruct C as [-> | [-> | ->]]; reflexivity.
Qed.

Lemma rle_overflow : forall n d cs c tail,
  row_buffer n d -> n < row_limit -> Forall rle_valid cs -> rle_valid c ->
  lenN (rle_expansion cs) < n -> n < lenN (rle_expansion cs) + lenN (rle_expand c) ->
  tail <> [] \/ 2 <= lenN (rle_bytes c) ->
  fst (rle (rle_encoding cs ++ rle_bytes c ++ tail) d) = Exn E_cannot_decompress.
Proof.
  intros n d cs c tail W B V Vc L O T.
  destruct (rle_refines n (rle_encoding cs ++ rle_bytes c ++ tail) d W B) as [_ ->].
  unfold p_rle. pose proof (rle_bytes_nonempty c) as NE.
  rewrite p_rle_loop_cmds; [|assumption|cbn; lia|].
  2:{ left. intros E. apply app_eq_nil in E. destruct E as [E _]. rewrite E in NE.
      cbn in NE. lia. }
  cbn [app]. rewrite p_rle_loop_eq.
  assert (G : 2 <= lenN (rle_bytes c ++ tail)).
  { rewrite lenN_app. destruct T as [T|T]; [|lia].
    destruct tail; [congruence|rewrite lenN_cons; lia]. }
  destruct (N.leb_spec 2 (lenN (rle_bytes c ++ tail))); [|lia].
  destruct (N.ltb_spec (lenN (rle_expansion cs)) n); [|lia]. cbn [andb].
  rewrite rle_step_cmd by assumption.
  destruct (N.leb_spec (lenN (rle_expansion cs) + lenN (rle_expand c)) n); [lia|].
  reflexivity.
Qed.

Definition step_outcome (src : bytes) (r : res (bytes * bytes)) : Prop :=
  match r with
  | Ok (src', _) => exists pre, src = pre ++ src'
  | Exn e => e = E_cannot_decompress
  | Undef u => u = UB_oob_read /\ long_byte_run_last src
  | _ => False
  end.

Lemma p_rle_step_bad : forall n src out, 2 <= lenN src ->
  step_outcome src (p_rle_step n src out).
Proof.
  assert (PC : forall n pre s o k, step_outcome (pre ++ s) (p_copy n s o k)).
  { intros n pre s o k. unfold p_copy, p_check.
    destruct (lenN o + N.min k (lenN s) <=? n); cbn [bind]; [|reflexivity].
    exists (pre ++ firstn (N.to_nat (N.min k (lenN s))) s).
    rewrite <- app_assoc, firstn_skipn. reflexivity. }
  assert (PS : forall n pre s o v k,
    step_outcome (pre ++ s) (out' <- p_store n o v k ;; Ok (s, out'))).
  { intros n pre s o v k. unfold p_store, p_check.
    destruct (lenN o + k <=? n); cbn; [exists pre|]; reflexivity. }
  intros n src out L. destruct src as [|v [|x r]]; try (cbn in L; lia).
  unfold p_rle_step. cbn [pop bind].
  assert (V : b2n v = 16 * (b2n v / 16) + b2n v mod 16) by (apply N.div_mod; discriminate).
  assert (LW : b2n v mod 16 < 16) by (apply N.mod_lt; discriminate).
  set (low := b2n v mod 16) in *. set (cmd := b2n v / 16) in *. clearbody low cmd.
  assert (C : cmd = 4 \/ cmd <> 4) by lia. destruct C as [->|C].
  - cbn [pop bind]. destruct r as [|y r].
    + cbn. split; [reflexivity|]. exists [], v, x. split; [reflexivity|lia].
    + cbn [pop bind]. apply (PS n [v; x; y] r).
  - destruct cmd as [|p]; [|do 5 (try destruct p as [p|p|])]; cbv iota beta;
      cbn [pop bind]; try reflexivity; try congruence;
      first [apply (PC n [v] (x :: r))|apply (PS n [v] (x :: r))
            |apply (PC n [v; x] r)|apply (PS n [v; x] r)].
Qed.

Lemma long_byte_run_app : forall pre l, long_byte_run_last l -> long_byte_run_last (pre ++ l).
Proof.
  intros pre l [p [v [x [-> R]]]]. exists (pre ++ p), v, x. rewrite app_assoc. auto.
Qed.

Lemma p_rle_loop_outcome : forall n fuel src out, (length src <= fuel)%nat ->
  lenN out <= n ->
  match p_rle_loop fuel n src out with
  | Ok out' => lenN out' <= n
  | Exn e => e = E_cannot_decompress
  | Undef u => u = UB_oob_read /\ long_byte_run_last src
  | _ => False
  end.
Proof.
  intros n fuel. induction fuel as [|fuel IH]; intros src out F L.
  - destruct src; [exact L|cbn in F; lia].
  - cbn [p_rle_loop].
    destruct (N.leb_spec 2 (lenN src)) as [G|G]; [|exact L].
    destruct (N.ltb_spec (lenN out) n) as [K|K]; [|exact L]. cbn [andb].
    pose proof (p_rle_step_bad n src out G) as S. unfold step_outcome in S.
    destruct (p_rle_step n src out) as [[s' o']| | | |] eqn:E; cbn [bind]; auto.
    apply p_rle_step_shrinks in E. destruct E as [E1 E2].
    destruct S as [pre ->].
    specialize (IH s' o'). destruct (p_rle_loop fuel n s' o');
      (try (apply IH; [lia|auto])).
    destruct IH as [-> R]; [lia|auto|]. split; [reflexivity|].
    apply long_byte_run_app. exact R.
Qed.

Lemma rle_outcome : forall n d src, row_buffer n d -> n < row_limit ->
  match fst (rle src d) with
  | Ok row => lenN row = n
  | Exn e => e = E_cannot_decompress
  | Undef u => u = UB_oob_read /\ long_byte_run_last src
  | _ => False
  end.
Proof.
  intros n d src W B. destruct (rle_refines n src d W B) as [_ ->]. unfold p_rle.
  pose proof (p_rle_loop_outcome n (length src) src [] (Nat.le_refl _)) as O.
  destruct (p_rle_loop _ _ _ _) as [out| | | |]; cbn [bind];
    try (apply O; cbn; lia).
  unfold zero_padded, times. rewrite lenN_app, lenN_repeat.
  assert (lenN out <= n) by (apply O; cbn; lia). lia.
Qed.

(** ** RDC *)

Definition p_rdc_ctrl (src : bytes) (mask bits : N) : res (bytes * N * N) :=
  let mask := mask / 2 in
  if mask =? 0 then
    '(h, src) <- pop src ;;
    '(l, src) <- pop src ;;
    Ok (src, 32768, b2n h * 256 + b2n l)
  else Ok (src, mask, bits).

Definition p_rdc_item (n : N) (literal : bool) (src out : bytes) : res (bytes * bytes) :=
  if literal then
    '(v, src) <- pop src ;;
    o <- p_store n out v 1 ;; Ok (src, o)
  else
    '(val, src) <- pop src ;;
    let cmd := b2n val / 16 in
    let cnt := b2n val mod 16 in
    if cmd =? 0 then
      '(v, src) <- pop src ;;
      o <- p_store n out v (cnt + 3) ;; Ok (src, o)
    else if cmd =? 1 then
      '(x, src) <- pop src ;;
      '(v, src) <- pop src ;;
      o <- p_store n out v (cnt + (b2n x * 16 + 19)) ;; Ok (src, o)
    else if cmd =? 2 then
      '(x, src) <- pop src ;;
      '(y, src) <- pop src ;;
      o <- p_pattern n out (cnt + 3 + b2n x * 16) (b2n y + 16) ;; Ok (src, o)
    else
      '(x, src) <- pop src ;;
      o <- p_pattern n out (cnt + 3 + b2n x * 16) cmd ;; Ok (src, o).

Definition p_rdc_step (n : N) (src : bytes) (mask bits : N) (out : bytes)
  : res (bytes * N * N * bytes) :=
  '(src, mask, bits) <- p_rdc_ctrl src mask bits ;;
  '(src, out) <- p_rdc_item n (N.land bits mask =? 0) src out ;;
  Ok (src, mask, bits, out).

Definition has4 (n : N) (a : bytes * N * N * dst) (b : bytes * N * N * bytes) : Prop :=
  fst a = fst b /\ has n (snd a) (snd b).

Lemma bind_bind : forall A B C (m : res A) (f : A -> res B) (g : B -> res C),
  bind (bind m f) g = bind m (fun a => bind (f a) g).
Proof. intros A B C m f g. destruct m; reflexivity. Qed.

Lemma bind_pop_assoc : forall B C src (f : byte -> bytes -> res B) (g : B -> res C),
  bind (bind (pop src) (fun '(x, s) => f x s)) g
  = bind (pop src) (fun '(x, s) => bind (f x s) g).
Proof. intros. destruct src; reflexivity. Qed.

Lemma rdc_step_rel : forall n d out src mask bits, has n d out -> n < row_limit ->
  res_rel (has4 n) (rdc_step src mask bits d) (p_rdc_step n src mask bits out).
Proof.
  intros n d out src mask bits H B. unfold rdc_step, p_rdc_step, p_rdc_ctrl.
  cbv zeta. set (ctrl := if mask / 2 =? 0 then _ else _).
  destruct ctrl as [[[s m] b]| | | |]; cbn [bind]; try exact I; try reflexivity.
  assert (ST : forall s v k, k <= 8192 ->
    res_rel (has4 n) (d' <- store_value d v k ;; Ok (s, m, b, d'))
      ('(src0, out0) <- (o <- p_store n out v k ;; Ok (s, o)) ;; Ok (src0, m, b, out0))).
  { intros s0 v k K. rewrite bind_bind. eapply res_rel_bind; [apply store_rel; assumption|].
    intros d' o Ho. split; [reflexivity|exact Ho]. }
  assert (PT : forall s ofs k, k <= 8192 ->
    res_rel (has4 n) (d' <- store_pattern d ofs k ;; Ok (s, m, b, d'))
      ('(src0, out0) <- (o <- p_pattern n out ofs k ;; Ok (s, o)) ;; Ok (src0, m, b, out0))).
  { intros s0 ofs k K. rewrite bind_bind. eapply res_rel_bind; [apply pattern_rel; assumption|].
    intros d' o Ho. split; [reflexivity|exact Ho]. }
  unfold p_rdc_item. destruct (N.land b m =? 0).
  - rewrite bind_pop_assoc. apply pop_rel. intros v r. apply ST. lia.
  - rewrite bind_pop_assoc. apply pop_rel. intros v r. cbv zeta.
    pose proof (b2n_lt v) as V.
    assert (LW : b2n v mod 16 < 16) by (apply N.mod_lt; discriminate).
    assert (CM : b2n v / 16 < 16) by (apply N.div_lt_upper_bound; lia).
    destruct (b2n v / 16 =? 0).
    { rewrite bind_pop_assoc. apply pop_rel. intros x r'. apply ST. lia. }
    destruct (b2n v / 16 =? 1).
    { rewrite bind_pop_assoc. apply pop_rel. intros x r'. pose proof (b2n_lt x).
      rewrite bind_pop_assoc. apply pop_rel. intros y r''. apply ST. lia. }
    destruct (b2n v / 16 =? 2).
    { rewrite bind_pop_assoc. apply pop_rel. intros x r'. pose proof (b2n_lt x).
      rewrite bind_pop_assoc. apply pop_rel. intros y r''. pose proof (b2n_lt y).
      apply PT. lia. }
    rewrite bind_pop_assoc. apply pop_rel. intros x r'. pose proof (b2n_lt x).
    apply PT. lia.
Qed.

Fixpoint p_rdc_loop (fuel : nat) (n : N) (src : bytes) (mask bits : N) (out : bytes)
  : res bytes :=
  if (3 <=? lenN src) && (lenN out <? n) then
    match fuel with
    | O => Fuel
    | S fuel' =>
        '(src, mask, bits, out) <- p_rdc_step n src mask bits out ;;
        p_rdc_loop fuel' n src mask bits out
    end
  else Ok out.

Lemma rdc_loop_rel : forall n, n < row_limit -> forall fuel src mask bits d out, has n d out ->
  loop_rel n (rdc_loop fuel src mask bits d) (p_rdc_loop fuel n src mask bits out).
Proof.
  intros n B. induction fuel as [|fuel IH]; intros src mask bits d out H;
    cbn [rdc_loop p_rdc_loop]; rewrite (dst_check_rel n d out H);
    (destruct ((3 <=? lenN src) && (lenN out <? n));
      [|exists out; split; [exact H|reflexivity]]).
  - exists out. split; [exact H|reflexivity].
  - pose proof (rdc_step_rel n d out src mask bits H B) as R.
    destruct (rdc_step src mask bits d) as [[[[s1 m1] b1] d1]| | | |],
      (p_rdc_step n src mask bits out) as [[[[s2 m2] b2] o2]| | | |];
      cbn in R; try contradiction; subst;
      try (exists out; split; [exact H|reflexivity]).
    destruct R as [R1 R2]; cbn in R1, R2. injection R1 as <- <- <-. cbn [bind].
    apply IH. exact R2.
Qed.

Definition p_rdc (n : N) (src : bytes) : res bytes :=
  out <- p_rdc_loop (length src) n src 0 0 [] ;; Ok (zero_padded n out).

Lemma rdc_refines : forall n src d, row_buffer n d -> n < row_limit ->
  row_buffer n (snd (rdc src d)) /\ fst (rdc src d) = p_rdc n src.
Proof.
  intros n src d W B. unfold rdc.
  pose proof (rdc_loop_rel n B (length src) src 0 0 (dst_reset d) [] (wf_has n d W)) as R.
  pose proof (finish_rel n _ _ B R) as F.
  destruct (finish _) as [r d']. exact F.
Qed.

(** *** Every item consumes bytes and stays inside the row *)

Definition item_outcome (n : N) (src : bytes) (r : res (bytes * bytes)) : Prop :=
  match r with
  | Ok (src', out') => (length src' < length src)%nat /\ lenN out' <= n
  | Exn e => e = E_cannot_decompress
  | Undef u => u = UB_oob_read \/ u = UB_overlap
  | _ => False
  end.

Lemma p_rdc_item_outcome : forall n lit src out,
  item_outcome n src (p_rdc_item n lit src out).
Proof.
  intros n lit src out. unfold p_rdc_item.
  assert (PP : forall (s : bytes) (f : byte -> bytes -> res (bytes * bytes)),
    (length s <= length src)%nat ->
    (forall x r, (length r < length s)%nat -> item_outcome n src (f x r)) ->
    item_outcome n src (bind (pop s) (fun '(x, r) => f x r))).
  { intros s f L F. destruct s; cbn [pop bind]; [left; reflexivity|].
    apply F. cbn. lia. }
  assert (ST : forall (s : bytes) v k, (length s < length src)%nat ->
    item_outcome n src (o <- p_store n out v k ;; Ok (s, o))).
  { intros s v k L. unfold p_store, p_check.
    destruct (N.leb_spec (lenN out + k) n); cbn [bind]; [|reflexivity].
    cbn. unfold times. rewrite lenN_app, lenN_repeat. lia. }
  assert (PT : forall (s : bytes) ofs k, (length s < length src)%nat ->
    item_outcome n src (o <- p_pattern n out ofs k ;; Ok (s, o))).
  { intros s ofs k L. unfold p_pattern, p_check.
    destruct (N.leb_spec (lenN out + k) n); cbn [bind]; [|reflexivity].
    destruct (lenN out <? ofs); [left; reflexivity|].
    destruct (ofs <? k); [right; reflexivity|].
    cbn. unfold back_copy. rewrite lenN_app, lenN_firstn. lia. }
  destruct lit; (apply PP; [lia|]); intros v r L.
  - apply ST. exact L.
  - cbv zeta. destruct (b2n v / 16 =? 0); [|destruct (b2n v / 16 =? 1);
      [|destruct (b2n v / 16 =? 2)]].
    + apply PP; [lia|]. intros. apply ST. lia.
    + apply PP; [lia|]. intros. apply PP; [lia|]. intros. apply ST. lia.
    + apply PP; [lia|]. intros. apply PP; [lia|]. intros. apply PT. lia.
    + apply PP; [lia|]. intros. apply PT. lia.
Qed.

Lemma p_rdc_step_outcome : forall n src mask bits out,
  match p_rdc_step n src mask bits out with
  | Ok (src', _, _, out') => (length src' < length src)%nat /\ lenN out' <= n
  | Exn e => e = E_cannot_decompress
  | Undef u => u = UB_oob_read \/ u = UB_overlap
  | _ => False
  end.
Proof.
  intros n src mask bits out. unfold p_rdc_step.
  assert (C : match p_rdc_ctrl src mask bits with
              | Ok (s, _, _) => (length s <= length src)%nat
              | Undef u => u = UB_oob_read
              | _ => False
              end).
  { unfold p_rdc_ctrl. destruct (mask / 2 =? 0); [|cbn; lia].
    destruct src as [|h [|l r]]; cbn; auto; lia. }
  destruct (p_rdc_ctrl src mask bits) as [[[s m] b]| | | |]; try contradiction; cbn [bind].
  - pose proof (p_rdc_item_outcome n (N.land b m =? 0) s out) as I.
    destruct (p_rdc_item n (N.land b m =? 0) s out) as [[s' o']| | | |]; cbn [bind] in *;
      cbn in I; auto. lia.
  - left. exact C.
Qed.

Lemma p_rdc_loop_fuel : forall n fuel src mask bits out, (length src <= fuel)%nat ->
  p_rdc_loop fuel n src mask bits out = p_rdc_loop (length src) n src mask bits out.
Proof.
  intros n fuel. induction fuel as [fuel IH] using (well_founded_induction lt_wf).
  intros src mask bits out L.
  destruct fuel as [|fuel].
  { destruct src; [reflexivity|cbn in L; lia]. }
  destruct src as [|b src]; [reflexivity|]. cbn [length p_rdc_loop].
  destruct ((3 <=? lenN (b :: src)) && (lenN out <? n)); [|reflexivity].
  pose proof (p_rdc_step_outcome n (b :: src) mask bits out) as E.
  destruct (p_rdc_step n (b :: src) mask bits out) as [[[[s' m'] b'] o']| | | |];
    cbn [bind]; try reflexivity.
  destruct E as [E _]. cbn [length] in *.
  rewrite (IH fuel) by lia.
  destruct (Nat.eq_dec fuel (length src)) as [->|D].
  - symmetry. apply IH; lia.
  - symmetry. rewrite (IH (length src)) by lia. reflexivity.
Qed.

Definition rdc_go (n : N) (src : bytes) (mask bits : N) (out : bytes) : res bytes :=
  p_rdc_loop (length src) n src mask bits out.

Lemma rdc_go_eq : forall n src mask bits out,
  rdc_go n src mask bits out
  = if (3 <=? lenN src) && (lenN out <? n) then
      '(src', mask', bits', out') <- p_rdc_step n src mask bits out ;;
      rdc_go n src' mask' bits' out'
    else Ok out.
Proof.
  intros n src mask bits out. unfold rdc_go.
  destruct src as [|b src]; [reflexivity|]. cbn [length p_rdc_loop].
  destruct ((3 <=? lenN (b :: src)) && (lenN out <? n)); [|reflexivity].
  pose proof (p_rdc_step_outcome n (b :: src) mask bits out) as E.
  destruct (p_rdc_step n (b :: src) mask bits out) as [[[[s' m'] b'] o']| | | |];
    cbn [bind]; try reflexivity.
  destruct E as [E _]. cbn [length] in E. apply p_rdc_loop_fuel. lia.
Qed.

Lemma rdc_loop_outcome : forall n fuel src mask bits out, (length src <= fuel)%nat ->
  lenN out <= n ->
  match p_rdc_loop fuel n src mask bits out with
  | Ok out' => lenN out' <= n
  | Exn e => e = E_cannot_decompress
  | Undef u => u = UB_oob_read \/ u = UB_overlap
  | _ => False
  end.
Proof.
  intros n fuel. induction fuel as [|fuel IH]; intros src mask bits out F L.
  - destruct src; [exact L|cbn in F; lia].
  - cbn [p_rdc_loop]. destruct ((3 <=? lenN src) && (lenN out <? n)); [|exact L].
    pose proof (p_rdc_step_outcome n src mask bits out) as E.
    destruct (p_rdc_step n src mask bits out) as [[[[s' m'] b'] o']| | | |];
      cbn [bind]; auto.
    destruct E as [E1 E2]. apply IH; [lia|exact E2].
Qed.

Lemma rdc_outcome : forall n d src, row_buffer n d -> n < row_limit ->
  match fst (rdc src d) with
  | Ok row => lenN row = n
  | Exn e => e = E_cannot_decompress
  | Undef u => u = UB_oob_read \/ u = UB_overlap
  | _ => False
  end.
Proof.
  intros n d src W B. destruct (rdc_refines n src d W B) as [_ ->]. unfold p_rdc.
  pose proof (rdc_loop_outcome n (length src) src 0 0 [] (Nat.le_refl _)) as O.
  destruct (p_rdc_loop _ _ _ _ _ _) as [out| | | |]; cbn [bind];
    try (apply O; cbn; lia).
  unfold zero_padded, times. rewrite lenN_app, lenN_repeat.
  assert (lenN out <= n) by (apply O; cbn; lia). lia.
Qed.

(** *** The items of an encoding *)

Lemma lenN_times : forall k v, lenN (times k v) = k.
Proof. intros. unfold times. rewrite lenN_repeat. lia. Qed.

Lemma lenN_back_copy : forall ofs k out, k <= ofs -> ofs <= lenN out ->
  lenN (back_copy ofs k out) = k.
Proof.
  intros. unfold back_copy. rewrite lenN_firstn, lenN_skipn. unfold lenN in *. lia.
Qed.

Lemma rdc_expand_nonempty : forall out i, rdc_valid out i -> 1 <= lenN (rdc_expand out i).
Proof.
  intros out i V. destruct i; cbn [rdc_valid rdc_expand] in *;
    rewrite ?lenN_times; try lia; try (cbn; lia);
    rewrite lenN_back_copy; lia.
Qed.

Lemma rdc_bytes_nonempty : forall i, 1 <= lenN (rdc_bytes i).
Proof. destruct i; cbn [rdc_bytes]; rewrite !lenN_cons; lia. Qed.

Lemma p_pattern_eq : forall n out ofs k, k <= ofs -> ofs <= lenN out ->
  p_pattern n out ofs k
  = if lenN out + k <=? n then Ok (out ++ back_copy ofs k out) else Exn E_cannot_decompress.
Proof.
  intros n out ofs k H1 H2. unfold p_pattern, p_check.
  destruct (lenN out + k <=? n); cbn [bind]; [|reflexivity].
  destruct (N.ltb_spec (lenN out) ofs); [lia|].
  destruct (N.ltb_spec ofs k); [lia|]. reflexivity.
Qed.

Lemma p_store_eq : forall n out v k,
  p_store n out v k
  = if lenN out + k <=? n then Ok (out ++ times k v) else Exn E_cannot_decompress.
Proof. intros. unfold p_store, p_check. destruct (lenN out + k <=? n); reflexivity. Qed.

Lemma rdc_item_step : forall n i rest out, rdc_valid out i ->
  p_rdc_item n (rdc_flag i =? 0) (rdc_bytes i ++ rest) out
  = if lenN out + lenN (rdc_expand out i) <=? n
    then Ok (rest, out ++ rdc_expand out i) else Exn E_cannot_decompress.
Proof.
  intros n i rest out V. unfold p_rdc_item.
  destruct i; cbn [rdc_valid rdc_flag rdc_bytes rdc_expand app] in *;
    cbn [N.eqb Pos.eqb pop bind]; cbv zeta;
    repeat match goal with H : _ /\ _ |- _ => destruct H end;
    try match goal with |- context [cmd_byte ?code ?l] =>
      let A := fresh in let B := fresh in
      destruct (cmd_byte_code code l) as [A B]; [lia|lia|]; rewrite A, B
    end; cbn [N.eqb Pos.eqb pop bind];
    rewrite ?b2n_byte_of by assumption.
  - rewrite p_store_eq. change (lenN [v]) with 1.
    destruct (lenN out + 1 <=? n); reflexivity.
  - rewrite p_store_eq, lenN_times. destruct (_ <=? n); reflexivity.
  - rewrite p_store_eq, lenN_times.
    replace (cnt + (x * 16 + 19)) with (cnt + 16 * x + 19) by lia.
    destruct (_ <=? n); reflexivity.
  - rewrite p_pattern_eq by lia. replace (cnt + 3 + x * 16) with (cnt + 3 + 16 * x) by lia.
    rewrite lenN_back_copy by lia. destruct (_ <=? n); reflexivity.
  - destruct (N.eqb_spec len 0); [lia|]. destruct (N.eqb_spec len 1); [lia|].
    destruct (N.eqb_spec len 2); [lia|]. cbn [pop bind].
    rewrite ?b2n_byte_of by assumption.
    rewrite p_pattern_eq by lia. replace (cnt + 3 + x * 16) with (cnt + 3 + 16 * x) by lia.
    rewrite lenN_back_copy by lia. destruct (_ <=? n); reflexivity.
Qed.

(** The items one by one, until the row is full. *)
Fixpoint run_items (n : N) (out : bytes) (is : list rdc_item) : res bytes :=
  match is with
  | [] => Ok out
  | i :: is' =>
      if lenN out <? n then
        if lenN out + lenN (rdc_expand out i) <=? n
        then run_items n (out ++ rdc_expand out i) is'
        else Exn E_cannot_decompress
      else Ok out
  end.

(** The control bits. *)
Lemma flag_le : forall i, rdc_flag i <= 1.
Proof. destruct i; cbn; lia. Qed.

Lemma control_word_lt : forall g (m : nat),
  control_word (2 ^ N.of_nat m / 2) g < 2 ^ N.of_nat m.
Proof.
  induction g as [|i g IH]; intros m; cbn [control_word].
  - apply N.neq_0_lt_0, N.pow_nonzero. discriminate.
  - destruct m as [|m].
    + cbn - [control_word N.div]. change (1 / 2) with 0. rewrite N.mul_0_r.
      specialize (IH 0%nat). cbn - [control_word N.div] in IH. change (1 / 2) with 0 in IH.
      change (0 / 2) with 0. lia.
    + rewrite Nat2N.inj_succ, N.pow_succ_r'.
      replace (2 * 2 ^ N.of_nat m / 2) with (2 ^ N.of_nat m)
        by (rewrite N.mul_comm, N.div_mul; [reflexivity|discriminate]).
      specialize (IH m). pose proof (flag_le i). nia.
Qed.

Lemma land_pow2 : forall w k, (N.land w (2 ^ k) =? 0) = negb (N.testbit w k).
Proof.
  intros w k. destruct (N.testbit w k) eqn:E; cbn [negb].
  - apply N.eqb_neq. intros H.
    assert (K : N.testbit (N.land w (2 ^ k)) k = true)
      by (rewrite N.land_spec, E, N.pow2_bits_true; reflexivity).
    rewrite H, N.bits_0 in K. discriminate.
  - apply N.eqb_eq. apply N.bits_inj. intros m. rewrite N.bits_0, N.land_spec, N.pow2_bits_eqb.
    destruct (N.eqb_spec k m) as [->|]; [rewrite E; reflexivity|apply andb_false_r].
Qed.

Lemma testbit_parts : forall a f r k, f <= 1 -> r < 2 ^ k ->
  N.testbit (a * 2 ^ N.succ k + (f * 2 ^ k + r)) k = (f =? 1).
Proof.
  intros a f r k F R. rewrite N.testbit_odd, N.shiftr_div_pow2, N.pow_succ_r'.
  assert (P : 2 ^ k <> 0) by (apply N.pow_nonzero; discriminate).
  replace (a * (2 * 2 ^ k) + (f * 2 ^ k + r)) with (r + (2 * a + f) * 2 ^ k) by lia.
  rewrite N.div_add by exact P. rewrite N.div_small by exact R.
  rewrite N.add_0_l, N.add_comm, N.odd_add_mul_2.
  assert (f = 0 \/ f = 1) as [-> | ->] by lia; reflexivity.
Qed.

Lemma write_word : forall x, x < 65536 -> exists h l,
  write_int Big 2 x = [h; l] /\ b2n h * 256 + b2n l = x.
Proof.
  intros x H. unfold write_int. cbn [write_lsb_first rev app].
  exists (byte_of (x / 256)), (byte_of x). split; [reflexivity|].
  change (byte_of (x / 256)) with (n2b (x / 256)). change (byte_of x) with (n2b x).
  rewrite !b2n_n2b. rewrite (N.mod_small (x / 256)) by (apply N.div_lt_upper_bound; lia).
  pose proof (N.div_mod x 256 ltac:(discriminate)). lia.
Qed.

(** Three bytes are left before each item. *)
Definition room (g : list rdc_item) (rest : bytes) : Prop :=
  forall g' i, g = g' ++ [i] -> 3 <= lenN (rdc_bytes i) + lenN rest.

Lemma room_here : forall i g rest, room (i :: g) rest ->
  3 <= lenN (rdc_items_bytes (i :: g) ++ rest).
Proof.
  intros i g rest R. unfold rdc_items_bytes.
  destruct (exists_last (l := i :: g)) as [g' [j E]]; [discriminate|].
  specialize (R g' j E). rewrite E, map_app, concat_app. cbn [map concat].
  rewrite !lenN_app. cbn. lia.
Qed.

Lemma room_tail : forall i g rest, room (i :: g) rest -> room g rest.
Proof. intros i g rest R g' j E. apply (R (i :: g') j). rewrite E. reflexivity. Qed.

Lemma run_full : forall n out is, n <= lenN out -> run_items n out is = Ok out.
Proof.
  intros n out is H. destruct is; [reflexivity|]. cbn [run_items].
  destruct (N.ltb_spec (lenN out) n); [lia|reflexivity].
Qed.

Lemma rdc_go_full : forall n src mask bits out, n <= lenN out ->
  rdc_go n src mask bits out = Ok out.
Proof.
  intros. rewrite rdc_go_eq. destruct (N.ltb_spec (lenN out) n); [lia|].
  rewrite andb_false_r. reflexivity.
Qed.

(** Items of a group after its first. *)
Lemma rdc_go_items : forall n rest extra g (m : nat) a bits out,
  (length g <= m)%nat -> rdc_all_valid out g -> room g rest ->
  bits = a * 2 ^ N.of_nat m + control_word (2 ^ N.of_nat m / 2) (g ++ extra) ->
  rdc_go n (rdc_items_bytes g ++ rest) (2 ^ N.of_nat m) bits out
  = bind (run_items n out g)
      (fun out' => rdc_go n rest (2 ^ N.of_nat (m - length g)) bits out').
Proof.
  intros n rest extra g. induction g as [|i g IH]; intros m a bits out LE V R E.
  - cbn [run_items bind length]. rewrite Nat.sub_0_r. reflexivity.
  - destruct m as [|m]; [cbn in LE; lia|]. cbn [length] in LE.
    destruct V as [V1 V2]. cbn [run_items].
    destruct (N.ltb_spec (lenN out) n) as [L|L].
    2:{ cbn [bind]. rewrite !rdc_go_full by lia. reflexivity. }
    rewrite rdc_go_eq.
    pose proof (room_here _ _ _ R) as G.
    destruct (N.leb_spec 3 (lenN (rdc_items_bytes (i :: g) ++ rest))); [|lia].
    destruct (N.ltb_spec (lenN out) n); [|lia]. cbn [andb].
    unfold p_rdc_step, p_rdc_ctrl.
    assert (HALF : 2 ^ N.of_nat (S m) / 2 = 2 ^ N.of_nat m).
    { rewrite Nat2N.inj_succ, N.pow_succ_r', N.mul_comm, N.div_mul;
        [reflexivity|discriminate]. }
    rewrite HALF in E |- *. cbv zeta.
    assert (NZ : 2 ^ N.of_nat m <> 0) by (apply N.pow_nonzero; discriminate).
    destruct (N.eqb_spec (2 ^ N.of_nat m) 0); [congruence|]. cbn [bind].
    assert (F : (N.land bits (2 ^ N.of_nat m) =? 0) = (rdc_flag i =? 0)).
    { rewrite land_pow2, E. cbn [app control_word].
      rewrite Nat2N.inj_succ, testbit_parts;
        [|apply flag_le|apply control_word_lt].
      pose proof (flag_le i).
      assert (rdc_flag i = 0 \/ rdc_flag i = 1) as [-> | ->] by lia; reflexivity. }
    rewrite F. unfold rdc_items_bytes. cbn [map concat]. rewrite <- app_assoc.
    fold (rdc_items_bytes g). rewrite rdc_item_step by exact V1.
    destruct (lenN out + lenN (rdc_expand out i) <=? n) eqn:FIT; cbn [bind]; [|reflexivity].
    rewrite (IH m (2 * a + rdc_flag i)); [reflexivity|lia|exact V2|
      exact (room_tail _ _ _ R)|].
    rewrite E. cbn [app control_word]. rewrite Nat2N.inj_succ, N.pow_succ_r'. lia.
Qed.

Lemma rdc_go_group : forall n rest extra g mask bits out,
  g <> [] -> (length g <= 16)%nat -> rdc_all_valid out g ->
  (forall g' i, g = g' ++ [i] -> g' <> [] -> 3 <= lenN (rdc_bytes i) + lenN rest) ->
  mask / 2 = 0 -> exists mask' bits',
  rdc_go n (write_int Big 2 (control_word 32768 (g ++ extra)) ++ rdc_items_bytes g ++ rest)
    mask bits out
  = bind (run_items n out g) (fun out' => rdc_go n rest mask' bits' out')
  /\ mask' = 2 ^ N.of_nat (16 - length g).
Proof.
  intros n rest extra g mask bits out NE LE V R M.
  destruct g as [|i g]; [congruence|]. clear NE. cbn [length] in *.
  set (w := control_word 32768 ((i :: g) ++ extra)).
  exists (2 ^ N.of_nat (16 - S (length g))), w. split; [|reflexivity].
  assert (WL : w < 65536).
  { unfold w. change 32768 with (2 ^ N.of_nat 16 / 2). apply (control_word_lt _ 16). }
  destruct (write_word w WL) as [h [l [-> EW]]].
  destruct V as [V1 V2]. cbn [run_items].
  destruct (N.ltb_spec (lenN out) n) as [L|L].
  2:{ cbn [bind]. rewrite !rdc_go_full by lia. reflexivity. }
  rewrite rdc_go_eq. cbn [app].
  assert (G : 3 <= lenN (h :: l :: rdc_items_bytes (i :: g) ++ rest)).
  { rewrite !lenN_cons, lenN_app. unfold rdc_items_bytes. cbn [map concat].
    rewrite lenN_app. pose proof (rdc_bytes_nonempty i). lia. }
  destruct (N.leb_spec 3 (lenN (h :: l :: rdc_items_bytes (i :: g) ++ rest))); [|lia].
  destruct (N.ltb_spec (lenN out) n); [|lia]. cbn [andb].
  unfold p_rdc_step, p_rdc_ctrl. rewrite M. cbn [N.eqb pop bind]. rewrite EW.
  assert (F : (N.land w 32768 =? 0) = (rdc_flag i =? 0)).
  { change 32768 with (2 ^ N.of_nat 15). rewrite land_pow2. unfold w.
    cbn [app control_word]. change 32768 with (2 ^ N.of_nat 15).
    set (r := control_word _ _).
    replace (rdc_flag i * 2 ^ N.of_nat 15 + r)
      with (0 * 2 ^ N.succ (N.of_nat 15) + (rdc_flag i * 2 ^ N.of_nat 15 + r)) by lia.
    rewrite testbit_parts; [|apply flag_le|apply control_word_lt].
    pose proof (flag_le i).
    assert (rdc_flag i = 0 \/ rdc_flag i = 1) as [-> | ->] by lia; reflexivity. }
  rewrite F. unfold rdc_items_bytes. cbn [map concat]. rewrite <- app_assoc.
  fold (rdc_items_bytes g). rewrite rdc_item_step by exact V1.
  destruct (lenN out + lenN (rdc_expand out i) <=? n) eqn:FIT; cbn [bind]; [|reflexivity].
  change 32768 with (2 ^ N.of_nat 15).
  rewrite (rdc_go_items n rest extra g 15 (rdc_flag i));
    [|lia|exact V2| |].
  - replace (15 - length g)%nat with (16 - S (length g))%nat by lia. reflexivity.
  - intros g' j E. apply (R (i :: g') j); [rewrite E; reflexivity|discriminate].
  - unfold w. cbn [app control_word]. reflexivity.
Qed.

Lemma all_valid_app : forall a b out,
  rdc_all_valid out (a ++ b) <-> rdc_all_valid out a /\ rdc_all_valid (rdc_expansion out a) b.
Proof.
  induction a as [|i a IH]; intros b out; cbn [app rdc_all_valid rdc_expansion];
    [tauto|]. rewrite IH. tauto.
Qed.

Lemma rdc_expansion_app : forall a b out,
  rdc_expansion out (a ++ b) = rdc_expansion (rdc_expansion out a) b.
Proof. induction a as [|i a IH]; intros b out; cbn; auto. Qed.

Lemma rdc_expansion_le : forall a out, lenN out <= lenN (rdc_expansion out a).
Proof.
  induction a as [|i a IH]; intros out; cbn [rdc_expansion]; [lia|].
  specialize (IH (out ++ rdc_expand out i)). rewrite lenN_app in IH. lia.
Qed.

Lemma run_items_fits : forall n is out,
  rdc_all_valid out is -> lenN (rdc_expansion out is) <= n ->
  run_items n out is = Ok (rdc_expansion out is).
Proof.
  intros n is. induction is as [|i is IH]; intros out V L; [reflexivity|].
  destruct V as [V1 V2]. cbn [run_items rdc_expansion] in *.
  pose proof (rdc_expand_nonempty out i V1).
  pose proof (rdc_expansion_le is (out ++ rdc_expand out i)) as K. rewrite lenN_app in K.
  destruct (N.ltb_spec (lenN out) n); [|lia].
  destruct (N.leb_spec (lenN out + lenN (rdc_expand out i)) n); [|lia].
  apply IH; assumption.
Qed.

(** Full groups, followed by something. *)
Lemma rdc_go_groups : forall n rest gs mask bits out,
  Forall (fun g => length g = 16%nat) gs -> rdc_all_valid out (concat gs) ->
  3 <= lenN rest \/ gs = [] -> lenN (rdc_expansion out (concat gs)) <= n ->
  mask / 2 = 0 -> exists mask' bits', mask' / 2 = 0 /\
  rdc_go n (rdc_encoding gs ++ rest) mask bits out
  = rdc_go n rest mask' bits' (rdc_expansion out (concat gs)).
Proof.
  intros n rest gs. induction gs as [|g gs IH]; intros mask bits out F V R L M.
  - exists mask, bits. split; [exact M|reflexivity].
  - inversion F as [|? ? F1 F2]; subst. cbn [concat] in V, L |- *.
    rewrite rdc_expansion_app in *. apply all_valid_app in V. destruct V as [V1 V2].
    unfold rdc_encoding. cbn [map concat]. fold (rdc_encoding gs).
    unfold rdc_group. rewrite <- !app_assoc.
    pose proof (rdc_expansion_le (concat gs) (rdc_expansion out g)) as K.
    destruct (rdc_go_group n (rdc_encoding gs ++ rest) [] g mask bits out)
      as [m' [b' [E1 E2]]]; auto.
    + intros ->. discriminate.
    + lia.
    + intros g' i _ _. rewrite lenN_app. pose proof (rdc_bytes_nonempty i).
      destruct R as [R|R]; [lia|discriminate].
    + rewrite app_nil_r in E1. rewrite E1, run_items_fits by (auto; lia). cbn [bind].
      apply IH; auto.
      * destruct R as [R|R]; [auto|discriminate].
      * rewrite E2, F1. reflexivity.
Qed.

Lemma groups_split : forall gs, groups_ok gs -> gs = [] \/
  exists gs' g, gs = gs' ++ [g] /\ Forall (fun g => length g = 16%nat) gs'
    /\ 1 <= lenN g <= 16.
Proof.
  induction gs as [|g gs IH]; intros G; [left; reflexivity|right].
  destruct gs as [|g2 gs].
  - exists [], g. split; [reflexivity|]. split; [constructor|exact G].
  - destruct G as [G1 G2]. destruct (IH G2) as [?|[gs' [g' [E [F R]]]]]; [discriminate|].
    exists (g :: gs'), g'. rewrite E. split; [reflexivity|]. split; [|exact R].
    constructor; [unfold lenN in G1; lia|exact F].
Qed.

(** The whole encoding, or a part of its last group followed by other items. *)
Lemma p_rdc_items : forall n gs g extra tail,
  Forall (fun g => length g = 16%nat) gs -> 1 <= lenN g -> lenN (g ++ extra) <= 16 ->
  rdc_all_valid [] (concat gs ++ g) ->
  (forall g' i, g = g' ++ [i] -> g' <> [] -> 3 <= lenN (rdc_bytes i) + lenN tail) ->
  lenN (rdc_expansion [] (concat gs ++ g)) <= n ->
  lenN tail <= 2 \/ lenN (rdc_expansion [] (concat gs ++ g)) = n ->
  p_rdc n (rdc_encoding gs ++ write_int Big 2 (control_word 32768 (g ++ extra))
           ++ rdc_items_bytes g ++ tail)
  = Ok (zero_padded n (rdc_expansion [] (concat gs ++ g))).
Proof.
  intros n gs g extra tail F G1 G2 V R L T. unfold p_rdc. fold (rdc_go n).
  rewrite rdc_expansion_app in *. apply all_valid_app in V. destruct V as [V1 V2].
  pose proof (rdc_expansion_le g (rdc_expansion [] (concat gs))) as K.
  rewrite lenN_app in G2.
  set (rest := write_int Big 2 (control_word 32768 (g ++ extra)) ++ rdc_items_bytes g ++ tail).
  change (p_rdc_loop (length (rdc_encoding gs ++ rest)) n (rdc_encoding gs ++ rest) 0 0 [])
    with (rdc_go n (rdc_encoding gs ++ rest) 0 0 []).
  destruct (rdc_go_groups n rest gs 0 0 []) as [m [b [M E]]]; auto; [|lia|].
  { left. unfold rest. rewrite !lenN_app. destruct g as [|i g]; [cbn in G1; lia|].
    unfold rdc_items_bytes. cbn [map concat]. rewrite lenN_app.
    pose proof (rdc_bytes_nonempty i). change (lenN (write_int Big 2 _)) with 2. lia. }
  rewrite E. unfold rest.
  destruct (rdc_go_group n tail extra g m b (rdc_expansion [] (concat gs)))
    as [m' [b' [E' _]]]; auto.
  { intros ->. cbn in G1. lia. }
  { unfold lenN in G2. lia. }
  rewrite E', run_items_fits by assumption. cbn [bind].
  destruct T as [T|T].
  - rewrite rdc_go_eq. destruct (N.leb_spec 3 (lenN tail)); [lia|]. reflexivity.
  - rewrite rdc_go_full by lia. reflexivity.
Qed.

(** C28. *)
Lemma rdc_decodes : forall n d gs tail,
  row_buffer n d -> n < row_limit -> groups_ok gs -> rdc_all_valid [] (concat gs) ->
  lenN (rdc_expansion [] (concat gs)) <= n ->
  lenN tail <= 2 \/ lenN (rdc_expansion [] (concat gs)) = n ->
  three_remain gs (lenN tail) ->
  fst (rdc (rdc_encoding gs ++ tail) d)
  = Ok (zero_padded n (rdc_expansion [] (concat gs))).
Proof.
  intros n d gs tail W B G V L T R.
  destruct (rdc_refines n (rdc_encoding gs ++ tail) d W B) as [_ ->].
  destruct (groups_split gs G) as [->|[gs' [g [-> [F [G1 G2]]]]]].
  - cbn [rdc_encoding map concat app rdc_expansion] in *. unfold p_rdc.
    change (p_rdc_loop (length tail) n tail 0 0 []) with (rdc_go n tail 0 0 []).
    rewrite rdc_go_eq. destruct T as [T|T].
    + destruct (N.leb_spec 3 (lenN tail)); [lia|]. reflexivity.
    + destruct (N.ltb_spec (lenN (@nil byte)) n); [lia|]. rewrite andb_false_r. reflexivity.
  - rewrite concat_app in *. cbn [concat] in *. rewrite app_nil_r in *.
    unfold rdc_encoding. rewrite map_app, concat_app. cbn [map concat].
    rewrite app_nil_r. unfold rdc_group. rewrite <- !app_assoc.
    rewrite <- (app_nil_r g) at 1.
    apply p_rdc_items; auto; [rewrite app_nil_r; exact G2|].
    intros g' i E NE. apply (R gs' g' i); [rewrite E; reflexivity|exact NE].
Qed.

(** C29. *)
Lemma room_split : forall g, g <> [] -> exists g1 extra, g = g1 ++ extra /\ g1 <> []
  /\ lenN (rdc_items_bytes extra) <= 2
  /\ (forall g' i, g1 = g' ++ [i] -> g' <> [] ->
        3 <= lenN (rdc_bytes i) + lenN (rdc_items_bytes extra)).
Proof.
  intros g NE. destruct (exists_last NE) as [g0 [i ->]]. clear NE.
  assert (one : forall l (i j : rdc_item) l', l ++ [i] = l' ++ [j] -> i = j)
    by (intros l a b l' E; apply app_inj_tail in E; tauto).
  pose proof (rdc_bytes_nonempty i).
  destruct (N.le_gt_cases 3 (lenN (rdc_bytes i))) as [C|C].
  { exists (g0 ++ [i]), []. rewrite app_nil_r. split; [reflexivity|].
    split; [destruct g0; discriminate|]. split; [cbn; lia|].
    intros g' j E _. apply one in E. subst. cbn. lia. }
  destruct g0 as [|a g0'] eqn:G0.
  { exists [i], []. split; [reflexivity|]. split; [discriminate|]. split; [cbn; lia|].
    intros g' j E N. exfalso. destruct g' as [|? [|? ?]]; try discriminate. congruence. }
  assert (NE : g0 <> []) by (subst; discriminate). rewrite <- G0. clear G0 a g0'.
  destruct (exists_last NE) as [g1 [j ->]]. clear NE.
  pose proof (rdc_bytes_nonempty j).
  assert (L1 : lenN (rdc_items_bytes [i]) = lenN (rdc_bytes i))
    by (unfold rdc_items_bytes; cbn [map concat]; rewrite app_nil_r; reflexivity).
  assert (L2 : lenN (rdc_items_bytes [j; i]) = lenN (rdc_bytes j) + lenN (rdc_bytes i))
    by (unfold rdc_items_bytes; cbn [map concat]; rewrite app_nil_r, lenN_app; reflexivity).
  destruct (N.le_gt_cases 3 (lenN (rdc_bytes j) + lenN (rdc_bytes i))) as [D|D].
  { exists (g1 ++ [j]), [i]. split; [reflexivity|]. split; [destruct g1; discriminate|].
    rewrite L1. split; [lia|]. intros g' k E _. apply one in E. subst. exact D. }
  destruct g1 as [|a g1'] eqn:G1.
  { exists [j], [i]. split; [reflexivity|]. split; [discriminate|]. rewrite L1.
    split; [lia|]. intros g' k E N. exfalso.
    destruct g' as [|? [|? ?]]; try discriminate. congruence. }
  exists g1, [j; i]. subst g1. split; [rewrite <- app_assoc; reflexivity|].
  split; [discriminate|]. rewrite L2. split; [lia|].
  intros g' k E _. pose proof (rdc_bytes_nonempty k). lia.
Qed.

Lemma rdc_loses_two : forall n d gs,
  row_buffer n d -> n < row_limit -> groups_ok gs -> rdc_all_valid [] (concat gs) ->
  lenN (rdc_expansion [] (concat gs)) <= n ->
  exists kept lost, concat gs = kept ++ lost /\ lenN (rdc_items_bytes lost) <= 2
    /\ fst (rdc (rdc_encoding gs) d) = Ok (zero_padded n (rdc_expansion [] kept)).
Proof.
  intros n d gs W B G V L.
  destruct (groups_split gs G) as [->|[gs' [g [-> [F [G1 G2]]]]]].
  - exists [], []. split; [reflexivity|]. split; [cbn; lia|].
    rewrite <- (app_nil_r (rdc_encoding [])). apply rdc_decodes; auto.
    + cbn. lia.
    + intros a b c E. destruct a; discriminate.
  - destruct (room_split g) as [g1 [extra [-> [NE [LE R]]]]];
      [intros ->; cbn in G1; lia|].
    rewrite concat_app in *. cbn [concat] in *. rewrite app_nil_r in *.
    exists (concat gs' ++ g1), extra. split; [rewrite <- app_assoc; reflexivity|].
    split; [exact LE|].
    destruct (rdc_refines n (rdc_encoding (gs' ++ [g1 ++ extra])) d W B) as [_ ->].
    unfold rdc_encoding. rewrite map_app, concat_app. cbn [map concat].
    rewrite app_nil_r. unfold rdc_group, rdc_items_bytes. rewrite map_app, concat_app.
    fold (rdc_items_bytes g1). fold (rdc_items_bytes extra).
    rewrite app_assoc in V. apply all_valid_app in V. destruct V as [V _].
    rewrite app_assoc, rdc_expansion_app in L.
    pose proof (rdc_expansion_le extra (rdc_expansion [] (concat gs' ++ g1))) as K.
    apply p_rdc_items; auto.
    + destruct g1; [congruence|rewrite lenN_cons; lia].
    + lia.
Qed.

(** C31: any history of decompressions. *)
Lemma rle_history : forall n rows d, row_buffer n d -> n < row_limit ->
  history rle d rows = map (p_rle n) rows.
Proof.
  intros n rows. induction rows as [|r rows IH]; intros d W B; [reflexivity|].
  cbn [history map]. destruct (rle_refines n r d W B) as [W' E].
  destruct (rle r d) as [x d']. cbn [fst snd] in *. subst. f_equal. apply IH; assumption.
Qed.

Lemma rdc_history : forall n rows d, row_buffer n d -> n < row_limit ->
  history rdc d rows = map (p_rdc n) rows.
Proof.
  intros n rows. induction rows as [|r rows IH]; intros d W B; [reflexivity|].
  cbn [history map]. destruct (rdc_refines n r d W B) as [W' E].
  destruct (rdc r d) as [x d']. cbn [fst snd] in *. subst. f_equal. apply IH; assumption.
Qed.

Lemma run_items_over : forall n is i out,
  rdc_all_valid out is -> lenN (rdc_expansion out is) < n ->
  n < lenN (rdc_expansion out is) + lenN (rdc_expand (rdc_expansion out is) i) ->
  run_items n out (is ++ [i]) = Exn E_cannot_decompress.
Proof.
  intros n is i. induction is as [|j is IH]; intros out V L O;
    cbn [app run_items rdc_expansion] in *.
  - destruct (N.ltb_spec (lenN out) n); [|lia].
    destruct (N.leb_spec (lenN out + lenN (rdc_expand out i)) n); [lia|reflexivity].
  - destruct V as [V1 V2].
    pose proof (rdc_expansion_le is (out ++ rdc_expand out j)) as K. rewrite lenN_app in K.
    pose proof (rdc_expand_nonempty out j V1).
    destruct (N.ltb_spec (lenN out) n); [|lia].
    destruct (N.leb_spec (lenN out + lenN (rdc_expand out j)) n); [|lia].
    apply IH; assumption.
Qed.

Lemma rdc_overflow : forall n d gs g i g2 gs2 tail,
  row_buffer n d -> n < row_limit ->
  Forall (fun g => length g = 16%nat) gs -> lenN (g ++ i :: g2) <= 16 ->
  rdc_all_valid [] (concat gs ++ g ++ [i]) ->
  lenN (rdc_expansion [] (concat gs ++ g)) < n ->
  n < lenN (rdc_expansion [] (concat gs ++ g ++ [i])) ->
  g = [] \/ 3 <= lenN (rdc_bytes i ++ rdc_items_bytes g2 ++ rdc_encoding gs2 ++ tail) ->
  fst (rdc (rdc_encoding (gs ++ (g ++ i :: g2) :: gs2) ++ tail) d)
  = Exn E_cannot_decompress.
Proof.
  intros n d gs g i g2 gs2 tail W B F G V L O R.
  set (src := rdc_encoding (gs ++ (g ++ i :: g2) :: gs2) ++ tail).
  destruct (rdc_refines n src d W B) as [_ ->].
  set (rest2 := rdc_items_bytes g2 ++ rdc_encoding gs2 ++ tail) in *.
  set (rest := write_int Big 2 (control_word 32768 ((g ++ [i]) ++ g2))
               ++ rdc_items_bytes (g ++ [i]) ++ rest2).
  assert (E : src = rdc_encoding gs ++ rest).
  { unfold src, rest, rest2, rdc_encoding, rdc_group, rdc_items_bytes.
    rewrite !map_app, !concat_app. cbn [map concat].
    rewrite !map_app, !concat_app. cbn [map concat].
    rewrite <- !app_assoc. cbn [app]. reflexivity. }
  rewrite E. unfold p_rdc.
  change (p_rdc_loop (length (rdc_encoding gs ++ rest)) n (rdc_encoding gs ++ rest) 0 0 [])
    with (rdc_go n (rdc_encoding gs ++ rest) 0 0 []).
  rewrite rdc_expansion_app in L, O. rewrite rdc_expansion_app in O.
  cbn [rdc_expansion] in O. rewrite lenN_app in O.
  apply all_valid_app in V. destruct V as [V1 V2].
  pose proof (rdc_expansion_le g (rdc_expansion [] (concat gs))) as K.
  destruct (rdc_go_groups n rest gs 0 0 []) as [m [b [M E1]]]; auto; [|lia|].
  { left. unfold rest. rewrite !lenN_app. unfold rdc_items_bytes.
    rewrite map_app, concat_app, lenN_app. cbn [map concat]. rewrite lenN_app.
    pose proof (rdc_bytes_nonempty i). change (lenN (write_int Big 2 _)) with 2. lia. }
  rewrite E1. unfold rest.
  destruct (rdc_go_group n rest2 g2 (g ++ [i]) m b (rdc_expansion [] (concat gs)))
    as [m' [b' [E' _]]]; auto.
  { destruct g; discriminate. }
  { rewrite app_length. cbn [length]. rewrite lenN_app, lenN_cons in G. unfold lenN in G. lia. }
  { intros g' j E' NE. apply app_inj_tail in E'. destruct E' as [-> ->].
    destruct R as [R|R]; [congruence|]. rewrite lenN_app in R. exact R. }
  rewrite E', run_items_over; [reflexivity| |exact L|exact O].
  apply all_valid_app in V2. tauto.
Qed.

(** The buffer made by the reader, and a fresh one. *)
Lemma dst_new_row_buffer : forall c n d, dst_new c n = Ok d -> row_buffer n d.
Proof.
  intros c n d H. unfold dst_new, mbuf_new, alloc in H.
  destruct (n <=? max_alloc c); [|discriminate]. cbn in H. injection H as <-.
  split; [reflexivity|]. cbn. rewrite lenN_repeat. lia.
Qed.

Lemma fresh_row_buffer : forall n, row_buffer n (fresh n).
Proof. intros n. split; [reflexivity|]. cbn. rewrite lenN_repeat. lia. Qed.

Lemma rle_independent : forall n rows d, row_buffer n d -> n < row_limit ->
  history rle d rows = map (fun r => fst (rle r (fresh n))) rows.
Proof.
  intros n rows d W B. rewrite (rle_history n) by assumption. apply map_ext. intros r.
  symmetry. apply rle_refines; [apply fresh_row_buffer|exact B].
Qed.

Lemma rdc_independent : forall n rows d, row_buffer n d -> n < row_limit ->
  history rdc d rows = map (fun r => fst (rdc r (fresh n))) rows.
Proof.
  intros n rows d W B. rewrite (rdc_history n) by assumption. apply map_ext. intros r.
  symmetry. apply rdc_refines; [apply fresh_row_buffer|exact B].
Qed.

Lemma rle_safe : forall n d src, row_buffer n d -> n < row_limit ->
  ~ long_byte_run_last src -> ~ memory_error (fst (rle src d)).
Proof.
  intros n d src W B NL M. pose proof (rle_outcome n d src W B) as O.
  destruct (fst (rle src d)); auto. destruct O as [_ O]. exact (NL O).
Qed.
