(** Every compressed row is read by the rules of SpecDecode.v. *)
From Verif Require Import Base Types Buffer Decomp Lemmas SpecValues SpecBuffer SpecDecomp SpecDecode ProofDecomp.
From Coq Require Import ZifyBool ZifyNat ZifyN.
Local Open Scope N_scope.

(** ** RLE *)

Lemma cmd_byte_parts : forall v, cmd_byte (b2n v / 16) (b2n v mod 16) = v.
Proof.
  intros v. unfold cmd_byte. rewrite <- (N.div_mod (b2n v) 16) by discriminate.
  change (n2b (b2n v) = v). apply n2b_b2n.
Qed.

Lemma byte_of_b2n : forall v, byte_of (b2n v) = v.
Proof. exact n2b_b2n. Qed.

(** A copy, whole or cut. *)
Lemma take_or_cut : forall (s : bytes) k,
  (exists data rest, s = data ++ rest /\ lenN data = k)
  \/ (exists missing, missing <> [] /\ lenN (s ++ missing) = k).
Proof.
  intros s k. destruct (N.leb_spec k (lenN s)) as [L|L].
  - left. exists (firstn (N.to_nat k) s), (skipn (N.to_nat k) s).
    split; [rewrite firstn_skipn; reflexivity|]. rewrite lenN_firstn. lia.
  - right. exists (times (k - lenN s) x00). split.
    + intros E. apply (f_equal lenN) in E. rewrite lenN_times in E. cbn in E. lia.
    + rewrite lenN_app, lenN_times. lia.
Qed.

Definition rle_shape (src : bytes) : Prop :=
  (exists c rest, src = rle_bytes c ++ rest /\ rle_valid c)
  \/ (exists c here missing, rle_valid c /\ rle_copies c = Some (here ++ missing) /\ missing <> []
        /\ rle_bytes c = src ++ missing)
  \/ (exists v rest, src = v :: rest /\ rest <> [] /\ 0x10 <= b2n v < 0x40)
  \/ (exists v y, src = [v; y] /\ 0x40 <= b2n v < 0x50).

Lemma rle_shapes : forall v x r, rle_shape (v :: x :: r).
Proof.
  intros v x r. unfold rle_shape.
  pose proof (b2n_lt v) as V. pose proof (b2n_lt x) as X.
  assert (E : b2n v = 16 * (b2n v / 16) + b2n v mod 16) by (apply N.div_mod; discriminate).
  assert (LW : b2n v mod 16 < 16) by (apply N.mod_lt; discriminate).
  pose proof (cmd_byte_parts v) as CB.
  set (low := b2n v mod 16) in *. set (cmd := b2n v / 16) in *. clearbody low cmd.
  assert (XB := byte_of_b2n x).
  assert (CASES : cmd = 0 \/ 1 <= cmd <= 3 \/ cmd = 4 \/ cmd = 5 \/ cmd = 6 \/ cmd = 7 \/ cmd = 8 \/ cmd = 9
    \/ cmd = 10 \/ cmd = 11 \/ cmd = 12 \/ cmd = 13 \/ cmd = 14 \/ cmd = 15) by lia.
  assert (ONE : forall c rest, rle_bytes c ++ rest = v :: x :: r -> rle_valid c ->
    exists c rest, v :: x :: r = rle_bytes c ++ rest /\ rle_valid c)
    by (intros c rest Eq Va; exists c, rest; rewrite Eq; auto).
  decompose [or] CASES; clear CASES; try subst cmd.
  - destruct (take_or_cut r (256 * low + b2n x + 64)) as [(data & rest & -> & L)|(mi & NE & L)].
    + left. apply (ONE (RCopyLong low (b2n x) data) rest); [cbn; rewrite CB, XB; reflexivity|cbn; auto].
    + right. left. exists (RCopyLong low (b2n x) (r ++ mi)), r, mi. cbn. rewrite CB, XB. auto.
  - right. right. left. exists v, (x :: r). split; [reflexivity|]. split; [discriminate|lia].
  - destruct r as [|y r].
    + right. right. right. exists v, x. split; [reflexivity|lia].
    + left. apply (ONE (RByteLong low (b2n x) y) r); [cbn; rewrite CB, XB; reflexivity|cbn; auto].
  - left. apply (ONE (RAtLong low (b2n x)) r); [cbn; rewrite CB, XB; reflexivity|cbn; auto].
  - left. apply (ONE (RBlankLong low (b2n x)) r); [cbn; rewrite CB, XB; reflexivity|cbn; auto].
  - left. apply (ONE (RZeroLong low (b2n x)) r); [cbn; rewrite CB, XB; reflexivity|cbn; auto].
  - destruct (take_or_cut (x :: r) (low + 1)) as [(data & rest & Ed & L)|(mi & NE & L)].
    + left. apply (ONE (RCopy1 low data) rest); [cbn; rewrite CB, Ed; reflexivity|cbn; auto].
    + right. left. exists (RCopy1 low ((x :: r) ++ mi)), (x :: r), mi. cbn [rle_bytes]. rewrite CB. cbn; auto.
  - destruct (take_or_cut (x :: r) (low + 17)) as [(data & rest & Ed & L)|(mi & NE & L)].
    + left. apply (ONE (RCopy17 low data) rest); [cbn; rewrite CB, Ed; reflexivity|cbn; auto].
    + right. left. exists (RCopy17 low ((x :: r) ++ mi)), (x :: r), mi. cbn [rle_bytes]. rewrite CB. cbn; auto.
  - destruct (take_or_cut (x :: r) (low + 33)) as [(data & rest & Ed & L)|(mi & NE & L)].
    + left. apply (ONE (RCopy33 low data) rest); [cbn; rewrite CB, Ed; reflexivity|cbn; auto].
    + right. left. exists (RCopy33 low ((x :: r) ++ mi)), (x :: r), mi. cbn [rle_bytes]. rewrite CB. cbn; auto.
  - destruct (take_or_cut (x :: r) (low + 49)) as [(data & rest & Ed & L)|(mi & NE & L)].
    + left. apply (ONE (RCopy49 low data) rest); [cbn; rewrite CB, Ed; reflexivity|cbn; auto].
    + right. left. exists (RCopy49 low ((x :: r) ++ mi)), (x :: r), mi. cbn [rle_bytes]. rewrite CB. cbn; auto.
  - left. apply (ONE (RByte3 low x) r); [cbn; rewrite CB; reflexivity|cbn; auto].
  - left. apply (ONE (RAt2 low) (x :: r)); [cbn; rewrite CB; reflexivity|cbn; auto].
  - left. apply (ONE (RBlank2 low) (x :: r)); [cbn; rewrite CB; reflexivity|cbn; auto].
  - left. apply (ONE (RZero2 low) (x :: r)); [cbn; rewrite CB; reflexivity|cbn; auto].
Qed.

(** A copy of which only [here] is there. *)
Lemma p_copy_cut : forall n here missing out k, missing <> [] -> lenN (here ++ missing) = k ->
  p_copy n here out k = if lenN out + lenN here <=? n then Ok ([], out ++ here) else Exn E_cannot_decompress.
Proof.
  intros n here missing out k NE L. unfold p_copy, p_check. rewrite lenN_app in L.
  replace (N.min k (lenN here)) with (lenN here) by lia.
  replace (N.to_nat (lenN here)) with (length here) by (unfold lenN; lia).
  rewrite firstn_all, skipn_all. destruct (_ <=? n); reflexivity.
Qed.

Lemma rle_step_cut : forall n c here missing src out, rle_valid c -> rle_copies c = Some (here ++ missing) ->
  missing <> [] -> rle_bytes c = src ++ missing -> 2 <= lenN src ->
  p_rle_step n src out = if lenN out + lenN here <=? n then Ok ([], out ++ here) else Exn E_cannot_decompress.
Proof.
  intros n c here missing src out V C NE B L.
  destruct c; cbn [rle_copies] in C; try discriminate C;
    (assert (ED : data = here ++ missing) by congruence); clear C; subst data; cbn [rle_valid rle_bytes] in *;
    rewrite app_assoc in B; apply app_inv_tail in B; subst src; unfold p_rle_step; cbn [app pop bind];
    repeat match goal with H : _ /\ _ |- _ => destruct H end;
    match goal with |- context [cmd_byte ?code ?l] =>
      let A := fresh in let D := fresh in
      destruct (cmd_byte_code code l) as [A D]; [lia|lia|]; rewrite A, D; cbn [pop bind]
    end;
    rewrite ?b2n_byte_of by assumption; apply (p_copy_cut n here missing); [exact NE|lia|exact NE|lia|exact NE|lia|exact NE|lia|exact NE|lia].
Qed.

Lemma rle_step_unknown : forall n v src out, 0x10 <= b2n v < 0x40 -> p_rle_step n (v :: src) out = Exn E_cannot_decompress.
Proof.
  intros n v src out H. unfold p_rle_step. cbn [pop bind].
  assert (E : b2n v = 16 * (b2n v / 16) + b2n v mod 16) by (apply N.div_mod; discriminate).
  assert (LW : b2n v mod 16 < 16) by (apply N.mod_lt; discriminate).
  set (low := b2n v mod 16) in *. set (cmd := b2n v / 16) in *. clearbody low cmd.
  assert (C : cmd = 1 \/ cmd = 2 \/ cmd = 3) by lia. destruct C as [->|[->| ->]]; reflexivity.
Qed.

Lemma rle_step_past : forall n v y out, 0x40 <= b2n v < 0x50 -> p_rle_step n [v; y] out = Undef UB_oob_read.
Proof.
  intros n v y out H. unfold p_rle_step. cbn [pop bind].
  assert (E : b2n v = 16 * (b2n v / 16) + b2n v mod 16) by (apply N.div_mod; discriminate).
  assert (LW : b2n v mod 16 < 16) by (apply N.mod_lt; discriminate).
  set (low := b2n v mod 16) in *. set (cmd := b2n v / 16) in *. clearbody low cmd.
  assert (C : cmd = 4) by lia. subst cmd. reflexivity.
Qed.

Definition p_finish (n : N) (x : res bytes) : res bytes := o <- x ;; Ok (zero_padded n o).

Lemma rle_go : forall n src out, lenN out < n -> 2 <= lenN src ->
  p_rle_loop (length src) n src out
  = ('(src', out') <- p_rle_step n src out ;; p_rle_loop (length src') n src' out').
Proof.
  intros n src out O L. rewrite p_rle_loop_eq.
  destruct (N.leb_spec 2 (lenN src)); [|lia]. destruct (N.ltb_spec (lenN out) n); [reflexivity|lia].
Qed.

Lemma rle_loop_reads : forall n k src out, (length src <= k)%nat -> lenN out <= n ->
  rle_reads n out src (p_finish n (p_rle_loop (length src) n src out)).
Proof.
  intros n. induction k as [|k IH]; intros src out K O.
  { destruct src; [|cbn in K; lia]. apply rle_stops. cbn. lia. }
  destruct (N.leb_spec n (lenN out)) as [F|F].
  { rewrite p_rle_loop_stop by lia. apply rle_stops. lia. }
  destruct (N.leb_spec (lenN src) 1) as [L|L].
  { rewrite p_rle_loop_stop by lia. apply rle_stops. lia. }
  rewrite rle_go by lia.
  destruct src as [|v [|x r]]; try (cbn in L; lia).
  destruct (rle_shapes v x r) as [(c & rest & E & V)|[(c & here & mi & V & C & NE & E)|[(v' & rest & E & NE & B)|(v' & y & E & B)]]].
  - rewrite E in *. rewrite rle_step_cmd by exact V.
    destruct (N.leb_spec (lenN out + lenN (rle_expand c)) n) as [R|R]; cbn [bind].
    + apply rle_does; try assumption; try lia. apply IH; [|rewrite lenN_app; lia].
      pose proof (rle_bytes_nonempty c) as NB. rewrite app_length in K. unfold lenN in NB. lia.
    + apply rle_exceeds; try assumption; lia.
  - rewrite (rle_step_cut n c here mi _ out V C NE E) by lia.
    destruct (N.leb_spec (lenN out + lenN here) n) as [R|R]; cbn [bind].
    + cbn [length p_rle_loop]. apply (rle_copies_rest n out c here mi); try assumption; lia.
    + apply (rle_rest_exceeds n out c here mi); try assumption; lia.
  - injection E as <- <-. rewrite rle_step_unknown by exact B. apply rle_unknown; assumption.
  - injection E as <- <- ->. rewrite rle_step_past by exact B. apply rle_passes; assumption.
Qed.

Lemma rle_reads_loop : forall n out src x, rle_reads n out src x -> p_finish n (p_rle_loop (length src) n src out) = x.
Proof.
  intros n out src x H.
  induction H as [out src E|out c src x O L V R _ IH|out c src O L V R|out c here mi src O L V C NE E R
    |out c here mi src O L V C NE E R|out v src O NE B|out v y O B].
  - rewrite p_rle_loop_stop by lia. reflexivity.
  - rewrite rle_go by assumption. rewrite rle_step_cmd by exact V. destruct (N.leb_spec (lenN out + lenN (rle_expand c)) n); [exact IH|lia].
  - rewrite rle_go by assumption. rewrite rle_step_cmd by exact V. destruct (N.leb_spec (lenN out + lenN (rle_expand c)) n); [lia|reflexivity].
  - rewrite rle_go by assumption. rewrite (rle_step_cut n c here mi _ out V C NE E L).
    destruct (N.leb_spec (lenN out + lenN here) n); [reflexivity|lia].
  - rewrite rle_go by assumption. rewrite (rle_step_cut n c here mi _ out V C NE E L).
    destruct (N.leb_spec (lenN out + lenN here) n); [lia|reflexivity].
  - assert (L : 2 <= lenN (v :: src)) by (destruct src; [congruence|rewrite !lenN_cons; lia]).
    rewrite rle_go by assumption. rewrite rle_step_unknown by exact B. reflexivity.
  - assert (L : 2 <= lenN [v; y]) by (cbn; lia). rewrite rle_go by assumption. rewrite rle_step_past by exact B. reflexivity.
Qed.

Lemma rle_exact : forall n d src x, row_buffer n d -> n < row_limit ->
  (fst (rle src d) = x <-> rle_reads n [] src x).
Proof.
  intros n d src x W B. destruct (rle_refines n src d W B) as [_ ->]. split.
  - intros <-. apply (rle_loop_reads n (length src)); [lia|cbn; lia].
  - apply rle_reads_loop.
Qed.

(** The undefined ones. *)
Lemma rle_reads_past : forall n out src x, rle_reads n out src x -> forall u, x = Undef u ->
  exists cs v y, src = rle_encoding cs ++ [v; y] /\ Forall rle_valid cs
    /\ lenN out + lenN (rle_expansion cs) < n /\ 0x40 <= b2n v < 0x50.
Proof.
  intros n out src x H.
  induction H as [out src E|out c src x O L V R _ IH|out c src O L V R|out c here mi src O L V C NE E R
    |out c here mi src O L V C NE E R|out v src O NE B|out v y O B]; intros u U; try discriminate U.
  - destruct (IH u U) as (cs & v & y & -> & Vs & F & B). exists (c :: cs), v, y. unfold rle_encoding, rle_expansion in *.
    cbn [map concat]. rewrite <- app_assoc. split; [reflexivity|]. split; [constructor; assumption|].
    rewrite !lenN_app in *. split; [lia|exact B].
  - exists [], v, y. split; [reflexivity|]. split; [constructor|]. split; [cbn; lia|exact B].
Qed.

Lemma rle_undefined : forall n d src, row_buffer n d -> n < row_limit ->
  ((exists u, fst (rle src d) = Undef u) <->
   exists cs v y, src = rle_encoding cs ++ [v; y] /\ Forall rle_valid cs /\ lenN (rle_expansion cs) < n
     /\ 0x40 <= b2n v < 0x50).
Proof.
  intros n d src W B. split.
  - intros [u U]. apply (rle_exact n) in U; [|exact W|exact B].
    destruct (rle_reads_past n [] src _ U u eq_refl) as (cs & v & y & E & V & L & R).
    exists cs, v, y. cbn in L. auto.
  - intros (cs & v & y & -> & V & L & R). exists UB_oob_read. apply (rle_exact n); [exact W|exact B|].
    assert (G : forall out, lenN out + lenN (rle_expansion cs) < n ->
      rle_reads n out (rle_encoding cs ++ [v; y]) (Undef UB_oob_read)); [|apply G; exact L].
    clear L. induction V as [|c cs Vc _ IH]; intros out L.
    + apply rle_passes; [cbn in L; lia|exact R].
    + unfold rle_encoding, rle_expansion in *. cbn [map concat] in *. rewrite <- app_assoc. rewrite lenN_app in L.
      pose proof (rle_bytes_nonempty c). apply rle_does; try assumption; try lia; [rewrite !lenN_app; cbn; lia|].
      apply IH. rewrite lenN_app. lia.
Qed.

(** ** RDC *)

Lemma valid_fits : forall out i, rdc_valid out i <->
  rdc_fits i /\ match rdc_back i with Some ofs => rdc_size i <= ofs /\ ofs <= lenN out | None => True end.
Proof. intros out i. destruct i; cbn; tauto. Qed.

Lemma expand_size : forall out i, rdc_valid out i -> lenN (rdc_expand out i) = rdc_size i.
Proof.
  intros out i V. destruct i; cbn [rdc_valid rdc_expand rdc_size] in *; rewrite ?lenN_times; try reflexivity;
    rewrite lenN_back_copy; lia.
Qed.

(** An item, whatever it refers to. *)
Lemma rdc_item_any : forall n i rest out, rdc_fits i ->
  p_rdc_item n (rdc_flag i =? 0) (rdc_bytes i ++ rest) out
  = if lenN out + rdc_size i <=? n then
      match rdc_back i with
      | Some ofs => if lenN out <? ofs then Undef UB_oob_read
                    else if ofs <? rdc_size i then Undef UB_overlap
                    else Ok (rest, out ++ rdc_expand out i)
      | None => Ok (rest, out ++ rdc_expand out i)
      end
    else Exn E_cannot_decompress.
Proof.
  intros n i rest out V. unfold p_rdc_item.
  destruct i; cbn [rdc_fits rdc_flag rdc_bytes rdc_expand rdc_size rdc_back app] in *;
    cbn [N.eqb Pos.eqb pop bind]; cbv zeta;
    repeat match goal with H : _ /\ _ |- _ => destruct H end;
    try match goal with |- context [cmd_byte ?code ?l] =>
      let A := fresh in let B := fresh in
      destruct (cmd_byte_code code l) as [A B]; [lia|lia|]; rewrite A, B
    end; cbn [N.eqb Pos.eqb pop bind];
    rewrite ?b2n_byte_of by assumption.
  - rewrite p_store_eq. destruct (lenN out + 1 <=? n); reflexivity.
  - rewrite p_store_eq. destruct (_ <=? n); reflexivity.
  - rewrite p_store_eq. replace (cnt + (x * 16 + 19)) with (cnt + 16 * x + 19) by lia.
    destruct (_ <=? n); reflexivity.
  - unfold p_pattern, p_check. replace (cnt + 3 + x * 16) with (cnt + 3 + 16 * x) by lia.
    destruct (_ <=? n); cbn [bind]; [|reflexivity]. destruct (lenN out <? _); [reflexivity|].
    destruct (_ <? y + 16); reflexivity.
  - destruct (N.eqb_spec len 0); [lia|]. destruct (N.eqb_spec len 1); [lia|].
    destruct (N.eqb_spec len 2); [lia|]. cbn [pop bind]. rewrite ?b2n_byte_of by assumption.
    unfold p_pattern, p_check. replace (cnt + 3 + x * 16) with (cnt + 3 + 16 * x) by lia.
    destruct (_ <=? n); cbn [bind]; [|reflexivity]. destruct (lenN out <? _); [reflexivity|].
    destruct (_ <? len); reflexivity.
Qed.

(** Behind a control bit there is an item or a part of one. *)
Definition cut_item (src : bytes) : Prop :=
  exists v rest, src = v :: rest /\ (rest = [] \/ (exists y, rest = [y]) /\ 0x10 <= b2n v < 0x30).

Lemma rdc_shapes : forall b v r,
  (exists i rest, v :: r = rdc_bytes i ++ rest /\ rdc_fits i /\ b = (rdc_flag i =? 1))
  \/ (b = true /\ cut_item (v :: r)).
Proof.
  intros b v r. destruct b; [|left; exists (DLiteral v), r; cbn; auto].
  destruct r as [|x r]; [right; split; [reflexivity|]; exists v, []; auto|].
  pose proof (b2n_lt v) as V. pose proof (b2n_lt x) as X.
  assert (E : b2n v = 16 * (b2n v / 16) + b2n v mod 16) by (apply N.div_mod; discriminate).
  assert (LW : b2n v mod 16 < 16) by (apply N.mod_lt; discriminate).
  pose proof (cmd_byte_parts v) as CB. assert (XB := byte_of_b2n x).
  set (low := b2n v mod 16) in *. set (cmd := b2n v / 16) in *. clearbody low cmd.
  assert (CASES : cmd = 0 \/ cmd = 1 \/ cmd = 2 \/ 3 <= cmd < 16) by lia.
  destruct CASES as [->|[->|[->|C]]].
  - left. exists (DShortRun low x), r. cbn. rewrite CB. auto.
  - destruct r as [|y r].
    + right. split; [reflexivity|]. exists v, [x]. split; [reflexivity|]. right. split; [eauto|lia].
    + left. exists (DLongRun low (b2n x) y), r. cbn. rewrite CB, XB. auto.
  - destruct r as [|y r].
    + right. split; [reflexivity|]. exists v, [x]. split; [reflexivity|]. right. split; [eauto|lia].
    + left. exists (DLongRef low (b2n x) (b2n y)), r. pose proof (b2n_lt y). cbn. rewrite CB, XB, byte_of_b2n. auto.
  - left. exists (DShortRef cmd low (b2n x)), r. cbn. rewrite CB, XB. auto.
Qed.

Lemma rdc_item_cut : forall n src out, cut_item src -> p_rdc_item n false src out = Undef UB_oob_read.
Proof.
  intros n src out (v & rest & -> & H). unfold p_rdc_item. cbn [pop bind]. cbv zeta.
  assert (E : b2n v = 16 * (b2n v / 16) + b2n v mod 16) by (apply N.div_mod; discriminate).
  assert (LW : b2n v mod 16 < 16) by (apply N.mod_lt; discriminate).
  set (low := b2n v mod 16) in *. set (cmd := b2n v / 16) in *. clearbody low cmd.
  destruct H as [->|[[y ->] B]].
  - destruct (cmd =? 0); [reflexivity|]. destruct (cmd =? 1); [reflexivity|]. destruct (cmd =? 2); reflexivity.
  - destruct (N.eqb_spec cmd 0); [lia|]. destruct (N.eqb_spec cmd 1); [reflexivity|]. destruct (N.eqb_spec cmd 2); [reflexivity|lia].
Qed.

(** The control bits. *)
Definition bits_left (m mask : N) : Prop := m <= 15 /\ (mask = 2 ^ m \/ m = 0 /\ mask = 0).

Lemma ctrl_next : forall w m mask src w' m' src', bits_left m mask -> next_bit w m src w' m' src' ->
  p_rdc_ctrl src mask w = Ok (src', 2 ^ m', w') /\ bits_left m' (2 ^ m').
Proof.
  intros w m mask src w' m' src' [M B] H. unfold p_rdc_ctrl.
  destruct H as [(P & -> & -> & ->)|(-> & -> & h & l & -> & ->)].
  - destruct B as [->|[-> _]]; [|lia].
    assert (E : 2 ^ m / 2 = 2 ^ (m - 1)).
    { replace m with (N.succ (m - 1)) at 1 by lia. rewrite N.pow_succ_r', N.mul_comm. apply N.div_mul. discriminate. }
    rewrite E. assert (2 ^ (m - 1) <> 0) by (apply N.pow_nonzero; discriminate).
    destruct (N.eqb_spec (2 ^ (m - 1)) 0); [contradiction|]. split; [reflexivity|]. split; [lia|left; reflexivity].
  - assert (E : mask / 2 =? 0 = true) by (destruct B as [->|[_ ->]]; reflexivity). rewrite E. cbn [pop bind].
    change 32768 with (2 ^ 15). rewrite (N.mul_comm (b2n h)). split; [reflexivity|]. split; [lia|left; reflexivity].
Qed.

Lemma next_there : forall w m src, 3 <= lenN src ->
  exists w' m' src', next_bit w m src w' m' src' /\ 1 <= lenN src' /\ (src' = src \/ m = 0).
Proof.
  intros w m src L. destruct (N.eq_dec m 0) as [->|NZ].
  - destruct src as [|h [|l src]]; try (cbn in L; lia). rewrite !lenN_cons in L.
    exists (256 * b2n h + b2n l), 15, src. split; [right; eauto 8|]. split; [lia|auto].
  - exists w, (m - 1), src. split; [left; repeat split; lia|]. split; [lia|auto].
Qed.

Lemma step_next : forall n w m mask src w' m' src' out, bits_left m mask -> next_bit w m src w' m' src' ->
  p_rdc_step n src mask w out
  = ('(s, o) <- p_rdc_item n (negb (N.testbit w' m')) src' out ;; Ok (s, 2 ^ m', w', o)).
Proof.
  intros n w m mask src w' m' src' out B H. unfold p_rdc_step.
  destruct (ctrl_next _ _ _ _ _ _ _ B H) as [E _]. rewrite E. cbn [bind]. rewrite land_pow2. reflexivity.
Qed.

Lemma rdc_step_go : forall n src mask w out, lenN out < n -> 3 <= lenN src ->
  rdc_go n src mask w out
  = ('(src', mask', bits', out') <- p_rdc_step n src mask w out ;; rdc_go n src' mask' bits' out').
Proof.
  intros n src mask w out O L. rewrite rdc_go_eq.
  destruct (N.leb_spec 3 (lenN src)); [|lia]. destruct (N.ltb_spec (lenN out) n); [reflexivity|lia].
Qed.

Lemma rdc_go_stop : forall n src mask w out, lenN src <= 2 \/ n <= lenN out -> rdc_go n src mask w out = Ok out.
Proof.
  intros n src mask w out H. rewrite rdc_go_eq.
  destruct (N.leb_spec 3 (lenN src)); [|reflexivity]. destruct (N.ltb_spec (lenN out) n); [lia|reflexivity].
Qed.

Lemma flag_bit : forall i b, b = (rdc_flag i =? 1) -> negb b = (rdc_flag i =? 0).
Proof. intros i b ->. destruct i; reflexivity. Qed.

Lemma high_bit : forall h l, h < 256 -> l < 256 -> N.testbit (256 * h + l) 15 = true <-> 0x80 <= h.
Proof.
  intros h l H L. rewrite N.testbit_true. change (2 ^ 15) with 32768.
  assert (D : (256 * h + l) / 32768 < 2) by (apply N.div_lt_upper_bound; lia).
  rewrite N.mod_small by exact D. split; intros E.
  - destruct (N.leb_spec 128 h) as [G|G]; [exact G|]. rewrite N.div_small in E by lia. discriminate.
  - symmetry. apply (N.div_unique _ _ _ (256 * h + l - 32768)); lia.
Qed.

Lemma rdc_loop_reads : forall n k src w m mask out, (length src <= k)%nat -> lenN out <= n -> bits_left m mask ->
  rdc_reads n w m out src (p_finish n (rdc_go n src mask w out)).
Proof.
  intros n. induction k as [|k IH]; intros src w m mask out K O BL.
  { destruct src; [|cbn in K; lia]. rewrite rdc_go_stop by (cbn; lia). apply rdc_stops. cbn. lia. }
  destruct (N.leb_spec n (lenN out)) as [F|F].
  { rewrite rdc_go_stop by lia. apply rdc_stops. lia. }
  destruct (N.leb_spec (lenN src) 2) as [L|L].
  { rewrite rdc_go_stop by lia. apply rdc_stops. lia. }
  rewrite rdc_step_go by lia.
  destruct (next_there w m src) as (w' & m' & src' & NB & L1 & SAME); [lia|].
  destruct (ctrl_next _ _ _ _ _ _ _ BL NB) as [_ BL'].
  rewrite (step_next n w m mask src w' m' src' out BL NB).
  destruct src' as [|v r]; [cbn in L1; lia|].
  destruct (rdc_shapes (N.testbit w' m') v r) as [(i & rest & E & FI & FL)|[TB CUT]].
  - rewrite E in *. rewrite (flag_bit i _ FL), rdc_item_any by exact FI.
    destruct (N.leb_spec (lenN out + rdc_size i) n) as [R|R]; [|apply (rdc_exceeds n w m out src w' m' i rest); (assumption || lia)].
    assert (OKCASE : rdc_valid out i -> rdc_reads n w m out src
      (p_finish n (rdc_go n rest (2 ^ m') w' (out ++ rdc_expand out i)))).
    { intros V. apply (rdc_does n w m out src w' m' i rest); try (assumption || lia).
      apply IH; [|rewrite lenN_app, (expand_size out i V); exact R|exact BL'].
      assert (LR : (length (rdc_bytes i ++ rest) <= length src)%nat).
      { destruct NB as [(_ & _ & _ & ->)|(_ & _ & h & l & -> & _)]; [lia|cbn; lia]. }
      pose proof (rdc_bytes_nonempty i) as NE. unfold lenN in NE. rewrite app_length in LR. lia. }
    assert (BB : forall ofs, rdc_back i = Some ofs -> N.testbit w' m' = true)
      by (intros ofs E2; rewrite FL; destruct i; try discriminate E2; reflexivity).
    destruct (rdc_back i) as [ofs|] eqn:BK.
    + destruct (N.ltb_spec (lenN out) ofs) as [P|P].
      { cbn [bind]. apply (rdc_refers_before n w m out src w' m' i rest ofs); try (assumption || lia); apply (BB ofs eq_refl). }
      destruct (N.ltb_spec ofs (rdc_size i)) as [Q|Q].
      { cbn [bind]. apply (rdc_refers_self n w m out src w' m' i rest ofs); try (assumption || lia); apply (BB ofs eq_refl). }
      cbn [bind]. apply OKCASE. apply valid_fits. rewrite BK. auto.
    + cbn [bind]. apply OKCASE. apply valid_fits. rewrite BK. auto.
  - rewrite TB. cbn [negb]. rewrite rdc_item_cut by exact CUT. cbn [bind].
    destruct NB as [(P & -> & -> & E)|(-> & -> & h & l & -> & ->)].
    + exfalso. rewrite <- E in L. destruct CUT as (v' & rest & E' & [->|[[y ->] _]]); rewrite E' in L; cbn in L; lia.
    + destruct CUT as (v' & rest & E' & B). injection E' as <- <-.
      apply rdc_passes; [exact F| |exact B]. apply (high_bit (b2n h) (b2n l)); [apply b2n_lt|apply b2n_lt|exact TB].
Qed.

Lemma rdc_reads_loop : forall n w m out src x, rdc_reads n w m out src x -> forall mask, bits_left m mask ->
  p_finish n (rdc_go n src mask w out) = x.
Proof.
  intros n w m out src x H.
  induction H as [w m out src E|w m out src w' m' i rest x O L NB FL V R _ IH|w m out src w' m' i rest O L NB FL FI R
    |w m out src w' m' i rest ofs O L NB TB FI BK R P|w m out src w' m' i rest ofs O L NB TB FI BK R P Q
    |w out h l v rest O HB C]; intros mask BL.
  - rewrite rdc_go_stop by lia. reflexivity.
  - rewrite rdc_step_go by assumption. rewrite (step_next n w m mask src w' m' _ out BL NB).
    pose proof V as V'. apply valid_fits in V'. destruct V' as [FI BK].
    rewrite (flag_bit i _ FL), rdc_item_any by exact FI.
    destruct (N.leb_spec (lenN out + rdc_size i) n); [|lia].
    destruct (ctrl_next _ _ _ _ _ _ _ BL NB) as [_ BL'].
    destruct (rdc_back i) as [ofs|]; [|cbn [bind]; apply IH; exact BL'].
    destruct (N.ltb_spec (lenN out) ofs); [lia|]. destruct (N.ltb_spec ofs (rdc_size i)); [lia|].
    cbn [bind]. apply IH. exact BL'.
  - rewrite rdc_step_go by assumption. rewrite (step_next n w m mask src w' m' _ out BL NB).
    rewrite (flag_bit i _ FL), rdc_item_any by exact FI.
    destruct (N.leb_spec (lenN out + rdc_size i) n); [lia|reflexivity].
  - rewrite rdc_step_go by assumption. rewrite (step_next n w m mask src w' m' _ out BL NB).
    assert (FL : N.testbit w' m' = (rdc_flag i =? 1)) by (rewrite TB; destruct i; try discriminate BK; reflexivity).
    rewrite (flag_bit i _ FL), rdc_item_any by exact FI.
    destruct (N.leb_spec (lenN out + rdc_size i) n); [|lia]. rewrite BK.
    destruct (N.ltb_spec (lenN out) ofs); [reflexivity|lia].
  - rewrite rdc_step_go by assumption. rewrite (step_next n w m mask src w' m' _ out BL NB).
    assert (FL : N.testbit w' m' = (rdc_flag i =? 1)) by (rewrite TB; destruct i; try discriminate BK; reflexivity).
    rewrite (flag_bit i _ FL), rdc_item_any by exact FI.
    destruct (N.leb_spec (lenN out + rdc_size i) n); [|lia]. rewrite BK.
    destruct (N.ltb_spec (lenN out) ofs); [lia|]. destruct (N.ltb_spec ofs (rdc_size i)); [reflexivity|lia].
  - assert (L : 3 <= lenN (h :: l :: v :: rest)) by (rewrite !lenN_cons; lia).
    rewrite rdc_step_go by assumption.
    assert (NB : next_bit w 0 (h :: l :: v :: rest) (256 * b2n h + b2n l) 15 (v :: rest)) by (right; eauto 8).
    rewrite (step_next n w 0 mask _ _ 15 _ out BL NB).
    assert (TB : N.testbit (256 * b2n h + b2n l) 15 = true) by (apply high_bit; [apply b2n_lt|apply b2n_lt|exact HB]).
    rewrite TB. cbn [negb]. rewrite rdc_item_cut; [reflexivity|]. exists v, rest. auto.
Qed.

Lemma rdc_exact : forall n d src x, row_buffer n d -> n < row_limit ->
  (fst (rdc src d) = x <-> rdc_reads n 0 0 [] src x).
Proof.
  intros n d src x W B. destruct (rdc_refines n src d W B) as [_ ->].
  assert (BL : bits_left 0 0) by (split; [lia|right; auto]). split.
  - intros <-. apply (rdc_loop_reads n (length src)); [lia|cbn; lia|exact BL].
  - intros H. exact (rdc_reads_loop n 0 0 [] src x H 0 BL).
Qed.
