(** A program which says whether a file conforms, and to which table.  It finds the
    commands of the compressed rows and checks them against the specification; that it
    finds all of them does not matter for the theorems. *)
From Verif Require Import Base Types Float DateTime Buffer Header Column Decomp Metadata Data Reader Lemmas
  SpecValues ProofValues SpecHeader ProofHeader SpecDecomp SpecReader SpecPages SpecMeta
  ProofCheck ProofFits SpecFile SpecRoundtrip SpecConform.
From Coq Require Import ZifyBool ZifyNat ZifyN.
Local Open Scope N_scope.

(** ** Commands *)

(** The next command of RLE and what follows. *)
Definition rle_next (src : bytes) : option (rle_cmd * bytes) :=
  match src with
  | b :: s1 =>
      let code := b2n b / 16 in
      let l := b2n b mod 16 in
      let take n s := (firstn (N.to_nat n) s, skipn (N.to_nat n) s) in
      match code, s1 with
      | 0, x :: s2 => let '(d, r) := take (256 * l + b2n x + 64) s2 in Some (RCopyLong l (b2n x) d, r)
      | 4, x :: v :: r => Some (RByteLong l (b2n x) v, r)
      | 5, x :: r => Some (RAtLong l (b2n x), r)
      | 6, x :: r => Some (RBlankLong l (b2n x), r)
      | 7, x :: r => Some (RZeroLong l (b2n x), r)
      | 8, _ => let '(d, r) := take (l + 1) s1 in Some (RCopy1 l d, r)
      | 9, _ => let '(d, r) := take (l + 17) s1 in Some (RCopy17 l d, r)
      | 10, _ => let '(d, r) := take (l + 33) s1 in Some (RCopy33 l d, r)
      | 11, _ => let '(d, r) := take (l + 49) s1 in Some (RCopy49 l d, r)
      | 12, v :: r => Some (RByte3 l v, r)
      | 13, _ => Some (RAt2 l, s1)
      | 14, _ => Some (RBlank2 l, s1)
      | 15, _ => Some (RZero2 l, s1)
      | _, _ => None
      end
  | [] => None
  end.

Fixpoint rle_parse (fuel : nat) (room : N) (src : bytes) : list rle_cmd * bytes :=
  match fuel with
  | O => ([], src)
  | Datatypes.S fuel =>
      if room =? 0 then ([], src)
      else match rle_next src with
           | Some (c, r) =>
               if lenN (rle_expand c) <=? room
               then let '(cs, t) := rle_parse fuel (room - lenN (rle_expand c)) r in (c :: cs, t)
               else ([], src)
           | None => ([], src)
           end
  end.

Definition rle_validb (c : rle_cmd) : bool :=
  match c with
  | RCopyLong l x data => (l <? 16) && (x <? 256) && (lenN data =? 256 * l + x + 64)
  | RByteLong l x _ | RAtLong l x | RBlankLong l x | RZeroLong l x => (l <? 16) && (x <? 256)
  | RCopy1 l data => (l <? 16) && (lenN data =? l + 1)
  | RCopy17 l data => (l <? 16) && (lenN data =? l + 17)
  | RCopy33 l data => (l <? 16) && (lenN data =? l + 33)
  | RCopy49 l data => (l <? 16) && (lenN data =? l + 49)
  | RByte3 l _ | RAt2 l | RBlank2 l | RZero2 l => l <? 16
  end.

Definition last_is_longb (cs : list rle_cmd) : bool :=
  match rev cs with [] => true | c :: _ => 2 <=? lenN (rle_bytes c) end.

Definition rle_parsed (n : N) (stored : bytes) : option (list rle_cmd * bytes) :=
  let '(cs, tail) := rle_parse (length stored) n stored in
  let ex := rle_expansion cs in
  if bytes_eqb stored (rle_encoding cs ++ tail) && forallb rle_validb cs && (lenN ex <=? n)
     && (match tail with [] => true | _ => lenN ex =? n end)
  then Some (cs, tail) else None.

Definition rle_row_meant (n : N) (stored : bytes) : option bytes :=
  match rle_parsed n stored with
  | Some (cs, _) => Some (zero_padded n (rle_expansion cs))
  | None => None
  end.

Definition rle_row (n : N) (stored : bytes) : option bytes :=
  match rle_parsed n stored with
  | Some (cs, tail) =>
      let row := zero_padded n (rle_expansion cs) in
      match tail, rev cs with
      | [], RZero2 _ :: _ => Some row
      | [], _ => if last_is_longb cs then Some row else None
      | _, _ => Some row
      end
  | None => None
  end.

Definition clear_of (fields : list field_desc) (a b : N) : bool :=
  forallb (fun d => negb (fd_numeric d) || (fd_offset d + fd_length d <=? a) || (b <=? fd_offset d)) fields.

Definition rle_row_nearly (fields : list field_desc) (n : N) (stored : bytes) : option bytes :=
  match rle_parsed n stored with
  | Some (cs, []) =>
      match rev cs with
      | RBlank2 l :: r =>
          if clear_of fields (lenN (rle_expansion (rev r))) (lenN (rle_expansion cs))
          then Some (zero_padded n (rle_expansion cs)) else None
      | _ => None
      end
  | _ => None
  end.

Definition rdc_next (flag : bool) (src : bytes) : option (rdc_item * bytes) :=
  match src with
  | b :: s1 =>
      if flag then
        let code := b2n b / 16 in
        let l := b2n b mod 16 in
        match code, s1 with
        | 0, v :: r => Some (DShortRun l v, r)
        | 1, x :: v :: r => Some (DLongRun l (b2n x) v, r)
        | 2, x :: y :: r => Some (DLongRef l (b2n x) (b2n y), r)
        | _, x :: r => Some (DShortRef code l (b2n x), r)
        | _, [] => None
        end
      else Some (DLiteral b, s1)
  | [] => None
  end.

(** The items of a group. *)
Fixpoint rdc_items (k : nat) (ctrl row : N) (out src : bytes)
  : list rdc_item * bytes * bytes :=
  match k with
  | O => ([], out, src)
  | Datatypes.S k =>
      if row <=? lenN out then ([], out, src)
      else match rdc_next (N.testbit ctrl (N.of_nat k)) src with
           | Some (i, r) =>
               let out' := out ++ rdc_expand out i in
               if lenN out' <=? row
               then let '(is, o, t) := rdc_items k ctrl row out' r in (i :: is, o, t)
               else ([], out, src)
           | None => ([], out, src)
           end
  end.

Fixpoint rdc_parse (fuel : nat) (row : N) (out src : bytes) : list (list rdc_item) * bytes :=
  match fuel with
  | O => ([], src)
  | Datatypes.S fuel =>
      match src with
      | x :: y :: (_ :: _) as s1 =>
          if row <=? lenN out then ([], src)
          else
            let r := skipn 2 src in
            let '(is, o, t) := rdc_items 16 (256 * b2n x + b2n y) row out r in
            match is with
            | [] => ([], src)
            | _ => let '(gs, t') := rdc_parse fuel row o t in (is :: gs, t')
            end
      | _ => ([], src)
      end
  end.

Definition rdc_validb (out : bytes) (i : rdc_item) : bool :=
  match i with
  | DLiteral _ => true
  | DShortRun cnt _ => cnt <? 16
  | DLongRun cnt x _ => (cnt <? 16) && (x <? 256)
  | DLongRef cnt x y =>
      (cnt <? 16) && (x <? 256) && (y <? 256)
      && (y + 16 <=? cnt + 3 + 16 * x) && (cnt + 3 + 16 * x <=? lenN out)
  | DShortRef len cnt x =>
      (cnt <? 16) && (x <? 256) && (3 <=? len) && (len <? 16)
      && (len <=? cnt + 3 + 16 * x) && (cnt + 3 + 16 * x <=? lenN out)
  end.

Fixpoint rdc_all_validb (out : bytes) (is : list rdc_item) : bool :=
  match is with
  | [] => true
  | i :: is' => rdc_validb out i && rdc_all_validb (out ++ rdc_expand out i) is'
  end.

Fixpoint groups_okb (gs : list (list rdc_item)) : bool :=
  match gs with
  | [] => true
  | [g] => (1 <=? lenN g) && (lenN g <=? 16)
  | g :: gs' => (lenN g =? 16) && groups_okb gs'
  end.

Definition three_remainb (gs : list (list rdc_item)) (tail : N) : bool :=
  match rev gs with
  | [] => true
  | g :: _ =>
      match rev g with
      | i :: _ :: _ => 3 <=? lenN (rdc_bytes i) + tail
      | _ => true
      end
  end.

Definition rdc_parsed (n : N) (stored : bytes) : option (list (list rdc_item) * bytes) :=
  let '(gs, tail) := rdc_parse (length stored) n [] stored in
  let ex := rdc_expansion [] (concat gs) in
  if bytes_eqb stored (rdc_encoding gs ++ tail) && groups_okb gs && rdc_all_validb [] (concat gs)
     && (lenN ex <=? n) && (match tail with [] => true | _ => lenN ex =? n end)
  then Some (gs, tail) else None.

Definition rdc_row_meant (n : N) (stored : bytes) : option bytes :=
  match rdc_parsed n stored with
  | Some (gs, _) => Some (zero_padded n (rdc_expansion [] (concat gs)))
  | None => None
  end.

Definition rdc_row (n : N) (stored : bytes) : option bytes :=
  match rdc_parsed n stored with
  | Some (gs, tail) =>
      if three_remainb gs (lenN tail) then Some (zero_padded n (rdc_expansion [] (concat gs))) else None
  | None => None
  end.

Lemma rle_validb_ok : forall c, rle_validb c = true -> rle_valid c.
Proof. intros []; cbn; lia. Qed.

Lemma rev_last : forall A (l l' : list A) x, l = l' ++ [x] -> rev l = x :: rev l'.
Proof. intros A l l' x ->. apply rev_app_distr. Qed.

Lemma lenN_times : forall n v, lenN (times n v) = n.
Proof. intros. unfold times, lenN. rewrite repeat_length. lia. Qed.

Lemma lenN_padded : forall n l, lenN l <= n -> lenN (zero_padded n l) = n.
Proof. intros n l H. unfold zero_padded. rewrite lenN_app, lenN_times. lia. Qed.

Lemma rle_parsed_ok : forall n stored cs tail, rle_parsed n stored = Some (cs, tail) ->
  stored = rle_encoding cs ++ tail /\ Forall rle_valid cs /\ lenN (rle_expansion cs) <= n
  /\ (tail = [] \/ lenN (rle_expansion cs) = n).
Proof.
  intros n stored cs0 tail0 H. unfold rle_parsed in H. destruct (rle_parse _ _ _) as [cs tail].
  destruct (bytes_eqb _ _) eqn:E; [|discriminate]. destruct (forallb _ _) eqn:V; [|discriminate].
  destruct (N.leb_spec (lenN (rle_expansion cs)) n) as [L|L]; [|discriminate]. cbn [andb] in H.
  match type of H with (if ?x then _ else _) = _ => destruct x eqn:G; [|discriminate] end.
  injection H as <- <-. apply bytes_eqb_true in E. split; [exact E|]. split.
  - eapply forallb_Forall; [|exact V]. intros c. apply rle_validb_ok.
  - split; [exact L|]. destruct tail; [left; reflexivity|right; apply N.eqb_eq; exact G].
Qed.

Lemma rle_row_meant_ok : forall n stored row, rle_row_meant n stored = Some row ->
  lenN row = n /\ rle_meant n stored row.
Proof.
  intros n stored row H. unfold rle_row_meant in H. destruct (rle_parsed n stored) as [[cs tail]|] eqn:P; [|discriminate].
  apply rle_parsed_ok in P. destruct P as (P1 & P2 & P3 & P4). injection H as <-.
  split; [apply lenN_padded; exact P3|]. exists cs, tail. auto.
Qed.

Lemma last_of : forall A (l : list A) x r, rev l = x :: r -> l = rev r ++ [x].
Proof. intros A l x r E. rewrite <- (rev_involutive l), E. reflexivity. Qed.

Lemma rle_row_ok : forall n stored row, rle_row n stored = Some row ->
  lenN row = n /\ (rle_stored n stored row \/ rle_zeros_last n stored row).
Proof.
  intros n stored row H. unfold rle_row in H. destruct (rle_parsed n stored) as [[cs tail]|] eqn:P; [|discriminate].
  apply rle_parsed_ok in P. destruct P as (P1 & P2 & P3 & P4).
  assert (LP := lenN_padded n _ P3).
  assert (K : tail <> [] \/ last_is_long cs -> rle_stored n stored (zero_padded n (rle_expansion cs))).
  { intros K. exists cs, tail. auto 10. }
  assert (LL : last_is_longb cs = true -> last_is_long cs).
  { intros G cs' c E. unfold last_is_longb in G. rewrite (rev_last _ _ cs' c E) in G. apply N.leb_le. exact G. }
  destruct tail as [|b tail].
  - assert (J : (exists l r, rev cs = RZero2 l :: r /\ row = zero_padded n (rle_expansion cs))
                \/ last_is_longb cs = true /\ row = zero_padded n (rle_expansion cs)).
    { destruct (rev cs) as [|[] r]; try (left; eexists _, _; split; [reflexivity|]; congruence);
        right; destruct (last_is_longb cs); try discriminate; (split; [reflexivity|congruence]). }
    destruct J as [(l & r & R & ->)|(G & ->)].
    + apply last_of in R. split; [exact LP|]. right. exists (rev r), l. rewrite app_nil_r in P1.
      rewrite <- R. auto.
    + split; [exact LP|]. left. apply K. right. apply LL. exact G.
  - assert (E : Some (zero_padded n (rle_expansion cs)) = Some row) by (destruct (rev cs) as [|[]]; exact H).
    injection E as <-. split; [exact LP|]. left. apply K. left. discriminate.
Qed.

Lemma rle_row_nearly_ok : forall fields n stored row, rle_row_nearly fields n stored = Some row ->
  lenN row = n /\ rle_blanks_last fields n stored row.
Proof.
  intros fields n stored row H. unfold rle_row_nearly in H.
  destruct (rle_parsed n stored) as [[cs [|b tail]]|] eqn:P; [|discriminate|discriminate].
  apply rle_parsed_ok in P. destruct P as (P1 & P2 & P3 & P4). rewrite app_nil_r in P1.
  destruct (rev cs) as [|[] r] eqn:R; try discriminate. apply last_of in R.
  destruct (clear_of _ _ _) eqn:C; [|discriminate]. injection H as <-.
  split; [apply lenN_padded; exact P3|]. exists (rev r), l. rewrite <- R.
  split; [exact P1|]. split; [reflexivity|]. split; [exact P2|]. split; [exact P3|].
  eapply forallb_Forall; [|exact C]. intros d D NU. cbv beta in D. rewrite NU in D. cbn [negb orb] in D. lia.
Qed.

Lemma rdc_all_validb_ok : forall is out, rdc_all_validb out is = true -> rdc_all_valid out is.
Proof.
  induction is as [|i is IH]; intros out H; [exact Logic.I|]. cbn [rdc_all_validb rdc_all_valid] in *.
  apply andb_true_iff in H. destruct H as [H1 H2]. split; [|apply IH; exact H2].
  destruct i; cbn in *; try exact Logic.I; lia.
Qed.

Lemma groups_okb_ok : forall gs, groups_okb gs = true -> groups_ok gs.
Proof.
  induction gs as [|g [|g' gs] IH]; intros H; [exact Logic.I|cbn in *; lia|].
  change (groups_okb (g :: g' :: gs)) with ((lenN g =? 16) && groups_okb (g' :: gs)) in H.
  apply andb_true_iff in H. destruct H as [H1 H2]. split; [lia|]. apply IH. exact H2.
Qed.

Lemma three_remainb_ok : forall gs tail, three_remainb gs tail = true -> three_remain gs tail.
Proof.
  intros gs tail H gs' g i -> NE. unfold three_remainb in H.
  rewrite (rev_last _ _ gs' (g ++ [i]) eq_refl), (rev_last _ _ g i eq_refl) in H.
  destruct (rev g) eqn:E; [|lia]. exfalso. apply NE. rewrite <- (rev_involutive g), E. reflexivity.
Qed.

Lemma rdc_parsed_ok : forall n stored gs tail, rdc_parsed n stored = Some (gs, tail) ->
  stored = rdc_encoding gs ++ tail /\ groups_ok gs /\ rdc_all_valid [] (concat gs)
  /\ lenN (rdc_expansion [] (concat gs)) <= n /\ (tail = [] \/ lenN (rdc_expansion [] (concat gs)) = n).
Proof.
  intros n stored gs0 tail0 H. unfold rdc_parsed in H. destruct (rdc_parse _ _ _ _) as [gs tail].
  destruct (bytes_eqb _ _) eqn:E; [|discriminate]. destruct (groups_okb gs) eqn:O; [|discriminate].
  destruct (rdc_all_validb _ _) eqn:V; [|discriminate].
  destruct (N.leb_spec (lenN (rdc_expansion [] (concat gs))) n) as [L|L]; [|discriminate]. cbn [andb] in H.
  match type of H with (if ?x then _ else _) = _ => destruct x eqn:G; [|discriminate] end.
  injection H as <- <-. apply bytes_eqb_true in E. split; [exact E|]. split; [apply groups_okb_ok; exact O|].
  split; [apply rdc_all_validb_ok; exact V|]. split; [exact L|].
  destruct tail; [left; reflexivity|right; apply N.eqb_eq; exact G].
Qed.

Lemma rdc_row_meant_ok : forall n stored row, rdc_row_meant n stored = Some row ->
  lenN row = n /\ rdc_meant n stored row.
Proof.
  intros n stored row H. unfold rdc_row_meant in H. destruct (rdc_parsed n stored) as [[gs tail]|] eqn:P; [|discriminate].
  apply rdc_parsed_ok in P. destruct P as (P1 & P2 & P3 & P4 & P5). injection H as <-.
  split; [apply lenN_padded; exact P4|]. exists gs, tail. auto 10.
Qed.

Lemma rdc_row_ok : forall n stored row, rdc_row n stored = Some row ->
  lenN row = n /\ rdc_stored n stored row.
Proof.
  intros n stored row H. unfold rdc_row in H. destruct (rdc_parsed n stored) as [[gs tail]|] eqn:P; [|discriminate].
  apply rdc_parsed_ok in P. destruct P as (P1 & P2 & P3 & P4 & P5).
  destruct (three_remainb gs (lenN tail)) eqn:T; [|discriminate]. injection H as <-.
  split; [apply lenN_padded; exact P4|]. exists gs, tail. apply three_remainb_ok in T. auto 10.
Qed.

(** ** Rows and fields *)

Definition row_from (unpack : N -> bytes -> option bytes) (rl : N) (stored : bytes) : option bytes :=
  if rl <=? lenN stored then Some (firstn (N.to_nat rl) stored) else unpack rl stored.

Lemma row_from_ok : forall unpack (made : bytes -> bytes -> Prop) rl stored row,
  (forall row, unpack rl stored = Some row -> lenN row = rl /\ made stored row) ->
  row_from unpack rl stored = Some row -> row_by made rl stored row.
Proof.
  intros unpack made rl stored row U H. unfold row_from in H. destruct (N.leb_spec rl (lenN stored)).
  - injection H as <-. split; [|left; auto]. rewrite lenN_firstn. lia.
  - apply U in H. destruct H as [H1 H2]. split; [exact H1|right; auto].
Qed.

Definition made_from (k : compression) : N -> bytes -> option bytes :=
  row_from (match k with CompNone => fun _ _ => None | CompRLE => rle_row | CompRDC => rdc_row end).

Lemma made_from_ok : forall k rl stored row, made_from k rl stored = Some row -> row_made k rl stored row.
Proof.
  intros k rl stored row. apply row_from_ok. intros x H. destruct k; [discriminate|apply rle_row_ok; exact H|].
  apply rdc_row_ok. exact H.
Qed.

Definition meant_from (k : compression) : N -> bytes -> option bytes :=
  row_from (match k with CompNone => fun _ _ => None | CompRLE => rle_row_meant | CompRDC => rdc_row_meant end).

Lemma meant_from_ok : forall k rl stored row, meant_from k rl stored = Some row -> row_meant k rl stored row.
Proof.
  intros k rl stored row. apply row_from_ok. intros x H. destruct k; [discriminate|apply rle_row_meant_ok; exact H|].
  apply rdc_row_meant_ok. exact H.
Qed.

Definition nearly_from (fields : list field_desc) (k : compression) (rl : N) (stored : bytes) : option bytes :=
  match made_from k rl stored with
  | Some row => Some row
  | None =>
      match k with
      | CompRLE => if lenN stored <? rl then rle_row_nearly fields rl stored else None
      | _ => None
      end
  end.

Lemma nearly_from_ok : forall fields k rl stored row, nearly_from fields k rl stored = Some row ->
  row_nearly_made fields k rl stored row.
Proof.
  intros fields k rl stored row H. unfold nearly_from in H.
  destruct (made_from k rl stored) as [x|] eqn:E.
  - injection H as <-. left. apply made_from_ok. exact E.
  - destruct k; try discriminate. destruct (N.ltb_spec (lenN stored) rl) as [L|L]; [|discriminate].
    apply rle_row_nearly_ok in H. right. tauto.
Qed.

Fixpoint all_some {A B} (f : A -> option B) (l : list A) : option (list B) :=
  match l with
  | [] => Some []
  | x :: l' => match f x, all_some f l' with Some y, Some r => Some (y :: r) | _, _ => None end
  end.

Lemma all_some_ok : forall A B (f : A -> option B) l r, all_some f l = Some r ->
  Forall2 (fun x y => f x = Some y) l r.
Proof.
  intros A B f. induction l as [|x l IH]; intros r H; cbn in H.
  - injection H as <-. constructor.
  - destruct (f x) eqn:E; [|discriminate]. destruct (all_some f l); [|discriminate]. injection H as <-.
    constructor; auto.
Qed.

Definition field_from (m : mstate) (i : nat) : option field_desc :=
  match nth_error (m_names m) i, nth_error (m_labels m) i, nth_error (m_formats m) i,
        nth_error (m_offsets m) i, nth_error (m_lengths m) i, nth_error (m_types m) i with
  | Some n, Some l, Some f, Some o, Some len, Some TNumber => Some (FieldDesc n l f o len true)
  | Some n, Some l, Some f, Some o, Some len, Some TString => Some (FieldDesc n l f o len false)
  | _, _, _, _, _, _ => None
  end.

Definition fields_from (m : mstate) : option (list field_desc) :=
  all_some (field_from m) (seq 0 (N.to_nat (md_column_count (m_md m)))).

Lemma fields_from_ok : forall m fields, fields_from m = Some fields -> fields_said m fields.
Proof.
  intros m fields H. apply all_some_ok in H. set (n := N.to_nat (md_column_count (m_md m))) in H.
  assert (L : length fields = n).
  { clear -H. remember (seq 0 n) as l eqn:E. assert (X : length l = n) by (subst l; apply seq_length).
    rewrite <- X. clear -H. induction H; cbn; congruence. }
  split; [unfold lenN; lia|]. intros i d I.
  assert (F : field_from m i = Some d).
  { assert (B : (i < n)%nat) by (rewrite <- L; apply nth_error_Some; congruence).
    assert (G : forall l l' j, Forall2 (fun x y => field_from m x = Some y) l l' -> nth_error l' j = Some d ->
              exists x, nth_error l j = Some x /\ field_from m x = Some d).
    { clear. intros l l' j H. revert j. induction H; intros [|j] I; cbn in *; try discriminate.
      - injection I as <-. eauto.
      - apply IHForall2. exact I. }
    destruct (G _ _ i H I) as (x & X & Y).
    assert (x = i).
    { assert (Z : nth_error (seq 0 n) i = Some (nth i (seq 0 n) 0%nat))
        by (apply nth_error_nth'; rewrite seq_length; exact B).
      rewrite seq_nth in Z by exact B. rewrite X in Z. injection Z as ->. reflexivity. }
    subst x. exact Y. }
  unfold field_from in F.
  destruct (nth_error (m_names m) i); [|discriminate]. destruct (nth_error (m_labels m) i); [|discriminate].
  destruct (nth_error (m_formats m) i); [|discriminate]. destruct (nth_error (m_offsets m) i); [|discriminate].
  destruct (nth_error (m_lengths m) i); [|discriminate].
  destruct (nth_error (m_types m) i) as [[]|]; try discriminate; injection F as <-; cbn; auto 10.
Qed.

(** ** Files *)

Definition date_shownb (bits : N) : bool :=
  match get_datetime_from_epoch (sf_of_bits bits) with
  | Ok t => match datetime_to_string t with Ok _ => true | _ => false end
  | _ => false
  end.

Lemma date_shownb_ok : forall bits, date_shownb bits = true -> date_shown bits.
Proof.
  intros bits H. unfold date_shownb in H.
  destruct (get_datetime_from_epoch (sf_of_bits bits)) as [t| | | |] eqn:E; try discriminate.
  destruct (datetime_to_string t) as [s| | | |] eqn:F; try discriminate.
  exists t. split; [exact E|]. exists s. exact F.
Qed.

Definition the_magic : list N :=
  [0; 0; 0; 0; 0; 0; 0; 0; 0; 0; 0; 0; 0xc2; 0xea; 0x81; 0x60;
   0xb3; 0x14; 0x11; 0xcf; 0xbd; 0x92; 0x08; 0x00; 0x09; 0xc7; 0x31; 0x8c;
   0x18; 0x1f; 0x10; 0x11].

Definition header_goodb (content : bytes) : bool :=
  (if list_eq_dec N.eq_dec (map Byte.to_N (field content 0 32)) the_magic then true else false)
  && (288 + shift2 content <=? header_length_field content) && (header_length_field content <=? lenN content)
  && date_shownb (value_of (file_endian content) (field content (164 + shift1 content) 8))
  && date_shownb (value_of (file_endian content) (field content (172 + shift1 content) 8)).

Definition file_table (from : list field_desc -> compression -> N -> bytes -> option bytes) (c : cfg)
    (content : bytes) : option (list field_desc * list bytes) :=
  let m := said content in
  let d := m_md m in
  let pages := pages_in content in
  if header_goodb content
     && (prefix (file_format content) + 6 <=? page_length_field content)
     && pages_fitb (base_layout content) empty_mstate pages
     && good_datab (full_layout content) pages && clear_startb (full_layout content) false pages
     && (max_alloc c <? row_limit) && (header_length_field content <=? max_alloc c)
     && (page_length_field content <=? max_alloc c) && (length pages <? page_fuel c)%nat
     && (120 * md_column_count d <=? max_alloc c)
     && (match md_compression d with CompNone => true | _ => false end || (md_row_length d <=? max_alloc c))
  then
    match fields_from m with
    | Some fields =>
        match all_some (from fields (md_compression d) (md_row_length d))
                (firstn (N.to_nat (md_row_count d)) (stored_in content)) with
        | Some rows => if lenN rows =? md_row_count d then Some (fields, rows) else None
        | None => None
        end
    | None => None
    end
  else None.

Lemma file_table_ok : forall from (made : list field_desc -> compression -> N -> bytes -> bytes -> Prop) c content fields rows,
  (forall fields k rl stored row, from fields k rl stored = Some row -> made fields k rl stored row) ->
  file_table from c content = Some (fields, rows) -> file_with (made fields) c content fields rows.
Proof.
  intros from made c content fields rows FM H. unfold file_table in H. cbv zeta in H.
  destruct (header_goodb content) eqn:H1; [|discriminate]. cbn [andb] in H.
  destruct (N.leb_spec (prefix (file_format content) + 6) (page_length_field content)); [|discriminate]. cbn [andb] in H.
  destruct (pages_fitb (base_layout content) empty_mstate (pages_in content)) eqn:H2; [|discriminate]. cbn [andb] in H.
  destruct (good_datab (full_layout content) (pages_in content)) eqn:H3; [|discriminate]. cbn [andb] in H.
  destruct (clear_startb (full_layout content) false (pages_in content)) eqn:H4; [|discriminate]. cbn [andb] in H.
  destruct (N.ltb_spec (max_alloc c) row_limit); [|discriminate]. cbn [andb] in H.
  destruct (N.leb_spec (header_length_field content) (max_alloc c)); [|discriminate]. cbn [andb] in H.
  destruct (N.leb_spec (page_length_field content) (max_alloc c)); [|discriminate]. cbn [andb] in H.
  destruct (Nat.ltb_spec (length (pages_in content)) (page_fuel c)); [|discriminate]. cbn [andb] in H.
  destruct (N.leb_spec (120 * md_column_count (m_md (said content))) (max_alloc c)); [|discriminate]. cbn [andb] in H.
  destruct (_ || _) eqn:HC; [|discriminate].
  destruct (fields_from (said content)) as [fs|] eqn:F; [|discriminate].
  destruct (all_some _ _) as [rs|] eqn:R; [|discriminate].
  destruct (N.eqb_spec (lenN rs) (md_row_count (m_md (said content)))) as [E|E]; [|discriminate].
  injection H as <- <-. split; [|exact E]. unfold file_part. cbv zeta. split.
  { unfold header_goodb in H1. destruct (list_eq_dec _ _ _) as [M|M]; [|discriminate]. cbn [andb] in H1.
    apply andb_true_iff in H1. destruct H1 as [H1 D2]. apply andb_true_iff in H1. destruct H1 as [H1 D1].
    apply andb_true_iff in H1. destruct H1 as [A B].
    split; [exact M|]. split; [split; apply N.leb_le; assumption|]. split; apply date_shownb_ok; assumption. }
  split; [assumption|]. split; [apply pages_fitb_ok; exact H2|]. split; [apply fields_from_ok; exact F|].
  split; [apply good_datab_ok; exact H3|]. split; [apply clear_startb_ok; exact H4|].
  split. { apply all_some_ok in R. clear -R FM. unfold rows_found. cbv zeta. induction R; constructor; auto. }
  repeat (split; [assumption|]). apply orb_true_iff in HC. destruct HC as [HC|HC]; [left|right; apply N.leb_le; exact HC].
  destruct (md_compression (m_md (said content))); [reflexivity|discriminate|discriminate].
Qed.

Definition conforming : cfg -> bytes -> option (list field_desc * list bytes) := file_table (fun _ => made_from).
Definition nearly_conforming : cfg -> bytes -> option (list field_desc * list bytes) := file_table nearly_from.
Definition meaning_of : cfg -> bytes -> option (list field_desc * list bytes) := file_table (fun _ => meant_from).

Lemma conforming_ok : forall c content fields rows, conforming c content = Some (fields, rows) ->
  conforms c content fields rows.
Proof. intros c content fields rows. apply (file_table_ok _ (fun _ => row_made)). intros _. exact made_from_ok. Qed.

Lemma nearly_conforming_ok : forall c content fields rows, nearly_conforming c content = Some (fields, rows) ->
  nearly_conforms c content fields rows.
Proof. intros c content fields rows. apply (file_table_ok _ row_nearly_made). exact nearly_from_ok. Qed.

Lemma meaning_of_ok : forall c content fields rows, meaning_of c content = Some (fields, rows) ->
  file_with row_meant c content fields rows.
Proof. intros c content fields rows. apply (file_table_ok _ (fun _ => row_meant)). intros _. exact meant_from_ok. Qed.
