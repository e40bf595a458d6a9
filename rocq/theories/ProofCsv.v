(** Proofs about the csv, print and null sinks. *)
From Verif Require Import Base Lemmas Types Float DateTime Column Header Metadata Reader SpecReader Sinks
  SpecValues ProofValues SpecTime ProofText SpecSinks.
Local Open Scope N_scope.

(** ** Values *)

Lemma value_cell : forall c p v,
  column_value c p = Ok v <->
  (if known c then exists x, v = Some x /\ cell_value c p x else v = None).
Proof.
  intros c p v. unfold column_value, known. split.
  - intros H. destruct (c_type c) eqn:T;
      try (match goal with |- exists _, _ => idtac end;
           match type of H with (bind ?m _ = _) => destruct m as [y| | | |] eqn:G; try discriminate end;
           cbn [bind] in H; injection H as <-; eexists; split; [reflexivity|split; [exact T|exact G]]).
    injection H as <-. reflexivity.
  - intros H. destruct (c_type c) eqn:T; try (subst v; reflexivity);
      destruct H as (x & -> & X); destruct x; cbn [cell_value] in X; destruct X as [X1 X2];
      rewrite T in X1; try discriminate; rewrite X2; reflexivity.
Qed.

Lemma mapM_Ok : forall A B (f : A -> res B) l r, mapM f l = Ok r <-> Forall2 (fun a b => f a = Ok b) l r.
Proof.
  induction l as [|a l IH]; intros r; cbn [mapM].
  - split; [intros H; injection H as <-; constructor|]. intros H. inversion H. reflexivity.
  - split.
    + intros H. destruct (f a) as [b| | | |] eqn:E; try discriminate. cbn [bind] in H.
      destruct (mapM f l) as [l'| | | |] eqn:E2; try discriminate. cbn [bind] in H.
      injection H as <-. constructor; [exact E|]. apply IH. reflexivity.
    + intros H. inversion H as [|? b ? l' H1 H2]; subst. rewrite H1. cbn [bind].
      apply IH in H2. rewrite H2. reflexivity.
Qed.

(** ** Decimal texts *)

Lemma digits_value_digit : forall acc n, (n < 10)%N ->
  digits_value acc [digit n] = Some (acc * 10 + Z.of_N n)%Z.
Proof.
  intros acc n H. cbn [digits_value]. unfold digit. rewrite b2n_n2b, N.mod_small by lia.
  replace (Z.of_N (48 + n) - 48)%Z with (Z.of_N n) by lia.
  destruct (Z.leb_spec 0 (Z.of_N n)), (Z.leb_spec (Z.of_N n) 9); try lia. reflexivity.
Qed.

Lemma digits_value_app : forall a b acc,
  digits_value acc (a ++ b) = match digits_value acc a with Some x => digits_value x b | None => None end.
Proof.
  induction a as [|x a IH]; intros b acc; cbn [app digits_value]; [reflexivity|].
  destruct (_ && _)%bool; [apply IH|reflexivity].
Qed.

Lemma digits_value_digits : forall w n acc, (0 <= n < 10 ^ Z.of_nat w)%Z ->
  digits_value acc (digits w n) = Some (acc * 10 ^ Z.of_nat w + n)%Z.
Proof.
  induction w as [|w IH]; intros n acc H.
  - cbn [digits digits_value Z.of_nat] in *. change (10 ^ 0)%Z with 1%Z in *. f_equal. lia.
  - rewrite digits_last, digits_value_app by lia.
    rewrite Nat2Z.inj_succ, Z.pow_succ_r in * by lia.
    rewrite IH.
    + pose proof (Z.mod_pos_bound n 10 ltac:(lia)) as B.
      rewrite digits_value_digit by lia. rewrite Z2N.id by lia. f_equal.
      pose proof (Z.div_mod n 10 ltac:(lia)). lia.
    + split; [apply Z.div_pos; lia|]. apply Z.div_lt_upper_bound; lia.
Qed.

Lemma dec_value : forall n, dec n <> [] /\ digits_value 0 (dec n) = Some (Z.of_N n).
Proof.
  intros n.
  assert (B : (n < 10 ^ N.of_nat (Datatypes.S (N.to_nat (N.log2 n))))%N).
  { destruct (N.eq_dec n 0) as [->|N0]; [reflexivity|].
    rewrite Nat2N.inj_succ, N2Nat.id. apply (N.lt_le_trans _ (2 ^ N.succ (N.log2 n))).
    - apply N.log2_spec. lia.
    - apply N.pow_le_mono_l. discriminate. }
  destruct (width_exists _ n B) as (k & _ & K1 & K2).
  rewrite (dec_digits k n K1 K2). split.
  - intros E. apply (f_equal (@length byte)) in E. rewrite digits_length in E. discriminate.
  - rewrite digits_value_digits.
    + f_equal; lia.
    + split; [lia|]. apply N2Z.inj_lt in K1. rewrite N2Z.inj_pow, nat_N_Z in K1. exact K1.
Qed.

Lemma dec_Z_decimal : forall z, decimal (dec_Z z) z.
Proof.
  intros z. unfold dec_Z, decimal. destruct (Z.ltb_spec z 0) as [L|L].
  - destruct (dec_value (Z.to_N (- z))) as [D1 D2]. exists (dec (Z.to_N (- z))).
    split; [exact D1|]. split; [|reflexivity]. rewrite D2. f_equal. lia.
  - destruct (dec_value (Z.to_N z)) as [D1 D2]. exists (dec (Z.to_N z)).
    split; [exact D1|]. split; [|reflexivity]. rewrite D2. f_equal. lia.
Qed.

(** Two decimal texts of the same number have the same value; distinct numbers have
    distinct texts. *)
Lemma decimal_inj : forall t z z', decimal t z -> decimal t z' -> z = z'.
Proof.
  intros t z z' (r & N1 & V1 & E1) (r' & N2 & V2 & E2).
  assert (H45 : forall l x, digits_value 0 (x2d :: l) <> Some x) by (intros; discriminate).
  destruct (Z.ltb_spec z 0), (Z.ltb_spec z' 0); subst t.
  - injection E2 as <-. rewrite V1 in V2. injection V2 as V2. lia.
  - subst r'. exfalso. exact (H45 _ _ V2).
  - subst r. exfalso. exact (H45 _ _ V1).
  - subst r'. rewrite V1 in V2. injection V2 as V2. lia.
Qed.

Lemma decimal_bare : forall t z, decimal t z -> bare t.
Proof.
  intros t z (r & _ & V & E).
  assert (K : forall r acc x b, digits_value acc r = Some x -> In b r -> (48 <= b2n b <= 57)%N).
  { clear. induction r as [|y r IH]; intros acc x b H I; [contradiction|].
    cbn [digits_value] in H.
    destruct (Z.leb_spec 0 (Z.of_N (b2n y) - 48)) as [L1|L1]; [|discriminate].
    destruct (Z.leb_spec (Z.of_N (b2n y) - 48) 9) as [L2|L2]; [|discriminate].
    cbn [andb] in H. destruct I as [->|I]; [lia|]. eapply IH; eassumption. }
  specialize (fun b => K r 0%Z (Z.abs z) b V) as K2. clear K. rename K2 into K.
  assert (G : forall b, In b t -> b = x2d \/ (48 <= b2n b <= 57)%N).
  { intros b I. subst t. destruct (z <? 0)%Z; [destruct I as [<-|I]; [left; reflexivity|]|];
      right; eapply K; eassumption. }
  split; [split|]; intros I; destruct (G _ I) as [B|B]; try discriminate B; vm_compute in B;
    destruct B as [B1 B2]; try (apply B1; reflexivity); try (apply B2; reflexivity).
Qed.

(** ** Fields *)

Lemma fields_plain : forall s cur r, ~ In x22 s -> ~ In x2c s ->
  fields false cur (s ++ r) = fields false (cur ++ s) r.
Proof.
  induction s as [|b s IH]; intros cur r H1 H2; cbn [app fields]; [rewrite app_nil_r; reflexivity|].
  destruct (beq b x22) eqn:E1; [apply beq_true in E1; subst b; exfalso; apply H1; left; reflexivity|].
  destruct (beq b x2c) eqn:E2; [apply beq_true in E2; subst b; exfalso; apply H2; left; reflexivity|].
  cbn [andb negb]. rewrite IH.
  - rewrite <- app_assoc. reflexivity.
  - intros I. apply H1. right. exact I.
  - intros I. apply H2. right. exact I.
Qed.

Lemma fields_inside : forall s cur r, ~ In x22 s ->
  fields true cur (s ++ r) = fields true (cur ++ s) r.
Proof.
  induction s as [|b s IH]; intros cur r H1; cbn [app fields]; [rewrite app_nil_r; reflexivity|].
  destruct (beq b x22) eqn:E1; [apply beq_true in E1; subst b; exfalso; apply H1; left; reflexivity|].
  rewrite andb_false_r. rewrite IH.
  - rewrite <- app_assoc. reflexivity.
  - intros I. apply H1. right. exact I.
Qed.

(** A field: bare, or a clean text between quotes. *)
Definition field (t : bytes) : Prop :=
  bare t \/ exists s, clean s /\ t = [x22] ++ s ++ [x22].

Lemma fields_field : forall t r, field t ->
  fields false [] (t ++ r) = fields false t r.
Proof.
  intros t r [[[Q _] C]|(s & [Q _] & ->)].
  - rewrite fields_plain by assumption. reflexivity.
  - cbn [app fields beq]. change (beq x22 x22) with true. cbn [negb app].
    rewrite <- app_assoc, fields_inside by exact Q. cbn [app fields]. change (beq x22 x22) with true.
    cbn [negb app]. reflexivity.
Qed.

Lemma fields_join : forall l, l <> [] -> Forall field l -> csv_fields (join comma l) = l.
Proof.
  unfold csv_fields. induction l as [|t l IH]; intros N F; [congruence|].
  inversion F as [|? ? F1 F2]; subst. destruct l as [|u l].
  - cbn [join]. rewrite <- (app_nil_r t) at 1. rewrite fields_field by exact F1. reflexivity.
  - change (join comma (t :: u :: l)) with (t ++ comma ++ join comma (u :: l)).
    rewrite fields_field by exact F1. cbn [comma app fields].
    change (beq x2c x22) with false. change (beq x2c x2c) with true. cbn [negb andb].
    f_equal. apply IH; [discriminate|exact F2].
Qed.

Lemma join_no_newline : forall l, Forall (fun t => ~ In x0a t) l -> ~ In x0a (join comma l).
Proof.
  induction l as [|t l IH]; intros F; [intros []|].
  inversion F as [|? ? F1 F2]; subst. destruct l as [|u l]; [exact F1|].
  change (join comma (t :: u :: l)) with (t ++ comma ++ join comma (u :: l)).
  intros I. apply in_app_or in I. destruct I as [I|I]; [exact (F1 I)|].
  destruct I as [I|I]; [discriminate I|]. exact (IH F2 I).
Qed.

Lemma field_no_newline : forall t, field t -> ~ In x0a t.
Proof.
  intros t [[[_ H] _]|(s & [_ H] & ->)]; [exact H|].
  intros I. apply in_app_or in I. destruct I as [[I|[]]|I]; [discriminate|].
  apply in_app_or in I. destruct I as [I|[I|[]]]; [exact (H I)|discriminate].
Qed.

(** ** The lines of the csv sink *)

Lemma shown_field : forall f c p t, bare_formats f ->
  (forall s, c_get_string c p = Ok s -> clean s) ->
  (if known c then exists v, cell_value c p v /\ csv_shows f v t else t = []) -> field t.
Proof.
  intros f c p t (PN & PT & PD & PH) CL H.
  assert (E : bare []) by (split; [split|]; intros []).
  destruct (known c); [|subst t; left; exact E].
  destruct H as (v & C & S). destruct v; cbn [csv_shows cell_value] in *.
  - right. exists s. split; [apply CL, C|exact S].
  - left. apply (decimal_bare t z S).
  - left. rewrite S. destruct (sf_isnan (sf_of_bits bits)); [exact E|apply PN].
  - left. rewrite S. apply PT.
  - left. rewrite S. apply PD.
  - left. rewrite S. apply PH.
Qed.

Lemma csv_field_shows : forall f c p v, column_value c p = Ok v ->
  (if known c then exists x, cell_value c p x /\ csv_shows f x (csv_field f v) else csv_field f v = []).
Proof.
  intros f c p v H. apply value_cell in H. destruct (known c); [|subst v; reflexivity].
  destruct H as (x & -> & C). exists x. split; [exact C|].
  destruct x; cbn [csv_field csv_shows]; try reflexivity. apply dec_Z_decimal.
Qed.

Lemma csv_row_line : forall f cs p out, bare_formats f -> cs <> [] -> texts_clean cs p ->
  csv_row f cs p = Ok out ->
  exists line, out = line ++ [x0a] /\ csv_line_of f cs p line.
Proof.
  intros f cs p out PF NE CL H. unfold csv_row in H.
  destruct (mapM (fun c => column_value c p) cs) as [vs| | | |] eqn:M; try discriminate.
  cbn [bind] in H. injection H as <-. apply mapM_Ok in M.
  exists (join comma (map (csv_field f) vs)). split; [reflexivity|].
  assert (F2 : Forall2 (fun c t => if known c then exists v, cell_value c p v /\ csv_shows f v t else t = [])
                 cs (map (csv_field f) vs)).
  { clear NE CL. induction M; cbn [map]; constructor; [|exact IHM].
    apply csv_field_shows. exact H. }
  assert (FF : Forall field (map (csv_field f) vs)).
  { clear M NE. induction F2; constructor.
    - apply (shown_field f x p y PF); [|exact H]. intros s G. apply (CL x s); [left; reflexivity|exact G].
    - apply IHF2. intros c s I G. apply (CL c s); [right; exact I|exact G]. }
  assert (NV : map (csv_field f) vs <> []).
  { intros E. rewrite E in F2. inversion F2. subst. congruence. }
  split.
  - apply join_no_newline. eapply Forall_impl; [|exact FF]. intros t. apply field_no_newline.
  - rewrite fields_join by assumption. exact F2.
Qed.

Lemma csv_header_line : forall cs, cs <> [] -> names_clean cs ->
  exists line, csv_header cs = line ++ [x0a] /\ ~ In x0a line
    /\ csv_fields line = map (fun c => [x22] ++ c_name c ++ [x22]) cs.
Proof.
  intros cs NE CL. exists (join comma (map (fun c => csv_quoted (c_name c)) cs)).
  split; [reflexivity|].
  assert (FF : Forall field (map (fun c => csv_quoted (c_name c)) cs)).
  { apply Forall_map. eapply Forall_impl; [|exact CL]. intros c K. right. exists (c_name c).
    split; [exact K|reflexivity]. }
  split.
  - apply join_no_newline. eapply Forall_impl; [|exact FF]. intros t. apply field_no_newline.
  - rewrite fields_join; [reflexivity| |exact FF]. destruct cs; [congruence|discriminate].
Qed.

Lemma csv_feed : forall f cs evs out st, bare_formats f -> cs <> [] -> no_props evs ->
  Forall (fun r => texts_clean cs (snd r)) (rows_of evs) ->
  feed (csv_step f) (cs, out) evs = Ok st ->
  exists lines, st = (cs, out ++ concat (map (fun l => l ++ [x0a]) lines))
    /\ Forall2 (fun r line => csv_line_of f cs (snd r) line) (rows_of evs) lines.
Proof.
  intros f cs evs. induction evs as [|ev evs IH]; intros out st PF NE NP CL H; cbn [feed] in H.
  - injection H as <-. exists []. cbn. rewrite app_nil_r. split; [reflexivity|constructor].
  - inversion NP as [|? ? NP1 NP2]; subst. destruct ev as [h md|i p|]; [contradiction| |].
    + cbn [csv_step] in H. destruct (csv_row f cs p) as [line| | | |] eqn:R; try discriminate.
      cbn [bind] in H. change (rows_of (EvRow i p :: evs)) with ((i, p) :: rows_of evs) in *.
      inversion CL as [|? ? C1 C2]; subst. cbn [snd] in C1.
      destruct (csv_row_line f cs p line PF NE C1 R) as (l & -> & L).
      destruct (IH _ _ PF NE NP2 C2 H) as (lines & -> & F2). exists (l :: lines).
      split; [cbn [map concat]; rewrite <- !app_assoc; reflexivity|]. constructor; [exact L|exact F2].
    + cbn [csv_step] in H. cbn [bind] in H. apply IH; assumption.
Qed.

(** The sink fails only when a getter does. *)
Lemma csv_runs : forall f cs evs out, no_props evs ->
  readable cs (rows_of evs) ->
  exists st, feed (csv_step f) (cs, out) evs = Ok st.
Proof.
  intros f cs evs. induction evs as [|ev evs IH]; intros out NP H; [eexists; reflexivity|].
  inversion NP as [|? ? NP1 NP2]; subst. destruct ev as [h md|i p|]; [contradiction| |].
  - change (rows_of (EvRow i p :: evs)) with ((i, p) :: rows_of evs) in *.
    inversion H as [|? ? H1 H2]; subst. cbn [snd] in H1. cbn [feed csv_step].
    assert (M : exists vs, mapM (fun c => column_value c p) cs = Ok vs).
    { clear -H1. induction cs as [|c cs IH]; [exists []; reflexivity|].
      inversion H1 as [|? ? A B]; subst. destruct (IH B) as [vs E].
      assert (C : exists v, column_value c p = Ok v).
      { destruct (known c) eqn:K.
        - destruct (A eq_refl) as [v V]. exists (Some v). apply value_cell. rewrite K. exists v. auto.
        - exists None. apply value_cell. rewrite K. reflexivity. }
      destruct C as [v V]. exists (v :: vs). cbn [mapM]. rewrite V. cbn [bind]. rewrite E. reflexivity. }
    destruct M as [vs M]. unfold csv_row. rewrite M. cbn [bind]. apply IH; assumption.
  - cbn [feed csv_step bind]. apply IH; assumption.
Qed.

Lemma csv_output : forall f h md evs, bare_formats f -> md_columns md <> [] ->
  names_clean (md_columns md) -> no_props evs -> readable (md_columns md) (rows_of evs) ->
  Forall (fun r => texts_clean (md_columns md) (snd r)) (rows_of evs) ->
  exists header lines, csv_run f (EvProps h md :: evs) = Ok (concat (map (fun l => l ++ [x0a]) (header :: lines)))
    /\ ~ In x0a header
    /\ csv_fields header = map (fun c => [x22] ++ c_name c ++ [x22]) (md_columns md)
    /\ Forall2 (fun r line => csv_line_of f (md_columns md) (snd r) line) (rows_of evs) lines.
Proof.
  intros f h md evs PF NE NC NP RD TC. unfold csv_run. cbn [feed csv_step app]. cbn [bind].
  destruct (csv_runs f (md_columns md) evs (csv_header (md_columns md)) NP RD) as [st FE].
  rewrite FE. cbn [bind].
  destruct (csv_header_line (md_columns md) NE NC) as (hl & HE & HN & HF).
  destruct (csv_feed f (md_columns md) evs _ _ PF NE NP TC FE) as (lines & -> & F2).
  exists hl, lines. cbn [snd map concat]. rewrite HE. split; [reflexivity|].
  split; [exact HN|]. split; [exact HF|exact F2].
Qed.

(** Without columns: empty lines. *)
Lemma csv_no_columns : forall f h md evs, md_columns md = [] -> no_props evs ->
  csv_run f (EvProps h md :: evs) = Ok (repeat x0a (Datatypes.S (length (rows_of evs)))).
Proof.
  intros f h md evs E NP. unfold csv_run. cbn [feed csv_step app]. cbn [bind]. rewrite E.
  assert (G : forall evs out, no_props evs ->
            feed (csv_step f) ([], out) evs = Ok ([], out ++ repeat x0a (length (rows_of evs)))).
  { clear. induction evs as [|ev evs IH]; intros out NP; [cbn; rewrite app_nil_r; reflexivity|].
    inversion NP as [|? ? NP1 NP2]; subst. destruct ev as [h md|i p|]; [contradiction| |].
    - cbn [feed csv_step csv_row mapM bind map join app]. rewrite IH by exact NP2. cbn. rewrite <- app_assoc. reflexivity.
    - cbn [feed csv_step bind]. apply IH, NP2. }
  rewrite G by exact NP. reflexivity.
Qed.

(** ** Text columns: the line determines the texts *)

Lemma quoted_inj : forall a b : bytes, [x22] ++ a ++ [x22] = [x22] ++ b ++ [x22] -> a = b.
Proof.
  intros a b H. injection H as H. apply app_inj_tail in H. apply H.
Qed.

Lemma csv_line_det : forall f cs p q line line', bare_formats f -> cs <> [] ->
  Forall (fun c => c_type c = TString) cs ->
  texts_clean cs p -> texts_clean cs q ->
  csv_row f cs p = Ok line -> csv_row f cs q = Ok line' -> line = line' ->
  Forall (fun c => c_get_string c p = c_get_string c q) cs.
Proof.
  intros f cs p q line line' PF NE TS C1 C2 R1 R2 E. subst line'.
  destruct (csv_row_line f cs p line PF NE C1 R1) as (l1 & E1 & _ & F1).
  destruct (csv_row_line f cs q line PF NE C2 R2) as (l2 & E2 & _ & F2).
  rewrite E1 in E2. apply app_inj_tail in E2. destruct E2 as [<- _].
  clear -F1 F2 TS. revert F1 F2. generalize (csv_fields l1) as ts.
  induction TS as [|c cs T TS IH]; intros ts F1 F2; [constructor|].
  inversion F1 as [|? t ? ts' A1 B1]; subst. inversion F2 as [|? t' ? ts'' A2 B2]; subst.
  constructor; [|apply (IH ts'); assumption].
  unfold known in *. rewrite T in *. destruct A1 as (v1 & V1 & S1), A2 as (v2 & V2 & S2).
  destruct v1; cbn [cell_value] in V1; destruct V1 as [T1 G1]; try (rewrite T in T1; discriminate).
  destruct v2; cbn [cell_value] in V2; destruct V2 as [T2 G2]; try (rewrite T in T2; discriminate).
  cbn [csv_shows] in *. rewrite S1 in S2. apply quoted_inj in S2. congruence.
Qed.

(** ** The print sink *)

Lemma fmt_noargs_plain : forall s, ~ In x7b s -> ~ In x7d s -> fmt_noargs s = Ok s.
Proof.
  induction s as [|b s IH]; intros H1 H2; cbn [fmt_noargs]; [reflexivity|].
  destruct (beq b x7b) eqn:E1; [apply beq_true in E1; subst b; exfalso; apply H1; left; reflexivity|].
  destruct (beq b x7d) eqn:E2; [apply beq_true in E2; subst b; exfalso; apply H2; left; reflexivity|].
  rewrite IH; [reflexivity| |]; intros I; [apply H1|apply H2]; right; exact I.
Qed.

Lemma fmt_noargs_length : forall s t, fmt_noargs s = Ok t -> (length t <= length s)%nat.
Proof.
  assert (G : forall n s t, (length s <= n)%nat -> fmt_noargs s = Ok t -> (length t <= length s)%nat).
  { induction n as [|n IH]; intros s t L H.
    - destruct s; [injection H as <-; lia|cbn in L; lia].
    - destruct s as [|b s]; cbn [fmt_noargs] in H; [injection H as <-; reflexivity|].
      cbn [length] in L. destruct (beq b x7b).
      + destruct s as [|b' s]; [discriminate|]. destruct (beq b' x7b); [|discriminate].
        destruct (fmt_noargs s) as [u| | | |] eqn:E; try discriminate. cbn [bind] in H.
        injection H as <-. cbn [length] in *. apply IH in E; lia.
      + destruct (beq b x7d).
        * destruct s as [|b' s]; [discriminate|]. destruct (beq b' x7d); [|discriminate].
          destruct (fmt_noargs s) as [u| | | |] eqn:E; try discriminate. cbn [bind] in H.
          injection H as <-. cbn [length] in *. apply IH in E; lia.
        * destruct (fmt_noargs s) as [u| | | |] eqn:E; try discriminate. cbn [bind] in H.
          injection H as <-. cbn [length] in *. apply IH in E; lia. }
  intros s t. apply (G (length s)). lia.
Qed.

Lemma fmt_noargs_verbatim : forall s, fmt_noargs s = Ok s <-> ~ In x7b s /\ ~ In x7d s.
Proof.
  intros s. split; [|intros [H1 H2]; apply fmt_noargs_plain; assumption].
  induction s as [|b s IH]; intros H; [split; intros []|]. cbn [fmt_noargs] in H.
  destruct (beq b x7b) eqn:E1.
  - exfalso. destruct s as [|b' s]; [discriminate|]. destruct (beq b' x7b); [|discriminate].
    destruct (fmt_noargs s) as [u| | | |] eqn:E; try discriminate. cbn [bind] in H.
    apply fmt_noargs_length in E. injection H as _ H. subst u. cbn in E. lia.
  - destruct (beq b x7d) eqn:E2.
    + exfalso. destruct s as [|b' s]; [discriminate|]. destruct (beq b' x7d); [|discriminate].
      destruct (fmt_noargs s) as [u| | | |] eqn:E; try discriminate. cbn [bind] in H.
      apply fmt_noargs_length in E. injection H as _ H. subst u. cbn in E. lia.
    + destruct (fmt_noargs s) as [u| | | |] eqn:E; try discriminate. cbn [bind] in H.
      injection H as ->. destruct (IH eq_refl) as [I1 I2].
      split; intros [->|I]; auto; vm_compute in E1, E2; discriminate.
Qed.

Lemma print_header_names : forall props h md,
  Forall (fun c => ~ In x7b (c_name c) /\ ~ In x7d (c_name c)) (md_columns md) ->
  print_header props h md
  = Ok (props h md ++ bs "#" ++ concat (map (fun c => [x2c] ++ c_name c) (md_columns md)) ++ [x0a]).
Proof.
  intros props h md H. unfold print_header.
  assert (M : mapM (fun c => t <- fmt_noargs (c_name c) ;; Ok (comma ++ t)) (md_columns md)
              = Ok (map (fun c => [x2c] ++ c_name c) (md_columns md))).
  { apply mapM_Ok. induction H as [|c cs [H1 H2] H IH]; cbn [map]; constructor; [|exact IH].
    rewrite fmt_noargs_plain by assumption. reflexivity. }
  rewrite M. reflexivity.
Qed.

Lemma concat_names : forall (l m : list bytes), Forall2 (fun a b => (length b <= length a)%nat) l m ->
  concat (map (fun t => [x2c] ++ t) l) = concat (map (fun t => [x2c] ++ t) m) -> l = m.
Proof.
  intros l m F. induction F as [|a b l m H F IH]; intros E; [reflexivity|].
  assert (L : forall l m, Forall2 (fun a b : bytes => (length b <= length a)%nat) l m ->
            (length (concat (map (fun t => [x2c] ++ t) m)) <= length (concat (map (fun t => [x2c] ++ t) l)))%nat).
  { clear. intros l m F. induction F; cbn [map concat]; [reflexivity|]. rewrite !app_length. cbn [length]. lia. }
  cbn [map concat] in E. pose proof (f_equal (@length byte) E) as EL. rewrite !app_length in EL.
  specialize (L l m F). cbn [app] in E. injection E as E.
  assert (LE : length a = length b) by lia.
  assert (X : a = b /\ concat (map (fun t => [x2c] ++ t) l) = concat (map (fun t => [x2c] ++ t) m)).
  { apply app_len_inj; [exact LE|exact E]. }
  destruct X as [-> X]. f_equal. apply IH, X.
Qed.

Lemma print_header_iff : forall props h md,
  print_header props h md
  = Ok (props h md ++ bs "#" ++ concat (map (fun c => [x2c] ++ c_name c) (md_columns md)) ++ [x0a])
  <-> Forall (fun c => ~ In x7b (c_name c) /\ ~ In x7d (c_name c)) (md_columns md).
Proof.
  intros props h md. split; [|apply print_header_names]. unfold print_header. intros H.
  destruct (mapM _ (md_columns md)) as [ns| | | |] eqn:M; try discriminate. cbn [bind] in H.
  apply (f_equal (fun r => match r with Ok a => a | _ => [] end)) in H.
  apply app_inv_head in H. apply app_inv_head in H. apply app_inj_tail in H. destruct H as [H _].
  apply mapM_Ok in M.
  assert (P : exists ts, ns = map (fun t => [x2c] ++ t) ts
                /\ Forall2 (fun c t => fmt_noargs (c_name c) = Ok t) (md_columns md) ts).
  { clear H. induction M as [|c n cs ns H M IH]; [exists []; split; [reflexivity|constructor]|].
    destruct IH as (ts & -> & F). destruct (fmt_noargs (c_name c)) as [t| | | |] eqn:E; try discriminate.
    injection H as <-. exists (t :: ts). split; [reflexivity|]. constructor; assumption. }
  destruct P as (ts & -> & F). rewrite <- (map_map c_name (fun t => [x2c] ++ t)) in H.
  symmetry in H. apply concat_names in H.
  - subst ts. clear M. induction (md_columns md) as [|c cs IH]; [constructor|].
    cbn [map] in F. inversion F; subst. constructor; [apply fmt_noargs_verbatim; assumption|apply IH; assumption].
  - clear -F. induction F; cbn [map]; constructor; [|exact IHF]. eapply fmt_noargs_length. exact H.
Qed.
