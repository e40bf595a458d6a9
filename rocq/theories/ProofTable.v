(** What the csv and print sinks write for a table. *)
From Coq Require Import QArith.
From Verif Require Import Base Types Buffer Float DateTime Column Header Metadata Reader Sinks Print Lemmas SpecValues SpecReader
  SpecTime SpecSinks ProofCsv SpecNumber ProofNumber SpecFile SpecRoundtrip SpecCells SpecTable ProofCells.
Local Open Scope N_scope.

Definition names_of (cols : list column) : list bytes := map c_name cols.

Lemma rows_of_pushes : forall rows, rows_of (pushes rows ++ [EvEnd]) = rows.
Proof. induction rows as [|[i p] rows IH]; [reflexivity|]. cbn. f_equal. exact IH. Qed.

Lemma no_props_pushes : forall rows, no_props (pushes rows ++ [EvEnd]).
Proof. induction rows as [|r rows IH]; repeat constructor. exact IH. Qed.

(** ** csv *)

Lemma cell_value_known : forall c p x, cell_value c p x -> known c = true.
Proof. intros c p x H. unfold known. destruct x; destruct H as [T _]; rewrite T; reflexivity. Qed.

Lemma cell_value_unique : forall c p x y, cell_value c p x -> cell_value c p y -> x = y.
Proof.
  intros c p x y H K. destruct x, y; destruct H as [T G], K as [T' G']; rewrite T in T'; try discriminate T';
    rewrite G in G'; injection G' as ->; reflexivity.
Qed.

Lemma shown_readable : forall cols vs p, shown None cols vs p ->
  Forall (fun c => known c = true -> exists v, cell_value c p v) cols.
Proof.
  intros cols vs p S. induction S as [|v col vs cols H S IH]; constructor; [|exact IH].
  intros _. destruct (H eq_refl) as ((x & C & _) & _). exists x. exact C.
Qed.

Lemma shown_clean : forall cols vs p, shown None cols vs p -> texts_plain vs -> texts_clean cols p.
Proof.
  intros cols vs p S. induction S as [|v col vs cols H S IH]; intros T c s I G; [contradiction|].
  inversion T as [|? ? T1 T2]; subst. destruct I as [<-|I]; [|exact (IH T2 c s I G)].
  destruct (H eq_refl) as ((x & C & V) & _).
  assert (K : c_type col = TString \/ s = []).
  { unfold c_get_string, fm_get_string, c_type in *. destruct (fm_kind (c_fm col)); try (injection G as <-); auto. }
  destruct K as [K| ->]; [|split; intros []].
  destruct x; destruct C as [C1 C2]; rewrite K in C1; try discriminate C1.
  rewrite G in C2. injection C2 as <-. destruct v; cbn [value_is] in V; try contradiction. subst. exact T1.
Qed.

Lemma csv_line_shown : forall f cols vs p line, shown None cols vs p -> csv_line_of f cols p line -> csv_line f vs line.
Proof.
  intros f cols vs p line S [N F]. split; [exact N|]. revert F. generalize (csv_fields line) as ts.
  induction S as [|v col vs cols H S IH]; intros ts F; inversion F as [|? t ? ts' F1 F2]; subst; constructor; [|apply IH; exact F2].
  destruct (H eq_refl) as ((x & C & V) & _). rewrite (cell_value_known _ _ _ C) in F1.
  destruct F1 as (y & C' & SH). rewrite (cell_value_unique _ _ _ _ C' C) in SH. exists x. auto.
Qed.

Lemma csv_of_events : forall f h md contents evs, bare_formats f -> md_columns md <> [] ->
  names_clean (md_columns md) -> Forall texts_plain contents ->
  table_events None (md_columns md) contents evs ->
  exists header lines,
    csv_run f (EvProps h md :: evs) = Ok (concat (map (fun l => l ++ [x0a]) (header :: lines)))
    /\ ~ In x0a header
    /\ csv_fields header = map (fun n => [x22] ++ n ++ [x22]) (names_of (md_columns md))
    /\ Forall2 (csv_line f) contents lines.
Proof.
  intros f h md contents evs BF NE NC TP (rows & -> & _ & S).
  destruct (csv_output f h md (pushes rows ++ [EvEnd]) BF NE NC (no_props_pushes rows)) as (hd & lines & R & H1 & H2 & H3).
  - rewrite rows_of_pushes. unfold SpecSinks.readable. clear - S. induction S as [|vs r contents rows S1 S IH]; constructor; [|exact IH].
    apply (shown_readable _ _ _ S1).
  - rewrite rows_of_pushes. clear - S TP. induction S as [|vs r contents rows S1 S IH]; constructor.
    + inversion TP; subst. apply (shown_clean _ _ _ S1). assumption.
    + inversion TP; subst. apply IH; assumption.
  - exists hd, lines. split; [exact R|]. split; [exact H1|]. split.
    + rewrite H2. unfold names_of. rewrite map_map. reflexivity.
    + rewrite rows_of_pushes in H3. clear - S H3. revert lines H3.
      induction S as [|vs r contents rows S1 S IH]; intros lines F; inversion F as [|? l ? ls F1 F2]; subst; constructor.
      * apply (csv_line_shown f _ _ _ _ S1 F1).
      * apply IH. exact F2.
Qed.

(** ** print *)

Lemma dec_short : forall n, short_decimal (dec n) (Z.of_N n).
Proof.
  intros n. pose proof (dec_Z_short (Z.of_N n)) as H. unfold dec_Z in H.
  destruct (Z.ltb_spec (Z.of_N n) 0); [lia|]. rewrite N2Z.id in H. exact H.
Qed.

Lemma print_row_shown : forall i cols vs p, shown None cols vs p -> Forall2 has_text cols vs ->
  exists line, print_row cols i p = Ok line /\ print_line i vs line.
Proof.
  intros i cols vs p S H.
  assert (M : exists ts, mapM (fun c => t <- c_to_string c p ;; Ok (comma ++ t)) cols = Ok (map (fun t => [x2c] ++ t) ts)
                         /\ Forall2 text_is vs ts).
  { revert H. induction S as [|v col vs cols S1 S IH]; intros H.
    - exists []. split; [reflexivity|constructor].
    - inversion H as [|? ? ? ? H1 H2]; subst. destruct (IH H2) as (ts & E & F).
      destruct (S1 eq_refl) as (_ & T). destruct (T H1) as (t & G & TI).
      exists (t :: ts). cbn [mapM]. rewrite G. cbn [bind]. rewrite E. split; [reflexivity|constructor; assumption]. }
  destruct M as (ts & E & F). unfold print_row. rewrite E. cbn [bind]. eexists. split; [reflexivity|].
  exists (dec i), ts. split; [apply dec_short|]. split; [exact F|reflexivity].
Qed.

Lemma print_rows_shown : forall props cols contents rows i out,
  map fst rows = from i (length contents) ->
  Forall2 (fun vs (r : N * pview) => shown None cols vs (snd r)) contents rows ->
  Forall (Forall2 has_text cols) contents ->
  exists lines, feed (print_step props) (cols, out) (pushes rows ++ [EvEnd]) = Ok (cols, out ++ concat lines)
    /\ print_lines_of i contents lines.
Proof.
  intros props cols contents rows i out IX S. revert i out IX.
  induction S as [|vs [j p] contents rows S1 S IH]; intros i out IX H.
  - exists []. cbn. rewrite app_nil_r. auto.
  - inversion H as [|? ? H1 H2]; subst. cbn [map fst length from] in IX.
    assert (j = i) by (apply (f_equal (hd 0)) in IX; exact IX). subst j.
    apply (f_equal (@tl _)) in IX. cbn [tl] in IX.
    destruct (print_row_shown i cols vs p S1 H1) as (line & R & L).
    destruct (IH (i + 1) (out ++ line) IX H2) as (lines & F & LS).
    exists (line :: lines). split; [|split; [exact L|exact LS]].
    cbn [pushes map app feed print_step]. cbn [fst snd]. rewrite R. cbn [bind]. unfold pushes in F. rewrite F.
    cbn [concat]. rewrite app_assoc. reflexivity.
Qed.

Lemma print_of_events : forall props h md contents evs,
  Forall (fun n => ~ In x7b n /\ ~ In x7d n) (names_of (md_columns md)) ->
  Forall (Forall2 has_text (md_columns md)) contents ->
  table_events None (md_columns md) contents evs ->
  exists lines,
    print_run props (EvProps h md :: evs)
    = Ok (props h md ++ bs "#" ++ concat (map (fun n => [x2c] ++ n) (names_of (md_columns md))) ++ [x0a] ++ concat lines)
    /\ print_lines_of 0 contents lines.
Proof.
  intros props h md contents evs NB HT (rows & -> & IX & S). unfold print_run. cbn [feed print_step].
  assert (NB' : Forall (fun c => ~ In x7b (c_name c) /\ ~ In x7d (c_name c)) (md_columns md)).
  { unfold names_of in NB. rewrite Forall_map in NB. exact NB. }
  rewrite (proj2 (print_header_iff props h md) NB'). cbn [bind]. rewrite app_nil_l.
  match goal with |- context [feed _ (_, ?o) _] =>
    destruct (print_rows_shown props (md_columns md) contents rows 0 o IX S HT) as (lines & -> & L) end.
  exists lines. cbn [bind snd]. split; [|exact L]. f_equal. unfold names_of. rewrite map_map, <- !app_assoc. reflexivity.
Qed.

(** ** The report *)

Lemma lines_inj : forall a b, Forall one_line a -> Forall one_line b ->
  concat (map (fun l => l ++ newline) a) = concat (map (fun l => l ++ newline) b) -> a = b.
Proof.
  assert (P : forall l l' r r', one_line l -> one_line l' -> l ++ x0a :: r = l' ++ x0a :: r' -> l = l' /\ r = r').
  { induction l as [|x l IH]; intros [|y l'] r r' O O' E; cbn in E.
    - injection E as E. auto.
    - apply (f_equal (hd x00)) in E. cbn [hd] in E. exfalso. apply O'. left. symmetry. exact E.
    - apply (f_equal (hd x00)) in E. cbn [hd] in E. exfalso. apply O. left. exact E.
    - assert (x = y) by (apply (f_equal (hd x00)) in E; exact E). subst y.
      apply (f_equal (@tl _)) in E. cbn [tl] in E.
      destruct (IH l' r r') as [-> ->]; [intros K; apply O; right; exact K|intros K; apply O'; right; exact K|exact E|auto]. }
  induction a as [|l a IH]; intros [|l' b] A B E.
  - reflexivity.
  - exfalso. cbn in E. rewrite <- app_assoc in E. destruct l'; discriminate E.
  - exfalso. cbn in E. rewrite <- app_assoc in E. destruct l; discriminate E.
  - inversion A; inversion B; subst. cbn [map concat] in E. unfold newline in *. rewrite <- !app_assoc in E. cbn [app] in E.
    apply P in E; [|assumption..]. destruct E as [-> E]. f_equal. apply IH; assumption.
Qed.

Lemma one_line_app : forall a b, one_line a -> one_line b -> one_line (a ++ b).
Proof. intros a b A B I. apply in_app_or in I. destruct I; [apply A|apply B]; assumption. Qed.

Lemma dec_one_line : forall n, one_line (dec n).
Proof.
  intros n. destruct (dec_value n) as [NE V]. intros I.
  assert (D : decimal (dec n) (Z.of_N n)).
  { exists (dec n). destruct (Z.ltb_spec (Z.of_N n) 0); [lia|]. rewrite Z.abs_eq by lia. auto. }
  apply decimal_bare in D. destruct D as [[_ D] _]. exact (D I).
Qed.

Lemma dec_inj : forall a b, dec a = dec b -> a = b.
Proof.
  intros a b E. destruct (dec_value a) as [_ A]. destruct (dec_value b) as [_ B]. rewrite E, B in A.
  injection A as A. lia.
Qed.

Ltac plain := intros K; vm_compute in K; intuition discriminate.

Lemma columns_one_line : forall cs i,
  Forall (fun c => one_line (c_name c) /\ one_line (c_label c) /\ one_line (c_format c)) cs ->
  Forall one_line (print_columns i cs).
Proof.
  intros cs i F. revert i. induction F as [|c cs (A & B & C) F IH]; intros i; [constructor|].
  cbn [print_columns app]. repeat constructor; try (apply one_line_app; [plain|]).
  - apply dec_one_line.
  - exact A.
  - exact B.
  - exact C.
  - destruct (c_type c); plain.
  - apply IH.
Qed.

Lemma lines_one_line : forall dt h md, (forall t, one_line (dt t)) -> one_line_facts h md ->
  Forall one_line (print_lines dt h md).
Proof.
  intros dt h md D [F C].
  repeat match goal with H : Forall one_line (_ :: _) |- _ => inversion H; clear H; subst end.
  unfold print_lines. apply Forall_app. split; [|apply Forall_app; split; [apply columns_one_line; exact C|repeat constructor; plain]].
  repeat constructor; try (apply one_line_app; [plain|]); try assumption; try apply D; try apply dec_one_line; try plain.
  - destruct (h_format h); plain.
  - destruct (h_endianness h); plain.
  - destruct (h_platform h); plain.
  - destruct (md_compression md); plain.
Qed.

Lemma type_word_inj : forall a b, type_word a = type_word b -> a = b.
Proof. intros [] []; intros E; try reflexivity; discriminate E. Qed.

Lemma columns_inj : forall a b i x, print_columns i a ++ [x] = print_columns i b ++ [x] ->
  map column_facts a = map column_facts b.
Proof.
  induction a as [|c a IH]; intros [|c' b] i x E.
  - reflexivity.
  - exfalso. apply (f_equal (@length _)) in E. cbn in E. lia.
  - exfalso. apply (f_equal (@length _)) in E. cbn in E. rewrite app_length in E. cbn in E. lia.
  - cbn [print_columns app] in E.
    assert (E2 := f_equal (fun l => nth 1 l []) E). assert (E3 := f_equal (fun l => nth 2 l []) E).
    assert (E4 := f_equal (fun l => nth 3 l []) E). assert (E5 := f_equal (fun l => nth 4 l []) E).
    apply (f_equal (skipn 5)) in E. cbn [nth skipn] in *.
    apply app_inv_head in E2, E3, E4, E5. apply type_word_inj in E5.
    cbn [map]. rewrite (IH b (i + 1) x E). f_equal. unfold column_facts. congruence.
Qed.

Lemma report_determines : forall dt h md h' md',
  (forall t, one_line (dt t)) -> (forall t t', dt t = dt t' -> t = t') ->
  one_line_facts h md -> one_line_facts h' md' ->
  print_properties dt h md = print_properties dt h' md' -> file_facts h md = file_facts h' md'.
Proof.
  intros dt h md h' md' D DI F F' E. unfold print_properties in E.
  apply lines_inj in E; [|apply lines_one_line; assumption..]. unfold print_lines in E.
  assert (EC := f_equal (skipn 19) E). cbn [skipn app] in EC. apply columns_inj in EC.
  assert (G : forall i, nth i (print_lines dt h md) [] = nth i (print_lines dt h' md') []).
  { intros i. unfold print_lines. rewrite E. reflexivity. }
  clear E.
  pose proof (G 1%nat) as E1. pose proof (G 2%nat) as E2. pose proof (G 3%nat) as E3. pose proof (G 4%nat) as E4.
  pose proof (G 5%nat) as E5. pose proof (G 6%nat) as E6. pose proof (G 7%nat) as E7. pose proof (G 8%nat) as E8.
  pose proof (G 9%nat) as E9. pose proof (G 10%nat) as E10. pose proof (G 11%nat) as E11. pose proof (G 12%nat) as E12.
  pose proof (G 13%nat) as E13. pose proof (G 14%nat) as E14. pose proof (G 15%nat) as E15. pose proof (G 16%nat) as E16.
  pose proof (G 17%nat) as E17. clear G. unfold print_lines in *. cbn [nth app] in *.
  apply app_inv_head in E1, E2, E3, E4, E5, E6, E7, E8, E9, E10, E11, E12, E13, E14, E15, E16, E17.
  apply DI in E4. apply DI in E5. apply dec_inj in E16. apply dec_inj in E17.
  assert (X1 : h_format h = h_format h') by (destruct (h_format h), (h_format h'); try reflexivity; discriminate E1).
  assert (X2 : h_endianness h = h_endianness h') by (destruct (h_endianness h), (h_endianness h'); try reflexivity; discriminate E2).
  assert (X3 : h_platform h = h_platform h') by (destruct (h_platform h), (h_platform h'); try reflexivity; discriminate E3).
  assert (X4 : md_compression md = md_compression md')
    by (destruct (md_compression md), (md_compression md'); try reflexivity; discriminate E13).
  unfold file_facts. congruence.
Qed.

Lemma lines_of_text : forall ls, Forall one_line ls ->
  text_lines [] (concat (map (fun l => l ++ newline) ls)) = ls.
Proof.
  assert (P : forall l cur r, one_line l -> text_lines cur (l ++ x0a :: r) = (cur ++ l) :: text_lines [] r).
  { induction l as [|b l IH]; intros cur r O; cbn [app text_lines].
    - rewrite app_nil_r. reflexivity.
    - destruct (Byte.eqb b x0a) eqn:E; [exfalso; apply O; left; apply Byte.byte_dec_bl; exact E|].
      rewrite IH by (intros K; apply O; right; exact K). rewrite <- app_assoc. reflexivity. }
  intros ls F. induction F as [|l ls O F IH]; [reflexivity|]. cbn [map concat]. unfold newline in *.
  rewrite <- app_assoc. cbn [app]. rewrite (P l [] _ O). cbn [app]. f_equal. exact IH.
Qed.

Lemma dec_decimal : forall n, decimal (dec n) (Z.of_N n).
Proof.
  intros n. destruct (dec_value n) as [NE V]. exists (dec n).
  destruct (Z.ltb_spec (Z.of_N n) 0); [lia|]. rewrite Z.abs_eq by lia. auto.
Qed.

Lemma columns_length : forall cs i, length (print_columns i cs) = (5 * length cs)%nat.
Proof. induction cs as [|c cs IH]; intros i; [reflexivity|]. cbn [print_columns app length]. rewrite IH. lia. Qed.

Lemma columns_nth : forall cs j i c k z, nth_error cs i = Some c -> (k < 5)%nat ->
  nth_error (print_columns j cs ++ z) (5 * i + k)
  = nth_error [bs "  - column #" ++ dec (j + N.of_nat i); bs "    name: " ++ c_name c; bs "    label: " ++ c_label c;
               bs "    format: " ++ c_format c; bs "    type: " ++ type_word (c_type c)] k.
Proof.
  induction cs as [|x cs IH]; intros j [|i] c k z H K; try discriminate.
  - injection H as ->. rewrite N.add_0_r. cbn [print_columns].
    do 5 (destruct k as [|k]; [reflexivity|]). lia.
  - replace (5 * Datatypes.S i + k)%nat with (5 + (5 * i + k))%nat by lia.
    change (nth_error (print_columns j (x :: cs) ++ z) (5 + (5 * i + k)))
      with (nth_error (print_columns (j + 1) cs ++ z) (5 * i + k)).
    rewrite (IH _ _ c) by assumption. replace (j + 1 + N.of_nat i) with (j + N.of_nat (Datatypes.S i)) by lia.
    reflexivity.
Qed.

Lemma report_lines : forall dt h md, (forall t, one_line (dt t)) -> one_line_facts h md ->
  reports dt h md (print_properties dt h md).
Proof.
  intros dt h md D F. unfold reports, print_properties. rewrite lines_of_text by (apply lines_one_line; assumption).
  cbv zeta. split.
  { unfold print_lines. rewrite !app_length, columns_length. cbn [length]. lia. }
  assert (C : forall i c k, nth_error (md_columns md) i = Some c -> (k < 5)%nat ->
    nth_error (print_lines dt h md) (19 + 5 * i + k)
    = nth_error [bs "  - column #" ++ dec (0 + N.of_nat i); bs "    name: " ++ c_name c; bs "    label: " ++ c_label c;
                 bs "    format: " ++ c_format c; bs "    type: " ++ type_word (c_type c)] k).
  { intros i c k H K. replace (19 + 5 * i + k)%nat with (19 + (5 * i + k))%nat by lia.
    change (nth_error (print_lines dt h md) (19 + (5 * i + k)))
      with (nth_error (print_columns 0 (md_columns md) ++ [bs "Data:"]) (5 * i + k)).
    apply columns_nth; assumption. }
  split; [eexists; split; [|reflexivity]; destruct (h_format h); cbn; auto|].
  split; [eexists; split; [|reflexivity]; destruct (h_endianness h); cbn; auto|].
  split; [eexists; split; [|reflexivity]; destruct (h_platform h); cbn; auto|].
  do 9 (split; [reflexivity|]).
  split; [eexists; split; [|reflexivity]; destruct (md_compression md); cbn; auto|].
  do 2 (split; [reflexivity|]).
  do 2 (split; [eexists; split; [apply dec_decimal|reflexivity]|]).
  intros i c H.
  split. { exists (dec (0 + N.of_nat i)). split; [rewrite <- nat_N_Z; apply dec_decimal|].
    rewrite (C i c) by (assumption || lia). reflexivity. }
  split; [rewrite (C i c) by (assumption || lia); reflexivity|].
  split; [rewrite (C i c) by (assumption || lia); reflexivity|].
  split; [rewrite (C i c) by (assumption || lia); reflexivity|].
  exists (type_word (c_type c)). split; [destruct (c_type c); cbn; auto 10|].
  rewrite (C i c) by (assumption || lia). reflexivity.
Qed.

(** ** Whole files *)

Lemma names_fields : forall e fields cols, Forall2 (column_for e) fields cols -> names_of cols = map fd_name fields.
Proof.
  intros e fields cols F. induction F as [|d col fields cols (N & _) F IH]; [reflexivity|].
  cbn. rewrite N. f_equal. exact IH.
Qed.

Lemma csv_file : forall c f e fields contents file, holds_table c e fields contents file ->
  bare_formats f -> fields <> [] -> Forall (fun d => SpecSinks.clean (fd_name d)) fields -> Forall texts_plain contents ->
  exists r evs header lines,
    open_reader c file_source None (file_open file) = Ok (r, [EvProps (rs_h r) (rs_md r)])
    /\ fst (trace c file_source [OpReadAll] (Some r)) = [(OpReadAll, Ok OUnit, evs)]
    /\ csv_run f (EvProps (rs_h r) (rs_md r) :: evs) = Ok (concat (map (fun l => l ++ [x0a]) (header :: lines)))
    /\ ~ In x0a header /\ csv_fields header = map (fun d => [x22] ++ fd_name d ++ [x22]) fields
    /\ Forall2 (csv_line f) contents lines.
Proof.
  intros c f e fields contents file H BF NE NC TP.
  destruct (file_back c None e fields contents file H) as (r & cols & evs & O & MC & CF & TR & EV).
  rewrite <- MC in EV.
  destruct (csv_of_events f (rs_h r) (rs_md r) contents evs) as (hd & lines & R & H1 & H2 & H3); try assumption.
  - rewrite MC. intros E. rewrite E in CF. inversion CF; subst. apply NE. reflexivity.
  - unfold names_clean. rewrite MC. clear - CF NC.
    induction CF as [|d col fields cols (N & _) F IH]; inversion NC; subst; constructor; [rewrite N; assumption|auto].
  - exists r, evs, hd, lines. repeat (split; [assumption|]). split; [|exact H3].
    rewrite H2, MC, (names_fields e fields cols CF), map_map. reflexivity.
Qed.

Lemma print_file : forall c props e fields contents file, holds_table c e fields contents file ->
  Forall (fun d => ~ In x7b (fd_name d) /\ ~ In x7d (fd_name d)) fields ->
  Forall (Forall2 printable fields) contents ->
  exists r evs lines,
    open_reader c file_source None (file_open file) = Ok (r, [EvProps (rs_h r) (rs_md r)])
    /\ fst (trace c file_source [OpReadAll] (Some r)) = [(OpReadAll, Ok OUnit, evs)]
    /\ print_run props (EvProps (rs_h r) (rs_md r) :: evs)
       = Ok (props (rs_h r) (rs_md r) ++ bs "#" ++ concat (map (fun d => [x2c] ++ fd_name d) fields) ++ [x0a]
             ++ concat lines)
    /\ print_lines_of 0 contents lines.
Proof.
  intros c props e fields contents file H NB PR.
  destruct (file_back c None e fields contents file H) as (r & cols & evs & O & MC & CF & TR & EV).
  rewrite <- MC in EV. pose proof (names_fields e fields cols CF) as NF.
  destruct (print_of_events props (rs_h r) (rs_md r) contents evs) as (lines & R & L).
  - rewrite MC, NF, Forall_map. exact NB.
  - rewrite MC. destruct H as (rows & RO & _). clear - RO CF PR. revert PR.
    induction RO as [|vs row contents rows R1 RO IH]; intros PR; inversion PR; subst; constructor; [|auto].
    apply (text_kept e fields cols vs row); assumption.
  - exact EV.
  - exists r, evs, lines. repeat (split; [assumption|]). split; [|exact L].
    rewrite R, MC, NF, map_map. reflexivity.
Qed.
