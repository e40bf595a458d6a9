(** Proofs of C119: the layout of a file does not change the table which is read. *)
From Verif Require Import PyObjects Base Types Float DateTime Column Header Metadata Buffer Page Decomp Data Reader Sinks
  SpecValues SpecReader SpecFile SpecRoundtrip SpecTime SpecSinks SpecCells SpecTable SpecPyObjects SpecLayout
  ProofCells ProofPyObjects ProofPyChunks ProofPyFile ProofRFile ProofTable.
Local Open Scope N_scope.

(** ** Cells *)

Lemma stored_type : forall e e' d d' col col' v l l', same_field d d' ->
  column_for e d col -> column_for e' d' col' -> stored e d v l -> stored e' d' v l' -> c_type col = c_type col'.
Proof.
  intros e e' d d' col col' v l l' (_ & _ & F & NU) CF CF' ST ST'.
  assert (NUM : forall t, reported_type TNumber (fd_length d) (fd_format d) t -> fd_numeric d = true -> c_type col = t).
  { intros t R E. apply (type_unique e d col t CF). rewrite E. exact R. }
  assert (NUM' : forall t, reported_type TNumber (fd_length d') (fd_format d') t -> fd_numeric d' = true -> c_type col' = t).
  { intros t R E. apply (type_unique e' d' col' t CF'). rewrite E. exact R. }
  assert (INT : forall w, fd_length d = w -> (w = 1 \/ w = 2) -> fd_numeric d = true -> c_type col = TInteger).
  { intros w L W E. apply NUM; [|exact E]. rewrite L. destruct W as [-> | ->]; constructor. }
  assert (INT' : forall w, fd_length d' = w -> (w = 1 \/ w = 2) -> fd_numeric d' = true -> c_type col' = TInteger).
  { intros w L W E. apply NUM'; [|exact E]. rewrite L. destruct W as [-> | ->]; constructor. }
  destruct ST as [t pad N1|z N1 L1|z N1 L1|bits l N1 L1 I1|t n l N1 L1 I1|t n us l N1 L1 I1|us l N1 L1 I1|bits N1 L1];
    inversion ST' as [t' pad' N2|z' N2 L2|z' N2 L2|bits' l'' N2 L2 I2|t' n' l'' N2 L2 I2|t' n' us' l'' N2 L2 I2|us' l'' N2 L2 I2|bits' N2 L2];
    subst; try congruence.
  - transitivity TString; [|symmetry]; [apply (type_unique e d col _ CF); rewrite N1|apply (type_unique e' d' col' _ CF'); rewrite N2];
      constructor.
  - rewrite (INT 1 L1), (INT' 1 L2); auto.
  - rewrite (INT 1 L1), (INT' 2 L2); auto.
  - rewrite (INT 2 L1), (INT' 1 L2); auto.
  - rewrite (INT 2 L1), (INT' 2 L2); auto.
  - destruct I1 as (A1 & A2 & A3), I2 as (B1 & B2 & B3).
    rewrite (NUM TNumber), (NUM' TNumber); auto; constructor; assumption.
  - rewrite (NUM TDate), (NUM' TDate); auto; constructor; try lia; assumption.
  - rewrite (NUM TDateTime), (NUM' TDateTime); auto; constructor; try lia; assumption.
  - rewrite (NUM TTime), (NUM' TTime); auto; constructor; try lia; assumption.
  - pose proof CF' as (_ & _ & _ & _ & _ & _ & R). rewrite N2, L2, <- F in R.
    apply NUM; [rewrite L1; exact R|exact N1].
Qed.

Lemma value_same : forall c c' p p' v x x', c_type c = c_type c' -> on_calendar v ->
  cell_value c p x -> cell_value c' p' x' -> value_is v x -> value_is v x' -> x = x'.
Proof.
  intros c c' p p' v x x' T OC C C' V V'.
  destruct (content_object c p v x OC C V) as (o & P & O). destruct (content_object c' p' v x' OC C' V') as (o' & P' & O').
  pose proof (content_calendar c p v x OC C V) as K. pose proof (content_calendar c' p' v x' OC C' V') as K'.
  destruct v as [t|z|b|t|t us|us|b].
  - destruct x, x'; cbn in V, V'; try contradiction; congruence.
  - destruct x, x'; cbn in V, V'; try contradiction; congruence.
  - destruct x, x'; cbn in V, V'; try contradiction; congruence.
  - destruct t as [[y m] d]. cbn [object_is] in O, O'. destruct o; try contradiction. destruct o'; try contradiction.
    apply (shown_back x x' (PvDate y m d)); auto; try discriminate; congruence.
  - destruct x as [| | |[|u]| |], x' as [| | |[|u']| |]; cbn [value_is] in V, V'; try contradiction.
    destruct V as (n & D & ->), V' as (n' & D' & ->). destruct OC as [S _].
    rewrite (days_same n n' t S D D'). reflexivity.
  - destruct x, x'; cbn in V, V'; try contradiction; congruence.
  - destruct x, x'; cbn in V, V', C, C'; try contradiction; destruct C, C'; congruence.
Qed.

(** The text is a function of the value. *)
Definition value_text (x : value) : res bytes :=
  match x with
  | VString s => Ok s
  | VInteger z => Ok (dec_Z z)
  | VNumber b => Ok (double_to_string b)
  | VDateTime t => datetime_to_string t
  | VDate d => date_to_string d
  | VTime t => time_to_string t
  end.

Lemma text_of_value : forall c p x, cell_value c p x -> c_to_string c p = value_text x.
Proof.
  intros c p x H. unfold c_to_string, fm_to_string, cell_value, c_type, fkind_type, c_get_string, c_get_integer,
    c_get_number, c_get_datetime, c_get_date, c_get_time in *.
  destruct x; destruct H as [T G]; destruct (fm_kind (c_fm c)) eqn:K; try discriminate T; rewrite G; reflexivity.
Qed.

Lemma column_of_value : forall c p x, cell_value c p x -> column_value c p = Ok (Some x).
Proof. intros c p x H. unfold column_value. destruct x; destruct H as [-> ->]; reflexivity. Qed.

Lemma facts_for : forall e e' d d' col col', same_field d d' -> column_for e d col -> column_for e' d' col' ->
  c_type col = c_type col' -> column_facts col = column_facts col'.
Proof.
  intros e e' d d' col col' (A & B & C & _) (A1 & B1 & C1 & _) (A2 & B2 & C2 & _) T.
  unfold column_facts. congruence.
Qed.

(** ** Rows *)

Definition kept_by (flt : option (column -> bool)) (c : column) : bool := match flt with Some f => f c | None => true end.
Definition keeps (flt : option (column -> bool)) (cols : list column) : list column :=
  match flt with Some p => filter p cols | None => cols end.

Lemma keeps_cons : forall flt c cols, keeps flt (c :: cols) = if kept_by flt c then c :: keeps flt cols else keeps flt cols.
Proof. intros [f|] c cols; reflexivity. Qed.

Lemma row_same : forall flt e e' fs fs' cols cols' vs row row' p p', by_facts flt ->
  Forall2 same_field fs fs' -> Forall2 (column_for e) fs cols -> Forall2 (column_for e') fs' cols' ->
  row_of e fs vs row -> row_of e' fs' vs row' -> shown flt cols vs p -> shown flt cols' vs p' ->
  Forall2 (same_cell p p') (keeps flt cols) (keeps flt cols').
Proof.
  intros flt e e' fs fs' cols cols' vs row row' p p' BF SF. revert cols cols' vs.
  induction SF as [|d d' fs fs' S1 SF IH]; intros cols cols' vs CF CF' RO RO' SH SH'.
  - inversion CF; inversion CF'; subst. destruct flt; constructor.
  - inversion CF as [|? col ? cols0 C1 CF0]; subst. inversion CF' as [|? col' ? cols0' C1' CF0']; subst.
    inversion RO as [|? v ? vs0 (b & l & a & _ & _ & ST) RO0]; subst.
    inversion RO' as [|? v' ? vs0' (b' & l' & a' & _ & _ & ST') RO0']; subst.
    inversion SH as [|? ? ? ? H1 SH0]; subst. inversion SH' as [|? ? ? ? H1' SH0']; subst.
    pose proof (stored_type _ _ _ _ _ _ _ _ _ S1 C1 C1' ST ST') as T.
    pose proof (facts_for _ _ _ _ _ _ S1 C1 C1' T) as FA.
    specialize (IH _ _ _ CF0 CF0' RO0 RO0' SH0 SH0').
    rewrite !keeps_cons. change (match flt with Some f => f col | None => true end) with (kept_by flt col) in H1.
    change (match flt with Some f => f col' | None => true end) with (kept_by flt col') in H1'.
    assert (KE : kept_by flt col = kept_by flt col').
    { destruct flt as [f|]; [exact (BF _ _ FA)|reflexivity]. }
    rewrite <- KE in *. destruct (kept_by flt col); [|exact IH]. constructor; [|exact IH].
    destruct (H1 eq_refl) as [(x & X & V) _]. destruct (H1' eq_refl) as [(x' & X' & V') _].
    assert (x = x').
    { apply (value_same col col' p p' v); auto. exact (stored_calendar e d v l ST). }
    subst x'. split; [exact FA|]. split; [exists x; auto|].
    rewrite (text_of_value _ _ _ X), (text_of_value _ _ _ X'). reflexivity.
Qed.

Lemma same_facts : forall p p' cs cs', Forall2 (same_cell p p') cs cs' -> map column_facts cs = map column_facts cs'.
Proof. intros p p' cs cs' H. induction H as [|a b cs cs' (F & _) H IH]; [reflexivity|]. cbn. rewrite F, IH. reflexivity. Qed.

Lemma rows_same : forall flt e e' fs fs' cols cols' contents, by_facts flt ->
  Forall2 same_field fs fs' -> Forall2 (column_for e) fs cols -> Forall2 (column_for e') fs' cols' ->
  forall data data' rows rows', Forall2 (row_of e fs) contents data -> Forall2 (row_of e' fs') contents data' ->
  map fst rows = map fst rows' ->
  Forall2 (fun vs (r : N * pview) => shown flt cols vs (snd r)) contents rows ->
  Forall2 (fun vs (r : N * pview) => shown flt cols' vs (snd r)) contents rows' ->
  Forall2 (same_row (keeps flt cols) (keeps flt cols')) rows rows'.
Proof.
  intros flt e e' fs fs' cols cols' contents BF SF CF CF'.
  induction contents as [|vs contents IH]; intros data data' rows rows' RO RO' IX SH SH'.
  - inversion SH; inversion SH'; constructor.
  - inversion RO as [|? row ? data0 R1 RO0]; subst. inversion RO' as [|? row' ? data0' R1' RO0']; subst.
    inversion SH as [|? r ? rows0 H1 SH0]; subst. inversion SH' as [|? r' ? rows0' H1' SH0']; subst.
    cbn in IX. injection IX as I1 IX. constructor; [|apply (IH data0 data0'); assumption].
    split; [exact I1|]. apply (row_same flt e e' fs fs' cols cols' vs row row'); assumption.
Qed.

Lemma layout_rows : forall c c' flt e e' fs fs' contents file file',
  holds_table c e fs contents file -> holds_table c' e' fs' contents file' ->
  Forall2 same_field fs fs' -> contents <> [] -> by_facts flt ->
  exists r r' rows rows',
    open_reader c file_source flt (file_open file) = Ok (r, [EvProps (rs_h r) (rs_md r)])
    /\ open_reader c' file_source flt (file_open file') = Ok (r', [EvProps (rs_h r') (rs_md r')])
    /\ fst (trace c file_source [OpReadAll] (Some r)) = [(OpReadAll, Ok OUnit, pushes rows ++ [EvEnd])]
    /\ fst (trace c' file_source [OpReadAll] (Some r')) = [(OpReadAll, Ok OUnit, pushes rows' ++ [EvEnd])]
    /\ length rows = length contents
    /\ md_row_count (rs_md r) = md_row_count (rs_md r')
    /\ map column_facts (md_columns (rs_md r)) = map column_facts (md_columns (rs_md r'))
    /\ Forall2 (same_row (md_columns (rs_md r)) (md_columns (rs_md r'))) rows rows'.
Proof.
  intros c c' flt e e' fs fs' contents file file' H H' SF NE BF.
  destruct (file_back c flt e fs contents file H) as (r & cols & evs & O & MC & CF & TR & rows & -> & IX & SH).
  destruct (file_back c' flt e' fs' contents file' H') as (r' & cols' & evs' & O' & MC' & CF' & TR' & rows' & -> & IX' & SH').
  destruct (file_counts c flt e fs contents file r _ H O) as [_ RC].
  destruct (file_counts c' flt e' fs' contents file' r' _ H' O') as [_ RC'].
  fold (keeps flt cols) in MC. fold (keeps flt cols') in MC'.
  destruct H as (data & RO & _), H' as (data' & RO' & _).
  assert (SR : Forall2 (same_row (keeps flt cols) (keeps flt cols')) rows rows').
  { apply (rows_same flt e e' fs fs' cols cols' contents BF SF CF CF' data data'); try assumption. congruence. }
  exists r, r', rows, rows'. rewrite MC, MC'. repeat (split; [assumption|]).
  split; [symmetry; eapply Forall2_len; exact SH|]. split; [congruence|]. split; [|exact SR].
  destruct SR as [|a b rows rows' (_ & S1) SR]; [|exact (same_facts _ _ _ _ S1)].
  inversion SH; subst. contradiction.
Qed.

(** ** Sinks *)

Lemma same_values : forall p p' cs cs', Forall2 (same_cell p p') cs cs' ->
  mapM (fun c => column_value c p) cs = mapM (fun c => column_value c p') cs'.
Proof.
  intros p p' cs cs' H. induction H as [|a b cs cs' (_ & (x & A & B) & _) H IH]; [reflexivity|].
  cbn [mapM]. rewrite (column_of_value _ _ _ A), (column_of_value _ _ _ B), IH. reflexivity.
Qed.

Lemma same_texts : forall p p' cs cs', Forall2 (same_cell p p') cs cs' ->
  mapM (fun c => t <- c_to_string c p ;; Ok (comma ++ t)) cs = mapM (fun c => t <- c_to_string c p' ;; Ok (comma ++ t)) cs'.
Proof.
  intros p p' cs cs' H. induction H as [|a b cs cs' (_ & _ & E) H IH]; [reflexivity|].
  cbn [mapM]. rewrite E, IH. reflexivity.
Qed.

Lemma csv_rows_same : forall f cs cs' rows rows' out, Forall2 (same_row cs cs') rows rows' ->
  (r <- feed (csv_step f) (cs, out) (pushes rows ++ [EvEnd]) ;; Ok (snd r))
  = (r <- feed (csv_step f) (cs', out) (pushes rows' ++ [EvEnd]) ;; Ok (snd r)).
Proof.
  intros f cs cs' rows rows' out H. revert out. induction H as [|[i p] [i' p'] rows rows' (I & S) H IH]; intros out; [reflexivity|].
  cbn [fst snd] in I, S. subst i'. cbn [pushes map app feed csv_step fst snd]. unfold csv_row.
  rewrite (same_values _ _ _ _ S). destruct (mapM _ cs') as [vs| | | |]; cbn [bind]; try reflexivity. apply IH.
Qed.

Lemma names_same : forall cs cs', map column_facts cs = map column_facts cs' -> map c_name cs = map c_name cs'.
Proof.
  induction cs as [|a cs IH]; intros [|b cs'] H; cbn in *; try discriminate; [reflexivity|].
  injection H as A H. intros. f_equal; auto.
Qed.

Lemma csv_same : forall f h h' md md' rows rows',
  map column_facts (md_columns md) = map column_facts (md_columns md') ->
  Forall2 (same_row (md_columns md) (md_columns md')) rows rows' ->
  csv_run f (EvProps h md :: pushes rows ++ [EvEnd]) = csv_run f (EvProps h' md' :: pushes rows' ++ [EvEnd]).
Proof.
  intros f h h' md md' rows rows' F S. unfold csv_run. cbn [feed csv_step bind].
  replace (csv_header (md_columns md')) with (csv_header (md_columns md)); [apply csv_rows_same; exact S|].
  unfold csv_header. rewrite <- !(map_map c_name csv_quoted), (names_same _ _ F). reflexivity.
Qed.

Lemma print_rows_same : forall g cs cs' rows rows' out, Forall2 (same_row cs cs') rows rows' ->
  (r <- feed (print_step g) (cs, out) (pushes rows ++ [EvEnd]) ;; Ok (snd r))
  = (r <- feed (print_step g) (cs', out) (pushes rows' ++ [EvEnd]) ;; Ok (snd r)).
Proof.
  intros g cs cs' rows rows' out H. revert out. induction H as [|[i p] [i' p'] rows rows' (I & S) H IH]; intros out; [reflexivity|].
  cbn [fst snd] in I, S. subst i'. cbn [pushes map app feed print_step fst snd]. unfold print_row.
  rewrite (same_texts _ _ _ _ S). destruct (mapM _ cs') as [vs| | | |]; cbn [bind]; try reflexivity. apply IH.
Qed.

Lemma print_same : forall g h h' md md' rows rows',
  map column_facts (md_columns md) = map column_facts (md_columns md') -> g h md = g h' md' ->
  Forall2 (same_row (md_columns md) (md_columns md')) rows rows' ->
  print_run g (EvProps h md :: pushes rows ++ [EvEnd]) = print_run g (EvProps h' md' :: pushes rows' ++ [EvEnd]).
Proof.
  intros g h h' md md' rows rows' F G S. unfold print_run. cbn [feed print_step bind].
  replace (print_header g h' md') with (print_header g h md).
  - destruct (print_header g h md) as [t| | | |]; cbn [bind]; try reflexivity. apply print_rows_same. exact S.
  - unfold print_header. rewrite G.
    replace (mapM (fun c => t <- fmt_noargs (c_name c) ;; Ok (comma ++ t)) (md_columns md'))
      with (mapM (fun c => t <- fmt_noargs (c_name c) ;; Ok (comma ++ t)) (md_columns md)); [reflexivity|].
    revert F. generalize (md_columns md) (md_columns md'). clear. induction l as [|a cs IH]; intros [|b cs'] H; cbn in H; try discriminate; [reflexivity|].
    injection H as A B C D E. cbn [mapM]. rewrite A, (IH _ E). reflexivity.
Qed.

(** *** The groups of columns *)

Lemma group_same : forall (R : column -> column -> Prop) t cs cs', (forall a b, R a b -> c_type a = c_type b) ->
  Forall2 R cs cs' -> Forall2 R (get_columns cs t) (get_columns cs' t).
Proof.
  intros R t cs cs' RT H. induction H as [|a b cs cs' F H IH]; [constructor|].
  cbn [get_columns]. rewrite (RT _ _ F). destruct (ctype_eqb (c_type b) t); [constructor|]; assumption.
Qed.

Lemma grouped_same : forall (R : column -> column -> Prop) cs cs', (forall a b, R a b -> c_type a = c_type b) ->
  Forall2 R cs cs' -> Forall2 R (grouped cs) (grouped cs').
Proof.
  intros R cs cs' RT H. unfold grouped, columns_of. cbn [cs_numbers cs_integers cs_datetimes cs_dates cs_times cs_strings].
  repeat (apply Forall2_app; [apply group_same; assumption|]). apply group_same; assumption.
Qed.

Lemma cell_type : forall p p' a b, same_cell p p' a b -> c_type a = c_type b.
Proof. intros p p' a b (F & _). unfold column_facts in F. congruence. Qed.

Lemma grouped_rows : forall cs cs' rows rows', Forall2 (same_row cs cs') rows rows' ->
  Forall2 (same_row (grouped cs) (grouped cs')) rows rows'.
Proof.
  intros cs cs' rows rows' H. induction H as [|r r' rows rows' (I & S) H IH]; constructor; [|exact IH].
  split; [exact I|]. apply grouped_same; [apply cell_type|exact S].
Qed.

Lemma group_values : forall p p' cs cs', Forall2 (same_cell p p') cs cs' ->
  mapM (fun c => group_value c p) cs = mapM (fun c => group_value c p') cs'.
Proof.
  intros p p' cs cs' H. induction H as [|a b cs cs' (_ & (x & A & B) & _) H IH]; [reflexivity|].
  cbn [mapM].
  assert (E : group_value a p = group_value b p').
  { unfold group_value. rewrite (column_of_value _ _ _ A), (column_of_value _ _ _ B). reflexivity. }
  rewrite E, IH. reflexivity.
Qed.

(** *** Python *)

Definition py_with (cs : list column) (st : pychunk) : pychunk :=
  PyChunk (py_size st) (py_idata st) (py_istart st) (py_iend st) cs (py_vals st).

Lemma dict_same : forall cs cs', map c_name cs = map c_name cs' -> forall vals d, py_dict cs vals d = py_dict cs' vals d.
Proof.
  induction cs as [|a cs IH]; intros [|b cs'] H vals d; cbn in H; try discriminate; [reflexivity|].
  injection H as A H. destruct vals as [|v vals]; cbn [py_dict]; [reflexivity|]. rewrite A. apply IH. exact H.
Qed.

Definition py_both (cs : list column) (x : pychunk * list pycall) : pychunk * list pycall := (py_with cs (fst x), snd x).

Lemma py_flush_same : forall st cs', map c_name (py_cols st) = map c_name cs' ->
  py_flush (py_with cs' st) = py_both cs' (py_flush st).
Proof.
  intros st cs' N. unfold py_flush, py_both, py_with. cbn [py_idata py_size py_istart py_iend py_cols py_vals].
  destruct (py_idata st =? 0); [reflexivity|]. cbn [fst snd]. rewrite (dict_same _ _ N). reflexivity.
Qed.

Lemma py_flush_cols : forall st, py_cols (fst (py_flush st)) = py_cols st.
Proof. intros st. unfold py_flush. destruct (py_idata st =? 0); reflexivity. Qed.

Lemma py_push_same : forall fl st cs' i p p',
  (forall st, map c_name (py_cols st) = map c_name cs' -> fl (py_with cs' st) = py_both cs' (fl st)) ->
  map c_name (py_cols st) = map c_name cs' ->
  Forall2 (same_cell p p') (py_cols st) cs' ->
  py_push_row fl (py_with cs' st) i p' = (x <- py_push_row fl st i p ;; Ok (py_both cs' x)).
Proof.
  intros fl st cs' i p p' FL N S. unfold py_push_row. cbn [py_cols py_with py_size py_idata py_istart py_iend py_vals].
  rewrite (group_values _ _ _ _ S). destruct (mapM _ cs') as [vs| | | |]; cbn [bind]; try reflexivity.
  destruct (py_idata st +! 1 =? py_size st); [|reflexivity].
  cbn [bind]. rewrite <- FL; [reflexivity|exact N].
Qed.

Lemma py_push_cols : forall fl st i p x, (forall st, py_cols (fst (fl st)) = py_cols st) ->
  py_push_row fl st i p = Ok x -> py_cols (fst x) = py_cols st.
Proof.
  intros fl st i p x FL H. unfold py_push_row in H. destruct (mapM _ _) as [vs| | | |]; cbn [bind] in H; try discriminate H.
  cbn [py_idata py_size] in H. destruct (_ =? _); injection H as <-; [rewrite FL|]; reflexivity.
Qed.

Lemma chunk_rows_same : forall cs cs' rows rows', map c_name cs = map c_name cs' ->
  Forall2 (same_row cs cs') rows rows' -> forall st calls, py_cols st = cs ->
  rmap snd (feed pychunk_step (st, calls) (pushes rows ++ [EvEnd]))
  = rmap snd (feed pychunk_step (py_with cs' st, calls) (pushes rows' ++ [EvEnd])).
Proof.
  intros cs cs' rows rows' N H. induction H as [|[i p] [i' p'] rows rows' (I & S) H IH]; intros st calls C.
  - cbn [pushes map app feed pychunk_step fst snd]. rewrite py_flush_same by congruence.
    destruct (py_flush st) as [s new]. reflexivity.
  - cbn [fst snd] in I, S. subst i' cs. cbn [pushes map app feed pychunk_step fst snd].
    rewrite (py_push_same py_flush st cs' i p p' (fun st E => py_flush_same st cs' E) N S).
    destruct (py_push_row py_flush st i p) as [[s new]| | | |] eqn:E; cbn [bind rmap]; try reflexivity.
    apply (py_push_cols _ _ _ _ _ py_flush_cols) in E. cbn [fst] in E. cbn [py_both fst snd].
    apply (IH s (calls ++ new)). exact E.
Qed.

Lemma data_rows_same : forall cs cs' rows rows', map c_name cs = map c_name cs' ->
  Forall2 (same_row cs cs') rows rows' -> forall st calls, py_cols st = cs ->
  rmap snd (feed pydata_step (st, calls) (pushes rows ++ [EvEnd]))
  = rmap snd (feed pydata_step (py_with cs' st, calls) (pushes rows' ++ [EvEnd])).
Proof.
  intros cs cs' rows rows' N H. induction H as [|[i p] [i' p'] rows rows' (I & S) H IH]; intros st calls C.
  - cbn [pushes map app feed pydata_step fst snd]. cbn [py_with py_idata py_cols py_vals].
    destruct (py_idata st =? 0); [reflexivity|]. cbn [bind rmap snd]. subst cs. rewrite (dict_same _ _ N). reflexivity.
  - cbn [fst snd] in I, S. subst i' cs. cbn [pushes map app feed pydata_step fst snd].
    rewrite (py_push_same (fun x => (x, [])) st cs' i p p' (fun st E => eq_refl) N S).
    destruct (py_push_row (fun x => (x, [])) st i p) as [[s new]| | | |] eqn:E; cbn [bind rmap]; try reflexivity.
    apply (py_push_cols (fun x => (x, [])) _ _ _ _ (fun st => eq_refl)) in E. cbn [fst] in E. cbn [py_both fst snd].
    apply (IH s (calls ++ new)). exact E.
Qed.

Lemma facts_grouped : forall cs cs', map column_facts cs = map column_facts cs' ->
  map c_name (grouped cs) = map c_name (grouped cs') /\ length (grouped cs) = length (grouped cs').
Proof.
  intros cs cs' F.
  assert (G : Forall2 (fun a b => column_facts a = column_facts b) cs cs').
  { revert cs' F. induction cs as [|a cs IH]; intros [|b cs'] F; cbn [map] in F; try discriminate; constructor.
    - congruence.
    - apply IH. congruence. }
  apply (grouped_same (fun a b => column_facts a = column_facts b)) in G.
  - split; [|eapply Forall2_len; exact G]. induction G as [|a b l l' E G IH]; [reflexivity|].
    cbn. unfold column_facts in E. f_equal; [congruence|exact IH].
  - intros a b E. unfold column_facts in E. congruence.
Qed.

Lemma map_nil_same : forall A B (l l' : list A), length l = length l' ->
  map (fun _ => ([] : list B)) l = map (fun _ => []) l'.
Proof. induction l as [|a l IH]; intros [|b l'] H; cbn in *; try discriminate; [reflexivity|]. f_equal. auto. Qed.

Lemma python_same : forall size h h' md md' rows rows',
  md_row_count md = md_row_count md' ->
  map column_facts (md_columns md) = map column_facts (md_columns md') ->
  Forall2 (same_row (md_columns md) (md_columns md')) rows rows' ->
  rmap snd (feed pychunk_step (pychunk_new size, []) (EvProps h md :: pushes rows ++ [EvEnd]))
  = rmap snd (feed pychunk_step (pychunk_new size, []) (EvProps h' md' :: pushes rows' ++ [EvEnd]))
  /\ rmap snd (feed pydata_step (pychunk_new size, []) (EvProps h md :: pushes rows ++ [EvEnd]))
  = rmap snd (feed pydata_step (pychunk_new size, []) (EvProps h' md' :: pushes rows' ++ [EvEnd])).
Proof.
  intros size h h' md md' rows rows' RC F S. destruct (facts_grouped _ _ F) as [GN GL].
  apply grouped_rows in S. cbn [feed pychunk_step pydata_step bind]. rewrite <- RC.
  split.
  - rewrite (chunk_rows_same _ _ _ _ GN S (pychunk_props (pychunk_new size) (md_columns md)) [] eq_refl). unfold pychunk_props, py_with.
    cbn [py_size py_idata py_istart py_iend py_vals]. rewrite (map_nil_same _ _ _ _ GL). reflexivity.
  - erewrite (data_rows_same _ _ _ _ GN S (pychunk_props _ (md_columns md)) []) by reflexivity. unfold pychunk_props, py_with.
    cbn [py_size py_idata py_istart py_iend py_vals]. rewrite (map_nil_same _ _ _ _ GL). reflexivity.
Qed.

(** *** R *)

Definition r_swap (cs : list column) (st : rstate_sink) : rstate_sink :=
  RSink (r_size st) (r_idata st) (r_ilast st) (r_istart st) (r_iend st) cs (r_index st) (r_vecs st) (r_heap st).

Lemma push_values_same : forall p p' cs cs', Forall2 (same_cell p p') cs cs' -> forall h vecs i,
  r_push_values h cs vecs i p = r_push_values h cs' vecs i p'.
Proof.
  intros p p' cs cs' H. induction H as [|a b cs cs' (_ & (x & A & B) & _) H IH]; intros h vecs i; [reflexivity|].
  destruct vecs as [|v vecs]; [reflexivity|]. cbn [r_push_values]. unfold group_value.
  rewrite (column_of_value _ _ _ A), (column_of_value _ _ _ B). cbn [bind].
  destruct (r_val x) as [y| | | |]; cbn [bind]; try reflexivity.
  destruct (r_store h v i y) as [h1| | | |]; cbn [bind]; try reflexivity. apply IH.
Qed.

Lemma base_push_same : forall st cs' i p p', Forall2 (same_cell p p') (r_cols st) cs' ->
  r_base_push (r_swap cs' st) i p' = (x <- r_base_push st i p ;; Ok (r_swap cs' x)).
Proof.
  intros st cs' i p p' S. unfold r_base_push. cbn [r_swap r_heap r_index r_idata r_cols r_vecs r_istart r_iend].
  destruct (r_store _ _ _ _) as [h1| | | |]; cbn [bind]; try reflexivity.
  rewrite (push_values_same _ _ _ _ S). destruct (r_push_values _ _ _ _ _); reflexivity.
Qed.

Lemma base_push_cols : forall st i p x, r_base_push st i p = Ok x -> r_cols x = r_cols st.
Proof.
  intros st i p x H. unfold r_base_push in H. destruct (r_store _ _ _ _) as [h1| | | |]; cbn [bind] in H; try discriminate H.
  destruct (r_push_values _ _ _ _ _); cbn [bind] in H; try discriminate H. injection H as <-. reflexivity.
Qed.

Lemma deliver_same : forall st cs', r_deliver (r_swap cs' st) = (r_swap cs' (fst (r_deliver st)), snd (r_deliver st)).
Proof.
  intros st cs'. unfold r_deliver. cbn [r_swap r_heap r_index r_idata r_cols r_vecs r_istart r_iend].
  destruct (if r_idata st =? _ then _ else _) as [ix h1]. destruct (r_set_values _ _ _) as [ws h2]. reflexivity.
Qed.

Lemma deliver_cols : forall st, r_cols (fst (r_deliver st)) = r_cols st.
Proof.
  intros st. unfold r_deliver. destruct (if r_idata st =? _ then _ else _) as [ix h1].
  destruct (r_set_values _ _ _) as [ws h2]. reflexivity.
Qed.

Lemma r_flush_same : forall st cs', r_flush (r_swap cs' st) = (r_swap cs' (fst (r_flush st)), snd (r_flush st)).
Proof.
  intros st cs'. unfold r_flush. cbn [r_swap r_iend r_istart r_idata].
  destruct (_ || _); [reflexivity|]. change (RSink _ _ _ _ _ cs' _ _ _) with (r_swap cs' st). rewrite deliver_same.
  destruct (r_deliver st) as [s call]. reflexivity.
Qed.

Lemma r_flush_cols : forall st, r_cols (fst (r_flush st)) = r_cols st.
Proof.
  intros st. unfold r_flush. destruct (_ || _); [reflexivity|]. pose proof (deliver_cols st) as D.
  destruct (r_deliver st) as [s call]. exact D.
Qed.

Lemma allocs_same : forall cs cs' n, length cs = length cs' -> forall h, r_allocs h cs n = r_allocs h cs' n.
Proof.
  induction cs as [|a cs IH]; intros [|b cs'] n L h; cbn in L; try discriminate; [reflexivity|].
  cbn [r_allocs]. destruct (r_alloc h n) as [v h1]. rewrite (IH cs'); [reflexivity|]. congruence.
Qed.

Lemma prepare_same : forall st cs' n, length (r_cols st) = length cs' ->
  r_prepare (r_swap cs' st) n = r_swap cs' (r_prepare st n).
Proof.
  intros st cs' n L. unfold r_prepare. cbn [r_swap r_heap r_cols].
  destruct (r_alloc (r_heap st) n) as [ix h1]. rewrite <- (allocs_same _ _ n L h1).
  destruct (r_allocs h1 (r_cols st) n) as [vs h2]. reflexivity.
Qed.

Lemma prepare_cols : forall st n, r_cols (r_prepare st n) = r_cols st.
Proof.
  intros st n. unfold r_prepare. destruct (r_alloc (r_heap st) n) as [ix h1].
  destruct (r_allocs h1 (r_cols st) n) as [vs h2]. reflexivity.
Qed.

Lemma r_push_same : forall st cs' i p p', Forall2 (same_cell p p') (r_cols st) cs' ->
  r_push_row (r_swap cs' st) i p' = (x <- r_push_row st i p ;; Ok (r_swap cs' (fst x), snd x))
  /\ (forall x, r_push_row st i p = Ok x -> r_cols (fst x) = r_cols st).
Proof.
  intros st cs' i p p' S. unfold r_push_row. rewrite (base_push_same _ _ _ _ _ S).
  pose proof (Forall2_len _ _ _ _ _ S) as L.
  destruct (r_base_push st i p) as [st1| | | |] eqn:E; cbn [bind]; try (split; [reflexivity|intros x H; discriminate H]).
  apply base_push_cols in E. cbv zeta.
  set (st2 := r_with st1 (r_idata st1) (r_istart st1) i (r_index st1) (r_heap st1)).
  change (r_with (r_swap cs' st1) _ _ i _ _) with (r_swap cs' st2).
  assert (C2 : r_cols st2 = r_cols st) by exact E. clearbody st2.
  change (r_idata (r_swap cs' st2)) with (r_idata st2). change (r_size (r_swap cs' st2)) with (r_size st2).
  destruct (r_idata st2 =? r_size st2).
  - rewrite r_flush_same. pose proof (r_flush_cols st2) as C3. destruct (r_flush st2) as [st3 calls]. cbn [fst snd] in *.
    change (r_ilast (r_swap cs' st3)) with (r_ilast st3). change (r_istart (r_swap cs' st3)) with (r_istart st3).
    change (r_size (r_swap cs' st3)) with (r_size st3).
    destruct (_ && _); cbn [bind fst snd]; (split; [|intros x H; injection H as <-; cbn [fst]]).
    + rewrite prepare_same by congruence. reflexivity.
    + rewrite prepare_cols. congruence.
    + reflexivity.
    + congruence.
  - split; [reflexivity|]. intros x H. injection H as <-. exact C2.
Qed.

Lemma rchunk_same : forall cs cs' rows rows', Forall2 (same_row cs cs') rows rows' -> forall st calls, r_cols st = cs ->
  rmap snd (feed rchunk_step (st, calls) (pushes rows ++ [EvEnd]))
  = rmap snd (feed rchunk_step (r_swap cs' st, calls) (pushes rows' ++ [EvEnd])).
Proof.
  intros cs cs' rows rows' H. induction H as [|[i p] [i' p'] rows rows' (I & S) H IH]; intros st calls C.
  - cbn [pushes map app feed rchunk_step fst snd]. rewrite r_flush_same. destruct (r_flush st) as [s new]. reflexivity.
  - cbn [fst snd] in I, S. subst i' cs. cbn [pushes map app feed rchunk_step fst snd].
    destruct (r_push_same st cs' i p p' S) as [-> K].
    destruct (r_push_row st i p) as [[s new]| | | |]; cbn [bind rmap]; try reflexivity.
    cbn [fst snd]. apply (IH s (calls ++ new)). exact (K _ eq_refl).
Qed.

Lemma rdata_same : forall cs cs' rows rows', Forall2 (same_row cs cs') rows rows' -> forall st calls, r_cols st = cs ->
  rmap snd (feed rdata_step (st, calls) (pushes rows ++ [EvEnd]))
  = rmap snd (feed rdata_step (r_swap cs' st, calls) (pushes rows' ++ [EvEnd])).
Proof.
  intros cs cs' rows rows' H. induction H as [|[i p] [i' p'] rows rows' (I & S) H IH]; intros st calls C.
  - cbn [pushes map app feed rdata_step fst snd]. change (r_idata (r_swap cs' st)) with (r_idata st).
    destruct (r_idata st =? 0); [reflexivity|]. rewrite deliver_same. destruct (r_deliver st) as [s new]. reflexivity.
  - cbn [fst snd] in I, S. subst i' cs. cbn [pushes map app feed rdata_step fst snd].
    rewrite (base_push_same _ _ _ _ _ S).
    destruct (r_base_push st i p) as [s| | | |] eqn:E; cbn [bind rmap]; try reflexivity.
    apply base_push_cols in E. apply (IH s calls). exact E.
Qed.

Lemma props_same : forall st md md', md_row_count md = md_row_count md' ->
  length (grouped (md_columns md)) = length (grouped (md_columns md')) ->
  r_props st md' = r_swap (grouped (md_columns md')) (r_props st md) /\ r_cols (r_props st md) = grouped (md_columns md).
Proof.
  intros st md md' RC L. unfold r_props. rewrite <- RC. split; [|apply prepare_cols].
  rewrite <- prepare_same; [reflexivity|exact L].
Qed.

Lemma r_same : forall size h h' md md' rows rows',
  md_row_count md = md_row_count md' ->
  map column_facts (md_columns md) = map column_facts (md_columns md') ->
  Forall2 (same_row (md_columns md) (md_columns md')) rows rows' ->
  rmap snd (feed rchunk_step (rsink_new size, []) (EvProps h md :: pushes rows ++ [EvEnd]))
  = rmap snd (feed rchunk_step (rsink_new size, []) (EvProps h' md' :: pushes rows' ++ [EvEnd]))
  /\ rmap snd (feed rdata_step (rsink_new size, []) (EvProps h md :: pushes rows ++ [EvEnd]))
  = rmap snd (feed rdata_step (rsink_new size, []) (EvProps h' md' :: pushes rows' ++ [EvEnd])).
Proof.
  intros size h h' md md' rows rows' RC F S. destruct (facts_grouped _ _ F) as [_ GL].
  apply grouped_rows in S. cbn [feed rchunk_step rdata_step bind].
  destruct (props_same (rsink_new size) md md' RC GL) as [-> C].
  split; [apply (rchunk_same _ _ _ _ S)|apply (rdata_same _ _ _ _ S)]; exact C.
Qed.

(** ** Together *)

Lemma layout_outputs : forall c c' flt e e' fs fs' contents file file',
  holds_table c e fs contents file -> holds_table c' e' fs' contents file' ->
  Forall2 same_field fs fs' -> contents <> [] -> by_facts flt ->
  exists r r' evs evs',
    open_reader c file_source flt (file_open file) = Ok (r, [EvProps (rs_h r) (rs_md r)])
    /\ open_reader c' file_source flt (file_open file') = Ok (r', [EvProps (rs_h r') (rs_md r')])
    /\ fst (trace c file_source [OpReadAll] (Some r)) = [(OpReadAll, Ok OUnit, evs)]
    /\ fst (trace c' file_source [OpReadAll] (Some r')) = [(OpReadAll, Ok OUnit, evs')]
    /\ same_outputs (EvProps (rs_h r) (rs_md r) :: evs) (EvProps (rs_h r') (rs_md r') :: evs').
Proof.
  intros c c' flt e e' fs fs' contents file file' H H' SF NE BF.
  destruct (layout_rows c c' flt e e' fs fs' contents file file' H H' SF NE BF)
    as (r & r' & rows & rows' & O & O' & T & T' & _ & RC & F & S).
  exists r, r', (pushes rows ++ [EvEnd]), (pushes rows' ++ [EvEnd]). repeat (split; [assumption|]).
  split; [intros f; apply csv_same; assumption|].
  split; [intros g; apply print_same; auto|].
  assert (CM : forall A B (x : res (A * B)), calls_made x = rmap snd x) by (intros A B [[]| | | |]; reflexivity).
  split; intros size; rewrite !CM; [apply python_same|apply r_same]; assumption.
Qed.
