(** Files which are cut off anywhere: lemmas. *)
From Verif Require Import Base Types DateTime Buffer Header Page Column Decomp Metadata Data Reader Lemmas SpecValues SpecBuffer SpecHeader
  SpecDecomp SpecReader SpecPages SpecMeta SpecFile SpecRoundtrip SpecConform ProofValues ProofBuffer ProofHeader ProofMetaInv ProofPages ProofOpen
  ProofMeta ProofColumns ProofConform ProofCut.
Local Open Scope N_scope.

(** ** The description of the first pages *)

Fixpoint unended (ly : layout) (m : mstate) (pages : list bytes) : Prop :=
  match pages with
  | [] => True
  | pg :: l => page_ends ly pg m = false /\ unended ly (page_meaning ly pg m) l
  end.

Lemma ended_or_not : forall ly pages m,
  (forall more, pages_meaning ly m (pages ++ more) = pages_meaning ly m pages)
  \/ unended ly m pages.
Proof.
  intros ly pages. induction pages as [|pg l IH]; intros m; [right; exact I|]. cbn [app pages_meaning unended].
  destruct (page_ends ly pg m); [left; reflexivity|].
  destruct (IH (page_meaning ly pg m)) as [H|H]; [left; exact H|right; auto].
Qed.

Lemma unended_app : forall ly pages m more, unended ly m pages ->
  pages_meaning ly m (pages ++ more) = pages_meaning ly (pages_meaning ly m pages) more.
Proof.
  intros ly pages. induction pages as [|pg l IH]; intros m more U; [reflexivity|]. destruct U as [U1 U2].
  cbn [app pages_meaning]. rewrite U1. apply IH. exact U2.
Qed.

(** The entries are only added to, and the compression is fixed by the first text. *)
Definition extends {A} (l k : list A) : Prop := exists more, k = l ++ more.

Definition grows (m m' : mstate) : Prop :=
  extends (m_texts m) (m_texts m') /\ extends (m_names m) (m_names m')
  /\ extends (m_formats m) (m_formats m') /\ extends (m_labels m) (m_labels m')
  /\ extends (m_offsets m) (m_offsets m') /\ extends (m_lengths m) (m_lengths m')
  /\ extends (m_types m) (m_types m')
  /\ (m_texts m <> [] -> md_compression (m_md m') = md_compression (m_md m))
  /\ (m_texts m' = [] -> md_compression (m_md m') = md_compression (m_md m)).

Lemma extends_refl : forall A (l : list A), extends l l.
Proof. intros A l. exists []. symmetry. apply app_nil_r. Qed.

Lemma extends_trans : forall A (l k j : list A), extends l k -> extends k j -> extends l j.
Proof. intros A l k j [a ->] [b ->]. exists (a ++ b). rewrite app_assoc. reflexivity. Qed.

Lemma extends_app : forall A (l k : list A), extends l (l ++ k).
Proof. intros A l k. exists k. reflexivity. Qed.

Lemma grows_refl : forall m, grows m m.
Proof. intros m. unfold grows. repeat (split; [apply extends_refl|]). auto. Qed.

Lemma grows_trans : forall a b c, grows a b -> grows b c -> grows a c.
Proof.
  intros a b c (A1 & A2 & A3 & A4 & A5 & A6 & A7 & A8 & A9) (B1 & B2 & B3 & B4 & B5 & B6 & B7 & B8 & B9).
  unfold grows. repeat (split; [eapply extends_trans; eassumption|]). split.
  - intros T. rewrite B8; [apply A8; exact T|]. destruct A1 as [x ->]. destruct (m_texts a); [contradiction|discriminate].
  - intros T. rewrite B9 by exact T. apply A9. destruct B1 as [x E]. rewrite T in E.
    destruct (m_texts b); [reflexivity|discriminate].
Qed.

Lemma meaning_grows : forall ly pg m s, grows m (meaning ly pg m s).
Proof.
  intros ly pg m s. unfold meaning. destruct (kind_on ly pg s) as [[]|]; try apply grows_refl.
  - unfold grows, row_size_meaning. cbn. repeat (split; [apply extends_refl|]). auto.
  - unfold grows, column_size_meaning. cbn. repeat (split; [apply extends_refl|]). auto.
  - unfold grows, text_meaning. cbn. split; [apply extends_app|]. repeat (split; [apply extends_refl|]).
    split; intros T.
    + destruct (m_texts m); [contradiction|reflexivity].
    + destruct (m_texts m); discriminate.
  - unfold grows, names_meaning. cbn. split; [apply extends_refl|]. split; [apply extends_app|].
    repeat (split; [apply extends_refl|]). auto.
  - unfold grows, attributes_meaning. cbn. repeat (split; [apply extends_refl|]).
    repeat (split; [apply extends_app|]). auto.
  - unfold grows, format_label_meaning. cbn. repeat (split; [apply extends_refl || apply extends_app|]). auto.
  - destruct (is_row ly pg m s); [|apply grows_refl]. unfold grows, row_meaning. cbn.
    repeat (split; [apply extends_refl|]). auto.
Qed.

Lemma subs_grow : forall ly pg l m, grows m (subs_meaning ly pg m l).
Proof.
  intros ly pg l. induction l as [|s l IH]; intros m; [apply grows_refl|]. cbn [subs_meaning].
  eapply grows_trans; [apply meaning_grows|apply IH].
Qed.

Lemma pages_grow : forall ly pages m, grows m (pages_meaning ly m pages).
Proof.
  intros ly pages. induction pages as [|pg l IH]; intros m; [apply grows_refl|]. cbn [pages_meaning].
  destruct (page_ends ly pg m); [apply subs_grow|]. eapply grows_trans; [apply subs_grow|apply IH].
Qed.

(** Only numbers and texts are said to be types. *)
Definition two_types (m : mstate) : Prop := Forall (fun t => t = TNumber \/ t = TString) (m_types m).

Lemma meaning_types : forall ly pg m s, two_types m -> two_types (meaning ly pg m s).
Proof.
  intros ly pg m s T. unfold meaning. destruct (kind_on ly pg s) as [[]|]; try exact T.
  - unfold two_types, attributes_meaning. cbn. apply Forall_app. split; [exact T|]. apply Forall_forall.
    intros t K. apply in_map_iff in K. destruct K as (p & <- & _). destruct (_ =? 1); auto.
  - destruct (is_row ly pg m s); exact T.
Qed.

Lemma pages_types : forall ly pages m, two_types m -> two_types (pages_meaning ly m pages).
Proof.
  assert (S : forall ly pg l m, two_types m -> two_types (subs_meaning ly pg m l)).
  { intros ly pg l. induction l as [|s l IH]; intros m T; [exact T|]. cbn [subs_meaning]. apply IH.
    apply meaning_types. exact T. }
  intros ly pages. induction pages as [|pg l IH]; intros m T; [exact T|]. cbn [pages_meaning].
  destruct (page_ends ly pg m); [|apply IH]; apply S; exact T.
Qed.

(** ** No rows before the description is complete *)

(** Layouts which differ in the sizes only. *)
Definition same_reading (ly ly' : layout) : Prop :=
  ly_endian ly' = ly_endian ly /\ ly_format ly' = ly_format ly.

Section Reading.
  Variables ly ly' : layout.
  Hypothesis R : same_reading ly ly'.

  Lemma entries_same : forall pg, entries ly' pg = entries ly pg.
  Proof.
    intros pg. destruct R as [R1 R2]. unfold entries, page_subs, page_number, nth_entry. rewrite R1, R2. reflexivity.
  Qed.

  Lemma type_same : forall pg, page_type ly' pg = page_type ly pg.
  Proof. intros pg. destruct R as [R1 R2]. unfold page_type, page_number. rewrite R1, R2. reflexivity. Qed.

  Lemma live_same : forall pg, live ly' pg = live ly pg.
  Proof. intros pg. unfold live. rewrite type_same, entries_same. reflexivity. Qed.

  Lemma kind_same : forall pg s, kind_on ly' pg s = kind_on ly pg s.
  Proof. intros pg s. destruct R as [_ R2]. unfold kind_on, SpecPages.signature. rewrite R2. reflexivity. Qed.

  Lemma text_same : forall pg l, Exists (is_text ly pg) l <-> Exists (is_text ly' pg) l.
  Proof.
    intros pg l. assert (E : forall s, is_text ly pg s <-> is_text ly' pg s).
    { intros s. destruct R as [_ R2]. unfold is_text. rewrite kind_same, R2. reflexivity. }
    split; apply Exists_impl; intros s; apply E.
  Qed.
End Reading.

(** A stored row with a text before it ends the description. *)
Lemma stored_ends : forall ly k pg s b fin a m, fin = subs_meaning ly pg m (a ++ s :: b) ->
  kind_on ly pg s = None -> is_data_entry k s = true ->
  m_texts m <> [] \/ Exists (is_text ly pg) a ->
  (forall m1, grows m1 fin -> m_texts m1 <> [] -> md_compression (m_md m1) = k) ->
  subs_rows ly pg m (a ++ s :: b) = true.
Proof.
  intros ly k pg s b fin a. induction a as [|x a IH]; intros m F K D T C; cbn [app subs_rows]; apply orb_true_intro.
  - left. unfold is_row. rewrite K. rewrite (C m); [exact D| |].
    + rewrite F. apply subs_grow.
    + destruct T as [T|T]; [exact T|inversion T].
  - right. apply IH; try assumption.
    destruct T as [T|T].
    + left. destruct (meaning_grows ly pg m x) as ([y E] & _). rewrite E. destruct (m_texts m); [contradiction|discriminate].
    + inversion T as [? ? [_ K1]|? ? T1]; subst; [|right; exact T1]. left. unfold meaning. rewrite K1. cbn.
      destruct (m_texts m); discriminate.
Qed.

(** The first pages, as long as they do not end the description, have no rows. *)
Lemma unended_rows : forall ly ly' pages m before, same_reading ly ly' -> unended ly m pages ->
  (m_texts (pages_meaning ly m pages) <> [] -> md_compression (m_md (pages_meaning ly m pages)) = ly_compression ly') ->
  (Exists (fun q => Exists (is_text ly q) (live ly q)) before -> m_texts m <> []) ->
  Forall (fun q => begins ly' q = false) before ->
  (forall pre pg post, pages = pre ++ pg :: post ->
     Forall (fun q => begins ly' q = false) (before ++ pre) -> clear_page ly' (before ++ pre) pg) ->
  Forall (fun q => begins ly' q = false) pages.
Proof.
  intros ly ly' pages. induction pages as [|pg l IH]; intros m before R U CT TB FB CL; [constructor|].
  destruct U as [U1 U2]. cbn [pages_meaning] in CT. rewrite U1 in CT.
  pose proof (pages_grow ly l (page_meaning ly pg m)) as G.
  assert (GT : forall a b, grows a b -> m_texts a <> [] -> m_texts b <> []).
  { intros a b ([y E] & _) T. rewrite E. destruct (m_texts a); [contradiction|discriminate]. }
  assert (CP : clear_page ly' before pg).
  { specialize (CL [] pg l eq_refl). rewrite app_nil_r in CL. apply CL. exact FB. }
  assert (B : begins ly' pg = false).
  { unfold page_ends in U1. apply orb_false_iff in U1. destruct U1 as [U0 U1].
    unfold begins. rewrite (type_same ly ly' R), U0. cbn [orb].
    destruct (existsb (is_stored_row ly' pg) (live ly' pg)) eqn:X; [|reflexivity]. exfalso.
    apply existsb_exists in X. destruct X as (s & I1 & S1). unfold is_stored_row in S1.
    apply andb_true_iff in S1. destruct S1 as [S1 S2].
    destruct (kind_on ly' pg s) eqn:K; [discriminate S2|].
    apply in_split in I1. destruct I1 as (a & b & I1). destruct (CP a s b I1 S1) as [_ TX]. specialize (TX K).
    rewrite (live_same ly ly' R) in I1. unfold page_meaning in G, CT. rewrite I1 in U1, G, CT.
    rewrite (stored_ends ly (ly_compression ly') pg s b _ a m eq_refl) in U1; [discriminate U1| | | |].
    - rewrite <- (kind_same ly ly' R). exact K.
    - exact S1.
    - destruct TX as [TX|TX]; [left|right; apply (text_same ly ly' R); exact TX].
      apply TB. revert TX. apply Exists_impl. intros q Q. apply (text_same ly ly' R).
      rewrite <- (live_same ly ly' R). exact Q.
    - intros m2 G2 T2. pose proof (grows_trans _ _ _ G2 G) as G3.
      rewrite <- CT by (eapply GT; eassumption). destruct G3 as (_ & _ & _ & _ & _ & _ & _ & G3 & _).
      symmetry. apply G3. exact T2. }
  constructor; [exact B|].
  apply (IH (page_meaning ly pg m) (before ++ [pg])); try assumption.
  - intros X. apply Exists_app in X. destruct X as [X|X].
    + eapply GT; [apply subs_grow|]. apply TB. exact X.
    + inversion X as [? ? Y|? ? Y]; subst; [|inversion Y].
      apply Exists_exists in Y. destruct Y as (s & I1 & _ & K). apply in_split in I1. destruct I1 as (a & b & I1).
      unfold page_meaning. rewrite I1. clear -K GT.
      assert (T : forall a m, m_texts (subs_meaning ly pg m (a ++ s :: b)) <> []).
      { intros a0. induction a0 as [|x a0 IH]; intros m0; cbn [app subs_meaning]; [|apply IH].
        eapply GT; [apply subs_grow|]. unfold meaning. rewrite K. cbn. destruct (m_texts m0); discriminate. }
      apply T.
  - apply Forall_app. split; [exact FB|]. constructor; [exact B|constructor].
  - intros pre q post E F. rewrite <- app_assoc in F |- *. cbn [app] in F |- *.
    apply (CL (pg :: pre) q post); [rewrite E; reflexivity|exact F].
Qed.

Lemma begins_same : forall ly ly' pg, same_reading ly ly' -> ly_compression ly' = ly_compression ly ->
  begins ly' pg = begins ly pg.
Proof.
  intros ly ly' pg R C. unfold begins. rewrite (type_same ly ly' R), (live_same ly ly' R). f_equal.
  induction (live ly pg) as [|s l IH]; [reflexivity|]. cbn [existsb]. rewrite IH. f_equal.
  unfold is_stored_row. rewrite C, (kind_same ly ly' R). reflexivity.
Qed.

Lemma clear_start_same : forall ly ly' pages, same_reading ly ly' -> ly_compression ly' = ly_compression ly ->
  clear_start ly pages -> clear_start ly' pages.
Proof.
  intros ly ly' pages R C H pre pg post E F a s b L D.
  rewrite (live_same ly ly' R) in L. rewrite C in D.
  destruct (H pre pg post E) with (a := a) (s := s) (b := b) as [A B]; try assumption.
  { revert F. apply Forall_impl. intros q Q. rewrite <- (begins_same ly ly' q R C). exact Q. }
  destruct R as [R1 R2]. rewrite R2. split; [exact A|]. rewrite (kind_same ly ly' (conj R1 R2)).
  intros K. destruct (B K) as [X|X]; [left|right; apply (text_same ly ly' (conj R1 R2)); exact X].
  revert X. apply Exists_impl. intros q Q. rewrite (live_same ly ly' (conj R1 R2)).
  apply (text_same ly ly' (conj R1 R2)). exact Q.
Qed.

Lemma clear_start_plain : forall ly pages, ly_compression ly = CompNone -> clear_start ly pages.
Proof. intros ly pages C pre pg post _ _ a s b _ D. rewrite C in D. discriminate D. Qed.

(** ** Opening *)

(** What is read at construction, whatever the sizes are. *)
Lemma loop_meaning : forall c content h s b,
  open_header c file_source (file_open content) = Ok (h, s, b) ->
  let ly := layout_of h empty_metadata in
  prefix (h_format h) + 6 <= h_page_length h -> h_page_length h <= max_alloc c ->
  pages_fit ly empty_mstate (file_pages content h) -> (length (file_pages content h) < page_fuel c)%nat ->
  exists p, metadata_loop c file_source (h_endianness h) (h_format h) (h_page_length h)
      (page_fuel c) (PState s b reset_page_header) empty_mstate
    = Ok (p, pages_meaning ly empty_mstate (file_pages content h)).
Proof.
  intros c content h s b HH ly X A FT PF.
  pose proof (header_consumed _ _ _ _ _ HH) as ->.
  assert (WB : wf_mbuf b).
  { apply header_opened in HH. destruct HH as (_ & _ & _ & _ & _ & ->). unfold wf_mbuf, full.
    cbn [mem msize]. rewrite lenN_map. lia. }
  assert (PL : h_page_length h < 2 ^ 32).
  { apply header_opened in HH. destruct HH as (_ & _ & HL & HF & _).
    apply the_header_spec in HF; [|lia]. rewrite (hof_page_length _ _ HF). rewrite <- get_val_value.
    eapply N.lt_le_trans; [apply get_val_lt|]. change (2 ^ 32) with (256 ^ 4).
    apply N.pow_le_mono_r; [lia|]. rewrite field_slice, lenN_slice. lia. }
  change (h_page_length h) with (ly_page_length ly) in *.
  change (h_format h) with (ly_format ly) in *.
  change (h_endianness h) with (ly_endian ly).
  assert (M : exists p', metadata_loop c file_source (ly_endian ly) (ly_format ly) (ly_page_length ly) (page_fuel c)
       (PState (FState (skipn (N.to_nat (h_header_length h)) content) false false) b reset_page_header) empty_mstate
     = Ok (p', pages_meaning ly empty_mstate (file_pages content h))
     /\ page_left ly p' (pages_meaning ly empty_mstate (file_pages content h))).
  { apply (metadata_meaning c ly); try assumption.
    - destruct (ly_format ly); cbn [prefix] in X; lia.
    - lia.
    - split; [reflexivity|exact WB]. }
  destruct M as (p & E & _). eauto.
Qed.

Lemma fields_of : forall m, enough_entries m -> two_types m -> exists fields, fields_said m fields.
Proof.
  intros m E T. unfold enough_entries in E. cbv zeta in E. destruct E as (E1 & E2 & E3 & E4 & E5 & E6).
  set (mk := fun i => FieldDesc (nth i (m_names m) []) (nth i (m_labels m) []) (nth i (m_formats m) [])
    (nth i (m_offsets m) 0) (nth i (m_lengths m) 0) (match nth i (m_types m) TNumber with TNumber => true | _ => false end)).
  exists (map mk (seq 0 (N.to_nat (md_column_count (m_md m))))).
  split; [unfold lenN; rewrite map_length, seq_length; lia|].
  intros i d H. assert (L : (i < N.to_nat (md_column_count (m_md m)))%nat).
  { assert (X : nth_error (map mk (seq 0 (N.to_nat (md_column_count (m_md m))))) i <> None) by congruence.
    apply nth_error_Some in X. rewrite map_length, seq_length in X. exact X. }
  rewrite nth_error_map in H. rewrite (nth_error_nth' _ 0%nat) in H by (rewrite seq_length; exact L).
  rewrite seq_nth in H by exact L. cbn [option_map Nat.add] in H. injection H as <-. cbn [mk fd_name].
  unfold lenN in *. repeat (split; [apply nth_error_nth'; cbn; lia|]).
  rewrite (nth_error_nth' _ TNumber) by lia. f_equal. cbn.
  unfold two_types in T. rewrite Forall_forall in T.
  destruct (T (nth i (m_types m) TNumber)) as [-> | ->]; [apply nth_In; lia|reflexivity|reflexivity].
Qed.

Lemma extends_nth : forall A (l k : list A) i x y, extends l k -> nth_error l i = Some x -> nth_error k i = Some y -> x = y.
Proof.
  intros A l k i x y [m ->] X Y. rewrite nth_error_app1 in Y; [congruence|].
  apply nth_error_Some. congruence.
Qed.

(** The fields of a part of a description are those of the whole one. *)
Lemma fields_agree : forall m m' f f', grows m m' -> fields_said m f -> fields_said m' f' ->
  forall i d d', nth_error f i = Some d -> nth_error f' i = Some d' -> d = d'.
Proof.
  intros m m' f f' (_ & G1 & G2 & G3 & G4 & G5 & G6 & _) [_ F] [_ F'] i d d' D D'.
  destruct (F i d D) as (A1 & A2 & A3 & A4 & A5 & A6). destruct (F' i d' D') as (B1 & B2 & B3 & B4 & B5 & B6).
  pose proof (extends_nth _ _ _ _ _ _ G1 A1 B1). pose proof (extends_nth _ _ _ _ _ _ G2 A3 B3).
  pose proof (extends_nth _ _ _ _ _ _ G3 A2 B2). pose proof (extends_nth _ _ _ _ _ _ G4 A4 B4).
  pose proof (extends_nth _ _ _ _ _ _ G5 A5 B5). pose proof (extends_nth _ _ _ _ _ _ G6 A6 B6).
  destruct d, d'. cbn in *. subst. f_equal.
  destruct fd_numeric, fd_numeric0; congruence.
Qed.

(** ** Any cut *)

Definition cut_result (c : cfg) (flt : option (column -> bool)) (part : bytes) (fields : list field_desc)
    (rows : list bytes) : Prop :=
  (exists e, open_reader c file_source flt (file_open part) = Exn e)
  \/ exists r cols n,
       open_reader c file_source flt (file_open part) = Ok (r, [EvProps (rs_h r) (rs_md r)])
       /\ header_of_file part (rs_h r)
       /\ md_columns (rs_md r) = (match flt with Some p => filter p cols | None => cols end)
       /\ (forall i d col, nth_error fields i = Some d -> nth_error cols i = Some col ->
             column_for (file_endian part) d col)
       /\ (n = 0%nat \/ length cols = length fields)
       /\ forall ops, seen (md_row_length (rs_md r)) (fst (trace c file_source ops (Some r)))
                      = fst (cur_trace ops (0, map Ok (firstn n rows))).

Lemma Forall2_nth : forall A B (R : A -> B -> Prop) l k, Forall2 R l k ->
  length k = length l /\ forall i x y, nth_error l i = Some x -> nth_error k i = Some y -> R x y.
Proof.
  intros A B R l k F. induction F as [|x y l k H F [IH1 IH2]].
  - split; [reflexivity|]. intros [|i] x y X; discriminate X.
  - split; [cbn; congruence|]. intros [|i] a b X Y; [cbn in X, Y; congruence|]. exact (IH2 i a b X Y).
Qed.

Lemma no_begin_data : forall ly pages, Forall (fun q => begins ly q = false) pages ->
  good_data ly pages /\ data_pages ly pages = [].
Proof.
  intros ly pages F. rewrite <- (app_nil_r pages), good_data_skip, data_pages_skip by exact F. split; [exact I|reflexivity].
Qed.

Lemma any_cut : forall c flt part lost fields rows, conforms c (part ++ lost) fields rows ->
  cut_result c flt part fields rows.
Proof.
  intros c flt part lost fields rows H. pose proof H as H0.
  destruct H as [(HG & PP & PF & FS & GD & CS & RF & R1 & R2 & R3 & R4 & R5 & R6) _].
  assert (HH : 288 <= header_length_field (part ++ lost)) by (destruct HG as (_ & X & _); lia).
  destruct (N.ltb_spec (lenN part) 288) as [L|L].
  { left. eexists. apply short_file; [exact L|lia]. }
  rewrite hlen_kept in R2, HH by exact L.
  destruct (N.ltb_spec (lenN part) (header_length_field part)) as [HL|HL].
  { left. eexists. apply header_cut; try assumption. destruct HG as (M & _). unfold has_magic in *.
    rewrite field_kept in M by lia. exact M. }
  destruct (ended_or_not (base_layout part) (pages_in part) empty_mstate) as [E|U].
  - (* the description is complete *)
    assert (SD : said part = said (part ++ lost)).
    { unfold said. rewrite base_kept by exact L. rewrite format_kept, plen_kept in PP by exact L.
      destruct (pages_in_kept part lost L HL) as [more ->]; [lia|]. symmetry. apply E. }
    destruct (cut_back c flt part lost fields rows H0) as (r & cols & OR & HF & RM & CF & T).
    + rewrite hlen_kept by exact L. exact HL.
    + exact SD.
    + right. exists r, cols, (length (stored_in part)). split; [exact OR|]. split; [exact HF|].
      destruct (Forall2_nth _ _ _ _ _ CF) as [C1 C2]. rewrite RM.
      split; [reflexivity|]. split; [exact C2|]. split; [right; exact C1|].
      intros ops. apply (proj1 (T ops)).
  - (* it is not: there are no rows *)
    pose proof (header_kept part lost L HL HG) as HG'.
    rewrite format_kept, plen_kept in PP by exact L. rewrite plen_kept in R3 by exact L.
    destruct (pages_in_kept part lost L HL) as [more PE]; [lia|].
    rewrite base_kept, PE in PF by exact L. apply pages_fit_prefix in PF.
    rewrite PE in CS, R4. apply clear_start_prefix in CS. rewrite app_length in R4.
    assert (SD : said (part ++ lost) = pages_meaning (base_layout part) (said part) more).
    { unfold said. rewrite base_kept, PE by exact L. apply unended_app. exact U. }
    assert (G : grows (said part) (said (part ++ lost))) by (rewrite SD; apply pages_grow).
    assert (G0 : grows empty_mstate (said part)) by apply pages_grow.
    assert (SR : same_reading (base_layout part) (full_layout part)) by (split; reflexivity).
    assert (CS' : clear_start (full_layout part) (pages_in part)).
    { destruct (m_texts (said part)) eqn:TX.
      - apply clear_start_plain. cbn [full_layout ly_compression].
        destruct G0 as (_ & _ & _ & _ & _ & _ & _ & _ & G0). exact (G0 TX).
      - apply (clear_start_same (full_layout (part ++ lost))); [| |exact CS].
        + split; cbn; [rewrite endian_kept by exact L|rewrite format_kept by exact L]; reflexivity.
        + cbn. destruct G as (_ & _ & _ & _ & _ & _ & _ & G & _). symmetry. apply G. rewrite TX. discriminate. }
    assert (NB : Forall (fun q => begins (full_layout part) q = false) (pages_in part)).
    { apply (unended_rows (base_layout part) (full_layout part) (pages_in part) empty_mstate []); auto.
      intros X. inversion X. }
    destruct (no_begin_data _ _ NB) as [GD' DP].
    destruct HG' as (M & HL' & DS1 & DS2). pose proof (conj M (conj HL' (conj DS1 DS2))) as HG'.
    destruct DS1 as (t1 & D1 & _). destruct DS2 as (t2 & D2 & _).
    destruct (header_total c part M (proj1 HL') (proj2 HL') R2) as (h & OH & HF); [exists t1, t2; auto|].
    assert (HE : layout_of h empty_metadata = base_layout part).
    { unfold layout_of, base_layout. rewrite (hof_format _ _ HF), (hof_endian _ _ HF), (hof_page_length _ _ HF).
      reflexivity. }
    assert (FP : file_pages part h = pages_in part).
    { unfold file_pages, pages_in. rewrite (hof_page_length _ _ HF), (hof_header_length _ _ HF). reflexivity. }
    destruct (loop_meaning c part h _ _ OH) as (p & LE).
    { rewrite (hof_format _ _ HF), (hof_page_length _ _ HF). exact PP. }
    { rewrite (hof_page_length _ _ HF). exact R3. }
    { rewrite HE, FP. exact PF. }
    { rewrite FP. lia. }
    rewrite HE, FP in LE. fold (said part) in LE.
    assert (OE : forall x, create_columns c (h_endianness h) flt (said part) = Exn x ->
       open_reader c file_source flt (file_open part) = Exn x).
    { intros x X. unfold open_reader. rewrite OH. cbn [bind]. unfold set_metadata. rewrite LE. cbn [bind].
      rewrite X. reflexivity. }
    destruct (N.leb_spec (120 * md_column_count (m_md (said part))) (max_alloc c)) as [NC|NC].
    2:{ left. eexists. apply OE. rewrite create_columns_spec.
        destruct (N.leb_spec (120 * md_column_count (m_md (said part))) (max_alloc c)); [lia|reflexivity]. }
    destruct (cols_from (h_endianness h) (said part) 0 (N.to_nat (md_column_count (m_md (said part))))) as [l|] eqn:CF.
    2:{ left. eexists. apply OE. rewrite create_columns_spec, CF.
        destruct (N.leb_spec (120 * md_column_count (m_md (said part))) (max_alloc c)); [reflexivity|lia]. }
    assert (EN : enough_entries (said part)) by (apply (enough_cols (h_endianness h)); congruence).
    assert (RL : md_compression (m_md (said part)) = CompNone \/ md_row_length (m_md (said part)) <= max_alloc c
       \/ open_reader c file_source flt (file_open part) = Exn E_bad_alloc).
    { destruct (md_compression (m_md (said part))) eqn:K; [left; reflexivity| |];
        (destruct (N.leb_spec (md_row_length (m_md (said part))) (max_alloc c)) as [X|X]; [auto|right; right];
         unfold open_reader; rewrite OH; cbn [bind]; unfold set_metadata; rewrite LE; cbn [bind];
         destruct (columns_ok c (h_endianness h) flt _ NC EN) as (l' & _ & ->); cbn [bind];
         rewrite read_data_columns; unfold read_data, make_decompressor, dst_new, mbuf_new, alloc; rewrite K;
         destruct (N.leb_spec (md_row_length (m_md (said part))) (max_alloc c)); [lia|reflexivity]). }
    destruct RL as [RL|[RL|RL]]; [| |left; eauto].
    all: destruct (fields_of (said part) EN) as [fields' FS']; [apply pages_types; constructor|].
    all: assert (FP' : file_part row_made c part fields' [])
      by (unfold file_part; cbv zeta; repeat (split; [assumption || lia|]);
          split; [unfold rows_found, stored_in; rewrite DP; cbn; rewrite firstn_nil; constructor|];
          repeat (split; [assumption || lia|]); auto).
    all: destruct (file_back_like row_made eq c flt part fields' []) as (r & cols & got & OR & HF' & RM & CF' & LK & T);
      [intros k rl stored row LM MD; exists row; split; [apply made_reads; assumption|reflexivity]|exact FP'|].
    all: right; exists r, cols, 0%nat; inversion LK; subst got; split; [exact OR|]; split; [exact HF'|];
      rewrite RM; split; [reflexivity|]; split;
      [|split; [left; reflexivity|intros ops; apply (proj1 (T ops))]].
    all: intros i d col D C; destruct (Forall2_nth _ _ _ _ _ CF') as [C1 C2];
      destruct (nth_error fields' i) as [d'|] eqn:D';
      [rewrite <- (fields_agree _ _ _ _ G FS' FS i d' d D' D); exact (C2 i d' col D' C)
      |apply nth_error_None in D'; assert (X : nth_error cols i <> None) by congruence; apply nth_error_Some in X; lia].
Qed.
