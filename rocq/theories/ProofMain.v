(** Proofs about the command line program over a list of files. *)
From Verif Require Import Base Lemmas Types Buffer Float DateTime Page Column Header Metadata Decomp Data Reader Drive
  Sinks Callbacks Cli Main SpecDecomp SpecReader SpecDrive SpecSinks SpecNumber SpecValues SpecFile SpecRoundtrip
  SpecCells SpecTable SpecCallbacks SpecMain
  ProofReader ProofHeader ProofDrive ProofCli ProofPython ProofCsv ProofCells ProofTable ProofPrintFail ProofRFile.
Local Open Scope N_scope.

(** ** A sink which is given calls until it refuses one *)

Fixpoint run_sink {A} (k : sink A) (a : A) (evs : list event) : res unit * A :=
  match evs with
  | [] => (Ok tt, a)
  | e :: r => let '(y, a') := k e a in match y with Ok _ => run_sink k a' r | _ => (y, a') end
  end.

Definition and_then {A} (z : res unit * A) (x : res unit) : res unit * A :=
  match fst z with Ok _ => (x, snd z) | _ => z end.

Lemma drive_print_run : forall S A c (src : source S) (k : sink A) fuel n r a,
  drive_print c src k fuel n r a
  = let '(x, _, ev) := print_loop c src fuel n r in and_then (run_sink k a ev) x.
Proof.
  intros S A c src k. induction fuel as [|fuel IH]; intros n r a; [reflexivity|].
  cbn [drive_print print_loop]. destruct (Z.eqb_spec n 0) as [->|N]; [reflexivity|].
  unfold drive_row, read_row. destruct (read_line c src (rs_h r) (rs_md r) (rs_d r)) as [y d'].
  destruct y as [[p|]|ex| |u|]; try reflexivity.
  - destruct (k (EvRow (ds_row (rs_d r)) p) a) as [z a1] eqn:K.
    destruct (print_loop c src fuel (if (0 <? n)%Z then n - 1 else n)%Z _) as [[x r2] ev'] eqn:P.
    cbn [app run_sink]. rewrite K. destruct z as [[]|ex| |u|]; try reflexivity.
    cbn [rmap]. rewrite IH, P. reflexivity.
  - destruct (k EvEnd a) as [z a1] eqn:K. cbn [run_sink]. rewrite K. destruct z as [[]|ex| |u|]; reflexivity.
Qed.

Lemma drive_all_run : forall S A c (src : source S) (k : sink A) r a,
  exists r' ev', drive_all c src k r a
  = (fst (let '(x, _, ev) := read_all c src r in and_then (run_sink k a ev) x), r',
     snd (let '(x, _, ev) := read_all c src r in and_then (run_sink k a ev) x), ev').
Proof.
  intros S A c src k r a. unfold drive_all, read_all.
  set (fuel := Datatypes.S _). clearbody fuel. revert r a.
  induction fuel as [|fuel IH]; intros r a; [do 2 eexists; reflexivity|].
  cbn [drive_all_loop read_all_loop].
  unfold drive_row, read_row. destruct (read_line c src (rs_h r) (rs_md r) (rs_d r)) as [y d'].
  destruct y as [[p|]|ex| |u|]; try (do 2 eexists; reflexivity).
  - destruct (k (EvRow (ds_row (rs_d r)) p) a) as [z a1] eqn:K.
    destruct (read_all_loop c src fuel _) as [[x r2] ev'] eqn:P.
    cbn [app run_sink]. rewrite K. destruct z as [[]|ex| |u|]; try (do 2 eexists; reflexivity).
    cbn [rmap]. destruct (IH (RState (rs_h r) (rs_md r) d') a1) as (r3 & ev3 & E). rewrite P in E.
    rewrite E. do 2 eexists. reflexivity.
  - destruct (k EvEnd a) as [z a1] eqn:K. cbn [run_sink]. rewrite K.
    destruct z as [[]|ex| |u|]; do 2 eexists; reflexivity.
Qed.

(** ** The print sink *)

Definition not_props (e : event) : Prop := is_props e = false.

Lemma run_print_rows : forall props evs cs out, Forall not_props evs ->
  run_sink (print_sink props) (cs, out) evs = run_sink (print_sink props) (cs, out) (pushes (rows_of evs)).
Proof.
  intros props. induction evs as [|e evs IH]; intros cs out F; [reflexivity|].
  inversion F as [|? ? N F']; subst. destruct e as [h md|i p|]; [discriminate N| |].
  - change (rows_of (EvRow i p :: evs)) with ((i, p) :: rows_of evs). cbn [pushes map run_sink fst snd].
    assert (K : exists y out', print_sink props (EvRow i p) (cs, out) = (y, (cs, out'))).
    { cbn [print_sink]. destruct (print_cells cs p (out ++ dec i)) as [y out']. eauto. }
    destruct K as (y & out' & ->). destruct y as [[]|ex| |u|]; try reflexivity. apply IH, F'.
  - change (rows_of (EvEnd :: evs)) with (rows_of evs). cbn [run_sink print_sink]. apply IH, F'.
Qed.

Lemma print_names_header : forall props h md out,
  Forall (fun c => ~ In x7b (c_name c) /\ ~ In x7d (c_name c)) (md_columns md) ->
  print_sink props (EvProps h md) ([], out)
  = (Ok tt, (md_columns md, out ++ props h md ++ bs "#" ++ concat (map (fun c => [x2c] ++ c_name c) (md_columns md)) ++ [x0a])).
Proof.
  intros props h md out F. cbn [print_sink].
  assert (P : forall cs o, Forall (fun c => ~ In x7b (c_name c) /\ ~ In x7d (c_name c)) cs ->
            print_names cs o = (Ok tt, o ++ concat (map (fun c => [x2c] ++ c_name c) cs) ++ [x0a])).
  { induction cs as [|c cs IH]; intros o FF; [reflexivity|]. inversion FF as [|? ? N FF']; subst.
    cbn [print_names]. rewrite (proj2 (fmt_noargs_verbatim (c_name c)) N). rewrite IH by exact FF'.
    cbn [map concat]. unfold comma. rewrite <- !app_assoc. reflexivity. }
  rewrite P by exact F. rewrite <- !app_assoc. reflexivity.
Qed.

(** ** Rows *)

(** A missing date, datetime or time. *)
Lemma missing_fails : forall e d col p bits en, column_for e d col -> fd_numeric d = true -> fd_length d = 8 ->
  (exists x, cell_value col p x /\ value_is (Missing bits) x) -> no_text d (Missing bits) en ->
  match en with
  | Complete => False
  | Thrown => exists ex, c_to_string col p = Exn ex
  | Lost => exists u, c_to_string col p = Undef u
  end.
Proof.
  intros e d col p bits en CF NU L (x & CV & VI) NT.
  assert (K : forall t, reported_type TNumber (fd_length d) (fd_format d) t -> c_type col = t).
  { intros t R. apply (type_unique e d col t CF). rewrite NU. exact R. }
  assert (T : match en with
              | Complete => False | Thrown => c_type col = TDate \/ c_type col = TDateTime | Lost => c_type col = TTime end).
  { inversion NT as [b I E1 E2|b I E1 E2|b I E1 E2]; subst.
    - left. apply K. constructor; [lia|lia|exact I].
    - right. apply K. constructor; [lia|lia|exact I].
    - apply K. constructor; [lia|lia|exact I]. }
  unfold c_type in T. unfold cell_value, c_type, c_get_date, c_get_datetime, c_get_time in CV.
  unfold c_to_string, fm_to_string.
  destruct en; [exact T| |].
  - destruct (fm_kind (c_fm col)); cbn in T; destruct T as [T|T]; try discriminate T; cbn in CV;
      destruct x; cbn in CV, VI; try (destruct CV as [C1 _]; discriminate C1); try contradiction;
      destruct CV as [_ ->]; subst; eexists; reflexivity.
  - destruct (fm_kind (c_fm col)); cbn in T; try discriminate T; cbn in CV;
      destruct x; cbn in CV, VI; try (destruct CV as [C1 _]; discriminate C1); try contradiction;
      destruct CV as [_ ->]; subst; eexists; reflexivity.
Qed.

(** What the printing of one row leaves. *)
Lemma print_cells_texts : forall cs p out ts,
  Forall2 (fun c t => c_to_string c p = Ok t) cs ts -> forall cs2,
  print_cells (cs ++ cs2) p out = print_cells cs2 p (out ++ concat (map (fun t => [x2c] ++ t) ts)).
Proof.
  intros cs p out ts F. revert out. induction F as [|c t cs ts H F IH]; intros out cs2.
  - cbn [app map concat]. rewrite app_nil_r. reflexivity.
  - cbn [app print_cells map concat]. rewrite H, IH. unfold comma. rewrite <- !app_assoc. reflexivity.
Qed.

Lemma shown_texts : forall cols vs p, shown None cols vs p -> Forall2 has_text cols vs ->
  exists ts, Forall2 (fun c t => c_to_string c p = Ok t) cols ts /\ Forall2 text_is vs ts.
Proof.
  intros cols vs p S. induction S as [|v col vs cols S1 S IH]; intros H; [exists []; split; constructor|].
  inversion H as [|? ? ? ? H1 H2]; subst. destruct (IH H2) as (ts & A & B).
  destruct (S1 eq_refl) as (_ & T). destruct (T H1) as (t & G & TI).
  exists (t :: ts). split; constructor; assumption.
Qed.

(** A row can be printed, or has a first cell which cannot. *)
Lemma first_unprintable : forall e fields vs row, row_of e fields vs row ->
  Forall2 printable fields vs
  \/ exists fs1 d fs2 vs1 v vs2 en, fields = fs1 ++ d :: fs2 /\ vs = vs1 ++ v :: vs2 /\ Forall2 printable fs1 vs1
       /\ no_text d v en.
Proof.
  intros e fields vs row R. induction R as [|d v fields vs H R IH]; [left; constructor|].
  assert (D : printable d v \/ exists en, no_text d v en).
  { destruct v; try (left; exact Logic.I). cbn [printable]. unfold is_number.
    assert (X : forall names : list bytes, In (fd_format d) names \/ ~ In (fd_format d) names).
    { intros names. destruct (in_dec (list_eq_dec Byte.byte_eq_dec) (fd_format d) names); auto. }
    destruct (X date_names) as [K|K1]; [right; eexists; apply no_date; exact K|].
    destruct (X datetime_names) as [K|K2]; [right; eexists; apply no_datetime; exact K|].
    destruct (X time_names) as [K|K3]; [right; eexists; apply no_time; exact K|].
    left. auto. }
  destruct D as [D|(en & D)].
  - destruct IH as [IH|(fs1 & d' & fs2 & vs1 & v' & vs2 & en & -> & -> & F & T)].
    + left. constructor; assumption.
    + right. exists (d :: fs1), d', fs2, (v :: vs1), v', vs2, en. repeat split; [|exact T]. constructor; assumption.
  - right. exists [], d, fields, [], v, vs, en. repeat split; [constructor|exact D].
Qed.

Definition sink_ends (en : ending) (x : res unit) : Prop :=
  match en with Complete => x = Ok tt | Thrown => exists e, x = Exn e | Lost => exists u, x = Undef u end.

Lemma Forall2_app_split : forall A B (R : A -> B -> Prop) l1 l2 m, Forall2 R (l1 ++ l2) m ->
  exists m1 m2, m = m1 ++ m2 /\ Forall2 R l1 m1 /\ Forall2 R l2 m2.
Proof. intros A B R l1 l2 m F. apply Forall2_app_inv_l in F. destruct F as (a & b & H1 & H2 & ->). eauto. Qed.

Lemma row_printed : forall e fields cols vs row p i props out, Forall2 (column_for e) fields cols ->
  row_of e fields vs row -> shown None cols vs p ->
  (Forall2 printable fields vs
   /\ exists line, print_line i vs line /\ print_sink props (EvRow i p) (cols, out) = (Ok tt, (cols, out ++ line)))
  \/ exists fs1 d fs2 vs1 v vs2 en ti ts y,
       fields = fs1 ++ d :: fs2 /\ vs = vs1 ++ v :: vs2 /\ Forall2 printable fs1 vs1 /\ no_text d v en
       /\ short_decimal ti (Z.of_N i) /\ Forall2 text_is vs1 ts
       /\ print_sink props (EvRow i p) (cols, out) = (y, (cols, out ++ ti ++ concat (map (fun t => [x2c] ++ t) ts)))
       /\ sink_ends en y /\ en <> Complete.
Proof.
  intros e fields cols vs row p i props out CF RO SH.
  destruct (first_unprintable e fields vs row RO) as [P|(fs1 & d & fs2 & vs1 & v & vs2 & en & EF & EV & P & NT)].
  - left. split; [exact P|]. pose proof (text_kept e fields cols vs row CF RO P) as HT.
    destruct (shown_texts cols vs p SH HT) as (ts & A & B).
    exists (dec i ++ concat (map (fun t => [x2c] ++ t) ts) ++ [x0a]). split.
    + exists (dec i), ts. split; [apply dec_short|]. split; [exact B|reflexivity].
    + cbn [print_sink]. rewrite <- (app_nil_r cols) at 1. rewrite (print_cells_texts cols p _ ts A []).
      cbn [print_cells]. unfold newline. rewrite <- !app_assoc. reflexivity.
  - right. subst fields vs.
    destruct (Forall2_app_split _ _ _ _ _ _ CF) as (c1 & c2' & -> & CF1 & CF2).
    inversion CF2 as [|? col ? c2 CFd CF3]; subst.
    unfold row_of in RO. destruct (Forall2_app_split _ _ _ _ _ _ RO) as (v1 & v2' & EV & RO1 & RO2).
    assert (L1 : length v1 = length vs1).
    { rewrite <- (same_length RO1). apply (same_length P). }
    assert (X : v1 = vs1 /\ v2' = v :: vs2).
    { clear - L1 EV. revert vs1 L1 EV. induction v1 as [|a v1 IH]; intros [|b vs1] L E; cbn in L; try discriminate.
      - split; [reflexivity|symmetry; exact E].
      - cbn in E. injection E as -> E. destruct (IH vs1) as [-> ->]; [lia|exact E|]. auto. }
    destruct X as [-> ->]. clear EV L1.
    inversion RO2 as [|? ? ? ? (b & l & a & ER & OF & ST) RO3]; subst.
    unfold shown in SH. destruct (Forall2_app_split _ _ _ _ _ _ SH) as (k1 & k2 & EC & SH1 & SH2).
    assert (L1 : length k1 = length c1).
    { rewrite <- (same_length SH1), <- (same_length RO1). apply (same_length CF1). }
    assert (X : k1 = c1 /\ k2 = col :: c2).
    { clear - L1 EC. revert c1 L1 EC. induction k1 as [|x k1 IH]; intros [|y c1] L E; cbn in L; try discriminate.
      - split; [reflexivity|symmetry; exact E].
      - cbn in E. injection E as -> E. destruct (IH c1) as [-> ->]; [lia|exact E|]. auto. }
    destruct X as [-> ->]. clear EC L1.
    inversion SH2 as [|? ? ? ? S1 SH3]; subst. destruct (S1 eq_refl) as (CV & _).
    pose proof (text_kept e fs1 c1 vs1 _ CF1 RO1 P) as HT.
    destruct (shown_texts c1 vs1 p SH1 HT) as (ts & A & B).
    assert (ST' : exists bits, v = Missing bits /\ fd_numeric d = true /\ fd_length d = 8).
    { inversion NT; subst; inversion ST; subst; eauto. }
    destruct ST' as (bits & -> & NU & L8).
    pose proof (missing_fails e d col p bits en CFd NU L8 CV NT) as MF.
    exists fs1, d, fs2, vs1, (Missing bits), vs2, en, (dec i), ts, (rmap (fun _ => tt) (c_to_string col p)).
    do 3 (split; [solve [reflexivity|assumption]|]). split; [exact NT|]. split; [apply dec_short|]. split; [exact B|].
    split.
    + cbn [print_sink]. rewrite (print_cells_texts c1 p _ ts A (col :: c2)). cbn [print_cells].
      rewrite <- !app_assoc. destruct en; [contradiction|destruct MF as (ex & ->)|destruct MF as (u & ->)]; reflexivity.
    + destruct en; [contradiction|destruct MF as (ex & ->)|destruct MF as (u & ->)]; (split; [eexists; reflexivity|discriminate]).
Qed.

Lemma rows_printed : forall e fields cols props contents rows bytesrows, Forall2 (column_for e) fields cols ->
  Forall2 (row_of e fields) contents bytesrows ->
  Forall2 (fun vs (r : N * pview) => shown None cols vs (snd r)) contents rows ->
  forall i out, map fst rows = from i (length contents) ->
  exists text en, rows_text fields i contents text en
    /\ sink_ends en (fst (run_sink (print_sink props) (cols, out) (pushes rows)))
    /\ snd (snd (run_sink (print_sink props) (cols, out) (pushes rows))) = out ++ text.
Proof.
  intros e fields cols props contents rows brs CF RO S. revert brs RO.
  induction S as [|vs [j p] contents rows S1 S IH]; intros brs RO i out IX.
  - exists [], Complete. split; [constructor|]. cbn. rewrite app_nil_r. auto.
  - inversion RO as [|? br ? brs' R1 RO']; subst.
    cbn [map fst length from] in IX.
    assert (j = i) by (apply (f_equal (hd 0)) in IX; exact IX). subst j.
    apply (f_equal (@tl _)) in IX. cbn [tl] in IX. cbn [snd] in S1.
    cbn [pushes map run_sink fst snd].
    destruct (row_printed e fields cols vs br p i props out CF R1 S1)
      as [(P & line & PL & PS)|(fs1 & d & fs2 & vs1 & v & vs2 & en & ti & ts & y & EF & EV & P & NT & SD & TI & PS & SE & NC)].
    + rewrite PS. destruct (IH brs' RO' (i + 1) (out ++ line) IX) as (text & en & RT & SE & ET).
      exists (line ++ text), en. split; [apply rows_line; assumption|]. unfold pushes in SE, ET.
      split; [exact SE|]. rewrite ET, app_assoc. reflexivity.
    + rewrite PS. exists (ti ++ concat (map (fun t => [x2c] ++ t) ts)), en. split.
      * rewrite EV. eapply rows_cut; eassumption.
      * destruct y as [[]|ex| |u|]; destruct en; cbn in SE; try congruence;
          try (destruct SE as (? & SE); discriminate SE); cbn [fst snd]; split; try exact SE; reflexivity.
Qed.

(** ** One file *)

Lemma read_all_trace : forall S c (src : source S) r evs,
  fst (trace c src [OpReadAll] (Some r)) = [(OpReadAll, Ok OUnit, evs)] ->
  exists r', read_all c src r = (Ok tt, r', evs).
Proof.
  intros S c src r evs H.
  assert (E : fst (trace c src [OpReadAll] (Some r))
              = let '(x, _, ev) := read_all c src r in [(OpReadAll, rmap (fun _ => OUnit) x, ev)]).
  { unfold trace, reader_step, step. destruct (read_all c src r) as [[x r1] ev]. destruct x; reflexivity. }
  rewrite E in H. destruct (read_all c src r) as [[x r1] ev].
  assert (Q : rmap (fun _ => OUnit) x = Ok OUnit /\ ev = evs) by (split; congruence).
  destruct Q as [Q ->]. destruct x as [[]|ex| |u|]; try discriminate Q. eauto.
Qed.

Lemma from_firstn : forall n i k, firstn n (from i k) = from i (Nat.min n k).
Proof. induction n as [|n IH]; intros i [|k]; cbn; [reflexivity..|]. rewrite IH. reflexivity. Qed.

Definition lines_given (nlines : option Z) : Z := match nlines with Some n => n | None => (-1)%Z end.

Lemma run_print_table : forall c props nlines fs name file fields contents out, max_alloc c < row_limit ->
  fs_get fs name = Some file -> table_of c fields contents file ->
  exists text en x, table_text c props nlines file text en
    /\ run_print c props (lines_given nlines) name (World fs out) = (x, World fs (out ++ text))
    /\ sink_ends en x.
Proof.
  intros c props nlines fs name file fields contents out M G ((e & HT) & NB).
  destruct (file_back c None e fields contents file HT) as (r & cols & evs & O & MC & CF & TR & EV).
  cbn match in MC. destruct EV as (rows & -> & IX & SH). destruct (read_all_trace _ _ _ _ _ TR) as (r2 & RA).
  destruct (print_rows _ c file_source (file_open file) (lines_given nlines) r _ r2 _ M O RA) as (evs & PP & RO).
  assert (RW : rows_of (pushes rows ++ [EvEnd]) = rows).
  { rewrite rows_of_app. change (rows_of [EvEnd]) with (@nil (N * pview)). rewrite app_nil_r. clear.
    induction rows as [|[i p] rows IH]; [reflexivity|]. unfold rows_of, pushes in *. cbn. rewrite IH. reflexivity. }
  rewrite RW in RO.
  pose proof (names_fields e fields cols CF) as NF.
  assert (NB' : Forall (fun c => ~ In x7b (c_name c) /\ ~ In x7d (c_name c)) (md_columns (rs_md r))).
  { rewrite MC. clear - CF NB. induction CF as [|d col fields cols (N & _) F IH]; inversion NB; subst; constructor;
      [rewrite N; assumption|auto]. }
  pose proof HT as (brs & BR & _).
  set (n := lines_given nlines) in *.
  assert (AR : asked_rows nlines contents
               = if (n <? 0)%Z then contents else firstn (Z.to_nat n) contents).
  { destruct nlines as [z|]; reflexivity. }
  set (out1 := out ++ props (rs_h r) (rs_md r) ++ bs "#" ++ concat (map (fun c => [x2c] ++ c_name c) (md_columns (rs_md r))) ++ [x0a]).
  assert (RP : exists text en, rows_text fields 0 (asked_rows nlines contents) text en
    /\ sink_ends en (fst (run_sink (print_sink props) (cols, out1) (pushes (rows_of evs))))
    /\ snd (snd (run_sink (print_sink props) (cols, out1) (pushes (rows_of evs)))) = out1 ++ text).
  { rewrite AR, RO. destruct (n <? 0)%Z.
    - exact (rows_printed e fields cols props contents rows brs CF BR SH 0 out1 IX).
    - apply (rows_printed e fields cols props _ _ (firstn (Z.to_nat n) brs) CF).
      + apply Forall2_firstn, BR.
      + apply Forall2_firstn, SH.
      + rewrite <- firstn_map, IX, from_firstn, firstn_length. reflexivity. }
  destruct RP as (text & en & RT & SE & ET).
  (* the run *)
  unfold process_print in PP. rewrite O in PP.
  destruct (print_loop c file_source _ n r) as [[x0 r0] ev'] eqn:PL. injection PP as -> <-.
  assert (R1 : run_print c props n name (World fs out)
    = (fst (and_then (run_sink (print_sink props) (cols, out1) ev') (Ok tt)),
       World fs (snd (snd (and_then (run_sink (print_sink props) (cols, out1) ev') (Ok tt)))))).
  { unfold run_print, opened_file. cbn [w_files w_out]. rewrite G, drive_open_spec, O. cbv zeta.
    rewrite print_names_header by exact NB'. unfold rmap at 1. cbn [fst snd bind]. rewrite drive_print_run, PL. fold out1. rewrite MC.
    destruct (and_then _ _); reflexivity. }
  assert (NP : Forall not_props ev').
  { assert (GEN : forall fuel m q x q' w, print_loop c file_source fuel m q = (x, q', w) -> Forall not_props w).
    { clear. induction fuel as [|fuel IH]; intros m q x q' w H; [injection H as <- <- <-; constructor|].
      cbn [print_loop] in H. destruct (m =? 0)%Z; [injection H as <- <- <-; constructor|].
      unfold read_row in H. destruct (read_line _ _ _ _ _) as [y d']. destruct y as [[p|]|ex| |u|];
        try (injection H as <- <- <-; constructor).
      - destruct (print_loop _ _ _ _ _) as [[y r2] ev] eqn:P. injection H as <- <- <-. constructor; [reflexivity|].
        eapply IH. exact P.
      - reflexivity.
      - constructor. }
    eapply GEN. exact PL. }
  change (rows_of (EvProps (rs_h r) (rs_md r) :: ev')) with (rows_of ev') in SE, ET.
  rewrite <- run_print_rows in SE, ET by exact NP.
  destruct (run_sink (print_sink props) (cols, out1) ev') as [z st] eqn:RS. cbn [fst snd] in SE, ET.
  assert (AT : and_then (z, st) (Ok tt) = (z, st)).
  { unfold and_then. cbn [fst snd]. destruct z as [[]| | | |]; reflexivity. }
  rewrite AT in R1. cbn [fst snd] in R1.
  eexists _, en, z. split; [|split; [|exact SE]].
  - exists fields, contents, r, [EvProps (rs_h r) (rs_md r)], text. split; [split; [exists e; exact HT|exact NB]|].
    split; [exact O|]. split; [reflexivity|exact RT].
  - rewrite R1, ET. unfold out1. rewrite MC. f_equal. f_equal. rewrite <- !app_assoc. do 4 f_equal.
    rewrite <- (map_map c_name (fun t => [x2c] ++ t)), <- (map_map fd_name (fun t => [x2c] ++ t)).
    change (map c_name cols) with (names_of cols). rewrite NF. reflexivity.
Qed.

(** ** All files *)

Lemma each_file_app : forall f l1 l2 w,
  each_file f (l1 ++ l2) w
  = let '(x, w') := each_file f l1 w in match x with Ok _ => each_file f l2 w' | _ => (x, w') end.
Proof.
  intros f. induction l1 as [|a l1 IH]; intros l2 w; [reflexivity|]. cbn [app each_file].
  destruct (f a w) as [x w1]. destruct x as [u|ex| |u|]; try reflexivity. apply IH.
Qed.

Lemma main_app : forall c props b cmd l1 l2 w,
  run_main c props b cmd (l1 ++ l2) w
  = let '(x, w') := run_main c props b cmd l1 w in
    match x with Ok _ => run_main c props b cmd l2 w' | _ => (x, w') end.
Proof.
  intros c props b cmd l1 l2 w. unfold run_main.
  destruct cmd; rewrite each_file_app; destruct (each_file _ l1 w) as [x w1]; destruct x; reflexivity.
Qed.

Lemma refused_print : forall c props n fs name out, refused c fs name ->
  exists e, run_print c props n name (World fs out) = (Exn e, World fs out).
Proof.
  intros c props n fs name out [G|(file & e & G & O)]; unfold run_print, opened_file; cbn [w_files w_out]; rewrite G.
  - eexists. reflexivity.
  - rewrite drive_open_spec, O. eexists. reflexivity.
Qed.

Lemma each_printed : forall c props nlines fs files, max_alloc c < row_limit ->
  Forall (table_or_refused c fs) files -> forall out,
  exists text en x, shows c props nlines fs files text en
    /\ each_file (run_print c props (lines_given nlines)) files (World fs out) = (x, World fs (out ++ text))
    /\ sink_ends en x.
Proof.
  intros c props nlines fs files M F. induction F as [|name files H F IH]; intros out.
  - exists [], Complete, (Ok tt). split; [constructor|]. rewrite app_nil_r. split; reflexivity.
  - cbn [each_file]. destruct H as [(file & fields & contents & G & T)|R].
    + destruct (run_print_table c props nlines fs name file fields contents out M G T) as (text & en & x & TT & RP & SE).
      rewrite RP. destruct en.
      * cbn in SE. subst x. destruct (IH (out ++ text)) as (texts & en & x & SH & EF & SE).
        exists (text ++ texts), en, x. split; [eapply shows_file; eassumption|]. rewrite EF, app_assoc. auto.
      * exists text, Thrown, x. split; [eapply shows_cut; [exact G|exact TT|discriminate]|].
        destruct SE as (ex & ->). split; [reflexivity|eexists; reflexivity].
      * exists text, Lost, x. split; [eapply shows_cut; [exact G|exact TT|discriminate]|].
        destruct SE as (ex & ->). split; [reflexivity|eexists; reflexivity].
    + destruct (refused_print c props (lines_given nlines) fs name out R) as (e & ->).
      exists [], Thrown, (Exn e). split; [apply shows_refused, R|]. rewrite app_nil_r. split; [reflexivity|eexists; reflexivity].
Qed.

Lemma main_printed : forall c props b nlines fs files out, max_alloc c < row_limit ->
  Forall (table_or_refused c fs) files ->
  exists text en x, shows c props nlines fs files text en
    /\ run_main c props b (CmdPrint nlines) files (World fs out) = (x, World fs (out ++ text))
    /\ process_ends en x.
Proof.
  intros c props b nlines fs files out M F.
  destruct (each_printed c props nlines fs files M F out) as (text & en & x & SH & EF & SE).
  exists text, en, (match x with Exn _ => Abort | _ => x end). split; [exact SH|].
  unfold run_main. fold (lines_given nlines). rewrite EF. split; [reflexivity|].
  destruct en; cbn in SE |- *; [subst x; reflexivity|destruct SE as (e & ->); reflexivity|].
  destruct SE as (u & ->). eexists. reflexivity.
Qed.

(** ** csv *)

Lemma main_csv : forall c props b name rest fs out, 288 <= max_alloc c ->
  exists fs', run_main c props b CmdCsv (name :: rest) (World fs out) = (Abort, World fs' out)
    /\ (forall other, other <> name -> fs_get fs' other = fs_get fs other)
    /\ (fs_get fs name <> None -> fs_get fs' name = Some []).
Proof.
  intros c props b name rest fs out M. unfold run_main. cbn [each_file]. unfold run_csv, process_csv_open, fs_truncate.
  cbn [w_files w_out].
  assert (SF : open_reader c file_source None (file_open []) = Exn E_header_too_short) by (apply short_file; [reflexivity|exact M]).
  assert (P : fs_get (fs_put fs name []) name = Some []) by apply fs_get_put.
  destruct (fs_get fs name) eqn:G.
  - rewrite P, SF. exists (fs_put fs name []). split; [reflexivity|]. split; [|intros _; exact P].
    intros other N. apply fs_get_put_other, N.
  - destruct b.
    + rewrite P, SF. exists (fs_put fs name []). split; [reflexivity|]. split; [|intros K; congruence].
      intros other N. apply fs_get_put_other, N.
    + exists fs. split; [reflexivity|]. split; [reflexivity|intros K; congruence].
Qed.

(** ** null *)

Lemma null_rows : forall cols contents rows,
  Forall2 (fun vs (r : N * pview) => shown None cols vs (snd r)) contents rows ->
  run_sink null_sink cols (pushes rows ++ [EvEnd]) = (Ok tt, cols).
Proof.
  intros cols contents rows S. induction S as [|vs [i p] contents rows S1 S IH]; [reflexivity|].
  cbn [pushes map app run_sink fst snd]. unfold null_sink at 1. cbn [null_step].
  assert (V : exists vals, mapM (fun c => column_value c p) cols = Ok vals).
  { cbn [snd] in S1. clear - S1. induction S1 as [|v col vs cols H S1 IH]; [eexists; reflexivity|].
    destruct IH as (vals & E). destruct (H eq_refl) as ((x & CV & _) & _).
    cbn [mapM]. assert (X : exists y, column_value col p = Ok y).
    { unfold column_value. destruct x; destruct CV as [-> ->]; cbn; eauto. }
    destruct X as (y & ->). cbn [bind]. rewrite E. eexists. reflexivity. }
  destruct V as (vals & ->). cbn [bind]. exact IH.
Qed.

Lemma run_null_table : forall c e fields contents w name file, fs_get (w_files w) name = Some file ->
  holds_table c e fields contents file -> run_null c name w = (Ok tt, w).
Proof.
  intros c e fields contents w name file G HT.
  destruct (file_back c None e fields contents file HT) as (r & cols & evs & O & MC & CF & TR & EV).
  cbn match in MC. destruct EV as (rows & -> & IX & SH). destruct (read_all_trace _ _ _ _ _ TR) as (r2 & RA).
  unfold run_null, opened_file. rewrite G, drive_open_spec, O. cbv zeta. unfold null_sink at 1 2.
  cbn [null_step fst snd]. unfold rmap. cbn [bind].
  destruct (drive_all_run _ _ c file_source null_sink r (md_columns (rs_md r))) as (r' & ev' & ->). rewrite RA.
  rewrite MC, (null_rows cols contents rows SH). reflexivity.
Qed.

Lemma main_null : forall c props b files fs out,
  Forall (fun name => exists e fields contents file, fs_get fs name = Some file /\ holds_table c e fields contents file) files ->
  run_main c props b CmdNull files (World fs out) = (Ok tt, World fs out).
Proof.
  intros c props b files fs out F. unfold run_main.
  assert (X : each_file (run_null c) files (World fs out) = (Ok tt, World fs out)).
  { induction F as [|name files (e & fields & contents & file & G & H) F IH]; [reflexivity|]. cbn [each_file].
    rewrite (run_null_table c e fields contents (World fs out) name file G H). exact IH. }
  rewrite X. reflexivity.
Qed.

(** ** get_csv_filename *)

Lemma rfind_no_dot : forall s, ~ In x2e s -> rfind_dot s = None.
Proof.
  induction s as [|b s IH]; intros N; [reflexivity|]. cbn [rfind_dot]. rewrite IH by (intros K; apply N; right; exact K).
  destruct (beq b x2e) eqn:E; [|reflexivity]. exfalso. apply N. left. apply Byte.byte_dec_bl. exact E.
Qed.

Lemma rfind_last_dot : forall stem ext, ~ In x2e ext -> rfind_dot (stem ++ [x2e] ++ ext) = Some (length stem).
Proof.
  induction stem as [|b stem IH]; intros ext N.
  - cbn [app rfind_dot length]. rewrite rfind_no_dot by exact N. reflexivity.
  - cbn [app rfind_dot length]. cbn [app] in IH. rewrite IH by exact N. reflexivity.
Qed.

Lemma csv_name_replaced : forall stem ext, ~ In x2e ext ->
  get_csv_filename (stem ++ [x2e] ++ ext) = stem ++ bs ".csv".
Proof.
  intros stem ext N. unfold get_csv_filename. rewrite rfind_last_dot by exact N.
  replace (Datatypes.S (length stem)) with (length (stem ++ [x2e])) by (rewrite app_length; cbn; lia).
  rewrite app_assoc, firstn_app, firstn_all, Nat.sub_diag. cbn [firstn]. rewrite app_nil_r, <- app_assoc. reflexivity.
Qed.
