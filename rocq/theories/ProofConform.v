(** A file which conforms is read as the table it holds. *)
From Verif Require Import Base Types Float DateTime Buffer Header Column Decomp Metadata Data Reader Lemmas
  SpecValues ProofValues SpecHeader ProofHeader SpecDecomp ProofDecomp SpecReader SpecPages ProofPages SpecMeta ProofMeta
  ProofOpen ProofColumns ProofRows SpecFile SpecRoundtrip ProofWrite ProofWriteDesc ProofRoundtrip ProofRoundtripC
  SpecConform.
From Coq Require Import ZifyBool ZifyNat ZifyN.
Local Open Scope N_scope.

(** ** Columns *)

Lemma said_columns : forall e m fields cols, fields_said m fields ->
  lenN cols = md_column_count (m_md m) ->
  (forall i col, nth_error cols i = Some col -> column_at e m i col) ->
  Forall2 (column_for e) fields cols.
Proof.
  intros e m fields cols [L F] LC C.
  assert (H : forall fields cols, length cols = length fields ->
    (forall i col d, nth_error cols i = Some col -> nth_error fields i = Some d -> column_for e d col) ->
    Forall2 (column_for e) fields cols).
  { clear. induction fields as [|d fields IH]; intros [|c cols] L H; try discriminate; constructor.
    - apply (H 0%nat); reflexivity.
    - apply (IH cols); [cbn in L; lia|]. intros i col d' I J. apply (H (Datatypes.S i)); auto. }
  apply H; [unfold lenN in *; lia|].
  intros i col d I J. destruct (C i col I) as (ty & X1 & X2 & X3 & X4 & X5 & X6 & X7 & X8).
  destruct (F i d J) as (Y1 & Y2 & Y3 & Y4 & Y5 & Y6).
  rewrite X1 in Y1. rewrite X2 in Y2. rewrite X3 in Y3. rewrite X4 in Y4. rewrite X5 in Y5. rewrite X6 in Y6.
  injection Y1 as Y1. injection Y2 as Y2. injection Y3 as Y3. injection Y4 as Y4. injection Y5 as Y5. injection Y6 as Y6.
  unfold column_for. repeat split; try congruence.
  rewrite X7, Y6, Y5, Y3. apply column_kind_table; [|reflexivity]. destruct (fd_numeric d); auto.
Qed.

Lemma said_enough : forall m fields, fields_said m fields -> enough_entries m.
Proof.
  intros m fields [L F]. unfold enough_entries. cbv zeta. rewrite <- L.
  assert (G : forall A (l : list A), (forall i d, nth_error fields i = Some d -> nth_error l i <> None) ->
    lenN fields <= lenN l).
  { intros A l H. unfold lenN. destruct (le_lt_dec (length fields) (length l)) as [LE|LT]; [lia|]. exfalso.
    destruct (nth_error fields (length l)) as [d|] eqn:E.
    - apply (H _ _ E). apply nth_error_None. lia.
    - apply nth_error_None in E. lia. }
  repeat split; apply G; intros i d I; destruct (F i d I) as (Y1 & Y2 & Y3 & Y4 & Y5 & Y6); congruence.
Qed.

(** ** Rows *)

(** What is unpacked of the bytes of a place. *)
Definition unpacks (k : compression) (rl : N) (stored got : bytes) : Prop :=
  match k with
  | CompNone => False
  | CompRLE => fst (rle stored (fresh rl)) = Ok got
  | CompRDC => fst (rdc stored (fresh rl)) = Ok got
  end.

Definition reads (k : compression) (rl : N) (stored got : bytes) : Prop :=
  rl <= lenN stored /\ got = firstn (N.to_nat rl) stored \/ lenN stored < rl /\ unpacks k rl stored got.

Lemma reads_content : forall ly pg k rl pos len got,
  ly_compression ly = k -> ly_row_length ly = rl -> pos + len <= lenN pg ->
  reads k rl (field pg pos len) got -> row_content ly pg (pos, len) = Ok got.
Proof.
  intros ly pg k rl pos len row K R I H. unfold row_content. cbv zeta. rewrite K, R.
  assert (LF : lenN (field pg pos len) = len) by (apply lenN_field; lia).
  unfold reads in H. rewrite LF in H. destruct H as [[LE ->]|[LT H]].
  - destruct (N.ltb_spec len rl); [lia|]. f_equal. unfold field. rewrite firstn_firstn. f_equal. lia.
  - destruct (N.ltb_spec len rl); [|lia]. destruct k; [contradiction|exact H|exact H].
Qed.

Lemma fresh_buffer : forall rl, row_buffer rl (fresh rl).
Proof. intros rl. split; [reflexivity|]. cbn. rewrite lenN_repeat. lia. Qed.

Lemma made_reads : forall k rl stored row, k = CompNone \/ rl < row_limit ->
  row_made k rl stored row -> reads k rl stored row.
Proof.
  intros k rl stored row L (LR & H). destruct H as [H|[LT H]]; [left; exact H|right; split; [exact LT|]].
  destruct k; [contradiction| |]; (destruct L as [L|L]; [discriminate|]); cbn [unpacks].
  - destruct H as [(cs & tail & -> & -> & V & X & Y & T)|(cs & l & -> & -> & V & X)].
    + apply (rle_decodes rl (fresh rl) cs tail (fresh_buffer rl) L V X); [|exact T].
      destruct Y as [->|Y]; [left; cbn; lia|right; exact Y].
    + exact (rle_final_zeros rl (fresh rl) cs l (fresh_buffer rl) L V X).
  - destruct H as (gs & tail & -> & -> & V & W & X & Y & T).
    apply (rdc_decodes rl (fresh rl) gs tail (fresh_buffer rl) L V W X); [|exact T].
    destruct Y as [->|Y]; [left; cbn; lia|right; exact Y].
Qed.

(** The commands which are lost are short, and so is what they stand for. *)
Lemma lenN_times : forall n v, lenN (times n v) = n.
Proof. intros. unfold times. rewrite lenN_repeat. lia. Qed.

Lemma padded_cut : forall n kept lost, lenN (kept ++ lost) <= n -> lenN lost <= 18 ->
  cut (zero_padded n (kept ++ lost)) (zero_padded n kept).
Proof.
  intros n kept lost L B. exists kept, lost, (n - lenN (kept ++ lost)). unfold zero_padded.
  split; [rewrite <- app_assoc; reflexivity|]. split; [|exact B]. do 2 f_equal. rewrite lenN_app in *. lia.
Qed.

Lemma short_command : forall c, rle_valid c -> lenN (rle_bytes c) <= 1 -> lenN (rle_expand c) <= 18.
Proof.
  intros c V L. destruct c; cbn [rle_bytes] in L; rewrite ?lenN_app in L; unfold lenN in *; cbn [length rle_valid] in *;
    cbn [rle_expand]; unfold times; rewrite ?repeat_length; unfold lenN in *; lia.
Qed.

Lemma rle_bytes_some : forall c, 1 <= lenN (rle_bytes c).
Proof. intros c. destruct c; cbn [rle_bytes]; rewrite ?lenN_app; unfold lenN; cbn [length]; lia. Qed.

Lemma rle_cut : forall n cs, n < row_limit -> Forall rle_valid cs -> lenN (rle_expansion cs) <= n ->
  exists got, fst (rle (rle_encoding cs) (fresh n)) = Ok got /\ cut (zero_padded n (rle_expansion cs)) got.
Proof.
  intros n cs L V B. destruct (rle_loses_one n (fresh n) cs (fresh_buffer n) L V B) as (cs' & lost & -> & LB & E).
  eexists. split; [exact E|]. unfold rle_expansion in *. rewrite map_app, concat_app in *. apply padded_cut; [exact B|].
  apply Forall_app in V. destruct V as [_ V]. destruct lost as [|c [|c' lost]].
  - cbn. lia.
  - cbn [rle_encoding map concat] in *. unfold rle_encoding in LB. cbn [map concat] in LB. rewrite app_nil_r in *.
    apply short_command; [exact (Forall_inv V)|exact LB].
  - unfold rle_encoding in LB. cbn [map concat] in LB. rewrite !lenN_app in LB.
    pose proof (rle_bytes_some c). pose proof (rle_bytes_some c'). lia.
Qed.

(** A back reference adds as many bytes as it says. *)
Lemma rdc_bytes_some : forall i, 1 <= lenN (rdc_bytes i).
Proof. intros i. destruct i; unfold lenN; cbn [rdc_bytes length]; lia. Qed.

Lemma short_item : forall out i, rdc_valid out i -> lenN (rdc_bytes i) <= 2 -> lenN (rdc_expand out i) <= 18.
Proof.
  intros out i V L. destruct i; unfold lenN in L; cbn [rdc_bytes length] in L; try lia; cbn [rdc_expand rdc_valid] in *.
  - unfold lenN. cbn. lia.
  - rewrite lenN_times. lia.
  - unfold back_copy. rewrite lenN_firstn. lia.
Qed.

Lemma literal_item : forall out i, lenN (rdc_bytes i) <= 1 -> lenN (rdc_expand out i) = 1.
Proof. intros out i L. destruct i; unfold lenN in *; cbn [rdc_bytes length] in L; try lia. reflexivity. Qed.

Lemma expansion_app : forall a b out, rdc_expansion out (a ++ b) = rdc_expansion (rdc_expansion out a) b.
Proof. induction a as [|i a IH]; intros b out; [reflexivity|]. cbn [app rdc_expansion]. apply IH. Qed.

Lemma all_valid_app : forall a b out, rdc_all_valid out (a ++ b) -> rdc_all_valid (rdc_expansion out a) b.
Proof. induction a as [|i a IH]; intros b out H; [exact H|]. apply IH. exact (proj2 H). Qed.

Lemma rdc_cut : forall n gs, n < row_limit -> groups_ok gs -> rdc_all_valid [] (concat gs) ->
  lenN (rdc_expansion [] (concat gs)) <= n ->
  exists got, fst (rdc (rdc_encoding gs) (fresh n)) = Ok got /\ cut (zero_padded n (rdc_expansion [] (concat gs))) got.
Proof.
  intros n gs L G V B. destruct (rdc_loses_two n (fresh n) gs (fresh_buffer n) L G V B) as (kept & lost & E & LB & D).
  eexists. split; [exact D|]. rewrite E in *. rewrite expansion_app in *. apply all_valid_app in V.
  set (out := rdc_expansion [] kept) in *. clearbody out. clear E D.
  destruct lost as [|i [|j [|k lost]]].
  - cbn [rdc_expansion] in *. rewrite <- (app_nil_r out) at 1. apply padded_cut; [rewrite app_nil_r; exact B|cbn; lia].
  - cbn [rdc_expansion] in *. apply padded_cut; [exact B|]. apply short_item; [exact (proj1 V)|].
    unfold rdc_items_bytes in LB. cbn [map concat] in LB. rewrite app_nil_r in LB. exact LB.
  - cbn [rdc_expansion] in *. rewrite <- app_assoc in *. apply padded_cut; [exact B|].
    unfold rdc_items_bytes in LB. cbn [map concat] in LB. rewrite app_nil_r, lenN_app in LB.
    pose proof (rdc_bytes_some i). pose proof (rdc_bytes_some j).
    rewrite lenN_app, (literal_item out i), (literal_item _ j) by lia. lia.
  - unfold rdc_items_bytes in LB. cbn [map concat] in LB. rewrite !lenN_app in LB.
    pose proof (rdc_bytes_some i). pose proof (rdc_bytes_some j). pose proof (rdc_bytes_some k). lia.
Qed.

Lemma cut_refl : forall row, cut row row.
Proof.
  intros row. exists row, [], 0. cbn. rewrite !app_nil_r. split; [reflexivity|]. split; [reflexivity|lia].
Qed.

Lemma rdc_full_cut : forall n gs tail, n < row_limit -> groups_ok gs -> rdc_all_valid [] (concat gs) -> tail <> [] ->
  lenN (rdc_expansion [] (concat gs)) = n ->
  exists got, fst (rdc (rdc_encoding gs ++ tail) (fresh n)) = Ok got
    /\ cut (zero_padded n (rdc_expansion [] (concat gs))) got.
Proof.
  intros n gs tail L G V NE B.
  assert (D : three_remain gs (lenN tail) \/ exists gs' g i, gs = gs' ++ [g ++ [i]] /\ g <> []
     /\ lenN (rdc_bytes i) + lenN tail < 3).
  { destruct (groups_split gs G) as [->|(gs' & g & -> & F & G1 & G2)].
    - left. intros a b x E. destruct a; discriminate.
    - assert (g <> []) as NG by (intros ->; cbn in G1; lia). destruct (exists_last NG) as (g0 & i & ->).
      destruct g0 as [|a g0].
      + left. intros a b x E N. apply app_inj_tail in E. destruct E as [_ E].
        change ([i]) with ([] ++ [i]) in E. cbn [app] in E. destruct b as [|? [|? ?]]; try discriminate. congruence.
      + destruct (N.le_gt_cases 3 (lenN (rdc_bytes i) + lenN tail)) as [C|C].
        * left. intros a' b x E N. apply app_inj_tail in E. destruct E as [_ E].
          apply app_inj_tail in E. destruct E as [_ <-]. exact C.
        * right. exists gs', (a :: g0), i. split; [reflexivity|]. split; [discriminate|exact C]. }
  destruct D as [D|(gs' & g & i & -> & NG & C)].
  - eexists. split; [|apply cut_refl].
    apply (rdc_decodes n (fresh n) gs tail (fresh_buffer n) L G V); [lia|right; exact B|exact D].
  - destruct (groups_split _ G) as [E|(gs1 & g1 & E & F & G1 & G2)]; [destruct gs'; discriminate|].
    apply app_inj_tail in E. destruct E as [<- <-].
    assert (LT : lenN tail >= 1) by (destruct tail; [congruence|rewrite lenN_cons; lia]).
    pose proof (rdc_bytes_some i) as LI.
    rewrite concat_app in *. cbn [concat] in *. rewrite app_nil_r in *. rewrite app_assoc in V, B |- *.
    destruct (rdc_refines n (rdc_encoding (gs' ++ [g ++ [i]]) ++ tail) (fresh n) (fresh_buffer n) L) as [_ ->].
    unfold rdc_encoding. rewrite map_app, concat_app. cbn [map concat]. rewrite app_nil_r.
    unfold rdc_group at 2. unfold rdc_items_bytes. rewrite map_app, concat_app. cbn [map concat]. rewrite app_nil_r.
    fold (rdc_items_bytes g). fold (rdc_encoding gs'). rewrite <- !app_assoc.
    rewrite expansion_app in *. cbn [rdc_expansion] in *. eexists. split.
    + apply p_rdc_items; [exact F|destruct g; [congruence|rewrite lenN_cons; lia]|exact G2| | | |].
      * apply ProofDecomp.all_valid_app in V. exact (proj1 V).
      * intros g' j E N. rewrite lenN_app. pose proof (rdc_bytes_some j). lia.
      * rewrite <- B, lenN_app. lia.
      * left. rewrite lenN_app. lia.
    + replace (rdc_expansion (rdc_expansion [] (concat gs')) (g ++ [i]))
        with (rdc_expansion [] (concat gs' ++ g) ++ rdc_expand (rdc_expansion [] (concat gs' ++ g)) i)
        by (rewrite !expansion_app; reflexivity).
      apply padded_cut; [lia|]. rewrite literal_item by lia. lia.
Qed.

Lemma meant_reads : forall k rl stored row, k = CompNone \/ rl < row_limit ->
  row_meant k rl stored row -> exists got, reads k rl stored got /\ cut row got.
Proof.
  intros k rl stored row L (LR & H).
  destruct H as [[LE H]|[LT H]].
  { exists row. split; [left; auto|apply cut_refl]. }
  assert (U : exists got, unpacks k rl stored got /\ cut row got).
  { destruct k; [contradiction| |]; (destruct L as [L|L]; [discriminate|]); cbn [unpacks].
    - destruct H as (cs & tail & -> & -> & V & X & Y). destruct tail as [|b tail].
      + rewrite app_nil_r. apply rle_cut; assumption.
      + destruct Y as [Y|Y]; [discriminate|]. eexists. split; [|apply cut_refl].
        apply (rle_decodes rl (fresh rl) cs (b :: tail) (fresh_buffer rl) L V X); [right; exact Y|left; discriminate].
    - destruct H as (gs & tail & -> & -> & V & W & X & Y). destruct tail as [|b tail].
      + rewrite app_nil_r. apply rdc_cut; assumption.
      + destruct Y as [Y|Y]; [discriminate|]. apply rdc_full_cut; try assumption. discriminate. }
  destruct U as (got & U1 & U2). exists got. split; [right; auto|exact U2].
Qed.

(** The places of the rows are on their pages. *)
Lemma good_places : forall ly pages, good_data ly pages ->
  Forall (fun x => Forall (fun p => fst p + snd p <= lenN (fst x)) (snd x)) (data_pages ly pages).
Proof.
  intros ly pages. induction pages as [|pg l IH]; cbn [good_data data_pages]; [constructor|].
  destruct (begins ly pg); [|exact IH]. intros (H1 & H2 & _). constructor; [exact H1|].
  rewrite Forall_map. eapply Forall_impl; [|exact H2]. intros q (_ & H & _). exact H.
Qed.

(** The rows over all the pages, the places being taken one by one. *)
Definition all_places (ly : layout) (pages : list bytes) : list (bytes * (N * N)) :=
  flat_map (fun x => map (fun p => (fst x, p)) (snd x)) (data_pages ly pages).

Lemma flat_map_map : forall A B C D (g : C -> D) (f : A -> B -> C) (h : A -> list B) (l : list A),
  map g (flat_map (fun x => map (f x) (h x)) l) = flat_map (fun x => map (fun b => g (f x b)) (h x)) l.
Proof.
  intros. induction l as [|x l IH]; [reflexivity|]. cbn [flat_map]. rewrite map_app, IH, map_map. reflexivity.
Qed.

Lemma rows_on_places : forall ly pages,
  rows_on ly pages = map (fun y => row_content ly (fst y) (snd y)) (all_places ly pages).
Proof.
  intros. unfold all_places. rewrite flat_map_map. reflexivity.
Qed.

Lemma places_inside : forall ly pages, good_data ly pages ->
  Forall (fun y => fst (snd y) + snd (snd y) <= lenN (fst y)) (all_places ly pages).
Proof.
  intros ly pages H. apply good_places in H. unfold all_places.
  induction H as [|x l X H IH]; cbn [flat_map]; [constructor|]. apply Forall_app. split; [|exact IH].
  rewrite Forall_map. exact X.
Qed.

Lemma Forall_firstn : forall A (P : A -> Prop) n l, Forall P l -> Forall P (firstn n l).
Proof.
  intros A P n l H. revert n. induction H; intros [|n]; cbn [firstn]; constructor; auto.
Qed.

Lemma said_rows : forall content got, good_data (full_layout content) (pages_in content) ->
  Forall2 (reads (md_compression (m_md (said content))) (md_row_length (m_md (said content))))
    (firstn (N.to_nat (md_row_count (m_md (said content)))) (stored_in content)) got ->
  firstn (N.to_nat (md_row_count (m_md (said content)))) (rows_on (full_layout content) (pages_in content))
  = map Ok got.
Proof.
  intros content rows G F. set (d := m_md (said content)) in *. set (n := N.to_nat (md_row_count d)) in *.
  unfold stored_in in F. rewrite rows_on_places, firstn_map.
  assert (E : flat_map (fun x => map (fun p => field (fst x) (fst p) (snd p)) (snd x))
                (data_pages (full_layout content) (pages_in content))
              = map (fun y => field (fst y) (fst (snd y)) (snd (snd y)))
                  (all_places (full_layout content) (pages_in content))).
  { unfold all_places. rewrite flat_map_map. reflexivity. }
  rewrite E, firstn_map in F. clear E.
  pose proof (Forall_firstn _ _ n _ (places_inside _ _ G)) as I.
  set (l := firstn n (all_places (full_layout content) (pages_in content))) in *. clearbody l. clear G.
  revert rows F. induction I as [|[pg [pos len]] l X I IH]; intros rows F; inversion F; subst; [reflexivity|].
  cbn [map fst snd] in *. f_equal; [|auto].
  eapply reads_content; [reflexivity|reflexivity|exact X|assumption].
Qed.

(** ** Files *)

(** What a file gives, when [like] tells how the row read is like the row made. *)
Lemma file_read : forall (made : compression -> N -> bytes -> bytes -> Prop) (like : bytes -> bytes -> Prop) c flt content fields rows,
  (forall k rl stored row, k = CompNone \/ rl < row_limit -> made k rl stored row ->
     exists got, reads k rl stored got /\ like row got) ->
  file_part made c content fields rows ->
  exists r cols got,
    open_reader c file_source flt (file_open content) = Ok (r, [EvProps (rs_h r) (rs_md r)])
    /\ header_of_file content (rs_h r)
    /\ rs_md r = with_columns (match flt with Some p => filter p cols | None => cols end) (m_md (said content))
    /\ Forall2 (column_for (file_endian content)) fields cols
    /\ Forall2 like rows got
    /\ readable c content r /\ file_rows content r = map Ok got.
Proof.
  intros made like c flt content fields rows MR ((M & HL & (t1 & D1 & _) & (t2 & D2 & _)) & PP & PF & FS & GD & CS & RS
    & R1 & R2 & R3 & R4 & R5 & R6).
  destruct (header_total c content M (proj1 HL) (proj2 HL) R2) as (h & OH & HF); [exists t1, t2; auto|].
  assert (HE : layout_of h empty_metadata = base_layout content).
  { unfold layout_of, base_layout. rewrite (hof_format _ _ HF), (hof_endian _ _ HF), (hof_page_length _ _ HF).
    reflexivity. }
  assert (FP : file_pages content h = pages_in content).
  { unfold file_pages, pages_in. rewrite (hof_page_length _ _ HF), (hof_header_length _ _ HF). reflexivity. }
  assert (D : described c content h).
  { unfold described. cbv zeta. rewrite HE, FP. fold (said content).
    rewrite (hof_format _ _ HF), (hof_page_length _ _ HF). fold (page_length_field content). tauto. }
  destruct (open_described c flt content h _ _ OH D) as [_ OK]. cbv zeta in OK. rewrite HE, FP in OK.
  fold (said content) in OK. destruct (OK (said_enough _ _ FS)) as (r & cols & OR & RH & RM & NC & CC). clear OK.
  assert (GR : exists got, Forall2 like rows got
     /\ Forall2 (reads (md_compression (m_md (said content))) (md_row_length (m_md (said content))))
          (firstn (N.to_nat (md_row_count (m_md (said content)))) (stored_in content)) got).
  { unfold rows_found in RS. cbv zeta in RS. assert (LM : md_compression (m_md (said content)) = CompNone \/ md_row_length (m_md (said content)) < row_limit)
      by (destruct R6 as [R6|R6]; [left; exact R6|right; lia]).
    clear -RS MR LM. induction RS as [|st row sts rows S RS (got & G1 & G2)].
    - exists []. split; constructor.
    - destruct (MR _ _ _ _ LM S) as (g & X1 & X2). exists (g :: got). split; constructor; assumption. }
  destruct GR as (got & LK & RG).
  exists r, cols, got. split; [exact OR|]. rewrite RH. split; [exact HF|]. split; [exact RM|].
  rewrite (hof_endian _ _ HF) in CC. split; [exact (said_columns _ _ _ _ FS NC CC)|]. split; [exact LK|].
  assert (LY : layout_of (rs_h r) (rs_md r) = full_layout content).
  { rewrite RH, RM. unfold layout_of, full_layout.
    rewrite (hof_format _ _ HF), (hof_endian _ _ HF), (hof_page_length _ _ HF). reflexivity. }
  split.
  - unfold readable. cbv zeta. rewrite LY, RH, FP. exact (conj R1 (conj PP (conj GD (conj CS R4)))).
  - unfold file_rows. rewrite LY, RH, FP, RM. apply said_rows; assumption.
Qed.

Lemma file_back_like : forall (made : compression -> N -> bytes -> bytes -> Prop) (like : bytes -> bytes -> Prop) c flt content fields rows,
  (forall k rl stored row, k = CompNone \/ rl < row_limit -> made k rl stored row ->
     exists got, reads k rl stored got /\ like row got) ->
  file_part made c content fields rows ->
  let d := m_md (said content) in
  exists r cols got,
    open_reader c file_source flt (file_open content) = Ok (r, [EvProps (rs_h r) (rs_md r)])
    /\ header_of_file content (rs_h r)
    /\ rs_md r = with_columns (match flt with Some p => filter p cols | None => cols end) d
    /\ Forall2 (column_for (file_endian content)) fields cols
    /\ Forall2 like rows got
    /\ forall ops,
         let cu := (0, map Ok got) in
         seen (md_row_length d) (fst (trace c file_source ops (Some r))) = fst (cur_trace ops cu)
         /\ current_row_index (snd (trace c file_source ops (Some r))) = fst (snd (cur_trace ops cu)).
Proof.
  intros made like c flt content fields rows MR H d.
  destruct (file_read made like c flt content fields rows MR H) as (r & cols & got & OR & HF & RM & CF & LK & RD & FR).
  exists r, cols, got. split; [exact OR|]. split; [exact HF|]. split; [exact RM|]. split; [exact CF|]. split; [exact LK|].
  intros ops. destruct (readable_cursor c flt content r ops (ex_intro _ _ OR) RD) as [T1 T2]. cbv zeta in T1, T2.
  rewrite FR in T1, T2. rewrite RM in T1. split; [exact T1|exact T2].
Qed.

Lemma conforms_back : forall c flt content fields rows, conforms c content fields rows ->
  let d := m_md (said content) in
  exists r cols,
    open_reader c file_source flt (file_open content) = Ok (r, [EvProps (rs_h r) (rs_md r)])
    /\ header_of_file content (rs_h r)
    /\ rs_md r = with_columns (match flt with Some p => filter p cols | None => cols end) d
    /\ Forall2 (column_for (file_endian content)) fields cols
    /\ forall ops,
         let cu := (0, map Ok rows) in
         seen (md_row_length d) (fst (trace c file_source ops (Some r))) = fst (cur_trace ops cu)
         /\ current_row_index (snd (trace c file_source ops (Some r))) = fst (snd (cur_trace ops cu)).
Proof.
  intros c flt content fields rows H d.
  destruct (file_back_like row_made eq c flt content fields rows) as (r & cols & got & OR & HF & RM & CF & LK & T);
    [|exact (proj1 H)|].
  { intros k rl stored row L MD. exists row. split; [apply made_reads; assumption|reflexivity]. }
  assert (E : rows = got) by (clear -LK; induction LK; congruence). subst got.
  exists r, cols. split; [exact OR|]. split; [exact HF|]. split; [exact RM|]. split; [exact CF|]. exact T.
Qed.

(** Whatever is lost. *)
Lemma meant_back : forall c flt content fields rows, file_with row_meant c content fields rows ->
  let d := m_md (said content) in
  exists r cols got,
    open_reader c file_source flt (file_open content) = Ok (r, [EvProps (rs_h r) (rs_md r)])
    /\ header_of_file content (rs_h r)
    /\ rs_md r = with_columns (match flt with Some p => filter p cols | None => cols end) d
    /\ Forall2 (column_for (file_endian content)) fields cols
    /\ Forall2 cut rows got
    /\ forall ops,
         let cu := (0, map Ok got) in
         seen (md_row_length d) (fst (trace c file_source ops (Some r))) = fst (cur_trace ops cu)
         /\ current_row_index (snd (trace c file_source ops (Some r))) = fst (snd (cur_trace ops cu)).
Proof. intros c flt content fields rows [H _]. revert H. apply file_back_like. exact meant_reads. Qed.

(** ** Blanks *)

(** The two rows differ in blanks, where there is no number. *)
Definition blank_like (fields : list field_desc) (row got : bytes) : Prop :=
  row = got \/ exists a n z, row = a ++ times n blank_char ++ times z zero_char
    /\ got = a ++ times (n + z) zero_char
    /\ Forall (fun d => fd_numeric d = true -> fd_offset d + fd_length d <= lenN a \/ lenN a + n <= fd_offset d) fields.

Lemma last_command : forall cs c, rle_expansion (cs ++ [c]) = rle_expansion cs ++ rle_expand c
  /\ rle_encoding (cs ++ [c]) = rle_encoding cs ++ rle_bytes c.
Proof.
  intros cs c. unfold rle_expansion, rle_encoding. rewrite !map_app, !concat_app. cbn [map concat].
  rewrite !app_nil_r. auto.
Qed.

Lemma nearly_reads : forall fields k rl stored row, k = CompNone \/ rl < row_limit ->
  row_nearly_made fields k rl stored row -> exists got, reads k rl stored got /\ blank_like fields row got.
Proof.
  intros fields k rl stored row L [H|(LR & LT & -> & cs & l & -> & -> & V & X & F)].
  - exists row. split; [apply made_reads; assumption|left; reflexivity].
  - destruct L as [L|L]; [discriminate|]. destruct (last_command cs (RBlank2 l)) as [E1 E2]. rewrite E1, E2 in *.
    cbn [rle_expand rle_bytes] in *. rewrite lenN_app, lenN_times in *.
    exists (zero_padded rl (rle_expansion cs)). split.
    + right. split; [rewrite lenN_app; exact LT|]. cbn [unpacks]. apply Forall_app in V. destruct V as [V _].
      apply (rle_decodes rl (fresh rl) cs _ (fresh_buffer rl) L V); [lia|left; cbn; lia|left; discriminate].
    + right. exists (rle_expansion cs), (l + 2), (rl - (lenN (rle_expansion cs) + (l + 2))).
      unfold zero_padded. rewrite lenN_app, lenN_times. split; [rewrite <- app_assoc; reflexivity|].
      split; [do 2 f_equal; lia|exact F].
Qed.

Lemma nearly_back : forall c flt content fields rows, nearly_conforms c content fields rows ->
  let d := m_md (said content) in
  exists r cols got,
    open_reader c file_source flt (file_open content) = Ok (r, [EvProps (rs_h r) (rs_md r)])
    /\ header_of_file content (rs_h r)
    /\ rs_md r = with_columns (match flt with Some p => filter p cols | None => cols end) d
    /\ Forall2 (column_for (file_endian content)) fields cols
    /\ Forall2 (blank_like fields) rows got
    /\ forall ops,
         let cu := (0, map Ok got) in
         seen (md_row_length d) (fst (trace c file_source ops (Some r))) = fst (cur_trace ops cu)
         /\ current_row_index (snd (trace c file_source ops (Some r))) = fst (snd (cur_trace ops cu)).
Proof. intros c flt content fields rows [H _]. revert H. apply file_back_like. apply nearly_reads. Qed.

(** The row count fits a word. *)
Lemma numw_small : forall ly pg p, numw ly pg p < W64.
Proof.
  intros ly pg p. unfold numw. rewrite <- get_val_value. eapply N.lt_le_trans; [apply get_val_lt|].
  change W64 with (256 ^ 8). apply N.pow_le_mono_r; [lia|]. rewrite field_slice, lenN_slice.
  destruct (ly_format ly); cbn [word]; lia.
Qed.

Lemma said_count : forall ly pages m, md_row_count (m_md m) < W64 ->
  md_row_count (m_md (pages_meaning ly m pages)) < W64.
Proof.
  assert (S1 : forall ly pg m s, md_row_count (m_md m) < W64 -> md_row_count (m_md (meaning ly pg m s)) < W64).
  { intros ly pg m s H. unfold meaning. destruct (kind_on ly pg s) as [[]|]; try exact H.
    - apply numw_small.
    - cbn [text_meaning m_md]. destruct (m_texts m); [|exact H]. unfold first_text_meaning.
      destruct (bytes_eqb _ _); [exact H|]. destruct (bytes_eqb _ _); [exact H|].
      destruct (_ =? _); exact H.
    - destruct (is_row ly pg m s); exact H. }
  assert (S2 : forall ly pg l m, md_row_count (m_md m) < W64 -> md_row_count (m_md (subs_meaning ly pg m l)) < W64).
  { intros ly pg l. induction l as [|s l IH]; intros m H; [exact H|]. apply IH. apply S1. exact H. }
  intros ly pages. induction pages as [|pg pages IH]; intros m H; [exact H|].
  cbn [pages_meaning]. destruct (page_ends ly pg m); [|apply IH]; apply S2; exact H.
Qed.

Lemma file_count : forall made c content fields rows, file_with made c content fields rows -> lenN rows < W64.
Proof.
  intros made c content fields rows [_ RC]. rewrite RC.
  unfold said. apply said_count. reflexivity.
Qed.

Lemma file_dates : forall made c content fields rows h, file_with made c content fields rows -> header_of_file content h ->
  (exists x, datetime_to_string (h_date_created h) = Ok x)
  /\ (exists x, datetime_to_string (h_date_modified h) = Ok x).
Proof.
  intros made c content fields rows h [((_ & _ & (t1 & D1 & S1) & (t2 & D2 & S2)) & _) _] HF.
  pose proof (hof_created _ _ HF) as C. pose proof (hof_modified _ _ HF) as M.
  unfold date_of_bits in *. rewrite D1 in C. rewrite D2 in M. injection C as <-. injection M as <-. auto.
Qed.
