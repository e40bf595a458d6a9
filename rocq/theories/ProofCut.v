(** Files which are cut off: lemmas. *)
From Verif Require Import Base Types DateTime Buffer Header Page Column Decomp Metadata Data Reader Lemmas SpecValues SpecHeader
  SpecDecomp SpecReader SpecPages SpecMeta SpecFile SpecRoundtrip SpecConform ProofHeader ProofPages ProofConform.
Local Open Scope N_scope.

(** ** Fields of the part which is kept *)

Lemma field_kept : forall a z off n, off + n <= lenN a -> field (a ++ z) off n = field a off n.
Proof.
  intros a z off n H. unfold field, lenN in *. rewrite skipn_app, firstn_app.
  replace (N.to_nat n - length (skipn (N.to_nat off) a))%nat with 0%nat by (rewrite skipn_length; lia).
  cbn [firstn]. apply app_nil_r.
Qed.

Lemma byte_kept : forall a z i, i < lenN a -> byte_at (a ++ z) i = byte_at a i.
Proof. intros a z i H. unfold byte_at, lenN in *. rewrite nth_error_app1 by lia. reflexivity. Qed.

Section Kept.
  Variables a z : bytes.
  Hypothesis L : 288 <= lenN a.

  Lemma format_kept : file_format (a ++ z) = file_format a.
  Proof. unfold file_format, is_64. rewrite byte_kept by lia. reflexivity. Qed.

  Lemma endian_kept : file_endian (a ++ z) = file_endian a.
  Proof. unfold file_endian. rewrite byte_kept by lia. reflexivity. Qed.

  Lemma shift1_kept : shift1 (a ++ z) = shift1 a.
  Proof. unfold shift1. rewrite byte_kept by lia. reflexivity. Qed.

  Lemma shift2_kept : shift2 (a ++ z) = shift2 a.
  Proof. unfold shift2, is_64. rewrite shift1_kept, byte_kept by lia. reflexivity. Qed.

  Lemma shift1_small : shift1 a <= 4.
  Proof. unfold shift1. destruct (_ =? _); lia. Qed.

  Lemma hlen_kept : header_length_field (a ++ z) = header_length_field a.
  Proof.
    unfold header_length_field. pose proof shift1_small. rewrite endian_kept, shift1_kept, field_kept by lia.
    reflexivity.
  Qed.

  Lemma plen_kept : page_length_field (a ++ z) = page_length_field a.
  Proof.
    unfold page_length_field. pose proof shift1_small. rewrite endian_kept, shift1_kept, field_kept by lia.
    reflexivity.
  Qed.

  Lemma base_kept : base_layout (a ++ z) = base_layout a.
  Proof. unfold base_layout. rewrite endian_kept, format_kept, plen_kept. reflexivity. Qed.

  Lemma header_kept : header_length_field a <= lenN a -> header_good (a ++ z) -> header_good a.
  Proof.
    intros HL (M & H1 & D1 & D2). pose proof shift1_small. unfold header_good, has_magic in *.
    rewrite hlen_kept, shift2_kept, endian_kept, shift1_kept in *. rewrite !field_kept in * by lia.
    split; [exact M|]. split; [lia|]. auto.
  Qed.
End Kept.

(** ** Pages *)

Lemma pages_of_prefix : forall plen, 0 < plen -> forall n m a z, (length a < n)%nat -> (length (a ++ z) < m)%nat ->
  exists more, pages_of m plen (a ++ z) = pages_of n plen a ++ more.
Proof.
  intros plen P. induction n as [|n IH]; intros m a z A M; [lia|].
  destruct m as [|m]; [lia|]. cbn [pages_of].
  destruct (N.leb_spec plen (lenN a)) as [X|X]; [|eexists; reflexivity].
  destruct (N.leb_spec plen (lenN (a ++ z))) as [Y|Y]; [|rewrite lenN_app in Y; lia].
  rewrite (field_kept a z 0 plen) by lia. unfold lenN in *.
  rewrite skipn_app. replace (N.to_nat plen - length a)%nat with 0%nat by lia. cbn [skipn].
  destruct (IH m (skipn (N.to_nat plen) a) z) as [more E].
  - rewrite skipn_length. lia.
  - rewrite app_length, skipn_length in *. lia.
  - exists more. rewrite E. reflexivity.
Qed.

Lemma pages_in_kept : forall a z, 288 <= lenN a -> header_length_field a <= lenN a -> 0 < page_length_field a ->
  exists more, pages_in (a ++ z) = pages_in a ++ more.
Proof.
  intros a z L HL P. unfold pages_in, complete_pages. rewrite hlen_kept, plen_kept by exact L.
  rewrite skipn_app. unfold lenN in *.
  replace (N.to_nat (header_length_field a) - length a)%nat with 0%nat by lia. cbn [skipn].
  apply pages_of_prefix; [exact P|lia|lia].
Qed.

Lemma pages_fit_prefix : forall ly l l' m, pages_fit ly m (l ++ l') -> pages_fit ly m l.
Proof.
  intros ly l l'. induction l as [|pg l IH]; intros m H; [exact I|]. destruct H as [H1 H2].
  split; [exact H1|]. intros E. apply IH. apply H2. exact E.
Qed.

Lemma good_data_prefix : forall ly l l', good_data ly (l ++ l') -> good_data ly l.
Proof.
  intros ly l l'. induction l as [|pg l IH]; intros H; [exact I|]. cbn [app good_data] in *.
  destruct (begins ly pg); [|apply IH; exact H]. destruct H as (H1 & H2 & H3).
  apply Forall_app in H2, H3. tauto.
Qed.

Lemma clear_start_prefix : forall ly l l', clear_start ly (l ++ l') -> clear_start ly l.
Proof.
  intros ly l l' H pre pg post E F. apply (H pre pg (post ++ l')); [|exact F].
  rewrite E, <- app_assoc. reflexivity.
Qed.

Lemma data_pages_prefix : forall ly l l', exists more, data_pages ly (l ++ l') = data_pages ly l ++ more.
Proof.
  intros ly l l'. induction l as [|pg l IH]; [eexists; reflexivity|]. cbn [app data_pages].
  destruct (begins ly pg); [|exact IH]. rewrite map_app. eexists. reflexivity.
Qed.

Lemma Forall2_prefix : forall A B (R : A -> B -> Prop) n l k, Forall2 R l k -> Forall2 R (firstn n l) (firstn n k).
Proof. intros A B R n l k F. revert n. induction F; intros [|n]; cbn [firstn]; constructor; auto. Qed.

(** ** Files *)

(** The part which is kept holds the rows of its places. *)
Lemma part_kept : forall made c a z fields rows, file_part made c (a ++ z) fields rows ->
  288 <= lenN a -> header_length_field a <= lenN a -> said a = said (a ++ z) ->
  file_part made c a fields (firstn (length (stored_in a)) rows).
Proof.
  intros made c a z fields rows (HG & PP & PF & FS & GD & CS & RF & R1 & R2 & R3 & R4 & R5 & R6) L HL SD.
  rewrite format_kept, plen_kept in PP by exact L.
  destruct (pages_in_kept a z L HL) as [more PE]; [lia|].
  assert (LY : full_layout (a ++ z) = full_layout a).
  { unfold full_layout. rewrite SD, endian_kept, format_kept, plen_kept by exact L. reflexivity. }
  assert (SE : exists rest, stored_in (a ++ z) = stored_in a ++ rest).
  { unfold stored_in. rewrite LY, PE. destruct (data_pages_prefix (full_layout a) (pages_in a) more) as [m ->].
    rewrite flat_map_app. eexists. reflexivity. }
  rewrite base_kept, PE in PF by exact L. rewrite LY, PE in GD, CS. rewrite <- SD in FS, R5, R6.
  rewrite hlen_kept in R2 by exact L. rewrite plen_kept in R3 by exact L. rewrite PE, app_length in R4.
  unfold file_part. cbv zeta.
  split; [eapply header_kept; eassumption|]. split; [exact PP|]. split; [eapply pages_fit_prefix; exact PF|].
  split; [exact FS|]. split; [eapply good_data_prefix; exact GD|]. split; [eapply clear_start_prefix; exact CS|].
  split.
  - destruct SE as [rest SE]. unfold rows_found in *. cbv zeta in *. rewrite <- SD, SE in RF.
    set (n := N.to_nat (md_row_count (m_md (said a)))) in *.
    apply (Forall2_prefix _ _ _ (length (stored_in a))) in RF.
    rewrite firstn_firstn, Nat.min_comm, <- firstn_firstn in RF.
    rewrite firstn_app, firstn_all, Nat.sub_diag in RF. cbn [firstn] in RF. rewrite app_nil_r in RF. exact RF.
  - repeat (split; [assumption || lia|]). exact R6.
Qed.

(** A file without a complete page is a table without columns and rows. *)
Lemma no_page_empty : forall c content, header_good content ->
  lenN content < header_length_field content + page_length_field content ->
  prefix (file_format content) + 6 <= page_length_field content ->
  max_alloc c < row_limit -> header_length_field content <= max_alloc c -> page_length_field content <= max_alloc c ->
  (0 < page_fuel c)%nat ->
  conforms c content [] [].
Proof.
  intros c content HG LT PP R1 R2 R3 R4.
  assert (PE : pages_in content = []).
  { destruct HG as (_ & HL & _). unfold pages_in, complete_pages. cbn [pages_of].
    destruct (N.leb_spec (page_length_field content) (lenN (skipn (N.to_nat (header_length_field content)) content))) as [X|X];
      [|reflexivity]. unfold lenN in *. rewrite skipn_length in X. lia. }
  assert (SE : said content = empty_mstate) by (unfold said; rewrite PE; reflexivity).
  split; [|rewrite SE; reflexivity]. unfold file_part. cbv zeta. rewrite SE, PE.
  split; [exact HG|]. split; [exact PP|]. split; [exact I|].
  split. { split; [reflexivity|]. intros [|i] d E; discriminate E. }
  split; [exact I|]. split. { intros [|p pre] pg post E; discriminate E. }
  split. { unfold rows_found. rewrite SE. cbn. constructor. }
  split; [exact R1|]. split; [exact R2|]. split; [exact R3|]. split; [exact R4|]. split; [cbn; lia|]. left. reflexivity.
Qed.

Lemma cut_back : forall c flt kept lost fields rows, conforms c (kept ++ lost) fields rows ->
  header_length_field (kept ++ lost) <= lenN kept -> said kept = said (kept ++ lost) ->
  let d := m_md (said kept) in
  exists r cols,
    open_reader c file_source flt (file_open kept) = Ok (r, [EvProps (rs_h r) (rs_md r)])
    /\ header_of_file kept (rs_h r)
    /\ rs_md r = with_columns (match flt with Some p => filter p cols | None => cols end) d
    /\ Forall2 (column_for (file_endian kept)) fields cols
    /\ forall ops,
         let cu := (0, map Ok (firstn (length (stored_in kept)) rows)) in
         seen (md_row_length d) (fst (trace c file_source ops (Some r))) = fst (cur_trace ops cu)
         /\ current_row_index (snd (trace c file_source ops (Some r))) = fst (snd (cur_trace ops cu)).
Proof.
  intros c flt kept lost fields rows [H _] HL SD d.
  assert (L : 288 <= lenN kept) by (destruct H as ((_ & HH & _) & _); lia).
  rewrite hlen_kept in HL by exact L.
  pose proof (part_kept _ _ _ _ _ _ H L HL SD) as K.
  destruct (file_back_like row_made eq c flt kept fields (firstn (length (stored_in kept)) rows))
    as (r & cols & got & OR & HF & RM & CF & LK & T); [|exact K|].
  { intros k rl stored row LM MD. exists row. split; [apply made_reads; assumption|reflexivity]. }
  assert (E : firstn (length (stored_in kept)) rows = got) by (clear -LK; induction LK; congruence). rewrite <- E in T.
  exists r, cols. split; [exact OR|]. split; [exact HF|]. split; [exact RM|]. split; [exact CF|]. exact T.
Qed.

Lemma no_page_back : forall c flt kept lost fields rows, conforms c (kept ++ lost) fields rows ->
  header_length_field (kept ++ lost) <= lenN kept
  < header_length_field (kept ++ lost) + page_length_field (kept ++ lost) ->
  exists r, open_reader c file_source flt (file_open kept) = Ok (r, [EvProps (rs_h r) (rs_md r)])
    /\ md_columns (rs_md r) = [] /\ md_row_count (rs_md r) = 0
    /\ forall ops, seen 0 (fst (trace c file_source ops (Some r))) = fst (cur_trace ops (0, [])).
Proof.
  intros c flt kept lost fields rows [H _] HL.
  assert (L : 288 <= lenN kept) by (destruct H as ((_ & HH & _) & _); lia).
  rewrite hlen_kept, plen_kept in HL by exact L.
  destruct H as (HG & PP & _ & _ & _ & _ & _ & R1 & R2 & R3 & R4 & _).
  rewrite format_kept, plen_kept in PP by exact L. rewrite hlen_kept in R2 by exact L. rewrite plen_kept in R3 by exact L.
  assert (K : conforms c kept [] []).
  { apply no_page_empty; try assumption; try lia. eapply header_kept; [exact L|lia|exact HG]. }
  assert (SE : said kept = empty_mstate).
  { unfold said, pages_in, complete_pages. cbn [pages_of].
    destruct (N.leb_spec (page_length_field kept) (lenN (skipn (N.to_nat (header_length_field kept)) kept))) as [X|X];
      [|reflexivity]. unfold lenN in *. rewrite skipn_length in X. lia. }
  destruct (conforms_back c flt kept [] [] K) as (r & cols & OR & _ & RM & CF & T).
  exists r. split; [exact OR|]. inversion CF; subst. rewrite RM, SE.
  split; [destruct flt; reflexivity|]. split; [reflexivity|].
  intros ops. destruct (T ops) as [T1 _]. rewrite SE in T1. exact T1.
Qed.
