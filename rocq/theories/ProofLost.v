(** Proofs about the rows in either form. *)
From Verif Require Import Base Types Buffer Page Column Header Metadata Decomp Data Reader
  Lemmas SpecReader SpecFile SpecPages ProofRows SpecLost.
Local Open Scope N_scope.

Lemma data_live : forall k s, is_data_entry k s = true -> skipped s = false.
Proof.
  intros k s H. unfold skipped. unfold is_data_entry in H. destruct k; [discriminate| |];
    (apply andb_true_iff in H as [H _]; apply andb_true_iff in H as [H1 H2];
     destruct (se_len s =? 0); [discriminate|]; cbn [orb];
     destruct (N.eqb_spec (se_comp s) 1) as [E|]; [rewrite E in H2; discriminate|reflexivity]).
Qed.

Lemma filter_filter : forall A (p q : A -> bool) l, filter p (filter q l) = filter (fun x => q x && p x) l.
Proof.
  induction l as [|x l IH]; [reflexivity|]. cbn [filter]. destruct (q x); cbn [andb filter]; [|exact IH].
  rewrite IH. reflexivity.
Qed.

Lemma marked_first : forall ly pg,
  marked ly false pg = map (fun s => (se_pos s, se_len s)) (filter (is_stored_row ly pg) (live ly pg)).
Proof.
  intros ly pg. unfold marked, live. destruct (has_subheaders (page_type ly pg)); [|reflexivity].
  f_equal. rewrite filter_filter. apply filter_ext. intros s. unfold is_stored_row. cbn [orb].
  destruct (is_data_entry (ly_compression ly) s) eqn:E; cbn [andb].
  - rewrite (data_live _ _ E). reflexivity.
  - rewrite andb_false_r. reflexivity.
Qed.

Lemma begins_has : forall ly pg, has_rows_on ly false pg = begins ly pg.
Proof.
  intros ly pg. unfold has_rows_on, begins. rewrite marked_first. f_equal.
  induction (live ly pg) as [|s l IH]; [reflexivity|]. cbn [filter existsb].
  destruct (is_stored_row ly pg s); [reflexivity|exact IH].
Qed.

Lemma row_places_types : forall ly pg,
  row_places ly pg
  = if page_type ly pg =? 0
    then map (fun s => (se_pos s, se_len s)) (filter (is_data_entry (ly_compression ly)) (entries ly pg))
    else placed ly pg.
Proof.
  intros ly pg. unfold row_places, placed. destruct (page_type ly pg =? 0); reflexivity.
Qed.

Lemma is_mix_not : forall t, is_mix t = true -> t <> 0 /\ t <> 256 /\ t <> 1024.
Proof.
  intros t H. unfold is_mix in H. apply orb_true_iff in H. destruct H as [H|H]; apply N.eqb_eq in H; subst;
    repeat split; discriminate.
Qed.

Lemma placed_none : forall ly pg, page_type ly pg <> 256 -> is_mix (page_type ly pg) = false -> placed ly pg = [].
Proof.
  intros ly pg A B. unfold placed. destruct (N.eqb_spec (page_type ly pg) 256); [contradiction|].
  rewrite B. reflexivity.
Qed.

Lemma later_places : forall ly pg,
  (is_mix (page_type ly pg) = true \/ page_type ly pg = 1024 /\ true = true -> marked ly true pg = []) ->
  all_places ly true pg = row_places ly pg.
Proof.
  intros ly pg U. rewrite row_places_types. unfold all_places.
  destruct (N.eqb_spec (page_type ly pg) 0) as [Z|Z].
  - rewrite placed_none by (rewrite Z; (discriminate || reflexivity)). cbn [app]. unfold marked. rewrite Z.
    change (has_subheaders 0) with true. cbn iota. f_equal. apply filter_ext. intros s. cbn [orb].
    rewrite andb_true_r. reflexivity.
  - assert (M : marked ly true pg = []).
    { destruct (is_mix (page_type ly pg)) eqn:MX; [auto|].
      destruct (N.eq_dec (page_type ly pg) 1024) as [A|A]; [auto|].
      unfold marked, has_subheaders. rewrite MX. destruct (N.eqb_spec (page_type ly pg) 0); [contradiction|].
      destruct (N.eqb_spec (page_type ly pg) 1024); [contradiction|]. reflexivity. }
    rewrite M, app_nil_r. reflexivity.
Qed.

Lemma later_rows : forall ly l, one_form ly true l ->
  all_rows ly true l = flat_map (fun x => map (row_content ly (fst x)) (snd x)) (map (fun q => (q, row_places ly q)) l).
Proof.
  induction l as [|pg l IH]; intros U; [reflexivity|]. cbn [one_form orb] in U. destruct U as [U1 U2].
  cbn [all_rows map flat_map fst snd orb]. rewrite (later_places ly pg U1), IH by exact U2. reflexivity.
Qed.

Lemma all_rows_on : forall ly pages, one_form ly false pages -> all_rows ly false pages = rows_on ly pages.
Proof.
  unfold rows_on. induction pages as [|pg l IH]; intros U; [reflexivity|].
  cbn [one_form orb all_rows data_pages] in *. destruct U as [U1 U2]. rewrite begins_has in *.
  destruct (begins ly pg) eqn:B.
  - cbn [flat_map fst snd]. rewrite later_rows by exact U2. f_equal. f_equal. unfold all_places, first_places.
    pose proof (marked_first ly pg) as M.
    destruct (filter (is_stored_row ly pg) (live ly pg)) as [|s ss] eqn:F.
    + cbn [map] in M. rewrite M, app_nil_r. rewrite row_places_types.
      destruct (N.eqb_spec (page_type ly pg) 0) as [Z|Z]; [|reflexivity]. exfalso.
      rewrite <- begins_has in B. unfold has_rows_on in B. rewrite M, Z in B. discriminate.
    + assert (MN : marked ly false pg <> []) by (rewrite M; discriminate).
      rewrite M. rewrite placed_none; [reflexivity| |].
      * intros Z. apply MN. unfold marked. rewrite Z. reflexivity.
      * destruct (is_mix (page_type ly pg)) eqn:X; [|reflexivity]. destruct MN. apply U1. left. reflexivity.
  - assert (A : all_places ly false pg = []).
    { rewrite <- begins_has in B. unfold has_rows_on in B. apply orb_false_iff in B as [B1 B2].
      apply orb_false_iff in B1 as [B1 B3]. unfold all_places. rewrite placed_none.
      - destruct (marked ly false pg); [reflexivity|discriminate].
      - apply N.eqb_neq. exact B1.
      - exact B3. }
    rewrite A. cbn [map app]. apply IH. exact U2.
Qed.

Lemma all_delivered : forall c flt content r ops,
  opened c file_source flt (file_open content) r -> readable c content r ->
  let ly := layout_of (rs_h r) (rs_md r) in
  let pages := file_pages content (rs_h r) in
  one_form ly false pages ->
  let cu := (0, firstn (N.to_nat (md_row_count (rs_md r))) (all_rows ly false pages)) in
  seen (md_row_length (rs_md r)) (fst (trace c file_source ops (Some r))) = fst (cur_trace ops cu)
  /\ current_row_index (snd (trace c file_source ops (Some r))) = fst (snd (cur_trace ops cu)).
Proof.
  intros c flt content r ops O R ly pages U. cbv zeta. unfold ly, pages in *. rewrite all_rows_on by exact U.
  exact (readable_cursor c flt content r ops O R).
Qed.
