(** The rows of a file by the rules. *)
From Verif Require Import Base Types Buffer Page Column Header Metadata Decomp Data Reader Lemmas
  SpecValues SpecHeader SpecBuffer SpecDecomp SpecDecode SpecReader SpecPages SpecRules
  ProofDecomp ProofDecode ProofMetaInv ProofOpen ProofRows.
From Coq Require Import ZifyBool ZifyNat ZifyN.
Local Open Scope N_scope.

Lemma fresh_row : forall rl, row_buffer rl (fresh rl).
Proof.
  intros rl. split; [reflexivity|]. unfold fresh, lenN. cbn [d_mem]. rewrite repeat_length. lia.
Qed.

(** What is handed out is what the rules say, and nothing else. *)
Lemma content_says : forall ly pg place x,
  (ly_compression ly <> CompNone -> ly_row_length ly < row_limit) ->
  (row_content ly pg place = x <-> row_says ly pg place x).
Proof.
  intros ly pg [pos len] x L. unfold row_content. cbv zeta.
  destruct (N.ltb_spec len (ly_row_length ly)) as [LT|GE].
  - destruct (ly_compression ly) eqn:C.
    + split.
      * intros <-. apply says_bytes. right. exact C.
      * intros H. inversion H; congruence.
    + rewrite (rle_exact _ _ _ _ (fresh_row _)) by (apply L; discriminate). split.
      * intros H. apply says_rle; assumption.
      * intros H. inversion H; subst; try congruence.
        match goal with K : _ \/ _ |- _ => destruct K; [lia|congruence] end.
    + rewrite (rdc_exact _ _ _ _ (fresh_row _)) by (apply L; discriminate). split.
      * intros H. apply says_rdc; assumption.
      * intros H. inversion H; subst; try congruence.
        match goal with K : _ \/ _ |- _ => destruct K; [lia|congruence] end.
  - split.
    + intros <-. apply says_bytes. left. exact GE.
    + intros H. inversion H; subst; try lia; reflexivity.
Qed.

Lemma opened_small : forall c flt content r, max_alloc c < row_limit ->
  opened c file_source flt (file_open content) r -> md_compression (rs_md r) <> CompNone ->
  md_row_length (rs_md r) < row_limit.
Proof.
  intros c flt content r M [ev O] C. apply open_reader_inv in O.
  destruct O as [s1 [b1 [p [m [_ [_ [_ [D _]]]]]]]]. unfold read_data in D. binv D.
  pose proof (make_decompressor_ok c (rs_md r) x M E) as K. unfold make_decompressor in E.
  destruct (md_compression (rs_md r)).
  - congruence.
  - binv E. injection E as <-. exact (proj2 K).
  - binv E. injection E as <-. exact (proj2 K).
Qed.

Lemma page_row_rules : forall S c h md pg spare (s : S) ph dec row cur place x,
  let ly := layout_of h md in
  let d := DState (PState s (MBuf (map Some pg ++ spare) (lenN pg)) ph) dec row cur in
  max_alloc c < row_limit ->
  lenN pg = h_page_length h -> lenN pg < W64 -> good_page ly pg ->
  make_decompressor c (md_compression md) (md_row_length md) = Ok dec ->
  In place (row_places ly pg) ->
  ((p <- fst (extract_row_values c h md (fst place) (snd place) d) ;; seen_row (md_row_length md) p) = x
   <-> row_says ly pg place x).
Proof.
  intros S c h md pg spare s ph dec row cur place x ly d M LP B G D I.
  pose proof (page_row_bytes S c h md pg spare s ph dec row cur place M LP B G D I) as Z.
  change (page_buffer pg spare) with (MBuf (map Some pg ++ spare) (lenN pg)) in Z. fold d in Z. rewrite Z. clear Z.
  apply content_says. intros C. pose proof (make_decompressor_ok c md dec M D) as K.
  unfold ly, layout_of in *. cbn [ly_compression ly_row_length] in *. unfold make_decompressor in D.
  destruct (md_compression md).
  - congruence.
  - binv D. injection D as <-. exact (proj2 K).
  - binv D. injection D as <-. exact (proj2 K).
Qed.

Lemma places_content : forall content r,
  file_rows content r
  = map (fun y => row_content (layout_of (rs_h r) (rs_md r)) (fst y) (snd y)) (file_places content r).
Proof.
  intros content r. unfold file_rows, file_places. rewrite <- firstn_map. f_equal. unfold rows_on.
  induction (data_pages _ _) as [|x l IH]; [reflexivity|].
  cbn [flat_map]. rewrite map_app, map_map, IH. reflexivity.
Qed.

Lemma forall2_map : forall A B (R : A -> B -> Prop) (f : A -> B),
  (forall a b, f a = b <-> R a b) -> forall l k, Forall2 R l k <-> map f l = k.
Proof.
  intros A B R f H. induction l as [|a l IH]; intros k; cbn [map].
  - split; [inversion 1; reflexivity|intros <-; constructor].
  - split.
    + inversion 1; subst. f_equal; [apply H; assumption|apply IH; assumption].
    + intros <-. constructor; [apply H; reflexivity|apply IH; reflexivity].
Qed.

Lemma says_rows_iff : forall c flt content r rows, max_alloc c < row_limit ->
  opened c file_source flt (file_open content) r ->
  (says_rows content r rows <-> file_rows content r = rows).
Proof.
  intros c flt content r rows M O. rewrite places_content. unfold says_rows.
  apply forall2_map. intros y x. apply content_says. exact (opened_small c flt content r M O).
Qed.

Lemma cursor_by_rules : forall c flt content r,
  opened c file_source flt (file_open content) r -> readable c content r ->
  exists rows, says_rows content r rows
  /\ (forall other, says_rows content r other -> other = rows)
  /\ forall ops,
     seen (md_row_length (rs_md r)) (fst (trace c file_source ops (Some r))) = fst (cur_trace ops (0, rows))
     /\ current_row_index (snd (trace c file_source ops (Some r))) = fst (snd (cur_trace ops (0, rows))).
Proof.
  intros c flt content r O R. pose proof (proj1 R) as M.
  exists (file_rows content r). split; [apply (says_rows_iff c flt); auto|]. split.
  - intros other H. symmetry. apply (says_rows_iff c flt) in H; auto.
  - intros ops. exact (readable_cursor c flt content r ops O R).
Qed.
