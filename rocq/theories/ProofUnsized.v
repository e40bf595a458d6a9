(** Files whose sizes are not found: lemmas. *)
From Verif Require Import Base Types DateTime Buffer Header Page Column Decomp Metadata Data Reader Lemmas SpecValues SpecHeader
  SpecDecomp SpecReader SpecPages SpecMeta SpecFile SpecRoundtrip SpecConform ProofHeader ProofPages ProofDispatch ProofConform.
Local Open Scope N_scope.

Definition unsized (m : mstate) : Prop := md_row_count (m_md m) = 0 /\ md_column_count (m_md m) = 0
  /\ md_row_length (m_md m) = 0.

Lemma meaning_unsized : forall ly pg m s, not_a_size ly pg s -> unsized m -> unsized (meaning ly pg m s).
Proof.
  intros ly pg m s [N1 N2] U. unfold meaning, is_row. destruct (kind_on ly pg s) as [[]|]; try congruence; try exact U.
  - unfold text_meaning, unsized. cbn [m_md]. destruct (m_texts m); [|exact U].
    unfold first_text_meaning. destruct U as (U1 & U2 & U3).
    repeat match goal with |- context [if ?b then _ else _] => destruct b end; cbn; auto.
  - destruct (is_data_entry _ s); exact U.
Qed.

Lemma subs_unsized : forall ly pg l m, Forall (not_a_size ly pg) l -> unsized m -> unsized (subs_meaning ly pg m l).
Proof.
  intros ly pg l. induction l as [|s l IH]; intros m F U; [exact U|]. inversion F; subst.
  cbn [subs_meaning]. apply IH; [assumption|]. apply meaning_unsized; assumption.
Qed.

Lemma pages_unsized : forall ly pages m, Forall (fun pg => Forall (not_a_size ly pg) (live ly pg)) pages -> unsized m ->
  unsized (pages_meaning ly m pages).
Proof.
  intros ly pages. induction pages as [|pg l IH]; intros m F U; [exact U|]. inversion F; subst.
  cbn [pages_meaning]. assert (K : unsized (page_meaning ly pg m)) by (apply subs_unsized; assumption).
  destruct (page_ends ly pg m); [exact K|apply IH; assumption].
Qed.

Lemma unsized_conforms : forall c content, without_sizes c content -> conforms c content [] [] /\ unsized (said content).
Proof.
  intros c content (HG & PP & PF & NS & GD & CS & R1 & R2 & R3 & R4).
  assert (U : unsized (said content)) by (apply pages_unsized; [exact NS|repeat split]).
  split; [|exact U]. destruct U as (U1 & U2 & U3). split; [|rewrite U1; reflexivity].
  unfold file_part. cbv zeta. rewrite U2, U3.
  split; [exact HG|]. split; [exact PP|]. split; [exact PF|].
  split. { split; [rewrite U2; reflexivity|]. intros [|i] d E; discriminate E. }
  split; [exact GD|]. split; [exact CS|].
  split. { unfold rows_found. rewrite U1. constructor. }
  split; [exact R1|]. split; [exact R2|]. split; [exact R3|]. split; [exact R4|]. split; [lia|]. right. lia.
Qed.

Lemma unsized_back : forall c flt content, without_sizes c content ->
  exists r, open_reader c file_source flt (file_open content) = Ok (r, [EvProps (rs_h r) (rs_md r)])
    /\ md_columns (rs_md r) = [] /\ md_row_count (rs_md r) = 0
    /\ forall ops, seen 0 (fst (trace c file_source ops (Some r))) = fst (cur_trace ops (0, [])).
Proof.
  intros c flt content H. destruct (unsized_conforms c content H) as [K (U1 & U2 & U3)].
  destruct (conforms_back c flt content [] [] K) as (r & cols & OR & _ & RM & CF & T).
  exists r. split; [exact OR|]. inversion CF; subst. rewrite RM.
  split; [destruct flt; reflexivity|]. split; [exact U1|].
  intros ops. destruct (T ops) as [T1 _]. rewrite U3 in T1. exact T1.
Qed.

(** ** A check *)

Definition no_sizesb (ly : layout) (pages : list bytes) : bool :=
  forallb (fun pg => forallb (fun s =>
    match kind_on ly pg s with Some KRowSize | Some KColumnSize => false | _ => true end) (live ly pg)) pages.

Lemma no_sizesb_ok : forall ly pages, no_sizesb ly pages = true ->
  Forall (fun pg => Forall (not_a_size ly pg) (live ly pg)) pages.
Proof.
  intros ly pages H. unfold no_sizesb in H. rewrite forallb_forall in H. apply Forall_forall. intros pg P.
  specialize (H pg P). rewrite forallb_forall in H. apply Forall_forall. intros s Q. specialize (H s Q).
  unfold not_a_size. destruct (kind_on ly pg s) as [[]|]; split; congruence.
Qed.

(** ** The forms of the signatures *)

Lemma zero_forms_read : forall e b m sh sig,
  get_raw AssertNo b (sh_offset sh) 8 = Ok sig ->
  (In sig [times 4 x00 ++ times 4 xf7; times 4 xf7 ++ times 4 x00] ->
   process_subheader e Bit64 b m sh = (m' <- process_ROW_SIZE e Bit64 b sh m ;; Ok (m', false)))
  /\ (In sig [times 4 x00 ++ times 4 xf6; times 4 xf6 ++ times 4 x00] ->
      process_subheader e Bit64 b m sh = (m' <- process_COLUMN_SIZE e Bit64 b sh m ;; Ok (m', false))).
Proof.
  intros e b m sh sig G.
  split; intros [<-|[<-|[]]]; rewrite (dispatched e Bit64 b m sh _ G);
    match goal with |- context [kind_of Bit64 ?s] =>
      let k := eval vm_compute in (kind_of Bit64 s) in replace (kind_of Bit64 s) with k by (vm_compute; reflexivity) end;
    reflexivity.
Qed.

Lemma newer_form_read : forall e b m sh sig,
  get_raw AssertNo b (sh_offset sh) 8 = Ok sig ->
  sig = times 4 xf7 ++ [xff; xff; xfb; xfe] \/ sig = times 4 xf6 ++ [xff; xff; xfb; xfe] ->
  process_subheader e Bit64 b m sh
  = Ok (if data_subheader_check (md_compression (m_md m)) sh then (process_DATA sh m, true) else (m, false)).
Proof.
  intros e b m sh sig G.
  intros [-> | ->]; rewrite (dispatched e Bit64 b m sh _ G);
    match goal with |- context [kind_of Bit64 ?s] =>
      let k := eval vm_compute in (kind_of Bit64 s) in replace (kind_of Bit64 s) with k by (vm_compute; reflexivity) end;
    reflexivity.
Qed.
