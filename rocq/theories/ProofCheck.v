(** Computable forms of the hypotheses on the pages of a file, for the examples,
    and the corollaries about read_all, one page, and empty pages. *)
From Verif Require Import Base Types Buffer Page Column Header Metadata Decomp Data Reader
  Lemmas SpecValues ProofValues SpecBuffer ProofBuffer SpecHeader ProofHeader SpecDecomp ProofDecomp
  SpecReader ProofMetaInv ProofReader SpecPages ProofPages ProofOpen SpecFile Samples.
From Coq Require Import ZifyBool ZifyNat ZifyN.
Local Open Scope N_scope.

Definition good_pageb (ly : layout) (pg : bytes) : bool :=
  (prefix (ly_format ly) + 6 <=? lenN pg)
  && forallb (fun p => fst p + snd p <=? lenN pg) (row_places ly pg)
  && (negb (page_type ly pg =? 0)
      || ((prefix (ly_format ly) + 8 + page_subs ly pg * (3 * word (ly_format ly)) <=? lenN pg)
          && forallb (fun s => se_pos s + se_len s <=? lenN pg) (entries ly pg))).

Lemma forallb_le : forall A (f : A -> N) n l, forallb (fun x => f x <=? n) l = true ->
  Forall (fun x => f x <= n) l.
Proof.
  intros A f n l H. rewrite forallb_forall in H. apply Forall_forall. intros x I.
  specialize (H x I). lia.
Qed.

Lemma good_pageb_ok : forall ly pg, good_pageb ly pg = true -> good_page ly pg.
Proof.
  intros ly pg H. unfold good_pageb in H. apply andb_true_iff in H. destruct H as [H H3].
  apply andb_true_iff in H. destruct H as [H1 H2]. split; [lia|]. split.
  - apply (forallb_le _ (fun p => fst p + snd p)). exact H2.
  - intros T. rewrite T in H3. cbn [N.eqb negb orb] in H3. apply andb_true_iff in H3.
    destruct H3 as [H3 H4]. split; [lia|].
    apply (forallb_le _ (fun s => se_pos s + se_len s)). exact H4.
Qed.

Definition not_emptyb (ly : layout) (pg : bytes) : bool :=
  negb ((page_type ly pg =? 256) || is_mix (page_type ly pg))
  || negb (match row_places ly pg with [] => true | _ => false end).

Lemma not_emptyb_ok : forall ly pg, not_emptyb ly pg = true -> not_empty ly pg.
Proof.
  intros ly pg H T R. unfold not_emptyb in H. rewrite R in H.
  destruct T as [T|T]; rewrite T in H; cbn in H; rewrite ?orb_true_r in H; discriminate.
Qed.

Fixpoint good_datab (ly : layout) (pages : list bytes) : bool :=
  match pages with
  | [] => true
  | pg :: l =>
      if begins ly pg
      then forallb (fun p => fst p + snd p <=? lenN pg) (first_places ly pg)
           && forallb (good_pageb ly) l && forallb (not_emptyb ly) l
      else good_datab ly l
  end.

Lemma forallb_Forall : forall A (f : A -> bool) (P : A -> Prop) l, (forall x, f x = true -> P x) ->
  forallb f l = true -> Forall P l.
Proof.
  intros A f P l H F. rewrite forallb_forall in F. apply Forall_forall. auto.
Qed.

Lemma good_datab_ok : forall ly pages, good_datab ly pages = true -> good_data ly pages.
Proof.
  intros ly pages. induction pages as [|pg l IH]; intros H; [exact I|].
  cbn [good_datab good_data] in *. destruct (begins ly pg); [|exact (IH H)].
  apply andb_true_iff in H. destruct H as [H H3]. apply andb_true_iff in H. destruct H as [H1 H2].
  split; [|split].
  - apply (forallb_le _ (fun p => fst p + snd p)). exact H1.
  - revert H2. apply forallb_Forall. apply good_pageb_ok.
  - revert H3. apply forallb_Forall. apply not_emptyb_ok.
Qed.

Definition is_textb (ly : layout) (pg : bytes) (s : sub_entry) : bool :=
  (se_pos s + word (ly_format ly) <=? lenN pg)
  && match kind_on ly pg s with Some KText => true | _ => false end.

Lemma is_textb_ok : forall ly pg s, is_textb ly pg s = true -> is_text ly pg s.
Proof.
  intros ly pg s H. apply andb_true_iff in H. destruct H as [H1 H2]. split; [lia|].
  destruct (kind_on ly pg s) as [[]|]; try discriminate. reflexivity.
Qed.

Fixpoint clear_subs (ly : layout) (pg : bytes) (text : bool) (l : list sub_entry) : bool :=
  match l with
  | [] => true
  | s :: l' =>
      (negb (is_data_entry (ly_compression ly) s)
       || ((se_pos s + word (ly_format ly) <=? lenN pg)
           && (match kind_on ly pg s with None => false | _ => true end || text)))
      && clear_subs ly pg (text || is_textb ly pg s) l'
  end.

Fixpoint clear_startb (ly : layout) (text : bool) (pages : list bytes) : bool :=
  match pages with
  | [] => true
  | pg :: l =>
      clear_subs ly pg text (live ly pg)
      && (begins ly pg || clear_startb ly (text || existsb (is_textb ly pg) (live ly pg)) l)
  end.

Lemma clear_subs_ok : forall ly pg l t a s b, clear_subs ly pg t l = true -> l = a ++ s :: b ->
  is_data_entry (ly_compression ly) s = true ->
  se_pos s + word (ly_format ly) <= lenN pg
  /\ (kind_on ly pg s = None -> t = true \/ Exists (is_text ly pg) a).
Proof.
  intros ly pg. induction l as [|x l IH]; intros t a s b H E D; [destruct a; discriminate|].
  cbn [clear_subs] in H. apply andb_true_iff in H. destruct H as [H1 H2].
  destruct a as [|y a]; cbn [app] in E; injection E as <- E.
  - rewrite D in H1. cbn [negb orb] in H1. apply andb_true_iff in H1. destruct H1 as [H1 H3].
    split; [lia|]. intros K. rewrite K in H3. left. exact H3.
  - destruct (IH _ a s b H2 E D) as (B & F). split; [exact B|]. intros K.
    destruct (F K) as [G|G].
    + apply orb_true_iff in G. destruct G as [G|G]; [left; exact G|]. right. apply Exists_cons_hd.
      apply is_textb_ok. exact G.
    + right. apply Exists_cons_tl. exact G.
Qed.

Lemma clear_startb_gen : forall ly pages t done, clear_startb ly t pages = true ->
  (t = true -> Exists (fun q => Exists (is_text ly q) (live ly q)) done) ->
  forall pre pg post, pages = pre ++ pg :: post ->
  Forall (fun q => begins ly q = false) pre -> clear_page ly (done ++ pre) pg.
Proof.
  intros ly. induction pages as [|q l IH]; intros t done H T pre pg post E F.
  - destruct pre; discriminate.
  - cbn [clear_startb] in H. apply andb_true_iff in H. destruct H as [H1 H2].
    destruct pre as [|a pre]; cbn [app] in E; injection E as <- E.
    + rewrite app_nil_r. intros a s b L D.
      destruct (clear_subs_ok _ _ _ _ _ _ _ H1 L D) as (B & G).
      split; [exact B|]. intros K. destruct (G K) as [X|X]; auto.
    + pose proof (Forall_inv F) as F1. apply Forall_inv_tail in F.
      cbv beta in F1. rewrite F1 in H2. cbn [orb] in H2.
      assert (K : clear_page ly ((done ++ [q]) ++ pre) pg).
      { eapply (IH _ (done ++ [q]) H2); [|exact E|exact F].
        intros X. apply orb_true_iff in X. apply Exists_app. destruct X as [X|X].
        - left. exact (T X).
        - right. apply Exists_cons_hd. apply existsb_exists in X. destruct X as (s & I1 & I2).
          apply Exists_exists. exists s. split; [exact I1|]. apply is_textb_ok. exact I2. }
      rewrite <- app_assoc in K. exact K.
Qed.

Lemma clear_startb_ok : forall ly pages, clear_startb ly false pages = true ->
  clear_start ly pages.
Proof.
  intros ly pages H pre pg post E F.
  apply (clear_startb_gen ly pages false [] H ltac:(discriminate) pre pg post E F).
Qed.

(** All the hypotheses of the reading theorems, for an open reader. *)
Definition readableb (c : cfg) (content : bytes) (r : rstate fstate) : bool :=
  let ly := layout_of (rs_h r) (rs_md r) in
  let pages := file_pages content (rs_h r) in
  (max_alloc c <? row_limit)
  && (prefix (ly_format ly) + 6 <=? ly_page_length ly)
  && good_datab ly pages && clear_startb ly false pages
  && (length pages <? page_fuel c)%nat.

Lemma readableb_ok : forall c content r, readableb c content r = true -> readable c content r.
Proof.
  intros c content r H. unfold readableb in H. cbv zeta in H.
  apply andb_true_iff in H. destruct H as [H H5].
  apply andb_true_iff in H. destruct H as [H H4]. apply andb_true_iff in H. destruct H as [H H3].
  apply andb_true_iff in H. destruct H as [H1 H2].
  split; [apply N.ltb_lt; exact H1|]. split; [apply N.leb_le; exact H2|].
  split; [apply good_datab_ok; exact H3|]. split; [apply clear_startb_ok; exact H4|].
  apply Nat.ltb_lt. exact H5.
Qed.
