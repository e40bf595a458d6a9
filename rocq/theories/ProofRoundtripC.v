(** A compressed table, written and read back. *)
From Verif Require Import Base Types Float DateTime Buffer Header Column Decomp Metadata Data Reader Lemmas
  SpecValues ProofValues SpecHeader ProofHeader SpecDecomp ProofDecomp SpecReader SpecPages ProofPages SpecMeta ProofMeta
  ProofOpen ProofColumns ProofRows SpecFile SpecRoundtrip ProofWrite ProofWriteSubs ProofWriteDesc ProofFile
  ProofRoundtrip.
From Coq Require Import ZifyBool ZifyNat ZifyN.
Local Open Scope N_scope.

(** ** Bytes which are not a signature *)

Lemma write_lsb_value : forall l, write_lsb_first (length l) (value_lsb_first l) = l.
Proof.
  induction l as [|b l IH]; [reflexivity|].
  cbn [length write_lsb_first value_lsb_first fold_right]. fold (value_lsb_first l).
  pose proof (b2n_lt b) as B. unfold b2n in B. f_equal.
  - apply b2n_inj. rewrite byte_of_n2b, b2n_n2b. unfold b2n.
    replace (Byte.to_N b + 256 * value_lsb_first l) with (Byte.to_N b + value_lsb_first l * 256) by lia.
    rewrite N.mod_add by lia. apply N.mod_small. exact B.
  - replace (Byte.to_N b + 256 * value_lsb_first l) with (Byte.to_N b + value_lsb_first l * 256) by lia.
    rewrite N.div_add by lia. rewrite N.div_small by exact B. exact IH.
Qed.

Lemma write_value : forall e l, write_int e (length l) (value_of e l) = l.
Proof.
  intros [] l; cbn [write_int value_of].
  - apply write_lsb_value.
  - rewrite value_msb_rev. rewrite <- (rev_length l), write_lsb_value. apply rev_involutive.
Qed.

Lemma unlike_kind : forall f b, unlike_subheader f b ->
  kind_of f (firstn (N.to_nat (word_size f)) b) = None.
Proof.
  intros f b [L U]. set (sig := firstn (N.to_nat (word_size f)) b) in *.
  assert (LS : length sig = N.to_nat (word_size f)).
  { unfold sig. rewrite firstn_length. unfold lenN in L. lia. }
  unfold kind_of. destruct (find _ _) as [k|] eqn:E; [|reflexivity]. exfalso.
  apply find_some in E. destruct E as [_ E]. unfold is_kind in E.
  assert (H : exists e, value_of e sig = kind_number f k).
  { apply orb_true_iff in E. destruct E as [E|E]; apply N.eqb_eq in E; eauto. }
  destruct H as [e V]. apply (U e). pose proof (write_value e sig) as W. rewrite V, LS in W.
  rewrite <- W. unfold signatures, sig_row_size, sig_column_size, sig_text, sig_names, sig_attributes, sig_format_label,
    SpecFile.signature, put_word. destruct k, f; cbn [kind_number In]; tauto.
Qed.

(** ** The stored rows of a page *)

Definition stored_places (pos : N) (stored : list bytes) : list (N * N) :=
  map (fun s => (se_pos s, se_len s)) (placed pos (map compressed_row stored)).

Lemma stored_data : forall k stored pos, k <> CompNone -> Forall (fun b => 0 < lenN b) stored ->
  filter (is_data_entry k) (placed pos (map compressed_row stored)) = placed pos (map compressed_row stored).
Proof.
  intros k stored. induction stored as [|b stored IH]; intros pos K F; [reflexivity|].
  apply Forall_cons_iff in F. destruct F as [F1 F]. cbn [map]. change (compressed_row b) with (b, 4, 1). cbn [placed filter].
  rewrite (IH _ K F). unfold is_data_entry. cbn [se_len se_comp se_type].
  destruct (N.eqb_spec (lenN b) 0); [lia|]. destruct k; [contradiction|reflexivity|reflexivity].
Qed.

Lemma compressed_small : forall stored, Forall sub_small (map compressed_row stored).
Proof. intros stored. rewrite Forall_map. apply Forall_forall. intros b _. split; reflexivity. Qed.

Lemma compressed_shown : forall stored, Forall (fun b => 0 < lenN b) stored ->
  Forall (fun s => 0 < lenN (sub_bytes s) /\ snd (fst s) <> 1) (map compressed_row stored).
Proof.
  intros stored F. rewrite Forall_map. apply (Forall_impl _ (P := fun b => 0 < lenN b)); [|exact F].
  intros b H. split; [exact H|discriminate].
Qed.

Lemma compressed_bytes : forall stored, subs_bytes (map compressed_row stored) = concat stored.
Proof. intros stored. unfold subs_bytes. rewrite map_map. unfold compressed_row, sub_bytes. cbn [fst]. rewrite map_id. reflexivity. Qed.

(** The same, rows of a page put aside. *)
Record same_but_rows (m m' : mstate) : Prop := {
  sbr_md : m_md m' = m_md m;
  sbr_texts : m_texts m' = m_texts m;
  sbr_names : m_names m' = m_names m;
  sbr_formats : m_formats m' = m_formats m;
  sbr_labels : m_labels m' = m_labels m;
  sbr_offsets : m_offsets m' = m_offsets m;
  sbr_lengths : m_lengths m' = m_lengths m;
  sbr_types : m_types m' = m_types m
}.

Lemma same_refl : forall m, same_but_rows m m.
Proof. intros m. split; reflexivity. Qed.

Lemma same_trans : forall a b c, same_but_rows a b -> same_but_rows b c -> same_but_rows a c.
Proof. intros a b c [] []. split; congruence. Qed.

Lemma stored_meaning : forall ly pg stored pos m,
  at_pos pg pos (concat stored) -> Forall (unlike_subheader (ly_format ly)) stored ->
  Forall (fun b => 0 < lenN b) stored -> md_compression (m_md m) <> CompNone ->
  let l := placed pos (map compressed_row stored) in
  same_but_rows m (subs_meaning ly pg m l) /\ subs_fit ly pg m l
  /\ subs_rows ly pg m l = negb (lenN stored =? 0).
Proof.
  intros ly pg stored. induction stored as [|b stored IH]; intros pos m A U Z C l.
  { split; [apply same_refl|]. split; [exact Logic.I|reflexivity]. }
  apply Forall_cons_iff in U. destruct U as [U1 U]. apply Forall_cons_iff in Z. destruct Z as [Z1 Z].
  cbn [concat] in A. pose proof (at_pos_l _ _ _ _ A) as A1.
  apply at_pos_r with (q := pos + lenN b) in A; [|reflexivity].
  unfold l. cbn [map]. change (compressed_row b) with (b, 4, 1). cbn [placed subs_meaning subs_fit subs_rows].
  set (s := SubEntry pos (lenN b) 4 1).
  assert (K : kind_on ly pg s = None).
  { unfold kind_on, SpecPages.signature. cbn [se_pos s].
    destruct U1 as [U0 U1]. rewrite <- (N.add_0_r pos).
    rewrite (at_pos_sub_field pg pos b 0 (word (ly_format ly)) A1) by exact U0.
    unfold field. cbn [N.to_nat skipn]. apply unlike_kind. split; [exact U0|exact U1]. }
  assert (R : is_row ly pg m s = true).
  { unfold is_row. rewrite K. unfold is_data_entry. cbn [se_len se_comp se_type s].
    destruct (N.eqb_spec (lenN b) 0); [lia|]. destruct (md_compression (m_md m)); [contradiction|reflexivity|reflexivity]. }
  assert (M : meaning ly pg m s = row_meaning s m) by (unfold meaning; rewrite K, R; reflexivity).
  rewrite M, R. destruct (IH (pos + lenN b) (row_meaning s m) A U Z C) as (I1 & I2 & I3).
  split; [|split].
  - eapply same_trans; [|exact I1]. split; reflexivity.
  - split; [|exact I2]. unfold fits. cbv zeta. rewrite K. cbn [se_pos s]. split; [|exact Logic.I].
    apply at_pos_inside in A1. destruct U1 as [U0 _].
    change (word_size (ly_format ly)) with (word (ly_format ly)) in U0. lia.
  - rewrite lenN_cons. cbn [orb]. lia.
Qed.

(** ** A page with stored rows, after the subheaders [d] *)

Definition comp_page (e : endian) (f : format) (plen : N) (d : list sub) (stored : list bytes) : bytes :=
  page_bytes e f plen type_meta 0 (d ++ map compressed_row stored) [].

Section Page.
Variables (ly : layout) (plen : N) (d : list sub) (stored : list bytes).
Let e := ly_endian ly.
Let f := ly_format ly.
Let subs := d ++ map compressed_row stored.
Let pg := comp_page e f plen d stored.
Let first := plen - lenN (subs_bytes subs).
Hypothesis P : plen < limit32.
Hypothesis DS : Forall sub_small d.
Hypothesis DH : Forall (fun s => 0 < lenN (sub_bytes s) /\ snd (fst s) <> 1) d.
Hypothesis DN : forall k pos, filter (is_data_entry k) (placed pos d) = [].
Hypothesis B1 : lenN subs < limit16.
Hypothesis B2 : rows_start f (lenN subs) + lenN (subs_bytes subs) <= plen.
Hypothesis Z : Forall (fun b => 0 < lenN b) stored.

Lemma comp_written : written ly plen 0 0 subs [] pg.
Proof.
  apply page_written; try assumption; try reflexivity.
  - apply Forall_app. split; [exact DS|apply compressed_small].
  - cbn [concat]. rewrite lenN_nil. fold f. lia.
Qed.

Lemma comp_live : live ly pg = placed first d ++ placed (first + lenN (subs_bytes d)) (map compressed_row stored).
Proof.
  destruct comp_written as [wr_len0 wr_type0 wr_blocks0 wr_subs0 wr_entries0 wr_rows0 wr_bytes0].
  unfold live. rewrite wr_type0, wr_entries0, placed_live.
  - cbn. rewrite <- placed_app. reflexivity.
  - apply Forall_app. split; [exact DH|apply compressed_shown; exact Z].
Qed.

Lemma comp_at : at_pos pg first (subs_bytes d)
  /\ at_pos pg (first + lenN (subs_bytes d)) (concat stored).
Proof.
  destruct comp_written as [wr_len0 wr_type0 wr_blocks0 wr_subs0 wr_entries0 wr_rows0 wr_bytes0].
  unfold subs in wr_bytes0 at 2. rewrite subs_bytes_app, compressed_bytes in wr_bytes0.
  apply at_pos_app. exact wr_bytes0.
Qed.

Lemma comp_good : good_page ly pg.
Proof.
  destruct comp_written as [wr_len0 wr_type0 wr_blocks0 wr_subs0 wr_entries0 wr_rows0 wr_bytes0].
  assert (RS : prefix f + 8 + lenN subs * (3 * word f) <= rows_start f (lenN subs)).
  { unfold rows_start. change (word_size f) with (word f). change (page_prefix f) with (prefix f). lia. }
  assert (IN : Forall (fun s => se_pos s + se_len s <= lenN pg) (entries ly pg)).
  { rewrite wr_entries0, wr_len0. apply placed_inside. lia. }
  split; [fold f; lia|]. split.
  - unfold row_places. cbv zeta. rewrite wr_type0. cbn [N.eqb]. rewrite Forall_map. cbn [fst snd].
    rewrite Forall_forall in *. intros s I. apply filter_In in I. apply IN. tauto.
  - intros _. rewrite wr_subs0. fold f. split; [lia|exact IN].
Qed.

Lemma comp_places : ly_compression ly <> CompNone ->
  row_places ly pg = stored_places (first + lenN (subs_bytes d)) stored.
Proof.
  intros C. destruct comp_written as [wr_len0 wr_type0 wr_blocks0 wr_subs0 wr_entries0 wr_rows0 wr_bytes0].
  unfold row_places. cbv zeta. rewrite wr_type0, wr_entries0. unfold subs. rewrite placed_app, filter_app, DN.
  cbn [N.eqb app]. fold subs first. rewrite stored_data by assumption. reflexivity.
Qed.

Lemma comp_fits : forall m,
  (subs_fit ly pg m (placed first d)) ->
  (md_compression (m_md (subs_meaning ly pg m (placed first d))) <> CompNone) ->
  subs_rows ly pg m (placed first d) = false ->
  Forall (unlike_subheader f) stored ->
  page_fits ly pg m /\ same_but_rows (subs_meaning ly pg m (placed first d)) (page_meaning ly pg m)
  /\ page_ends ly pg m = negb (lenN stored =? 0).
Proof.
  intros m S1 S2 S3 U. destruct comp_good as (G1 & G2 & G3).
  destruct comp_written as [wr_len0 wr_type0 wr_blocks0 wr_subs0 wr_entries0 wr_rows0 wr_bytes0].
  destruct comp_at as [A1 A2].
  destruct (stored_meaning ly pg stored _ _ A2 U Z S2) as (T1 & T2 & T3).
  split; [|split].
  - split; [exact G1|]. intros _. destruct (G3 wr_type0) as [X Y]. split; [exact X|]. split; [exact Y|].
    rewrite comp_live. apply subs_fit_app. auto.
  - unfold page_meaning. rewrite comp_live, subs_meaning_app. exact T1.
  - unfold page_ends. rewrite comp_live, subs_rows_app, S3, T3, wr_type0. reflexivity.
Qed.

Lemma comp_page_len : lenN pg = plen.
Proof. exact (wr_len _ _ _ _ _ _ _ comp_written). Qed.

Lemma comp_type : page_type ly pg = 0.
Proof. exact (wr_type _ _ _ _ _ _ _ comp_written). Qed.
End Page.

(** ** The content of the rows *)

Lemma unpacked : forall n k stored row, n < row_limit -> k <> CompNone -> stored_as k n stored row ->
  lenN stored < n ->
  (match k with
   | CompNone => False
   | CompRLE => fst (rle stored (fresh n)) = Ok row
   | CompRDC => fst (rdc stored (fresh n)) = Ok row
   end).
Proof.
  intros n k stored row L K (LR & _ & S) LT.
  assert (RB : row_buffer n (fresh n)) by (split; [reflexivity|]; cbn; rewrite lenN_repeat; lia).
  destruct S as [-> | [_ S]]; [lia|]. destruct k; [contradiction| |].
  - destruct S as (cs & tail & -> & -> & V & X & Y & T).
    apply (rle_decodes n (fresh n) cs tail RB L V X); [|exact T].
    destruct Y as [->|Y]; [left; cbn; lia|right; exact Y].
  - destruct S as (gs & tail & -> & -> & V & W & X & Y & T).
    apply (rdc_decodes n (fresh n) gs tail RB L V W X); [|exact T].
    destruct Y as [->|Y]; [left; cbn; lia|right; exact Y].
Qed.

Lemma stored_rows : forall ly pg k n stored rows pos, n < row_limit -> k <> CompNone ->
  ly_compression ly = k -> ly_row_length ly = n ->
  at_pos pg pos (concat stored) -> Forall2 (stored_as k n) stored rows ->
  map (row_content ly pg) (stored_places pos stored) = map Ok rows.
Proof.
  intros ly pg k n stored rows pos L K C R A F. revert pos A.
  induction F as [|b row stored rows S F IH]; intros pos A; [reflexivity|].
  cbn [concat] in A. pose proof (at_pos_l _ _ _ _ A) as A1.
  apply at_pos_r with (q := pos + lenN b) in A; [|reflexivity].
  unfold stored_places. cbn [map]. change (compressed_row b) with (b, 4, 1). cbn [placed map se_pos se_len]. f_equal; [|exact (IH _ A)].
  unfold row_content. cbv zeta. rewrite C, R. destruct (N.ltb_spec (lenN b) n) as [LT|GE].
  - pose proof (unpacked n k b row L K S LT) as X. rewrite (at_pos_field pg pos b (lenN b) A1 eq_refl).
    destruct k; [contradiction|exact X|exact X].
  - destruct S as (LR & _ & [-> | [LT _]]); [|lia]. f_equal. apply at_pos_field; [exact A1|symmetry; exact LR].
Qed.

(** ** The pages *)

Definition comp_ok (f : format) (plen : N) (l : list bytes) : Prop :=
  lenN l < limit16 /\ rows_start f (lenN l) + lenN (concat l) <= plen.

Lemma no_subs : Forall sub_small [] /\ Forall (fun s => 0 < lenN (sub_bytes s) /\ snd (fst s) <> 1) []
  /\ forall k pos, filter (is_data_entry k) (placed pos []) = [].
Proof. repeat split; constructor. Qed.

Lemma comp_ok_subs : forall f plen l, comp_ok f plen l ->
  lenN ([] ++ map compressed_row l) < limit16
  /\ rows_start f (lenN ([] ++ map compressed_row l)) + lenN (subs_bytes ([] ++ map compressed_row l)) <= plen.
Proof. intros f plen l [H1 H2]. cbn [app]. rewrite lenN_map, compressed_bytes. auto. Qed.

Lemma comp_pages_meaning : forall ly plen l m, plen < limit32 -> Forall (comp_ok (ly_format ly) plen) l ->
  Forall (Forall (fun b => 0 < lenN b)) l -> md_compression (m_md m) <> CompNone ->
  Forall (unlike_subheader (ly_format ly)) (first_filled l) ->
  let pgs := map (comp_page (ly_endian ly) (ly_format ly) plen []) l in
  pages_fit ly m pgs /\ same_but_rows m (pages_meaning ly m pgs).
Proof.
  intros ly plen l. induction l as [|rows l IH]; intros m P F Z C U; [split; [exact Logic.I|apply same_refl]|].
  apply Forall_cons_iff in F. destruct F as [F1 F]. apply Forall_cons_iff in Z. destruct Z as [Z1 Z].
  destruct (comp_ok_subs _ _ _ F1) as [X1 X2]. destruct no_subs as (N1 & N2 & N3).
  assert (UR : Forall (unlike_subheader (ly_format ly)) rows).
  { destruct rows; [constructor|exact U]. }
  destruct (comp_fits ly plen [] rows P N1 N2 N3 X1 X2 Z1 m Logic.I C eq_refl UR) as (Y1 & Y2 & Y3).
  cbn [placed subs_meaning] in Y2. cbn [map]. cbn [pages_fit pages_meaning]. rewrite Y3.
  destruct rows as [|b rows].
  - cbn [lenN length N.of_nat N.eqb negb]. destruct (IH (page_meaning ly (comp_page (ly_endian ly) (ly_format ly) plen [] []) m) P F Z) as [I1 I2].
    + rewrite (sbr_md _ _ Y2). exact C.
    + exact U.
    + split; [split; [exact Y1|intros _; exact I1]|]. eapply same_trans; [exact Y2|exact I2].
  - rewrite lenN_cons. destruct (N.eqb_spec (1 + lenN rows) 0); [lia|]. cbn [negb].
    split; [split; [exact Y1|discriminate]|exact Y2].
Qed.

Lemma app_unique_data : forall A (q : A -> bool) d c a s b, filter q d = [] -> d ++ c = a ++ s :: b -> q s = true ->
  exists a', a = d ++ a'.
Proof.
  intros A q d. induction d as [|x d IH]; intros c a s b F E Q; [exists a; reflexivity|].
  destruct a as [|y a].
  - cbn in E. injection E as -> _. cbn [filter] in F. rewrite Q in F. discriminate.
  - cbn in E. injection E as -> E. cbn [filter] in F. destruct (q y); [discriminate|].
    destruct (IH c a s b F E Q) as [a' ->]. exists a'. reflexivity.
Qed.

Lemma first_filled_skip : forall l1 l2, Forall (fun x => x = []) l1 -> first_filled (l1 ++ l2) = first_filled l2.
Proof.
  intros l1 l2 F. induction F as [|x l1 E F IH]; [reflexivity|]. subst x. exact IH.
Qed.

Lemma places_nil : forall pos stored, stored_places pos stored = [] -> stored = [].
Proof. intros pos [|b l] H; [reflexivity|discriminate]. Qed.

Lemma placed_in : forall stored pos pg s, at_pos pg pos (concat stored) -> In s (placed pos (map compressed_row stored)) ->
  exists b, In b stored /\ at_pos pg (se_pos s) b /\ se_len s = lenN b.
Proof.
  induction stored as [|b stored IH]; intros pos pg s A I; [contradiction|].
  cbn [map] in I. change (compressed_row b) with (b, 4, 1) in I. cbn [placed] in I. cbn [concat] in A.
  destruct I as [<-|I].
  - exists b. split; [left; reflexivity|]. split; [exact (at_pos_l _ _ _ _ A)|reflexivity].
  - destruct (IH (pos + lenN b) pg s) as (b' & J & K); [exact (at_pos_r _ _ _ _ _ A eq_refl)|exact I|].
    exists b'. split; [right; exact J|exact K].
Qed.

Lemma Forall2_app_split : forall A B (R : A -> B -> Prop) a b l, Forall2 R (a ++ b) l ->
  exists l1 l2, l = l1 ++ l2 /\ Forall2 R a l1 /\ Forall2 R b l2.
Proof. intros A B R a b l H. apply Forall2_app_inv_l in H. destruct H as (l1 & l2 & H1 & H2 & ->). eauto. Qed.

Lemma Forall2_left : forall A B (R : A -> B -> Prop) (Q : A -> Prop) l l', (forall a b, R a b -> Q a) ->
  Forall2 R l l' -> Forall Q l.
Proof. intros A B R Q l l' H F. induction F; constructor; eauto. Qed.

Lemma round_trip_compressed : forall c flt e f sh hlen plen name k fields rl first pages rows,
  good_sizes f sh hlen plen name -> good_compressed e f plen k fields rl first pages rows ->
  room c hlen plen (lenN fields) (1 + lenN pages) -> rl <= max_alloc c ->
  exists r cols,
    open_reader c file_source flt (file_open
      (compressed_file e f sh hlen plen name (comp_text k) fields rl (lenN rows) first pages))
    = Ok (r, [EvProps (rs_h r) (rs_md r)])
    /\ h_format (rs_h r) = f /\ h_endianness (rs_h r) = e /\ h_dataset_name (rs_h r) = name
    /\ md_compression (rs_md r) = k
    /\ md_row_length (rs_md r) = rl /\ md_row_count (rs_md r) = lenN rows
    /\ md_column_count (rs_md r) = lenN fields
    /\ md_columns (rs_md r) = (match flt with Some p => filter p cols | None => cols end)
    /\ Forall2 (column_for e) fields cols
    /\ forall ops,
         let cu := (0, map Ok rows) in
         seen rl (fst (trace c file_source ops (Some r))) = fst (cur_trace ops cu)
         /\ current_row_index (snd (trace c file_source ops (Some r))) = fst (snd (cur_trace ops cu)).
Proof.
  intros c flt e f sh hlen plen name k fields rl first pages rows GS GC (R1 & R2 & R3 & R4 & R5) RA.
  destruct GC as (K & GF & NCN & B1 & B2 & B3 & B4 & B5 & SR & US).
  set (desc := description e f (comp_text k) fields rl (lenN rows) 0) in *.
  set (pgs := comp_page e f plen desc first :: map (comp_page e f plen []) pages).
  set (content := compressed_file e f sh hlen plen name (comp_text k) fields rl (lenN rows) first pages).
  assert (CE : content = header_bytes e f sh hlen plen (1 + lenN pages) name ++ concat pgs) by reflexivity.
  assert (P : plen < limit32) by (destruct GS; tauto).
  destruct (header_written c e f sh hlen plen (1 + lenN pages) name (concat pgs) GS R2)
    as (h & s & b & OH & HF & HE & HH & HP & HN). rewrite <- CE in OH.
  assert (CT : comp_text k = comp_name k) by (destruct k; reflexivity).
  assert (DS : Forall sub_small desc) by apply description_small.
  assert (DH : Forall (fun s => 0 < lenN (sub_bytes s) /\ snd (fst s) <> 1) desc) by apply description_shown.
  assert (DN : forall k pos, filter (is_data_entry k) (placed pos desc) = [])
    by (intros; apply description_not_data).
  destruct no_subs as (N1 & N2 & N3).
  assert (ZA : Forall (fun b => 0 < lenN b) (first ++ concat pages)).
  { eapply Forall2_left; [|exact SR]. intros x y H. unfold stored_as in H. tauto. }
  apply Forall_app in ZA. destruct ZA as [Z1 Z2]. rewrite Forall_concat in Z2.
  assert (U1 : Forall (unlike_subheader f) first) by (destruct first; [constructor|exact US]).
  set (fp := plen - lenN (subs_bytes (desc ++ map compressed_row first))).
  pose proof (word_limit_32 f) as WL.
  assert (LFD : lenN fields < word_limit f).
  { rewrite lenN_app in B3. unfold desc in B3. rewrite description_length in B3. unfold limit16, limit32 in *. lia. }
  (* the first page, for any layout *)
  assert (DW : forall ly, ly_endian ly = e -> ly_format ly = f ->
    let pg := comp_page e f plen desc first in
    at_pos pg fp (subs_bytes desc)
    /\ subs_meaning ly pg empty_mstate (placed fp desc)
       = full_state (text_block e (comp_name k) (texts_of fields)) k fields rl (lenN rows) 0
    /\ subs_fit ly pg empty_mstate (placed fp desc)
    /\ subs_rows ly pg empty_mstate (placed fp desc) = false
    /\ exists s, In s (placed fp desc) /\ is_text ly pg s).
  { intros ly LE LF pg. clear HE HF. subst e f.
    destruct (comp_at ly plen desc first P DS DN B3 B4) as [A1 _]. fold fp in A1. split; [exact A1|].
    unfold desc in A1 |- *. rewrite CT in A1 |- *.
    pose proof (told_block (ly_endian ly) k (texts_of fields) (proj1 NCN) (proj2 NCN)) as TB.
    destruct (description_written ly pg fp k fields rl (lenN rows) 0 A1 GF B1 B2) as (W1 & W2);
      [destruct (ly_format ly); reflexivity|exact LFD|].
    cbv zeta in W1. rewrite TB in W1. split; [exact W1|exact W2]. }
  set (ly := layout_of h empty_metadata).
  assert (LE : ly_endian ly = e) by exact HE. assert (LF : ly_format ly = f) by exact HF.
  destruct (DW ly LE LF) as (A1 & D1 & D2 & D3 & _).
  set (st := full_state (text_block e (comp_name k) (texts_of fields)) k fields rl (lenN rows) 0) in *.
  assert (CF : page_fits ly (comp_page e f plen desc first) empty_mstate
     /\ same_but_rows st (page_meaning ly (comp_page e f plen desc first) empty_mstate)
     /\ page_ends ly (comp_page e f plen desc first) empty_mstate = negb (lenN first =? 0)).
  { clear DW. clearbody ly. clear HE HF. subst e f. rewrite <- D1.
    apply (comp_fits ly plen desc first P DS DH DN B3 B4 Z1 empty_mstate D2); [|exact D3|exact U1].
    fold fp. rewrite D1. exact K. }
  destruct CF as (F1 & F2 & F3).
  assert (B5' : Forall (comp_ok f plen) pages) by exact B5.
  assert (PL : Forall (fun pg => lenN pg = plen) pgs).
  { clear DW. clearbody ly. clear HE HF. subst e f. constructor; [exact (comp_page_len ly plen desc first P DS DN B3 B4)|].
    rewrite Forall_map, Forall_forall. rewrite Forall_forall in B5'. intros l I.
    destruct (comp_ok_subs _ _ _ (B5' l I)) as [X1 X2].
    exact (comp_page_len ly plen [] l P N1 N3 X1 X2). }
  assert (PP : prefix f + 6 <= plen).
  { destruct F1 as [F1 _]. rewrite LF in F1. rewrite <- (Forall_inv PL). exact F1. }
  assert (FP : file_pages content h = pgs).
  { rewrite CE. apply file_pages_written; try assumption. lia. }
  assert (PM : pages_fit ly empty_mstate pgs /\ same_but_rows st (pages_meaning ly empty_mstate pgs)).
  { unfold pgs. cbn [pages_fit pages_meaning]. rewrite F3.
    destruct first as [|b0 first].
    - cbn [lenN length N.of_nat N.eqb negb].
      destruct (comp_pages_meaning ly plen pages (page_meaning ly (comp_page e f plen desc []) empty_mstate) P) as [X1 X2].
      + rewrite LF. exact B5'.
      + exact Z2.
      + rewrite (sbr_md _ _ F2). exact K.
      + rewrite LF. exact US.
      + rewrite LE, LF in X1, X2. split; [split; [exact F1|intros _; exact X1]|].
        eapply same_trans; [exact F2|exact X2].
    - rewrite lenN_cons. destruct (N.eqb_spec (1 + lenN first) 0); [lia|]. cbn [negb].
      split; [split; [exact F1|discriminate]|exact F2]. }
  destruct PM as [PF PM].
  assert (D : described c content h).
  { unfold described. cbv zeta. fold ly. rewrite FP, HP, HF, (sbr_md _ _ PM). split; [exact PP|]. split; [exact R3|].
    split; [exact PF|]. split.
    - unfold pgs. cbn [length]. rewrite map_length. unfold lenN in R5. lia.
    - split; [exact R4|right; exact RA]. }
  destruct (open_described c flt content h s b OH D) as [_ OK]. cbv zeta in OK. fold ly in OK. rewrite FP in OK.
  destruct PM as [PM1 PM2 PM3 PM4 PM5 PM6 PM7 PM8].
  destruct OK as (r & cols & OR & RH & RM & NC & CC).
  { pose proof (full_enough (text_block e (comp_name k) (texts_of fields)) k fields rl (lenN rows) 0) as FE.
    fold st in FE. unfold enough_entries in *. rewrite PM1, PM3, PM4, PM5, PM6, PM7, PM8. exact FE. }
  rewrite PM1 in RM, NC.
  exists r, cols. fold content. split; [exact OR|]. rewrite RH, RM.
  split; [exact HF|]. split; [exact HE|]. split; [exact HN|].
  split; [reflexivity|]. split; [reflexivity|]. split; [reflexivity|]. split; [reflexivity|].
  split; [reflexivity|]. split.
  { rewrite HE in CC. eapply (full_columns e (text_block e (comp_name k) (texts_of fields)) k fields rl (lenN rows) 0 cols);
      [exact PM3|exact PM5|exact PM4|exact PM6|exact PM7|exact PM8|exact NC|exact CC]. }
  assert (LY : layout_of (rs_h r) (rs_md r) = Layout e f plen rl (lenN rows) 0 k).
  { rewrite RH, RM. unfold layout_of. rewrite HE, HF, HP. reflexivity. }
  set (ly2 := Layout e f plen rl (lenN rows) 0 k) in *.
  assert (G1 : good_page ly2 (comp_page e f plen desc first)) by exact (comp_good ly2 plen desc first P DS DN B3 B4).
  assert (G2 : Forall (fun l => good_page ly2 (comp_page e f plen [] l)) pages).
  { rewrite Forall_forall. rewrite Forall_forall in B5'. intros l I. destruct (comp_ok_subs _ _ _ (B5' l I)) as [X1 X2].
    exact (comp_good ly2 plen [] l P N1 N3 X1 X2). }
  assert (Q1 : row_places ly2 (comp_page e f plen desc first)
               = stored_places (fp + lenN (subs_bytes desc)) first)
    by exact (comp_places ly2 plen desc first P DS DN B3 B4 Z1 K).
  assert (Q2 : forall l, In l pages -> row_places ly2 (comp_page e f plen [] l)
               = stored_places (plen - lenN (concat l) + 0) l).
  { intros l I. rewrite Forall_forall in B5', Z2. destruct (comp_ok_subs _ _ _ (B5' l I)) as [X1 X2].
    pose proof (comp_places ly2 plen [] l P N1 N3 X1 X2 (Z2 l I) K) as Q. cbn [ly_endian ly_format ly2 app] in Q.
    rewrite compressed_bytes in Q. exact Q. }
  assert (L2 : forall l, In l pages -> live ly2 (comp_page e f plen [] l)
               = placed (plen - lenN (concat l) + 0) (map compressed_row l)
               /\ at_pos (comp_page e f plen [] l) (plen - lenN (concat l) + 0) (concat l)
               /\ page_type ly2 (comp_page e f plen [] l) = 0).
  { intros l I. rewrite Forall_forall in B5', Z2. destruct (comp_ok_subs _ _ _ (B5' l I)) as [X1 X2].
    pose proof (comp_live ly2 plen [] l P N1 N2 N3 X1 X2 (Z2 l I)) as Q. cbn [ly_endian ly_format ly2 app placed] in Q.
    rewrite compressed_bytes in Q.
    pose proof (comp_at ly2 plen [] l P N1 N3 X1 X2) as [_ Q']. cbn [ly_endian ly_format ly2 app] in Q'.
    rewrite compressed_bytes in Q'.
    pose proof (comp_type ly2 plen [] l P N1 N3 X1 X2) as Q3. split; [exact Q|]. split; [exact Q'|exact Q3]. }
  assert (L1 : live ly2 (comp_page e f plen desc first)
               = placed fp desc ++ placed (fp + lenN (subs_bytes desc)) (map compressed_row first))
    by exact (comp_live ly2 plen desc first P DS DH DN B3 B4 Z1).
  pose proof (comp_at ly2 plen desc first P DS DN B3 B4) as [_ L1'].
  pose proof (comp_type ly2 plen desc first P DS DN B3 B4) as L1''.
  cbn [ly_endian ly_format ly2] in L1', L1''. fold fp in L1'.
  assert (GP : Forall (good_page ly2) pgs).
  { constructor; [exact G1|]. rewrite Forall_map. exact G2. }
  assert (NE : forall pre pg post, pgs = pre ++ pg :: post ->
         Exists (fun q => begins ly2 q = true) pre -> not_empty ly2 pg).
  { intros pre pg post E _ H. exfalso.
    assert (T : page_type ly2 pg = 0).
    { assert (I : In pg pgs) by (rewrite E; apply in_elt). destruct I as [<-|I]; [exact L1''|].
      apply in_map_iff in I. destruct I as (l & <- & I). apply L2. exact I. }
    rewrite T in H. destruct H; discriminate. }
  assert (KN : forall pg pos stored s, at_pos pg pos (concat stored) -> Forall (unlike_subheader f) stored ->
    In s (placed pos (map compressed_row stored)) ->
    se_pos s + word f <= lenN pg /\ kind_on ly2 pg s = None).
  { intros pg pos stored s' A U I. destruct (placed_in stored pos pg s' A I) as (b' & J & AB & _).
    rewrite Forall_forall in U. specialize (U b' J). pose proof U as [U0 _].
    split; [apply at_pos_inside in AB; change (word f) with (word_size f); lia|].
    unfold kind_on, SpecPages.signature. cbn [ly_format ly2].
    rewrite <- (N.add_0_r (se_pos s')).
    rewrite (at_pos_sub_field pg (se_pos s') b' 0 (word f) AB) by exact U0.
    unfold field. cbn [N.to_nat skipn]. apply unlike_kind. exact U. }
  assert (TX : exists s, In s (placed fp desc) /\ is_text ly2 (comp_page e f plen desc first) s)
    by exact (proj2 (proj2 (proj2 (proj2 (DW ly2 eq_refl eq_refl))))).
  destruct TX as (ts & TI & TT).
  assert (AC : all_clear ly2 pgs).
  { intros pre pg post E NR a s' b' LV DE.
    destruct pre as [|p0 pre].
    - cbn [app] in E. injection E as E _. subst pg. rewrite L1 in LV.
      destruct (app_unique_data _ (is_data_entry k) _ _ a s' b' (DN k fp) LV DE) as [a' ->].
      split; [exact L1''|]. rewrite <- app_assoc in LV. apply app_inv_head in LV.
      destruct (KN _ _ _ s' L1' U1) as [Y1 Y2].
      { rewrite LV. apply in_elt. }
      split; [exact Y1|]. split; [exact Y2|]. right. apply Exists_exists. exists ts.
      split; [apply in_or_app; left; exact TI|exact TT].
    - cbn [app] in E. injection E as E0 E. subst p0. apply map_eq_app in E.
      destruct E as (l1 & l2 & E & E1 & E2). destruct l2 as [|l l2]; [discriminate|].
      cbn [map] in E2. injection E2 as E2 _. subst pg.
      assert (I : In l pages) by (rewrite E; apply in_elt).
      destruct (L2 l I) as (Y1 & Y2 & Y3). rewrite Y1 in LV. split; [exact Y3|].
      apply Forall_cons_iff in NR. destruct NR as [NR0 NR].
      assert (FN : first = []) by (apply (places_nil (fp + lenN (subs_bytes desc))); rewrite <- Q1; exact NR0).
      assert (LN : Forall (fun x => x = []) l1).
      { apply Forall_forall. intros x X. rewrite <- E1, Forall_map in NR. rewrite Forall_forall in NR.
        assert (XI : In x pages) by (rewrite E; apply in_or_app; left; exact X).
        specialize (NR x X). rewrite (Q2 x XI) in NR. exact (places_nil _ _ NR). }
      assert (UL : Forall (unlike_subheader f) l).
      { destruct l as [|b0 l]; [constructor|]. rewrite FN in US. cbn [first_filled] in US.
        rewrite E, (first_filled_skip l1) in US by exact LN. exact US. }
      destruct (KN _ _ _ s' Y2 UL) as [X1 X2].
      { rewrite LV. apply in_elt. }
      split; [exact X1|]. split; [exact X2|]. left. apply Exists_cons_hd. rewrite L1.
      apply Exists_exists. exists ts. split; [apply in_or_app; left; exact TI|exact TT]. }
  destruct (all_clear_start ly2 pgs AC) as (CS & RO & GD). specialize (GD GP NE).
  assert (RD : readable c content r).
  { unfold readable. cbv zeta. rewrite LY, RH, FP. cbn [ly_format ly_page_length ly2].
    split; [exact R1|]. split; [exact PP|]. split; [exact GD|].
    split; [exact CS|]. unfold pgs. cbn [length]. rewrite map_length. unfold lenN in R5. lia. }
  assert (RL : rl < row_limit) by lia.
  assert (FR : file_rows content r = map Ok rows).
  { unfold file_rows. rewrite LY, RH, FP, RO. unfold pgs. cbn [flat_map].
    destruct (Forall2_app_split _ _ _ _ _ _ SR) as (r1 & r2 & ER & S1 & S2).
    unfold page_rows at 1. rewrite Q1, (stored_rows ly2 _ k rl first r1 _ RL K eq_refl eq_refl L1' S1).
    assert (FM : forall l r2, (forall x, In x l -> In x pages) -> Forall2 (stored_as k rl) (concat l) r2 ->
              flat_map (page_rows ly2) (map (comp_page e f plen []) l) = map Ok r2).
    { clear - Q2 L2 RL K. induction l as [|x l IH]; intros r2 IN S; cbn [map flat_map concat] in *.
      - inversion S. reflexivity.
      - destruct (Forall2_app_split _ _ _ _ _ _ S) as (r3 & r4 & -> & S3 & S4).
        assert (I : In x pages) by (apply IN; left; reflexivity).
        unfold page_rows at 1. rewrite (Q2 x I). destruct (L2 x I) as (_ & A & _).
        rewrite (stored_rows ly2 _ k rl x r3 _ RL K eq_refl eq_refl A S3), map_app. f_equal.
        apply IH; [|exact S4]. intros y Y. apply IN. right. exact Y. }
    rewrite (FM pages r2 (fun x I => I) S2), <- map_app, <- ER. rewrite RM. cbn [with_columns md_row_count st full_state m_md].
    apply firstn_all2. rewrite map_length. unfold lenN. lia. }
  intros ops cu.
  destruct (readable_cursor c flt content r ops (ex_intro _ _ OR) RD) as [T1 T2]. cbv zeta in T1, T2.
  rewrite FR in T1, T2. rewrite RM in T1. split; [exact T1|exact T2].
Qed.
