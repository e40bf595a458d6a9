(** The arguments of read_sas. *)
From Verif Require Import Base Types Buffer Page Header Column Metadata Decomp Data Reader Drive Sinks
  Callbacks Utf8 PyObjects Python Cli PyArgs Lemmas SpecDecomp SpecReader SpecDrive SpecSinks SpecCallbacks
  SpecFile SpecRoundtrip SpecCells SpecTable SpecUtf8 SpecPyObjects SpecPython SpecPyArgs ProofUtf8 ProofPyFile.
From Coq Require Import ZifyBool ZifyNat ZifyN.
Local Open Scope N_scope.

(** ** The encoder *)

Lemma lor_add : forall k n b, b < 2 ^ n -> N.lor (k * 2 ^ n) b = k * 2 ^ n + b.
Proof.
  intros k n b H.
  assert (D : N.land (k * 2 ^ n) b = 0).
  { apply N.bits_inj. intros m. rewrite N.land_spec, N.bits_0.
    destruct (N.lt_ge_cases m n) as [L|G].
    - rewrite N.mul_pow2_bits_low by exact L. reflexivity.
    - replace (N.testbit b m) with false; [apply Bool.andb_false_r|]. symmetry.
      destruct (N.eq_dec b 0) as [->|Z]; [apply N.bits_0|].
      apply N.bits_above_log2. apply N.lt_le_trans with n; [|exact G].
      apply N.log2_lt_pow2; [lia|exact H]. }
  rewrite N.add_nocarry_lxor by exact D. symmetry. apply N.lxor_lor. exact D.
Qed.

Lemma tail_byte : forall u k, N.lor 0x80 (N.land (N.shiftr u k) 0x3F) = 0x80 + u / 2 ^ k mod 64.
Proof.
  intros u k. change 0x3F with (N.ones 6). rewrite N.land_ones, N.shiftr_div_pow2.
  change (2 ^ 6) with 64. change 0x80 with (2 * 2 ^ 6) at 1. rewrite lor_add; [reflexivity|].
  change (2 ^ 6) with 64. apply N.mod_lt. discriminate.
Qed.

Lemma encode_text : forall t, Forall character t -> py_encode t = Ok (flat_map utf8_of t).
Proof.
  induction t as [|u t IH]; intros F; [reflexivity|]. inversion F as [|? ? C F']; subst.
  cbn [py_encode flat_map]. cbv zeta. rewrite (IH F'). unfold character in C. rewrite !tail_byte.
  change (2 ^ 0) with 1. change (2 ^ 6) with 64. change (2 ^ 12) with 4096. rewrite N.div_1_r, !N.shiftr_div_pow2.
  change (2 ^ 6) with 64. change (2 ^ 12) with 4096. change (2 ^ 18) with 262144.
  unfold utf8_of, byte_of.
  destruct (N.ltb_spec u 0x80) as [A|A]; [reflexivity|].
  destruct (N.ltb_spec u 0x800) as [B|B].
  { change 0xC0 with (6 * 2 ^ 5) at 1. rewrite lor_add; [reflexivity|].
    apply N.div_lt_upper_bound; [discriminate|]. change (64 * 2 ^ 5) with 0x800. exact B. }
  destruct (N.leb_spec 0xD800 u) as [D|D]; destruct (N.ltb_spec u 0xE000) as [E|E]; cbn [andb]; try lia.
  - destruct (N.ltb_spec u 0x10000) as [G|G].
    + change 0xE0 with (14 * 2 ^ 4) at 1. rewrite lor_add; [reflexivity|].
      apply N.div_lt_upper_bound; [discriminate|]. change (4096 * 2 ^ 4) with 0x10000. exact G.
    + destruct (N.ltb_spec u 0x110000) as [K|K]; [|lia].
      change 0xF0 with (30 * 2 ^ 3) at 1. rewrite lor_add; [reflexivity|].
      apply N.div_lt_upper_bound; [discriminate|]. change (262144 * 2 ^ 3) with 0x200000. lia.
  - destruct (N.ltb_spec u 0x10000) as [G|G]; [|lia].
    change 0xE0 with (14 * 2 ^ 4) at 1. rewrite lor_add; [reflexivity|].
    apply N.div_lt_upper_bound; [discriminate|]. change (4096 * 2 ^ 4) with 0x10000. exact G.
Qed.

Lemma encode_other : forall t, ~ Forall character t -> py_encode t = Exn E_encode_error.
Proof.
  induction t as [|u t IH]; intros F; [exfalso; apply F; constructor|]. cbn [py_encode]. cbv zeta.
  assert (K : character u \/ ~ character u) by (unfold character; lia).
  destruct K as [K|K].
  - assert (F' : ~ Forall character t) by (intros G; apply F; constructor; assumption).
    rewrite (IH F'). unfold character in K.
    destruct (N.ltb_spec u 0x80); [reflexivity|]. destruct (N.ltb_spec u 0x800); [reflexivity|].
    destruct (N.leb_spec 0xD800 u); destruct (N.ltb_spec u 0xE000); cbn [andb]; try lia;
      destruct (N.ltb_spec u 0x10000); try reflexivity;
      destruct (N.ltb_spec u 0x110000); try lia; reflexivity.
  - unfold character in K.
    destruct (N.ltb_spec u 0x80); [lia|]. destruct (N.ltb_spec u 0x800); [lia|].
    destruct (N.leb_spec 0xD800 u); destruct (N.ltb_spec u 0xE000); cbn [andb bind]; try lia; try reflexivity.
    destruct (N.ltb_spec u 0x10000); [lia|]. destruct (N.ltb_spec u 0x110000); [lia|reflexivity].
Qed.

(** Different texts have different bytes. *)
Lemma byte_of_inj : forall m n, m < 256 -> n < 256 -> byte_of m = byte_of n -> m = n.
Proof.
  intros m n M N E. rewrite <- (byte_value m), <- (byte_value n) by assumption. rewrite E. reflexivity.
Qed.

Lemma cons_same : forall A (a b : A) l m, a :: l = b :: m -> a = b /\ l = m.
Proof. intros A a b l m H. injection H. auto. Qed.

Lemma digits3 : forall u, u / 4096 * 4096 + u / 64 mod 64 * 64 + u mod 64 = u.
Proof.
  intros u. pose proof (digits u) as (A & _). pose proof (digits (u / 64)) as (B & _).
  replace (u / 4096) with (u / 64 / 64) by (rewrite N.div_div by lia; reflexivity). lia.
Qed.

Lemma digits4 : forall u, u / 262144 * 262144 + u / 4096 mod 64 * 4096 + u / 64 mod 64 * 64 + u mod 64 = u.
Proof.
  intros u. pose proof (digits3 u). pose proof (digits (u / 4096)) as (B & _).
  replace (u / 262144) with (u / 4096 / 64) by (rewrite N.div_div by lia; reflexivity). lia.
Qed.

(** The values of the bytes. *)
Lemma tail_small : forall x, 0x80 + x mod 64 < 256.
Proof. intros x. pose proof (N.mod_lt x 64 ltac:(lia)). lia. Qed.
Lemma lead2 : forall u, u < 0x800 -> 0xC0 + u / 64 < 0xE0.
Proof. intros u H. pose proof (N.div_lt_upper_bound u 64 32 ltac:(lia) ltac:(lia)). lia. Qed.
Lemma lead3 : forall u, u < 0x10000 -> 0xE0 + u / 4096 < 0xF0.
Proof. intros u H. pose proof (N.div_lt_upper_bound u 4096 16 ltac:(lia) ltac:(lia)). lia. Qed.
Lemma lead4 : forall u, u < 0x110000 -> 0xF0 + u / 262144 < 256.
Proof. intros u H. pose proof (N.div_lt_upper_bound u 262144 5 ltac:(lia) ltac:(lia)). lia. Qed.

Lemma same_tail : forall x y a b, byte_of (0x80 + x mod 64) :: a = byte_of (0x80 + y mod 64) :: b ->
  x mod 64 = y mod 64 /\ a = b.
Proof.
  intros x y a b H. apply cons_same in H. destruct H as [H K]. split; [|exact K].
  apply byte_of_inj in H; [|apply tail_small|apply tail_small]. lia.
Qed.

Inductive utf8_form (u : N) : bytes -> Prop :=
| form1 : u < 0x80 -> utf8_form u [byte_of u]
| form2 : 0x80 <= u -> u < 0x800 -> utf8_form u [byte_of (0xC0 + u / 64); byte_of (0x80 + u mod 64)]
| form3 : 0x800 <= u -> u < 0x10000 -> utf8_form u [byte_of (0xE0 + u / 4096); byte_of (0x80 + u / 64 mod 64); byte_of (0x80 + u mod 64)]
| form4 : 0x10000 <= u -> u < 0x110000 -> utf8_form u [byte_of (0xF0 + u / 262144); byte_of (0x80 + u / 4096 mod 64); byte_of (0x80 + u / 64 mod 64);
        byte_of (0x80 + u mod 64)].

Lemma utf8_forms : forall u, character u -> utf8_form u (utf8_of u).
Proof.
  intros u C. unfold character in C. unfold utf8_of.
  destruct (N.ltb_spec u 0x80); [apply form1; assumption|].
  destruct (N.ltb_spec u 0x800); [apply form2; assumption|].
  destruct (N.ltb_spec u 0x10000); [apply form3; assumption|]. apply form4; [assumption|lia].
Qed.

Lemma first_char : forall u v a b, character u -> character v ->
  utf8_of u ++ a = utf8_of v ++ b -> u = v /\ a = b.
Proof.
  intros u v a b U V E.
  assert (D : forall p q, p < 256 -> q < 256 -> p <> q -> byte_of p <> byte_of q)
    by (intros p q P Q Z K; apply Z; apply byte_of_inj; assumption).
  destruct (utf8_forms u U) as [U1|U0 U1|U0 U1|U0 U1]; destruct (utf8_forms v V) as [V1|V0 V1|V0 V1|V0 V1];
    clear U V; cbn [app] in E; apply cons_same in E; destruct E as [E F];
    try (pose proof (lead2 u U1)); try (pose proof (lead2 v V1));
    try (pose proof (lead3 u U1)); try (pose proof (lead3 v V1));
    try (pose proof (lead4 u U1)); try (pose proof (lead4 v V1));
    try (exfalso; revert E; apply D; lia).
  - apply byte_of_inj in E; [|lia|lia]. auto.
  - apply byte_of_inj in E; [|lia|lia]. apply same_tail in F. destruct F as [F ->].
    pose proof (digits u) as (A & _). pose proof (digits v) as (B & _). split; [lia|reflexivity].
  - apply byte_of_inj in E; [|lia|lia]. apply same_tail in F. destruct F as [F G].
    apply same_tail in G. destruct G as [G ->].
    pose proof (digits3 u) as A. pose proof (digits3 v) as B. split; [lia|reflexivity].
  - apply byte_of_inj in E; [|lia|lia]. apply same_tail in F. destruct F as [F G].
    apply same_tail in G. destruct G as [G G']. apply same_tail in G'. destruct G' as [G' ->].
    pose proof (digits4 u) as A. pose proof (digits4 v) as B. split; [lia|reflexivity].
Qed.

Lemma utf8_nonempty : forall u, character u -> utf8_of u <> [].
Proof. intros u C. destruct (utf8_forms u C); discriminate. Qed.

Lemma text_bytes_inj : forall s t n, text_bytes s n -> text_bytes t n -> s = t.
Proof.
  assert (G : forall s t, Forall character s -> Forall character t -> flat_map utf8_of s = flat_map utf8_of t -> s = t).
  { induction s as [|u s IH]; intros [|v t] F G E; [reflexivity| | |];
      try (inversion F; subst); try (inversion G; subst); cbn [flat_map] in E.
    - symmetry in E. apply app_eq_nil in E. destruct E as [E _]. destruct (utf8_nonempty v H1 E).
    - apply app_eq_nil in E. destruct E as [E _]. destruct (utf8_nonempty u H1 E).
    - apply first_char in E; [|assumption|assumption]. destruct E as [-> E]. f_equal. apply IH; assumption. }
  intros s t n [F ->] [F' E]. exact (G s t F F' E).
Qed.

(** ** The arguments *)

Lemma extract_name : forall i n, item_name i n -> extract_string i = Ok n.
Proof. intros i n [t m [F ->]|m]; cbn [extract_string]; [apply encode_text; exact F|reflexivity]. Qed.

Lemma extract_fault : forall i, (forall n, ~ item_name i n) -> exists e, extract_string i = Exn e.
Proof.
  intros [t|b|] H; cbn [extract_string]; [|exfalso; apply (H b); constructor|eauto].
  exists E_encode_error. apply encode_other. intros F.
  apply (H (flat_map utf8_of t)). apply name_text. split; [exact F|reflexivity].
Qed.

Lemma item_name_dec : forall i, (exists n, item_name i n) \/ forall n, ~ item_name i n.
Proof.
  intros [t|b|]; [|left; exists b; constructor|right; intros n H; inversion H].
  assert (D : Forall character t \/ ~ Forall character t).
  { induction t as [|u t IH]; [left; constructor|].
    assert (K : character u \/ ~ character u) by (unfold character; lia).
    destruct K as [K|K]; [|right; intros F; inversion F; contradiction].
    destruct IH as [IH|IH]; [left; constructor; assumption|right; intros F; inversion F; contradiction]. }
  destruct D as [D|D].
  - left. exists (flat_map utf8_of t). apply name_text. split; [exact D|reflexivity].
  - right. intros n H. inversion H as [? ? [F _]|]; subst. contradiction.
Qed.

Lemma insert_names : forall fault items names, Forall2 item_name items names ->
  forall set, insert_items fault items set = Ok (set ++ names).
Proof.
  intros fault items names F. induction F as [|i n items names I F IH]; intros set; cbn [insert_items].
  - rewrite app_nil_r. reflexivity.
  - rewrite (extract_name i n I), IH, <- app_assoc. reflexivity.
Qed.

Lemma insert_fault : forall fault items, bad_element items ->
  forall set, insert_items fault items set = Exn fault.
Proof.
  intros fault items. induction items as [|i items IH]; intros (j & J & B) set; [destruct J|].
  cbn [insert_items]. destruct (item_name_dec i) as [[n I]|I].
  - rewrite (extract_name i n I). apply IH. destruct J as [->|J]; [destruct (B n I)|]. exists j. auto.
  - destruct (extract_fault i I) as [e ->]. reflexivity.
Qed.

Lemma set_names : forall e1 e2 arg names, arg_names arg names -> list_to_set e1 e2 arg = Ok names.
Proof.
  intros e1 e2 arg names [|items l F]; cbn [list_to_set]; [reflexivity|].
  apply (insert_names e2 items l F []).
Qed.

Lemma filter_arguments : forall inc exc,
  (forall li le, arg_names inc li -> arg_names exc le -> py_filter_args inc exc = Ok (li, le))
  /\ (inc = ArgOther -> py_filter_args inc exc = Exn E_include_list)
  /\ (forall items, inc = ArgList items -> bad_element items -> py_filter_args inc exc = Exn E_include_element)
  /\ (forall li, arg_names inc li ->
      (exc = ArgOther -> py_filter_args inc exc = Exn E_exclude_list)
      /\ forall items, exc = ArgList items -> bad_element items -> py_filter_args inc exc = Exn E_exclude_element).
Proof.
  intros inc exc. unfold py_filter_args. repeat split.
  - intros li le I E. rewrite (set_names _ _ _ _ I), (set_names _ _ _ _ E). reflexivity.
  - intros ->. reflexivity.
  - intros items -> B. cbn [list_to_set]. rewrite (insert_fault _ _ B). reflexivity.
  - intros ->. rewrite (set_names _ _ _ _ H). reflexivity.
  - intros items -> B. rewrite (set_names _ _ _ _ H). cbn [bind list_to_set]. rewrite (insert_fault _ _ B). reflexivity.
Qed.

(** Every argument is one of these. *)
Lemma argument_cases : forall arg,
  (exists l, arg_names arg l) \/ arg = ArgOther \/ exists items, arg = ArgList items /\ bad_element items.
Proof.
  intros [|items|]; [left; exists []; constructor| |auto].
  assert (K : (exists l, Forall2 item_name items l) \/ bad_element items).
  { induction items as [|i items IH]; [left; exists []; constructor|].
    destruct (item_name_dec i) as [[n I]|I].
    - destruct IH as [[l F]|(j & J & B)]; [left; exists (n :: l); constructor; assumption|].
      right. exists j. split; [right; exact J|exact B].
    - right. exists i. split; [left; reflexivity|exact I]. }
  destruct K as [[l F]|B]; [left; exists l; constructor; exact F|]. right. right. exists items. auto.
Qed.

(** ** The columns *)

Lemma item_name_fun : forall i m n, item_name i m -> item_name i n -> m = n.
Proof. intros i m n M N. inversion M as [? ? [_ ->]|]; subst; inversion N as [? ? [_ ->]|]; reflexivity. Qed.

Lemma names_mentioned : forall arg l n, arg_names arg l -> (In n l <-> mentions arg n).
Proof.
  intros arg l n [|items names F].
  - split; [intros []|]. intros (items & i & E & _). discriminate E.
  - split.
    + intros I. assert (K : exists i, In i items /\ item_name i n).
      { induction F as [|i m items names M F IH]; [destruct I|]. destruct I as [->|I].
        - exists i. split; [left; reflexivity|exact M].
        - destruct (IH I) as (j & J & K). exists j. split; [right; exact J|exact K]. }
      destruct K as (i & J & K). exists items, i. auto.
    + intros (items' & i & E & J & K). injection E as <-.
      induction F as [|j m items names M F IH]; [destruct J|]. destruct J as [->|J].
      * left. exact (item_name_fun i m n M K).
      * right. apply IH. exact J.
Qed.

Lemma names_empty : forall arg l, arg_names arg l -> (l = [] <-> without_elements arg).
Proof.
  intros arg l [|items names F]; unfold without_elements.
  - split; auto.
  - split.
    + intros ->. right. inversion F. reflexivity.
    + intros [E|E]; [discriminate E|]. injection E as ->. inversion F. reflexivity.
Qed.

Lemma wanted_chosen : forall inc exc li le n, arg_names inc li -> arg_names exc le ->
  (wanted (Some li) (Some le) n <-> chosen inc exc n).
Proof.
  intros inc exc li le n I E. unfold chosen.
  rewrite <- (names_mentioned _ _ n I), <- (names_mentioned _ _ n E), <- (names_empty _ _ I).
  unfold wanted. destruct li as [|x li].
  - destruct le as [|y le]; cbn [In]; intuition congruence.
  - split; [intros H; left; split; [discriminate|exact H]|]. intros [[_ H]|[H _]]; [exact H|discriminate H].
Qed.

(** A column whose name is a text is chosen by texts. *)
Lemma texts_choose : forall texts t n exc, text_bytes t n -> Forall (Forall character) texts -> texts <> [] ->
  (chosen (ArgList (map ItemStr texts)) exc n <-> In t texts).
Proof.
  intros texts t n exc T F Z.
  assert (M : mentions (ArgList (map ItemStr texts)) n <-> In t texts).
  { split.
    - intros (items & i & E & J & K). injection E as <-. apply in_map_iff in J. destruct J as (s & <- & J).
      inversion K; subst. rewrite (text_bytes_inj t s n T H0). exact J.
    - intros J. exists (map ItemStr texts), (ItemStr t). split; [reflexivity|].
      split; [apply in_map; exact J|apply name_text; exact T]. }
  assert (W : ~ without_elements (ArgList (map ItemStr texts))).
  { intros [E|E]; [discriminate E|]. injection E as E. apply map_eq_nil in E. contradiction. }
  unfold chosen. rewrite M. intuition.
Qed.

(** ** The file *)

Lemma c_string_until : forall n name, until_zero n name -> c_string n = name.
Proof.
  intros n name [Z H]. revert name Z H. induction n as [|b n IH]; intros name Z H.
  - destruct H as [<-|[r H]]; [reflexivity|]. destruct name; discriminate H.
  - cbn [c_string]. destruct (Byte.eqb b x00) eqn:B.
    + apply Byte.byte_dec_bl in B. subst b. destruct H as [<-|[r H]]; [exfalso; apply Z; left; reflexivity|].
      destruct name as [|x name]; [reflexivity|]. injection H as <- H. exfalso. apply Z. left. reflexivity.
    + assert (NB : b <> x00) by (intros ->; discriminate B).
      destruct name as [|x name].
      * destruct H as [H|[r H]]; [discriminate H|]. injection H as H _. contradiction.
      * assert (x = b) by (destruct H as [H|[r H]]; injection H; congruence). subst x. f_equal.
        apply IH; [intros I; apply Z; right; exact I|].
        destruct H as [H|[r H]]; [left; injection H; auto|right; exists r; injection H; auto].
Qed.

Lemma has_file_get : forall fs name content, has_file fs name content -> fs_get fs name = Some content.
Proof.
  intros fs name content (pre & post & -> & Z). induction pre as [|[m x] pre IH]; cbn [fs_get app map fst] in *.
  - rewrite bytes_eqb_refl. reflexivity.
  - destruct (bytes_eqb m name) eqn:E.
    + apply bytes_eqb_true in E. subst m. exfalso. apply Z. left. reflexivity.
    + apply IH. intros I. apply Z. right. exact I.
Qed.

Lemma size_good : forall size n, good_size size n -> extract_size size = Ok n.
Proof.
  intros size n [-> H]. cbn [extract_size]. unfold W64 in H.
  destruct (Z.leb_spec 0 (Z.of_N n)); [|lia]. destruct (Z.ltb_spec (Z.of_N n) (2 ^ 64)) as [K|K].
  - cbn [andb]. rewrite N2Z.id. reflexivity.
  - exfalso. change (2 ^ 64)%Z with (Z.of_N (2 ^ 64)) in K. lia.
Qed.

Definition size_for (cls : py_class) (n : N) : N := match cls with SinkByChunk => n | _ => 0 end.

Lemma read_sas_size : forall S c (src : source S) cls n inc exc s,
  read_sas c src cls (size_for cls n) inc exc s = read_sas c src cls n inc exc s.
Proof. intros. destruct cls; reflexivity. Qed.

Lemma arguments_read : forall c first fs cls size n file inc exc content li le,
  file_for fs file content -> good_size size n -> arg_names inc li -> arg_names exc le ->
  py_read c first fs cls size file inc exc
  = read_sas c file_source cls n (Some li) (Some le) (file_open content).
Proof.
  intros c first fs cls size n file inc exc content li le (m & name & I & U & H) G LI LE.
  unfold py_read. rewrite (extract_name _ _ I). cbn [bind].
  assert (Z : match cls with SinkByChunk => extract_size size | _ => Ok 0 end = Ok (size_for cls n))
    by (destruct cls; [reflexivity|apply size_good; exact G|reflexivity]).
  rewrite Z. cbn [bind]. unfold source_and_filter, open_file.
  rewrite (c_string_until _ _ U), (has_file_get _ _ _ H).
  rewrite (proj1 (filter_arguments inc exc) li le LI LE).
  destruct first; cbn [bind]; apply read_sas_size.
Qed.

Lemma kept_same : forall A (w w' : bytes -> Prop) ns (l l' : list A), (forall n, w n <-> w' n) ->
  kept w ns l l' -> kept w' ns l l'.
Proof.
  intros A w w' ns l l' H K. induction K; constructor; try assumption; rewrite <- H; assumption.
Qed.

Lemma arguments_table : forall c first fs cls size n file inc exc li le e fields contents content,
  file_for fs file content -> good_size size n -> arg_names inc li -> arg_names exc le ->
  holds_table c e fields contents content -> NoDup (map fd_name fields) ->
  Forall (fun n => chosen inc exc n -> utf8_text n) (map fd_name fields) -> contents <> [] ->
  exists p f names contents', py_read c first fs cls size file inc exc = (Ok tt, p)
    /\ fst (py_df cls p) = Ok (Some f)
    /\ kept (chosen inc exc) (map fd_name fields) (map fd_name fields) names
    /\ Forall2 (kept (chosen inc exc) (map fd_name fields)) contents contents'
    /\ frame_holds names contents' f.
Proof.
  intros c first fs cls size n file inc exc li le e fields contents content FF G LI LE H ND U NE.
  rewrite (arguments_read c first fs cls size n file inc exc content li le FF G LI LE).
  assert (W : forall n, wanted (Some li) (Some le) n <-> chosen inc exc n)
    by (intros m; exact (wanted_chosen inc exc li le m LI LE)).
  destruct (read_file c cls n (Some li) (Some le) e fields contents content H ND) as (p & f & names & cs & R & D & K & KS & FH).
  - eapply Forall_impl; [|exact U]. intros m P Q. apply P. apply W. exact Q.
  - exact NE.
  - exists p, f, names, cs. split; [exact R|]. split; [exact D|]. split; [exact (kept_same _ _ _ _ _ _ W K)|].
    split; [|exact FH]. clear -W KS. induction KS as [|a b l m Q KS IH]; constructor; [exact (kept_same _ _ _ _ _ _ W Q)|exact IH].
Qed.

(** Nothing is read when an argument is wrong or the file is missing. *)
Definition fault_of (e : exn) : Prop :=
  e = E_include_list \/ e = E_include_element \/ e = E_exclude_list \/ e = E_exclude_element.

Lemma wrong_arguments : forall c first fs cls size n file name inc exc,
  item_name file name -> good_size size n ->
  ((forall l, ~ arg_names inc l) \/ (forall l, ~ arg_names exc l)) ->
  exists e, py_read c first fs cls size file inc exc = (Exn e, py_nothing)
  /\ (fault_of e \/ first = false /\ e = E_not_a_valid_file /\ forall content, ~ file_for fs file content).
Proof.
  intros c first fs cls size n file name inc exc I G W.
  assert (F : exists e, py_filter_args inc exc = Exn e /\ fault_of e).
  { destruct (filter_arguments inc exc) as (_ & A & B & C).
    destruct (argument_cases inc) as [[li LI]|[O|(items & -> & BAD)]].
    - destruct (C li LI) as [C1 C2].
      destruct (argument_cases exc) as [[le LE]|[O|(items & -> & BAD)]].
      + exfalso. destruct W as [W|W]; [exact (W li LI)|exact (W le LE)].
      + exists E_exclude_list. split; [exact (C1 O)|]. unfold fault_of. auto.
      + exists E_exclude_element. split; [exact (C2 items eq_refl BAD)|]. unfold fault_of. auto.
    - exists E_include_list. split; [exact (A O)|]. unfold fault_of. auto.
    - exists E_include_element. split; [exact (B items eq_refl BAD)|]. unfold fault_of. auto. }
  destruct F as (e & F & FE). unfold py_read. rewrite (extract_name _ _ I). cbn [bind].
  assert (Z : match cls with SinkByChunk => extract_size size | _ => Ok 0 end = Ok (size_for cls n))
    by (destruct cls; [reflexivity|apply size_good; exact G|reflexivity]).
  rewrite Z. cbn [bind]. unfold source_and_filter. rewrite F. destruct first; cbn [bind].
  - exists e. auto.
  - unfold open_file. destruct (fs_get fs (c_string name)) as [content|] eqn:E; cbn [bind].
    + exists e. auto.
    + exists E_not_a_valid_file. split; [reflexivity|]. right. split; [reflexivity|]. split; [reflexivity|].
      intros content (m & nm & I' & U & H). rewrite (item_name_fun _ _ _ I' I) in U.
      rewrite <- (c_string_until _ _ U) in H. apply has_file_get in H. congruence.
Qed.

Lemma missing_file : forall c first fs cls size n file name inc exc li le,
  item_name file name -> good_size size n -> arg_names inc li -> arg_names exc le ->
  (forall content, ~ file_for fs file content) ->
  py_read c first fs cls size file inc exc = (Exn E_not_a_valid_file, py_nothing).
Proof.
  intros c first fs cls size n file name inc exc li le I G LI LE M.
  unfold py_read. rewrite (extract_name _ _ I). cbn [bind].
  assert (Z : match cls with SinkByChunk => extract_size size | _ => Ok 0 end = Ok (size_for cls n))
    by (destruct cls; [reflexivity|apply size_good; exact G|reflexivity]).
  rewrite Z. cbn [bind]. unfold source_and_filter, open_file.
  rewrite (proj1 (filter_arguments inc exc) li le LI LE).
  destruct (fs_get fs (c_string name)) as [content|] eqn:E; [|destruct first; reflexivity].
  exfalso. apply (M content). exists name, (c_string name). split; [exact I|]. split.
  - clear. induction name as [|b name [Z H]]; cbn [c_string]; [split; [intros []|left; reflexivity]|].
    destruct (Byte.eqb b x00) eqn:B.
    + apply Byte.byte_dec_bl in B. subst b. split; [intros []|]. right. exists name. reflexivity.
    + assert (NB : b <> x00) by (intros ->; discriminate B). split.
      * intros [K|K]; [exact (NB K)|exact (Z K)].
      * destruct H as [H|[r H]]; [left; rewrite <- H; reflexivity|right; exists r; cbn [app]; rewrite <- H; reflexivity].
  - clear -E. induction fs as [|[m x] fs IH]; [discriminate E|]. cbn [fs_get] in E.
    destruct (bytes_eqb m (c_string name)) eqn:B.
    + apply bytes_eqb_true in B. subst m. injection E as ->. exists [], fs. split; [reflexivity|intros []].
    + destruct (IH E) as (pre & post & -> & Z). exists ((m, x) :: pre), post. split; [reflexivity|].
      intros [K|K]; [cbn in K; subst m; rewrite bytes_eqb_refl in B; discriminate B|exact (Z K)].
Qed.
