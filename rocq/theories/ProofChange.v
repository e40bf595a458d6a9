From Coq Require Import Lia ZArith.
From Verif Require Import Base Types Buffer Page Column Header Metadata Decomp Data Reader
  SpecBuffer SpecHeader SpecReader SpecAsk Change SpecChange Lemmas SpecValues ProofValues
  ProofBuffer ProofHeader SpecPages ProofPages SpecConform ProofConform ProofAsk.
Local Open Scope N_scope.

Section Chg.
Variable seen : nat -> bytes.
Local Notation src := (changing_source seen).

Lemma nth_skipn : forall (l : bytes) p i, nth_error (skipn p l) i = nth_error l (p + i)%nat.
Proof.
  induction l as [|a l IH]; intros p i.
  - rewrite skipn_nil. rewrite !(proj2 (nth_error_None [] _)) by (cbn; lia). reflexivity.
  - destruct p; [reflexivity|]. cbn [skipn Nat.add nth_error]. apply IH.
Qed.

Lemma nth_firstn_some : forall n (l : bytes) i b, nth_error (firstn n l) i = Some b -> nth_error l i = Some b.
Proof.
  induction n; intros [|a l] i b H; destruct i; cbn in *; try discriminate; auto.
Qed.

(** Once the stream has failed nothing comes. *)
Lemma stopped_talks : forall t s s', talks src s t s' -> cg_eof s || cg_fail s = true ->
  forall rest, exists f', talks file_source (FState rest (cg_eof s) (cg_fail s)) t f'.
Proof.
  intros t s s' H. induction H; intros F rest.
  - eexists. constructor.
  - destruct (IHtalks F rest) as [f' K]. exists f'.
    change (src_eof src s) with (src_eof file_source (FState rest (cg_eof s) (cg_fail s))). constructor. exact K.
  - cbn [changing_source src_read] in H. unfold changing_read in H. unfold Buffer.file_read in H.
    cbn [fs_eof fs_fail fs_rest] in H. rewrite F in H. cbn [fs_eof fs_fail] in H. injection H as <- <- <-.
    cbn [cg_eof cg_fail] in IHtalks.
    destruct (IHtalks (Bool.orb_true_r _) rest) as [f' K]. exists f'.
    econstructor; [|exact K]. cbn [file_source src_read]. unfold Buffer.file_read. cbn [fs_eof fs_fail fs_rest].
    rewrite F. reflexivity.
Qed.

(** What was found, as one file: [x] from the position on; unless the stream has met its end
    behind it ([Some k]: at the [k]-th read), more may follow. *)
Lemma found_talks : forall t s s', talks src s t s' -> cg_eof s = false -> cg_fail s = false ->
  exists x e,
    (forall i b, nth_error x i = Some b -> exists k, nth_error (seen k) (N.to_nat (cg_pos s) + i) = Some b)
    /\ match e with
       | None => forall z, exists f', talks file_source (FState (x ++ z) false false) t f'
       | Some k => (exists f', talks file_source (FState x false false) t f')
                   /\ (length (seen k) <= N.to_nat (cg_pos s) + length x)%nat
       end.
Proof.
  intros t s s' H. induction H; intros F1 F2.
  - exists [], None. split; [intros [|i] b X; discriminate|]. intros z. eexists. constructor.
  - destruct (IHtalks F1 F2) as (x & e & A & B). exists x, e. split; [exact A|].
    change (src_eof src s) with (cg_eof s). rewrite F1.
    destruct e as [k|].
    + destruct B as [[f' K] L]. split; [|exact L]. exists f'.
      change false with (src_eof file_source (FState x false false)) at 3. constructor. exact K.
    + intros z. destruct (B z) as [f' K]. exists f'.
      change false with (src_eof file_source (FState (x ++ z) false false)) at 3. constructor. exact K.
  - cbn [changing_source src_read] in H. unfold changing_read in H. unfold Buffer.file_read in H.
    cbn [fs_eof fs_fail fs_rest] in H. rewrite F1, F2 in H. cbn [orb] in H.
    set (p := N.to_nat (cg_pos s)) in *. set (k := cg_reads s) in *.
    destruct (2 ^ 63 <=? n) eqn:BIG.
    { injection H as <- <- <-. cbn [fs_eof fs_fail lenN length] in *.
      exists [], None. split; [intros [|i] b X; discriminate|]. intros z. cbn [app].
      destruct (stopped_talks _ _ _ H0 eq_refl z) as [f' K]. exists f'. econstructor; [|exact K].
      cbn [file_source src_read]. unfold Buffer.file_read. cbn [fs_eof fs_fail fs_rest orb]. rewrite BIG. reflexivity. }
    destruct (N.leb_spec n (lenN (skipn p (seen k)))) as [LE|LE].
    + injection H as <- <- <-. cbn [fs_eof fs_fail cg_eof cg_fail cg_pos] in *.
      destruct (IHtalks eq_refl eq_refl) as (x & e & A & B).
      set (d := firstn (N.to_nat n) (skipn p (seen k))) in *.
      assert (LD : length d = N.to_nat n) by (unfold d; rewrite firstn_length; unfold lenN in LE; lia).
      exists (d ++ x), e. split.
      * intros i b X. destruct (Nat.lt_ge_cases i (length d)) as [I|I].
        { rewrite nth_error_app1 in X by exact I. exists k. unfold d in X. apply nth_firstn_some in X.
          rewrite nth_skipn in X. exact X. }
        { rewrite nth_error_app2 in X by exact I. destruct (A _ _ X) as [k' Y]. exists k'.
          rewrite <- Y. f_equal. unfold lenN. fold p. unfold p. lia. }
      * assert (RD : forall y, Buffer.file_read (FState (d ++ y) false false) n = (FState y false false, d, true)).
        { intros y. unfold Buffer.file_read. cbn [fs_eof fs_fail fs_rest orb]. rewrite BIG.
          destruct (N.leb_spec n (lenN (d ++ y))) as [Q|Q];
            [|exfalso; unfold lenN in Q; rewrite app_length in Q; lia].
          rewrite <- LD. rewrite skipn_app, firstn_app, skipn_all, firstn_all, Nat.sub_diag.
          cbn [skipn firstn app]. rewrite app_nil_r. reflexivity. }
        destruct e as [k'|].
        { destruct B as [[f' K] L]. split.
          - exists f'. econstructor; [apply RD|exact K].
          - rewrite app_length. unfold lenN in L. fold p. unfold p. lia. }
        { intros z. destruct (B z) as [f' K]. exists f'. rewrite <- app_assoc. econstructor; [apply RD|exact K]. }
    + injection H as <- <- <-. cbn [fs_eof fs_fail] in *.
      exists (skipn p (seen k)), (Some k). split.
      * intros i b X. exists k. rewrite nth_skipn in X. exact X.
      * split.
        { destruct (stopped_talks _ _ _ H0 eq_refl []) as [f' K]. exists f'. econstructor; [|exact K].
          cbn [file_source src_read]. unfold Buffer.file_read. cbn [fs_eof fs_fail fs_rest orb]. rewrite BIG.
          destruct (N.leb_spec n (lenN (skipn p (seen k)))); [lia|]. reflexivity. }
        { rewrite skipn_length. lia. }
Qed.

Lemma changing_found : forall c flt ops, exists x e,
  from_versions seen x
  /\ match e with
     | None => forall z, session c src flt changing_open ops = session c file_source flt (file_open (x ++ z)) ops
     | Some k => session c src flt changing_open ops = session c file_source flt (file_open x) ops
                 /\ (length (seen k) <= length x)%nat
     end.
Proof.
  intros c flt ops. destruct (session_answers _ c src flt changing_open ops) as (t & s' & A & _ & C).
  destruct (found_talks _ _ _ A eq_refl eq_refl) as (x & e & B & D). exists x, e. split; [exact B|].
  destruct e as [k|].
  - destruct D as [[f' K] L]. split; [symmetry; exact (C _ _ _ _ K)|exact L].
  - intros z. destruct (D z) as [f' K]. symmetry. exact (C _ _ _ _ K).
Qed.

Lemma changing_one_file : forall c flt ops, exists content,
  from_versions seen content
  /\ session c src flt changing_open ops = session c file_source flt (file_open content) ops.
Proof.
  intros c flt ops. destruct (changing_found c flt ops) as (x & e & B & D). exists x. split; [exact B|].
  destruct e as [k|]; [apply D|]. specialize (D []). rewrite app_nil_r in D. exact D.
Qed.

End Chg.

Lemma prefix_bytes : forall (content x : bytes),
  (forall i b, nth_error x i = Some b -> nth_error content i = Some b) -> x = firstn (length x) content.
Proof.
  intros content x. revert content. induction x as [|a x IH]; intros content H; [reflexivity|].
  destruct content as [|b content]; [specialize (H 0%nat a eq_refl); discriminate|].
  pose proof (H 0%nat a eq_refl) as H0. cbn in H0. injection H0 as ->. cbn [length firstn]. f_equal.
  apply IH. intros i d X. exact (H (S i) d X).
Qed.

Lemma appended_prefix : forall c flt content there ops,
  (forall k, there 0%nat <= there k) ->
  exists m, there 0%nat <= m
  /\ session c (changing_source (appended content there)) flt changing_open ops
     = session c file_source flt (file_open (firstn (N.to_nat m) content)) ops.
Proof.
  intros c flt content there ops M.
  destruct (changing_found (appended content there) c flt ops) as (x & e & B & D).
  assert (X : x = firstn (length x) content).
  { apply prefix_bytes. intros i b Y. destruct (B i b Y) as [k Z]. unfold appended in Z.
    apply nth_firstn_some in Z. exact Z. }
  destruct e as [k|].
  - destruct D as [D L]. unfold appended in L. rewrite firstn_length in L.
    destruct (Nat.le_gt_cases (length content) (length x)) as [LE|GT].
    + exists (N.max (there 0%nat) (lenN content)). split; [lia|]. rewrite D, X.
      rewrite !firstn_all2; [reflexivity| |exact LE]. unfold lenN. lia.
    + exists (lenN x). specialize (M k). split; [unfold lenN; lia|]. rewrite D, X at 1. unfold lenN.
      rewrite Nat2N.id. reflexivity.
  - exists (N.max (there 0%nat) (lenN content)). split; [lia|]. rewrite (D (skipn (length x) content)), X at 1.
    rewrite <- X. rewrite X at 1. rewrite firstn_skipn. rewrite firstn_all2; [reflexivity|]. unfold lenN. lia.
Qed.

(** ** A file which is written faster than it is read *)

Lemma session_asked : forall S c (src : source S) flt s r0 ev ops, good_source src ->
  open_reader c src flt s = Ok (r0, ev) ->
  let h := rs_h r0 in
  exists d1 d2 g t s',
    talks src s (AskRead 288 d1 true :: AskRead (h_header_length h -! 288) d2 true :: t) s'
    /\ lenN d1 = 288 /\ lenN d2 = h_header_length h -! 288
    /\ paging (h_page_length h) g t
    /\ forall S2 (src2 : source S2) s2 s2',
         talks src2 s2 (AskRead 288 d1 true :: AskRead (h_header_length h -! 288) d2 true :: t) s2' ->
         session c src2 flt s2 ops = session c src flt s ops.
Proof.
  intros S c src flt s r0 ev ops G O h.
  destruct (open_talks S c src flt s) as (t & s' & A & RE & B). unfold session. rewrite O in RE |- *.
  destruct (B _ _ O) as [I X]. clear B.
  destruct (X G) as (d1 & d2 & g & t1 & E & L1 & L2 & PL & W & P & N). subst s'.
  destruct r0 as [h0 md d]. cbn [rs_h rs_d] in *. unfold source_at in *. cbn [rs_d] in *.
  destruct (trace c src ops (Some (RState h0 md d))) as [l r] eqn:T.
  destruct (trace_keeps _ _ _ _ _ _ _ _ _ T) as [d' ->].
  assert (H : history c h0 md ops S src d = (l, d')) by (unfold history; rewrite T; reflexivity).
  destruct (history_talky c h0 md ops S src d l d' H) as (t2 & g2 & T2 & RE2 & C2 & D2).
  destruct (D2 G PL W) as (W2 & P2 & N2).
  exists d1, d2, (orb g g2), (t1 ++ t2), (ps_is (ds_p d')). subst t.
  split; [exact (talks_app _ _ _ _ _ _ _ A T2)|]. split; [exact L1|]. split; [exact L2|]. split.
  - destruct g; cbn [orb].
    + destruct (C2 (N eq_refl)) as [-> _]. rewrite app_nil_r. exact P.
    + apply paging_app; assumption.
  - intros S2 src2 s2 s2' U.
    change (AskRead 288 d1 true :: AskRead (h_header_length h -! 288) d2 true :: t1 ++ t2)
      with ((AskRead 288 d1 true :: AskRead (h_header_length h -! 288) d2 true :: t1) ++ t2) in U.
    apply talks_app_inv in U. destruct U as [s3 [U1 U2]].
    rewrite (RE _ _ _ _ U1). cbn [at_source bind r_moved rs_h rs_md rs_d fst].
    pose proof (RE2 _ _ _ _ U2) as K. unfold history in K.
    change (r_moved (RState h0 md d) s3) with (RState h0 md (d_moved d s3)).
    destruct (trace c src2 ops (Some (RState h0 md (d_moved d s3)))) as [l' [r'|]]; injection K as <- _; reflexivity.
Qed.

Section Ahead.
Variable content : bytes.
Variable there : nat -> N.
Local Notation grow := (changing_source (appended content there)).

Lemma ahead_read : forall p k n f1 d ok, N.min (lenN content) (p + n) <= there k ->
  Buffer.file_read (FState (skipn (N.to_nat p) content) false false) n = (f1, d, ok) ->
  changing_read (appended content there) (CState p k false false) n
  = (CState (p + lenN d) (S k) (fs_eof f1) (fs_fail f1), d, ok)
  /\ (ok = true -> lenN d = n -> f1 = FState (skipn (N.to_nat (p + n)) content) false false).
Proof.
  intros p k n f1 d ok M H. unfold changing_read, Buffer.file_read in *. cbn [cg_pos cg_reads cg_eof cg_fail fs_eof fs_fail fs_rest orb] in *.
  destruct (2 ^ 63 <=? n) eqn:BIG.
  { injection H as <- <- <-. split; [reflexivity|discriminate]. }
  unfold appended.
  destruct (N.leb_spec n (lenN (skipn (N.to_nat p) content))) as [LE|LE].
  - injection H as <- <- <-.
    assert (E : N.to_nat n = 0%nat \/ (N.to_nat p + N.to_nat n <= N.to_nat (there k))%nat).
    { unfold lenN in *. rewrite skipn_length in LE. lia. }
    destruct (N.leb_spec n (lenN (skipn (N.to_nat p) (firstn (N.to_nat (there k)) content)))) as [Q|Q];
      [|exfalso; unfold lenN in *; rewrite skipn_length in *; rewrite firstn_length in *; lia].
    split.
    + rewrite skipn_firstn_comm, firstn_firstn.
      replace (Nat.min (N.to_nat n) (N.to_nat (there k) - N.to_nat p)) with (N.to_nat n) by lia. reflexivity.
    + intros _ _. rewrite skipn_skipn'. repeat f_equal. lia.
  - injection H as <- <- <-. split; [|discriminate].
    assert (E : lenN content <= there k).
    { unfold lenN in *. rewrite skipn_length in LE. lia. }
    rewrite firstn_all2 by (unfold lenN in E; lia).
    destruct (N.leb_spec n (lenN (skipn (N.to_nat p) content))); [lia|]. reflexivity.
Qed.

Lemma ahead_pages : forall hl pl, (forall k, N.min (lenN content) (asked_to hl pl k) <= there k) ->
  forall g t, paging pl g t -> forall j s',
  talks file_source (FState (skipn (N.to_nat (hl + N.of_nat j * pl)) content) false false) t s' ->
  exists z, talks grow (CState (hl + N.of_nat j * pl) (S (S j)) false false) t z.
Proof.
  intros hl pl M g t P. induction P as [|d e t L P IH| |d b L|]; intros j s' T.
  - eexists. constructor.
  - inversion T as [|? ? ? T1 E1|]; subst. inversion T1 as [| |? ? f1 ? ? ? ? R T2]; subst.
    cbn [file_source src_read] in R.
    specialize (M (S (S j))). cbn [asked_to] in M.
    destruct (ahead_read (hl + N.of_nat j * lenN d) (S (S j)) (lenN d) f1 d true) as [R1 R2]; [|exact R|].
    { replace (hl + N.of_nat j * lenN d + lenN d) with (hl + N.of_nat (S j) * lenN d) by lia. exact M. }
    specialize (R2 eq_refl eq_refl). subst f1. cbn [fs_eof fs_fail] in R1.
    replace (hl + N.of_nat j * lenN d + lenN d) with (hl + N.of_nat (S j) * lenN d) in * by lia.
    destruct (IH _ _ T2) as [z K]. exists z.
    change false with (src_eof grow (CState (hl + N.of_nat j * lenN d) (S (S j)) false false)) at 3.
    constructor. econstructor; [exact R1|exact K].
  - inversion T as [|? ? ? T1 E1|].
  - inversion T as [|? ? ? T1 E1|]; subst. inversion T1 as [| |? ? f1 ? ? ? ? R T2]; subst.
    inversion T2 as [|? ? ? T3 E3|]; subst.
    cbn [file_source src_read] in R.
    specialize (M (S (S j))). cbn [asked_to] in M.
    destruct (ahead_read (hl + N.of_nat j * pl) (S (S j)) pl f1 d false) as [R1 _]; [|exact R|].
    { replace (hl + N.of_nat j * pl + pl) with (hl + N.of_nat (S j) * pl) by lia. exact M. }
    eexists.
    change false with (src_eof grow (CState (hl + N.of_nat j * pl) (S (S j)) false false)) at 3.
    constructor. econstructor; [exact R1|].
    change (src_eof file_source f1) with (src_eof grow (CState (hl + N.of_nat j * pl + lenN d) (S (S (S j))) (fs_eof f1) (fs_fail f1))).
    constructor. constructor.
  - eexists. change false with (src_eof grow (CState (hl + N.of_nat j * pl) (S (S j)) false false)) at 3.
    constructor. constructor.
Qed.

Lemma ahead_session : forall c flt ops r0 ev,
  open_reader c file_source flt (file_open content) = Ok (r0, ev) ->
  (forall k, N.min (lenN content) (asked_to (h_header_length (rs_h r0)) (h_page_length (rs_h r0)) k) <= there k) ->
  session c grow flt changing_open ops = session c file_source flt (file_open content) ops.
Proof.
  intros c flt ops r0 ev O M.
  destruct (session_asked _ c file_source flt (file_open content) r0 ev ops file_source_good O)
    as (d1 & d2 & g & t & s' & T & L1 & L2 & P & C).
  set (h := rs_h r0) in *.
  inversion T as [| |? ? f1 ? ? ? ? R T1]; subst. inversion T1 as [| |? ? f2 ? ? ? ? R' T2]; subst.
  cbn [file_source src_read] in R, R'.
  pose proof (M 0%nat) as M0. pose proof (M 1%nat) as M1. cbn [asked_to] in M0, M1.
  destruct (ahead_read 0 0%nat 288 f1 d1 true) as [A1 A2]; [exact M0|exact R|].
  specialize (A2 eq_refl L1). subst f1. rewrite L1 in A1. cbn [fs_eof fs_fail N.add] in A1.
  assert (HL : 288 + (h_header_length h -! 288) = h_header_length h).
  { destruct (reader_header _ _ _ _ _ O) as (_ & HF & HL). fold h in HF, HL.
    assert (HW : h_header_length h < 2 ^ 32).
    { rewrite (hof_header_length _ _ HF). unfold header_length_field. rewrite <- get_val_value.
      eapply N.lt_le_trans; [apply get_val_lt|]. change (2 ^ 32) with (256 ^ 4).
      apply N.pow_le_mono_r; [lia|]. rewrite field_slice, lenN_slice. lia. }
    rewrite sub64_small by (unfold W64; lia). lia. }
  destruct (ahead_read 288 1%nat (h_header_length h -! 288) f2 d2 true) as [B1 B2]; [rewrite HL; lia|exact R'|].
  specialize (B2 eq_refl L2). subst f2. rewrite L2, HL in *. cbn [fs_eof fs_fail] in B1.
  replace (h_header_length h) with (h_header_length h + N.of_nat 0 * h_page_length h) in T2 by lia.
  destruct (ahead_pages _ _ M _ _ P 0%nat _ T2) as [z K].
  apply (C _ _ _ z). econstructor; [exact A1|]. econstructor; [exact B1|].
  replace (h_header_length h + N.of_nat 0 * h_page_length h) with (h_header_length h) in K by lia. exact K.
Qed.
End Ahead.
