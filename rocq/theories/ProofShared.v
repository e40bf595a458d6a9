From Verif Require Import Base Lemmas DateTime Types Buffer Page Column Header Metadata Decomp Data Reader Drive
  Sinks Callbacks Shared SpecShared ProofReader ProofDrive ProofPython ProofAgain.
Local Open Scope N_scope.

(** ** Sinks which write what they are given behind what is there *)

Definition writes (k : sink (list column * bytes)) : Prop :=
  (forall ev cs a b, fst (k ev (cs, a)) = fst (k ev (cs, b)) /\ fst (snd (k ev (cs, a))) = fst (snd (k ev (cs, b)))
     /\ exists t, snd (snd (k ev (cs, a))) = a ++ t /\ snd (snd (k ev (cs, b))) = b ++ t)
  /\ (forall h md cs out, k (EvProps h md) (cs, out) = k (EvProps h md) ([], out))
  /\ (forall h md cs out, fst (snd (k (EvProps h md) (cs, out))) = md_columns md)
  /\ (forall i p cs out, fst (snd (k (EvRow i p) (cs, out))) = cs)
  /\ (forall cs out, fst (snd (k EvEnd (cs, out))) = cs).

Lemma csv_writes : forall f, writes (csv_sink f).
Proof.
  intros f. unfold writes, csv_sink. split; [|split; [|split; [|split]]]; try (intros; reflexivity).
  - intros [h md|i p|] cs a b; cbn.
    + repeat split. eauto.
    + destruct (csv_row f cs p); cbn; repeat split; eauto; exists []; rewrite !app_nil_r; auto.
    + repeat split. exists []. rewrite !app_nil_r. auto.
  - intros i p cs out. cbn. destruct (csv_row f cs p); reflexivity.
Qed.

Lemma cells_write : forall cs p a b, fst (print_cells cs p a) = fst (print_cells cs p b)
  /\ exists t, snd (print_cells cs p a) = a ++ t /\ snd (print_cells cs p b) = b ++ t.
Proof.
  induction cs as [|c cs IH]; intros p a b; cbn [print_cells]; [split; [reflexivity|cbn; eauto]|].
  destruct (c_to_string c p) as [t|e| |u|]; try (cbn; split; [reflexivity|]; exists []; rewrite !app_nil_r; auto; fail).
  destruct (IH p (a ++ comma ++ t) (b ++ comma ++ t)) as (E & x & E1 & E2). split; [exact E|].
  exists ((comma ++ t) ++ x). rewrite E1, E2, <- !app_assoc. auto.
Qed.

Lemma names_write : forall cs a b, fst (print_names cs a) = fst (print_names cs b)
  /\ exists t, snd (print_names cs a) = a ++ t /\ snd (print_names cs b) = b ++ t.
Proof.
  induction cs as [|c cs IH]; intros a b; cbn [print_names]; [split; [reflexivity|cbn; eauto]|].
  destruct (fmt_noargs (c_name c)) as [t|e| |u|]; try (cbn; split; [reflexivity|]; eauto; fail).
  destruct (IH (a ++ comma ++ t) (b ++ comma ++ t)) as (E & x & E1 & E2). split; [exact E|].
  exists ((comma ++ t) ++ x). rewrite E1, E2, <- !app_assoc. auto.
Qed.

Lemma print_writes : forall props, writes (print_sink props).
Proof.
  intros props. unfold writes, print_sink. split; [|split; [|split; [|split]]].
  - intros [h md|i p|] cs a b.
    + destruct (names_write (md_columns md) (a ++ props h md ++ bs "#") (b ++ props h md ++ bs "#")) as (E & x & E1 & E2).
      destruct (print_names (md_columns md) (a ++ props h md ++ bs "#")) as [y a'],
        (print_names (md_columns md) (b ++ props h md ++ bs "#")) as [y' b']. cbn in *. subst y'.
      repeat split. exists ((props h md ++ bs "#") ++ x). rewrite E1, E2, <- !app_assoc. auto.
    + destruct (cells_write cs p (a ++ dec i) (b ++ dec i)) as (E & x & E1 & E2).
      destruct (print_cells cs p (a ++ dec i)) as [y a'], (print_cells cs p (b ++ dec i)) as [y' b']. cbn in *. subst y'.
      repeat split. exists (dec i ++ x). rewrite E1, E2, <- !app_assoc. auto.
    + cbn. repeat split. exists []. rewrite !app_nil_r. auto.
  - intros h md cs out. reflexivity.
  - intros h md cs out. destruct (print_names _ _). reflexivity.
  - intros i p cs out. destruct (print_cells _ _ _). reflexivity.
  - reflexivity.
Qed.

Section Shared.
  Variables (S : Type) (c : cfg) (src : source S) (k : sink (list column * bytes)).
  Hypothesis W : writes k.

  (** The same columns, and the text of the second behind [o0]. *)
  Definition behind (o0 : bytes) (a b : list column * bytes) : Prop := fst a = fst b /\ snd a = o0 ++ snd b.

  Lemma behind_kept : forall o0 ev a b, behind o0 a b ->
    fst (k ev a) = fst (k ev b) /\ behind o0 (snd (k ev a)) (snd (k ev b)).
  Proof.
    intros o0 ev [cs a] [cs' b] [E1 E2]. cbn in E1, E2. subst cs' a.
    destruct W as [W1 _]. destruct (W1 ev cs (o0 ++ b) b) as (F1 & F2 & t & F3 & F4).
    split; [exact F1|]. split; [exact F2|]. rewrite F3, F4, app_assoc. reflexivity.
  Qed.

  (** Its calls after the first do not change the columns. *)
  Section Keep.
    Variable cs : list column.
    Let keep (a : list column * bytes) : Prop := fst a = cs.
    Lemma row_keeps : forall r a, keep a -> keep (snd (fst (drive_row c src k r a))).
    Proof.
      intros r [cs' o] H. unfold keep in *. cbn in H. subst cs'. unfold drive_row. destruct W as (_ & _ & _ & W4 & W5).
      destruct (read_line c src (rs_h r) (rs_md r) (rs_d r)) as [[[p|]|ex| |u|] d']; try reflexivity.
      - specialize (W4 (ds_row (rs_d r)) p cs o). destruct (k (EvRow (ds_row (rs_d r)) p) (cs, o)) as [y a']. exact W4.
      - specialize (W5 cs o). destruct (k EvEnd (cs, o)) as [y a']. exact W5.
    Qed.
    Lemma rows_keep : forall n r a, keep a -> keep (snd (fst (drive_rows c src k n r a))).
    Proof.
      induction n as [|n IH]; intros r a H; [exact H|]. cbn [drive_rows]. pose proof (row_keeps r a H) as E.
      destruct (drive_row c src k r a) as [[[x r1] a1] ev]. cbn in E. destruct x as [[|]|ex| |u|]; try exact E.
      specialize (IH r1 a1 E). destruct (drive_rows c src k n r1 a1) as [[[y r2] a2] ev2]. exact IH.
    Qed.
    Lemma all_keep : forall n r a, keep a -> keep (snd (fst (drive_all_loop c src k n r a))).
    Proof.
      induction n as [|n IH]; intros r a H; [exact H|]. cbn [drive_all_loop]. pose proof (row_keeps r a H) as E.
      destruct (drive_row c src k r a) as [[[x r1] a1] ev]. cbn in E. destruct x as [[|]|ex| |u|]; try exact E.
      specialize (IH r1 a1 E). destruct (drive_all_loop c src k n r1 a1) as [[[y r2] a2] ev2]. exact IH.
    Qed.
    Lemma end_keeps : forall o, fst (snd (k EvEnd (cs, o))) = cs.
    Proof. destruct W as (_ & _ & _ & _ & W5). intros o. apply W5. Qed.
    Lemma step_keeps : forall o r a, keep a -> keep (snd (fst (drive_step c src k o r a))).
    Proof.
      intros o r a H. destruct o as [|n| |n| |]; cbn [drive_step].
      - pose proof (row_keeps r a H) as E. destruct (drive_row c src k r a) as [[[x r1] a1] ev]. exact E.
      - pose proof (rows_keep (N.to_nat n) r a H) as E. destruct (drive_rows c src k (N.to_nat n) r a) as [[[x r1] a1] ev]. exact E.
      - unfold drive_all.
        match goal with |- context [drive_all_loop c src k ?n r a] => pose proof (all_keep n r a H) as E;
          destruct (drive_all_loop c src k n r a) as [[[x r1] a1] ev] end. exact E.
      - unfold drive_skip. destruct (data_skip c src (rs_h r) (rs_md r) (N.to_nat n) (rs_d r)) as [[[|]|ex| |u|] d']; try exact H.
        unfold keep in *. destruct a as [cs' t]. cbn in H. subst cs'. pose proof (end_keeps t) as E.
        destruct (k EvEnd (cs, t)) as [y a']. exact E.
      - destruct (read_row_no_sink c src r) as [x r']. exact H.
      - unfold drive_end. unfold keep in *. destruct a as [cs' t]. cbn in H. subst cs'. pose proof (end_keeps t) as E.
        destruct (k EvEnd (cs, t)) as [y a']. exact E.
    Qed.
  End Keep.

  (** ** One after the other *)

  Lemma open_behind : forall flt s cs o0,
    let u := drive_open c src k flt s (cs, o0) in
    let v := drive_open c src k flt s ([], []) in
    fst (fst u) = fst (fst v) /\ snd (snd (fst u)) = o0 ++ snd (snd (fst v))
    /\ (forall r, fst (fst u) = Ok r -> behind o0 (snd (fst u)) (snd (fst v))).
  Proof.
    intros flt s cs o0. cbv zeta. rewrite !drive_open_spec. destruct W as (_ & W2 & _).
    destruct (open_reader c src flt s) as [[r ev]|ex| |u|]; try (cbn; rewrite app_nil_r; repeat split; discriminate).
    cbn zeta. rewrite (W2 _ _ cs o0).
    destruct (behind_kept o0 (EvProps (rs_h r) (rs_md r)) ([], o0) ([], [])) as [E1 [E2 E3]].
    { split; [reflexivity|]. cbn. rewrite app_nil_r. reflexivity. }
    cbn [fst snd]. rewrite E1. split; [reflexivity|]. split; [exact E3|]. intros r' _. split; assumption.
  Qed.

  Lemma nth_upd : forall A (l : list A) n x, (n < length l)%nat -> nth_error (upd n x l) n = Some x.
  Proof.
    induction l as [|y l IH]; intros [|n] x H; cbn in *; try lia; [reflexivity|]. apply IH. lia.
  Qed.
  Lemma upd_len : forall A (l : list A) n x, length (upd n x l) = length l.
  Proof. induction l as [|y l IH]; intros [|n] x; cbn; auto. Qed.

  Lemma run_app : forall u v rs a,
    shared_run c src k (u ++ v) rs a
    = let '(t, rs1, a1) := shared_run c src k u rs a in
      if existsb is_last t then (t, rs1, a1)
      else let '(t', rs2, a2) := shared_run c src k v rs1 a1 in (t ++ t', rs2, a2).
  Proof.
    induction u as [|x u IH]; intros v rs a.
    - cbn. destruct (shared_run c src k v rs a) as [[t rs1] a1]. reflexivity.
    - cbn [app shared_run]. destruct x as [flt s|n o].
      + destruct (drive_open c src k flt s a) as [[x a1] ev]. destruct (ends_process x) eqn:E.
        * cbn. destruct x; cbn in *; try discriminate; reflexivity.
        * rewrite IH. match goal with |- context [shared_run c src k u ?z a1] => destruct (shared_run c src k u z a1) as [[t rs1] a2] end.
          replace (existsb is_last (AMade (rmap (fun _ => tt) x) :: t)) with (existsb is_last t)
            by (destruct x; cbn in *; try discriminate; reflexivity).
          destruct (existsb is_last t); [reflexivity|]. destruct (shared_run c src k v rs1 a2) as [[t' rs2] a3]. reflexivity.
      + destruct (nth_error rs n) as [[r|]|]; try apply IH.
        destruct (drive_step c src k o r a) as [[[x r1] a1] ev]. destruct (ends_process x) eqn:E.
        * cbn. rewrite E. reflexivity.
        * rewrite IH. match goal with |- context [shared_run c src k u ?z a1] => destruct (shared_run c src k u z a1) as [[t rs1] a2] end.
          cbn [existsb is_last]. rewrite E. cbn [orb].
          destruct (existsb is_last t); [reflexivity|]. destruct (shared_run c src k v rs1 a2) as [[t' rs2] a3]. reflexivity.
  Qed.

  Lemma ops_behind : forall o0 j ops rs rs' a b, nth_error rs j = nth_error rs' 0%nat -> (j < length rs)%nat -> (0 < length rs')%nat ->
    (forall r, nth_error rs j = Some (Some r) -> behind o0 a b) -> snd a = o0 ++ snd b ->
    let u := shared_run c src k (map (COp j) ops) rs a in
    let v := shared_run c src k (map (COp 0) ops) rs' b in
    fst (fst u) = fst (fst v) /\ snd (snd u) = o0 ++ snd (snd v) /\ length (snd (fst u)) = length rs.
  Proof.
    intros o0 j. induction ops as [|o ops IH]; intros rs rs' a b E L L' B O.
    { cbn. auto. }
    cbv zeta. cbn [map shared_run]. rewrite <- E. destruct (nth_error rs j) as [[r|]|] eqn:N.
    - specialize (B r eq_refl).
      pose proof (step_alike _ _ k k (behind o0) (behind_kept o0) S c src o r a b B) as A. unfold alike in A.
      destruct (drive_step c src k o r a) as [[[x r1] a1] ev], (drive_step c src k o r b) as [[[x' r1'] b1] ev'].
      cbn [fst snd] in A. destruct A as (<- & <- & A). destruct (ends_process x).
      + cbn. split; [reflexivity|]. split; [apply A|]. apply upd_len.
      + destruct (IH (upd j (Some r1) rs) (upd 0 (Some r1) rs') a1 b1) as (F1 & F2 & F3).
        { rewrite !nth_upd by assumption. reflexivity. } { rewrite upd_len. exact L. } { rewrite upd_len. exact L'. }
        { intros _ _. exact A. } { apply A. }
        destruct (shared_run c src k (map (COp j) ops) (upd j (Some r1) rs) a1) as [[t rs1] a2],
          (shared_run c src k (map (COp 0) ops) (upd 0 (Some r1) rs') b1) as [[t' rs1'] b2].
        cbn in *. rewrite F1. split; [reflexivity|]. split; [exact F2|]. rewrite F3. apply upd_len.
    - apply IH; auto. rewrite N, E. reflexivity. rewrite N. discriminate.
    - apply IH; auto. rewrite N, E. reflexivity. rewrite N. discriminate.
  Qed.

  Lemma session_behind : forall x rs cs o0,
    let u := shared_run c src k (calls_of (length rs) x) rs (cs, o0) in
    fst (fst u) = fst (alone c src k x) /\ snd (snd u) = o0 ++ snd (alone c src k x)
    /\ length (snd (fst u)) = Datatypes.S (length rs).
  Proof.
    intros [flt s ops] rs cs o0. cbv zeta. unfold alone, calls_of. cbn [se_filter se_source se_ops shared_run].
    destruct (open_behind flt s cs o0) as (E1 & E2 & E3).
    destruct (drive_open c src k flt s (cs, o0)) as [[x a1] ev], (drive_open c src k flt s ([], [])) as [[x' b1] ev'].
    cbn [fst snd] in E1, E2, E3. subst x'. destruct (ends_process x) eqn:EP.
    - cbn. split; [reflexivity|]. split; [exact E2|]. rewrite app_length. cbn. lia.
    - set (e := match x with Ok r => Some r | _ => None end).
      destruct (ops_behind o0 (length rs) ops (rs ++ [e]) ([] ++ [e]) a1 b1) as (F1 & F2 & F3).
      { rewrite nth_error_app2 by lia. replace (length rs - length rs)%nat with 0%nat by lia. reflexivity. }
      { rewrite app_length. cbn. lia. } { cbn. lia. }
      { intros r N. rewrite nth_error_app2 in N by lia. replace (length rs - length rs)%nat with 0%nat in N by lia.
        cbn in N. injection N as N. unfold e in N. destruct x; try discriminate. apply (E3 a eq_refl). }
      { exact E2. }
      destruct (shared_run c src k (map (COp (length rs)) ops) (rs ++ [e]) a1) as [[t rs1] a2],
        (shared_run c src k (map (COp 0) ops) ([] ++ [e]) b1) as [[t' rs1'] b2].
      cbn in *. rewrite F1. split; [reflexivity|]. split; [exact F2|]. rewrite F3, app_length. cbn. lia.
  Qed.

  Lemma turns : forall l rs cs o0,
    let u := shared_run c src k (one_after_other (length rs) l) rs (cs, o0) in
    fst (fst u) = fst (in_turn c src k l) /\ snd (snd u) = o0 ++ snd (in_turn c src k l).
  Proof.
    induction l as [|x l IH]; intros rs cs o0; cbv zeta; [cbn; rewrite app_nil_r; auto|].
    cbn [one_after_other in_turn]. rewrite run_app. destruct (session_behind x rs cs o0) as (E1 & E2 & E3).
    destruct (shared_run c src k (calls_of (length rs) x) rs (cs, o0)) as [[t rs1] [cs1 out1]]. cbn [fst snd] in E1, E2, E3.
    destruct (alone c src k x) as [t0 text]. cbn [fst snd] in E1, E2. subst t0 out1.
    destruct (existsb is_last t); [auto|]. rewrite <- E3. destruct (IH rs1 cs1 (o0 ++ text)) as [F1 F2].
    destruct (shared_run c src k (one_after_other (length rs1) l) rs1 (cs1, o0 ++ text)) as [[t' rs2] st2].
    destruct (in_turn c src k l) as [t0 text']. cbn [fst snd] in *. subst t0. split; [reflexivity|]. rewrite F2, app_assoc. reflexivity.
  Qed.

  (** ** The same columns *)

  Definition in_step (cs : list column) (rs : list (option (rstate S))) (ws : list (option (rstate S * list column)))
      (a : list column * bytes) (out : bytes) : Prop :=
    rs = map (option_map fst) ws /\ snd a = out
    /\ forall n r cs', nth_error ws n = Some (Some (r, cs')) -> cs' = cs /\ fst a = cs.

  Lemma in_step_upd : forall cs rs ws a out n r1 (a' : list column * bytes), in_step cs rs ws a out -> (n < length ws)%nat -> fst a' = cs ->
    in_step cs (upd n (Some r1) rs) (upd n (Some (r1, cs)) ws) a' (snd a').
  Proof.
    intros cs rs ws a out n r1 a' (E1 & E2 & E3) L F. split; [|split; [reflexivity|]].
    - subst rs. clear. revert n. induction ws as [|w ws IH]; intros [|n]; cbn; f_equal; auto.
    - intros m r cs' N. split; [|exact F]. clear - N E3.
      assert (H : forall (l : list (option (rstate S * list column))) n m x y, nth_error (upd n x l) m = Some y -> y = x \/ nth_error l m = Some y).
      { clear. induction l as [|w l IH]; intros [|n] [|m] x y H; cbn in *; auto; try discriminate.
        - injection H as ->. auto.
        - apply IH in H. exact H. }
      destruct (H _ _ _ _ _ N) as [K|K]; [injection K as _ ->; reflexivity|]. apply (E3 _ _ _ K).
  Qed.

  Lemma in_step_add : forall cs rs ws a out e (a' : list column * bytes), in_step cs rs ws a out ->
    (forall r cs', e = Some (r, cs') -> cs' = cs) -> (fst a' = fst a /\ e = None \/ fst a' = cs) ->
    in_step cs (rs ++ [option_map fst e]) (ws ++ [e]) a' (snd a').
  Proof.
    intros cs rs ws a out e a' (E1 & E2 & E3) HE HA. split; [rewrite map_app, E1; reflexivity|]. split; [reflexivity|].
    intros m r cs' N. destruct (Nat.lt_ge_cases m (length ws)) as [L|L].
    - rewrite nth_error_app1 in N by lia. destruct (E3 _ _ _ N) as [F1 F2]. split; [exact F1|].
      destruct HA as [[HA _]|HA]; congruence.
    - rewrite nth_error_app2 in N by lia. destruct (m - length ws)%nat as [|[|q]]; try discriminate.
      cbn in N. injection N as ->. split; [apply (HE _ _ eq_refl)|]. destruct HA as [[_ HA]|HA]; [discriminate|exact HA].
  Qed.

  Lemma same_columns : forall cs calls rs ws a out, have_columns c src cs calls -> in_step cs rs ws a out ->
    let u := shared_run c src k calls rs a in
    let v := own_run c src k calls ws out in
    fst (fst u) = fst (fst v) /\ snd (snd u) = snd v.
  Proof.
    intros cs. induction calls as [|x calls IH]; intros rs ws a out HC IS; cbv zeta.
    { cbn. split; [reflexivity|apply IS]. }
    inversion HC as [|x0 l0 H1 H2]. subst x0 l0. cbn [shared_run own_run]. destruct x as [flt s|n o].
    - rewrite !drive_open_spec. destruct a as [cs0 o0]. pose proof IS as (_ & E2 & _). cbn [snd] in E2. subst o0.
      destruct W as (_ & W2 & W3 & _).
      destruct (open_reader c src flt s) as [[r ev]|ex| |w|] eqn:O.
      + cbn zeta. rewrite (W2 _ _ cs0 out). specialize (H1 r ev eq_refl).
        pose proof (W3 (rs_h r) (rs_md r) [] out) as C1. rewrite H1 in C1.
        destruct (k (EvProps (rs_h r) (rs_md r)) ([], out)) as [y [cs1 out1]]. cbn in C1. subst cs1. cbn [fst snd].
        destruct y as [u|ex| |w|]; cbn [rmap bind ends_process]; try (split; reflexivity).
        * pose proof (in_step_add cs rs ws (cs0, out) out (Some (r, cs)) (cs, out1) IS) as G. cbn in G.
          specialize (IH _ _ _ _ H2 (G ltac:(intros; congruence) (or_intror eq_refl))). cbv zeta in IH.
          destruct (shared_run c src k calls (rs ++ [Some r]) (cs, out1)) as [[t rs2] a2],
            (own_run c src k calls (ws ++ [Some (r, cs)]) out1) as [[t' ws2] out2].
          cbn in *. destruct IH as [<- <-]. auto.
        * pose proof (in_step_add cs rs ws (cs0, out) out None (cs, out1) IS) as G. cbn in G.
          specialize (IH _ _ _ _ H2 (G ltac:(intros; discriminate) (or_intror eq_refl))). cbv zeta in IH.
          destruct (shared_run c src k calls (rs ++ [None]) (cs, out1)) as [[t rs2] a2],
            (own_run c src k calls (ws ++ [None]) out1) as [[t' ws2] out2].
          cbn in *. destruct IH as [<- <-]. auto.
      + cbn [rmap bind ends_process].
        pose proof (in_step_add cs rs ws (cs0, out) out None (cs0, out) IS) as G. cbn in G.
        specialize (IH _ _ _ _ H2 (G ltac:(intros; discriminate) (or_introl (conj eq_refl eq_refl)))). cbv zeta in IH.
        destruct (shared_run c src k calls (rs ++ [None]) (cs0, out)) as [[t rs2] a2],
          (own_run c src k calls (ws ++ [None]) out) as [[t' ws2] out2].
        cbn in *. destruct IH as [<- <-]. auto.
      + split; reflexivity.
      + split; reflexivity.
      + split; reflexivity.
    - pose proof IS as (E1 & E2 & E3).
      assert (NE : nth_error rs n = option_map (option_map fst) (nth_error ws n)) by (rewrite E1; apply nth_error_map).
      rewrite NE. destruct (nth_error ws n) as [[[r cs']|]|] eqn:N; cbn [option_map fst]; try (apply IH; assumption).
      destruct (E3 _ _ _ N) as [-> FA]. destruct a as [cs0 o0]. cbn in FA, E2. subst cs0 o0.
      pose proof (step_keeps cs o r (cs, out) eq_refl) as KP.
      destruct (drive_step c src k o r (cs, out)) as [[[x r1] [cs1 out1]] ev]. cbn in KP. subst cs1.
      destruct (ends_process x); [split; reflexivity|].
      assert (L : (n < length ws)%nat) by (apply nth_error_Some; rewrite N; discriminate).
      specialize (IH _ _ _ _ H2 (in_step_upd cs rs ws _ _ n r1 (cs, out1) IS L eq_refl)). cbv zeta in IH. cbn [snd] in IH.
      destruct (shared_run c src k calls (upd n (Some r1) rs) (cs, out1)) as [[t rs2] a2],
        (own_run c src k calls (upd n (Some (r1, cs)) ws) out1) as [[t' ws2] out2].
      cbn in *. destruct IH as [<- <-]. auto.
  Qed.
End Shared.

(** ** The sinks of the library *)

Lemma csv_turns : forall f S c (src : source S) l cs,
  let u := shared_run c src (csv_sink f) (one_after_other 0 l) [] (cs, []) in
  (fst (fst u), snd (snd u)) = in_turn c src (csv_sink f) l.
Proof.
  intros f S c src l cs. cbv zeta. destruct (turns S c src (csv_sink f) (csv_writes f) l [] cs []) as [E1 E2].
  cbn [length] in E1, E2. rewrite E1, E2. symmetry. apply surjective_pairing.
Qed.

Lemma print_turns : forall props S c (src : source S) l cs,
  let u := shared_run c src (print_sink props) (one_after_other 0 l) [] (cs, []) in
  (fst (fst u), snd (snd u)) = in_turn c src (print_sink props) l.
Proof.
  intros props S c src l cs. cbv zeta. destruct (turns S c src (print_sink props) (print_writes props) l [] cs []) as [E1 E2].
  cbn [length] in E1, E2. rewrite E1, E2. symmetry. apply surjective_pairing.
Qed.

Lemma start_in_step : forall S cs cs0 out, in_step S cs [] [] (cs0, out) out.
Proof. intros. split; [reflexivity|]. split; [reflexivity|]. intros [|n] r cs' N; discriminate. Qed.

Lemma same_columns_both : forall f props S c (src : source S) cs calls cs0 out, have_columns c src cs calls ->
  (let u := shared_run c src (csv_sink f) calls [] (cs0, out) in
   let v := own_run c src (csv_sink f) calls [] out in
   fst (fst u) = fst (fst v) /\ snd (snd u) = snd v)
  /\ (let u := shared_run c src (print_sink props) calls [] (cs0, out) in
      let v := own_run c src (print_sink props) calls [] out in
      fst (fst u) = fst (fst v) /\ snd (snd u) = snd v).
Proof.
  intros f props S c src cs calls cs0 out H.
  split; [apply (same_columns S c src _ (csv_writes f) cs)|apply (same_columns S c src _ (print_writes props) cs)];
    auto using start_in_step.
Qed.
