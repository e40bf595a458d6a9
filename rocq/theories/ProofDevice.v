(** Proofs about devices whose faults come and go. *)
From Coq Require Import Lia ZArith.
From Verif Require Import Base Types Buffer Page Column Header Metadata Decomp Data Reader
  SpecReader SpecAsk Change SpecChange Disk SpecDisk Device Lemmas ProofAsk ProofChange ProofDisk.
Local Open Scope N_scope.

Section Dev.
Variable seen : nat -> bytes.
Variable fault : nat -> option N.
Local Notation src := (device_source seen fault).

Definition stopped (s : device) : bool := dv_bad s || (cg_eof (dv_stream s) || cg_fail (dv_stream s)).
Definition as_disk (rest : bytes) (s : device) : disk :=
  Disk (FState rest (cg_eof (dv_stream s)) (cg_fail (dv_stream s))) (dv_bad s).

Lemma dstopped_talks : forall b t s s', talks src s t s' -> stopped s = true ->
  forall rest, exists f', talks (disk_source b) (as_disk rest s) t f'.
Proof.
  intros b t s s' H. induction H; intros F rest.
  - eexists. constructor.
  - destruct (IHtalks F rest) as [f' K]. exists f'.
    change (src_eof src s) with (src_eof (disk_source b) (as_disk rest s)). constructor. exact K.
  - cbn [device_source src_read] in H. unfold device_read in H.
    destruct s as [[p k e f] bad]. cbn [dv_stream dv_bad cg_eof cg_fail cg_pos cg_reads] in *.
    unfold stopped in F. cbn [dv_stream dv_bad cg_eof cg_fail] in F.
    destruct bad; cbn [orb] in F.
    + injection H as <- <- <-. destruct (IHtalks eq_refl rest) as [f' K]. exists f'.
      econstructor; [|exact K]. reflexivity.
    + assert (R : device_read seen fault (Device (CState p k e f) false) n
                  = (Device (CState (p + 0) (S k) e true) false, [], false)).
      { unfold device_read. cbn [dv_stream dv_bad cg_eof cg_fail cg_pos cg_reads]. rewrite F. cbn [negb andb].
        assert (Q : changing_read seen (CState p k e f) n = (CState (p + 0) (S k) e true, [], false)).
        { unfold changing_read, Buffer.file_read. cbn [fs_eof fs_fail fs_rest cg_eof cg_fail cg_pos cg_reads].
          rewrite F. reflexivity. }
        rewrite Q. destruct (fault k); reflexivity. }
      unfold device_read in R. cbn [dv_stream dv_bad cg_eof cg_fail cg_pos cg_reads] in R.
      rewrite R in H. injection H as <- <- <-.
      destruct (IHtalks (Bool.orb_true_r _) rest) as [f' K]. exists f'.
      econstructor; [|exact K]. cbn [disk_source src_read]. unfold disk_read, as_disk, Buffer.file_read.
      cbn [dk_bad dk_file dv_stream dv_bad cg_eof cg_fail fs_eof fs_fail fs_rest]. rewrite F.
      destruct b; reflexivity.
Qed.

Lemma disk_regular : forall b x n, b && (lenN x <? n) = false ->
  disk_read b (Disk (FState x false false) false) n
  = let '(f, d, ok) := Buffer.file_read (FState x false false) n in (Disk f false, d, ok).
Proof.
  intros b x n H. unfold disk_read. cbn [dk_bad dk_file fs_eof fs_fail fs_rest orb negb].
  destruct b; [|reflexivity]. cbn [andb] in *. rewrite H, Bool.andb_false_r. reflexivity.
Qed.

(** How the stream has stopped: not, by a fault, or at the end of the file. *)
Definition faulty (e : option (option nat)) : bool := match e with Some None => true | _ => false end.

Lemma dfound_talks : forall t s s', talks src s t s' -> stopped s = false ->
  exists x e,
    (forall i v, nth_error x i = Some v ->
       exists k, nth_error (seen k) (N.to_nat (cg_pos (dv_stream s)) + i) = Some v)
    /\ match e with
       | None => True
       | Some None => exists k, fault k <> None
       | Some (Some k) => (length (seen k) <= N.to_nat (cg_pos (dv_stream s)) + length x)%nat
       end
    /\ forall z, (e <> None -> z = []) ->
         exists f', talks (disk_source (faulty e)) (Disk (FState (x ++ z) false false) false) t f'.
Proof.
  intros t s s' H. induction H; intros F.
  - exists [], None. split; [intros [|i] b X; discriminate|]. split; [exact I|]. intros z _. eexists. constructor.
  - destruct (IHtalks F) as (x & e & A & A' & B). exists x, e. split; [exact A|]. split; [exact A'|]. intros z Z. destruct (B z Z) as [f' K]. exists f'.
    replace (src_eof src s) with (src_eof (disk_source (faulty e)) (Disk (FState (x ++ z) false false) false)); [constructor; exact K|].
    unfold stopped in F. cbn. unfold device_eof. destruct (dv_bad s), (cg_eof (dv_stream s)); try reflexivity; discriminate.
  - cbn [device_source src_read] in H. unfold device_read in H.
    destruct s as [[p k e f] bad]. cbn [dv_stream dv_bad cg_eof cg_fail cg_pos cg_reads] in *.
    unfold stopped in F. cbn [dv_stream dv_bad cg_eof cg_fail] in F.
    destruct bad; [discriminate|]. destruct e; [discriminate|]. destruct f; [discriminate|]. cbn [orb negb andb] in H.
    set (left := skipn (N.to_nat p) (seen k)) in *.
    assert (D : (exists j, fault k = Some j /\ n < 2 ^ 63 /\ j < n /\ j <= lenN left
                  /\ s1 = Device (CState (p + j) (S k) false false) true
                  /\ data = firstn (N.to_nat j) left /\ ok = false)
             \/ (let '(c', data, ok) := changing_read seen (CState p k false false) n in (Device c' false, data, ok))
                = (s1, data, ok)).
    { destruct (fault k) as [j|] eqn:FK; [|right; exact H].
      destruct ((n <? 2 ^ 63) && (j <? n) && (j <=? lenN left)) eqn:Z; [|right; exact H].
      left. exists j. injection H as <- <- <-. apply andb_prop in Z. destruct Z as [Z Z3].
      apply andb_prop in Z. destruct Z as [Z1 Z2].
      apply N.ltb_lt in Z1, Z2. apply N.leb_le in Z3. auto 10. }
    clear H. destruct D as [(j & FK & L1 & L2 & L3 & -> & -> & ->)|H].
    + exists (firstn (N.to_nat j) left), (Some None). split; [|split].
      * intros i v X. exists k. apply nth_firstn_some in X. unfold left in X. rewrite (nth_skipn seen) in X. exact X.
      * exists k. rewrite FK. discriminate.
      * intros z Z. rewrite (Z ltac:(discriminate)), app_nil_r. cbn [faulty]. destruct (dstopped_talks true _ _ _ H0 eq_refl []) as [f' K]. exists f'. econstructor; [|exact K].
        cbn [disk_source src_read]. unfold disk_read. cbn [dk_bad dk_file fs_eof fs_fail fs_rest orb negb andb].
        apply N.ltb_lt in L1. rewrite L1.
        assert (LD : lenN (firstn (N.to_nat j) left) = j) by (unfold lenN in *; rewrite firstn_length; lia).
        rewrite LD. apply N.ltb_lt in L2. rewrite L2. reflexivity.
    + unfold changing_read, Buffer.file_read in H. cbn [cg_eof cg_fail cg_pos cg_reads fs_eof fs_fail fs_rest orb] in H.
      fold left in H.
      destruct (2 ^ 63 <=? n) eqn:BIG.
      { injection H as <- <- <-. exists [], None. split; [intros [|i] v X; discriminate|]. split; [exact I|]. intros z _. cbn [app faulty].
        destruct (dstopped_talks false _ _ _ H0 eq_refl z) as [f' K]. exists f'. econstructor; [|exact K].
        cbn [disk_source src_read]. rewrite disk_regular by reflexivity. unfold Buffer.file_read.
        cbn [fs_eof fs_fail fs_rest orb]. rewrite BIG. reflexivity. }
      destruct (N.leb_spec n (lenN left)) as [LE|LE].
      * injection H as <- <- <-. cbn [fs_eof fs_fail dv_stream cg_pos] in *.
        destruct (IHtalks eq_refl) as (x & e & A & A' & B).
        set (d := firstn (N.to_nat n) left) in *.
        assert (LD : length d = N.to_nat n) by (unfold d; rewrite firstn_length; unfold lenN in LE; lia).
        exists (d ++ x), e. split; [|split].
        2: { destruct e as [[k'|]|]; [|exact A'|exact I]. rewrite app_length. unfold lenN in A'. lia. }
        { intros i v X. destruct (Nat.lt_ge_cases i (length d)) as [I|I].
          - rewrite nth_error_app1 in X by exact I. exists k. unfold d in X. apply nth_firstn_some in X.
            unfold left in X. rewrite (nth_skipn seen) in X. exact X.
          - rewrite nth_error_app2 in X by exact I. destruct (A _ _ X) as [k' Y]. exists k'.
            rewrite <- Y. f_equal. unfold lenN. lia. }
        intros z Z. destruct (B z Z) as [f' K]. exists f'. rewrite <- app_assoc.
        econstructor; [|exact K]. cbn [disk_source src_read].
        assert (LX : lenN (d ++ x ++ z) <? n = false) by (apply N.ltb_ge; unfold lenN; rewrite app_length; lia).
        rewrite disk_regular by (rewrite LX; apply Bool.andb_false_r).
        unfold Buffer.file_read. cbn [fs_eof fs_fail fs_rest orb]. rewrite BIG.
        apply N.ltb_ge in LX. apply N.leb_le in LX. rewrite LX.
        rewrite <- LD. rewrite skipn_app, firstn_app, skipn_all, firstn_all, Nat.sub_diag.
        cbn [skipn firstn app]. rewrite app_nil_r. reflexivity.
      * injection H as <- <- <-. exists left, (Some (Some k)). split; [|split; [unfold left; rewrite skipn_length; lia|]].
        { intros i v X. exists k. unfold left in X. rewrite (nth_skipn seen) in X. exact X. }
        intros z Z. rewrite (Z ltac:(discriminate)), app_nil_r. cbn [faulty].
        destruct (dstopped_talks false _ _ _ H0 eq_refl []) as [f' K]. exists f'. econstructor; [|exact K].
        cbn [disk_source src_read]. rewrite disk_regular by reflexivity. unfold Buffer.file_read.
        cbn [fs_eof fs_fail fs_rest orb]. rewrite BIG.
        destruct (N.leb_spec n (lenN left)); [lia|]. reflexivity.
Qed.

Lemma device_found : forall c flt ops, exists x e,
  from_versions seen x
  /\ match e with
     | None => True
     | Some None => exists k, fault k <> None
     | Some (Some k) => (length (seen k) <= length x)%nat
     end
  /\ forall z, (e <> None -> z = []) ->
       session c src flt device_open ops = session c (disk_source (faulty e)) flt (disk_open (x ++ z)) ops.
Proof.
  intros c flt ops. destruct (session_answers _ c src flt device_open ops) as (t & s' & A & _ & C).
  destruct (dfound_talks _ _ _ A eq_refl) as (x & e & B & B' & D). exists x, e.
  split; [exact B|]. split; [exact B'|]. intros z Z. destruct (D z Z) as [f' K]. symmetry. exact (C _ _ _ _ K).
Qed.

Lemma device_one_disk : forall c flt ops, exists content b,
  from_versions seen content /\ (b = true -> exists k, fault k <> None)
  /\ session c src flt device_open ops = session c (disk_source b) flt (disk_open content) ops.
Proof.
  intros c flt ops. destruct (device_found c flt ops) as (x & e & A & B & C). exists x, (faulty e).
  split; [exact A|]. split.
  - destruct e as [[k|]|]; [discriminate|intros _; exact B|discriminate].
  - rewrite <- (app_nil_r x). apply C. reflexivity.
Qed.

End Dev.

(** A file which stays as it is. *)
Lemma device_reported : forall content fault c flt ops,
  with_fault ops (session c file_source flt (file_open content) ops)
    (session c (device_source (fun _ => content) fault) flt device_open ops).
Proof.
  intros content fault c flt ops.
  destruct (device_found (fun _ => content) fault c flt ops) as (x & e & A & B & C).
  assert (X : x = firstn (length x) content).
  { apply prefix_bytes. intros i b Y. destruct (A i b Y) as [k Z]. exact Z. }
  assert (W : content = x ++ skipn (length x) content) by (rewrite X at 1; rewrite firstn_skipn; reflexivity).
  destruct e as [[k|]|].
  - left. rewrite (C [] (fun _ => eq_refl)). cbn [faulty]. rewrite disk_sound. rewrite app_nil_r.
    rewrite X, firstn_all2 by exact B. reflexivity.
  - rewrite (C [] (fun _ => eq_refl)). cbn [faulty]. rewrite app_nil_r. rewrite W at 1. apply disk_faults.
  - left. rewrite (C (skipn (length x) content)) by congruence. cbn [faulty]. rewrite disk_sound, <- W. reflexivity.
Qed.

Lemma device_sound : forall seen c flt ops,
  session c (device_source seen (fun _ => None)) flt device_open ops
  = session c (changing_source seen) flt changing_open ops.
Proof.
  intros seen c flt ops.
  destruct (session_answers _ c (changing_source seen) flt changing_open ops) as (t & s' & A & _ & C).
  assert (K : exists s2, talks (device_source seen (fun _ => None)) device_open t s2).
  { unfold device_open. clear C. revert A. generalize changing_open. intros s A.
    induction A.
    - eexists. constructor.
    - destruct IHA as [s2 K]. exists s2.
      change (src_eof (changing_source seen) s) with (src_eof (device_source seen (fun _ => None)) (Device s false)).
      constructor. exact K.
    - destruct IHA as [s2 K]. exists s2. econstructor; [|exact K].
      cbn [device_source src_read]. unfold device_read. cbn [dv_bad dv_stream].
      cbn [changing_source src_read] in H. rewrite H. reflexivity. }
  destruct K as [s2 K]. exact (C _ _ _ _ K).
Qed.
