(** C115: the Column objects of a program. *)
From Verif Require Import Base Types Column Sinks ColObjects SpecColObjects ProofColObjects.
Local Open Scope N_scope.

(** Although copies share their formatter, columns behave as plain values, in every program:
    no accessor meets a formatter which was destroyed. *)
Theorem C115_values : forall A (p : list (cstmt A)),
  fst (cexec_all p no_columns) = fst (pexec_all p ([], [])).
Proof. exact columns_plain. Qed.
Print Assumptions C115_values.

(** A formatter lives as long as a column owns it, and no longer: none is destroyed too
    early, twice or never. *)
Theorem C115_owners : forall A (p : list (cstmt A)) t w a, cexec_all p no_columns = (t, w) ->
  match nth a (cw_models w) None with
  | Some (_, n) => owners a (cw_vars w) = n /\ 0 < n
  | None => owners a (cw_vars w) = 0
  end.
Proof. exact columns_released. Qed.
Print Assumptions C115_owners.

(** A copy can be read, with the same results, whatever happens to the column it was copied
    from, as long as it is not moved from or destroyed itself. *)
Theorem C115_copy : forall A (p0 p : list (cstmt A)) t0 w0 v g a,
  cexec_all p0 no_columns = (t0, w0) -> fst (cexec (A := A) (CRead v g) w0) = Ok (CValue a) ->
  let n := length (cw_vars w0) in
  Forall (leaves n) p -> Forall keeps_formatters p ->
  let w1 := snd (cexec_all p (snd (cexec (A := A) (CCopy v) w0))) in
  fst (cexec (CRead n g) w1) = Ok (CValue a).
Proof. exact copy_outlives. Qed.
Print Assumptions C115_copy.

(** The name, the label, the format and the type of a column never change while it lives,
    even when it is moved from. *)
Theorem C115_facts : forall A (p0 p : list (cstmt A)) t0 w0 v x,
  cexec_all p0 no_columns = (t0, w0) -> fst (cexec (A := A) (CFacts v) w0) = Ok x ->
  let w1 := snd (cexec_all p w0) in
  fst (cexec (A := A) (CFacts v) w1) = Ok x \/ fst (cexec (A := A) (CFacts v) w1) = Undef UB_lifetime.
Proof. exact facts_stay. Qed.
Print Assumptions C115_facts.

(** The vector which create_columns fills: the accepted columns in their order, all
    readable; the local columns it moved from are gone. *)
Theorem C115_created : forall A accept cs, exists t w,
  cexec_all (A := A) (creation accept 0 cs) no_columns = (t, w)
  /\ Forall (eq (Ok CNothing)) t /\ readable w = map Some (filter accept cs).
Proof. exact columns_created. Qed.
Print Assumptions C115_created.

Definition sample_fm : formatter := Formatter FString 8 4 Little.
Definition sample_row : pview := PView (map Some (bs "AAAAAAAAabc ")) 0.
Definition sample_read (v : nat) : cstmt (res bytes) := CRead v (fun fm => fm_get_string fm sample_row).

(** A copy is read after the end of the first column. *)
Example C115_case :
  let '(t, w) := cexec_all [CNew (bs "x") (bs "label") (bs "$4") (FmValue sample_fm); sample_read 0; CCopy 0;
                            CMove 0; CDestroy 0; CDestroy 2; sample_read 1; CFacts 1] no_columns in
  t = [Ok CNothing; Ok (CValue (Ok (bs "abc"))); Ok CNothing; Ok CNothing; Ok CNothing; Ok CNothing;
       Ok (CValue (Ok (bs "abc"))); Ok (CTexts (bs "x") (bs "label") (bs "$4") TString)]
  /\ cw_models w = [Some (FmValue sample_fm, 1)]
  /\ cw_models (snd (cexec (sample_read 1) (snd (cexec (A := res bytes) (CDestroy 1) w)))) = [None].
Proof. vm_compute. repeat split; reflexivity. Qed.

(** Two of three columns are accepted. *)
Example C115_created_case :
  let cs := [Column (bs "a") [] [] (Formatter FDouble 0 8 Little); Column (bs "b") [] [] sample_fm;
             Column (bs "c") [] [] (Formatter FDouble 12 8 Little)] in
  readable (snd (cexec_all (A := unit) (creation (fun c => negb (bytes_eqb (c_name c) (bs "b"))) 0 cs) no_columns))
  = [Some (Column (bs "a") [] [] (Formatter FDouble 0 8 Little));
     Some (Column (bs "c") [] [] (Formatter FDouble 12 8 Little))].
Proof. vm_compute. reflexivity. Qed.

(** That a living column can be read is false: one which was moved from still has its name
    and its type, but each accessor follows a null pointer. *)
Theorem C115_readable_refuted : exists p : list (cstmt (res bytes)),
  fst (cexec_all p no_columns)
  = [Ok CNothing; Ok CNothing; Ok (CTexts (bs "x") [] [] TString); Undef UB_oob_read].
Proof.
  exists [CNew (bs "x") [] [] (FmValue sample_fm); CMove 0; CFacts 0; sample_read 0].
  vm_compute. reflexivity.
Qed.
Print Assumptions C115_readable_refuted.

(** A column built on a named formatter keeps a reference to it, and so do its copies. *)
Theorem C115_reference_refuted : exists p : list (cstmt (res bytes)),
  fst (cexec_all p no_columns)
  = [Ok CNothing; Ok CNothing; Ok CNothing; Ok (CValue (Ok (bs "abc"))); Ok CNothing; Undef UB_lifetime].
Proof.
  exists [CFormatter sample_fm; CNew (bs "x") [] [] (FmName 0); CCopy 0; sample_read 1; CFormatterEnd 0; sample_read 1].
  vm_compute. reflexivity.
Qed.
Print Assumptions C115_reference_refuted.

(** Columns which are equal need not be alike: operator== compares the names only. *)
Theorem C115_equal_refuted : exists p : list (cstmt (res bytes)),
  fst (cexec_all p no_columns)
  = [Ok CNothing; Ok CNothing; Ok (CTruth true);
     Ok (CValue (Ok (bs "abc"))); Ok (CValue (Ok []))].
Proof.
  exists [CNew (bs "x") (bs "one") [] (FmValue sample_fm);
          CNew (bs "x") (bs "two") (bs "DATE9") (FmValue (Formatter FDate 0 8 Little));
          CEqual 0 1; sample_read 0; sample_read 1].
  vm_compute. reflexivity.
Qed.
Print Assumptions C115_equal_refuted.
