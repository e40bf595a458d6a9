(** Sinks whose callbacks fail (C83 to C85). *)
From Verif Require Import Base Types Float DateTime Column Header Metadata Reader Drive Sinks Callbacks
  SpecReader SpecDrive SpecSinks SpecNumber SpecCallbacks Samples ProofCallbacks ProofPrintFail PropTime PropSinks.
Local Open Scope N_scope.

(** C83.  Python chunks when push_rows may raise and the program reads on.  The chunks
    which push_rows accepted are, in order, the rows pushed up to some point, none lost or
    twice; an end which returns has delivered all of them.  When the end raises, nothing
    more is delivered and a second end is undefined.  The full statement also bounds the
    chunks by the size, and lets the end be tried again. *)
Theorem C83_chunks_partial : forall P (o : pyobj P) size h md rows p,
  NoDup (map c_name (filter known (md_columns md))) -> readable (md_columns md) rows -> lenN rows < W64 ->
  fst (o (PyProps h md) p) = Ok tt ->
  let k := chunk_sink (noted o) in
  let st := after k (chunk_start size p) (EvProps h md :: pushes rows) in
  exists cks pend, rows = concat cks ++ pend /\ Forall2 (py_chunk (md_columns md)) cks (returned (snd (pt_obj st)))
  /\ (fst (k EvEnd st) = Ok tt ->
      exists last, pend = concat last
        /\ Forall2 (py_chunk (md_columns md)) (cks ++ last) (returned (snd (pt_obj (snd (k EvEnd st))))))
  /\ (forall e, fst (k EvEnd st) = Exn e -> pend <> []
        /\ returned (snd (pt_obj (snd (k EvEnd st)))) = returned (snd (pt_obj st))
        /\ fst (k EvEnd (snd (k EvEnd st))) = Undef UB_api).
Proof. exact chunks_conserved. Qed.
Print Assumptions C83_chunks_partial.

(** An object whose push_rows raises the first [n] times. *)
Definition raising (n : nat) : pyobj nat := fun q m =>
  match q with
  | PyProps _ _ => (Ok tt, m)
  | PyCall _ => if Nat.ltb m n then (Exn (E_client 9), S m) else (Ok tt, S m)
  end.

Definition ranges (l : list pycall) : list (N * N * list nat) :=
  flat_map (fun k => match k with PyPushRows a b d => [(a, b, map (fun x => length (snd x)) d)] | _ => [] end) l.

(** Chunks of one row; push_rows raises for the first: the rows 0 to 2 then come in one
    chunk, at the end. *)
Example C83_case :
  let k := chunk_sink (noted (raising 1)) in
  let st := after k (chunk_start 1 0%nat) (EvProps empty_header (ex_meta 3 ex_columns) :: pushes ex_rows) in
  fst (raising 1 (PyProps empty_header (ex_meta 3 ex_columns)) 0%nat) = Ok tt
  /\ map snd (snd (pt_obj st)) = [Ok tt; Exn (E_client 9)]
  /\ fst (k EvEnd st) = Ok tt
  /\ ranges (returned (snd (pt_obj (snd (k EvEnd st))))) = [(0, 2, [3%nat; 3%nat])].
Proof. vm_compute. auto. Qed.

(** False: the chunk accepted has three rows, the size is one. *)
Theorem C83_chunk_size_refuted : exists size h md rows,
  readable (md_columns md) rows /\ NoDup (map c_name (filter known (md_columns md))) /\
  let k := chunk_sink (noted (raising 1)) in
  let st := snd (k EvEnd (after k (chunk_start size 0%nat) (EvProps h md :: pushes rows))) in
  exists a b d name vs, In (PyPushRows a b d) (returned (snd (pt_obj st))) /\ In (name, vs) d /\ size < lenN vs.
Proof.
  exists 1, empty_header, (ex_meta 3 ex_columns), ex_rows.
  split; [exact ex_readable|]. split; [exact C61_case_hypotheses|].
  vm_compute. eexists _, _, _, _, _. split; [left; reflexivity|]. split; [left; reflexivity|]. reflexivity.
Qed.
Print Assumptions C83_chunk_size_refuted.

(** False: an end which raised cannot be tried again. *)
Theorem C83_end_again_refuted : exists h md rows,
  readable (md_columns md) rows /\ NoDup (map c_name (filter known (md_columns md))) /\
  let k := chunk_sink (noted (raising 1)) in
  let st := after k (chunk_start 0 0%nat) (EvProps h md :: pushes rows) in
  fst (k EvEnd st) = Exn (E_client 9) /\ fst (k EvEnd (snd (k EvEnd st))) = Undef UB_api.
Proof.
  exists empty_header, (ex_meta 3 ex_columns), ex_rows.
  split; [exact ex_readable|]. split; [exact C61_case_hypotheses|]. vm_compute. auto.
Qed.
Print Assumptions C83_end_again_refuted.

(** C84.  R chunks: when push_rows fails for a row, reading the next row writes behind the
    end of the vectors. *)
Theorem C84_row_after_failure : forall P (f : robj P) size h md rows a i p j q e, md_row_count md <= r_rows_limit ->
  r_readable (md_columns md) (rows ++ [(i, p)]) -> increasing 0 (md_row_count md) (rows ++ [(i, p)]) ->
  let k := rchunk_sink f in
  let st := after k (rsink_new size, a) (EvProps h md :: pushes rows) in
  accepts k (rsink_new size, a) (EvProps h md :: pushes rows) -> threw k (EvRow i p) st e ->
  fst (k (EvRow j q) (snd (k (EvRow i p) st))) = Undef UB_oob_write.
Proof. exact r_refused. Qed.
Print Assumptions C84_row_after_failure.

(** An R object whose push_rows stops the first time. *)
Definition stopping : robj nat := fun q m =>
  match q with
  | RqProps _ => (Ok tt, m)
  | _ => if Nat.eqb m 0 then (Exn (E_client 9), 1%nat) else (Ok tt, S m)
  end.

Definition dated_header : header :=
  Header Bit32 Big Unix (PTicks epoch_ticks) (PTicks epoch_ticks) [] [] [] [] [] [] [] 288 0 0.

(** Chunks of two; push_rows stops for the rows 0 and 1; row 2 is read. *)
Theorem C84_reading_on_refuted : exists size h md r0 r1 r2,
  r_readable (md_columns md) [r0; r1; r2] /\ increasing 0 (md_row_count md) [r0; r1; r2] /\
  let k := rchunk_sink stopping in
  let st := after k (rsink_new size, 0%nat) (EvProps h md :: pushes [r0]) in
  accepts k (rsink_new size, 0%nat) (EvProps h md :: pushes [r0])
  /\ threw k (EvRow (fst r1) (snd r1)) st (E_client 9)
  /\ fst (k (EvRow (fst r2) (snd r2)) (snd (k (EvRow (fst r1) (snd r1)) st))) = Undef UB_oob_write.
Proof.
  exists 2, dated_header, (ex_meta 5 ex_columns). eexists _, _, _.
  split; [exact ex_r_readable|]. split; [cbn; lia|].
  vm_compute. auto.
Qed.
Print Assumptions C84_reading_on_refuted.

(** C85.  The print sink writes a row as the number of the row and the texts of the
    columns, and the end of the line; when the text of a column cannot be made, the call
    fails and what stands before that column stays written, without an end of line. *)
Theorem C85_print_row : forall props i p cs out y st, print_sink props (EvRow i p) (cs, out) = (y, st) ->
  (y = Ok tt /\ exists l, line_start i cs p l /\ st = (cs, out ++ l ++ [x0a]))
  \/ (exists cs1 c cs2 l, cs = cs1 ++ c :: cs2 /\ line_start i cs1 p l /\ st = (cs, out ++ l)
        /\ same_failure (c_to_string c p) y).
Proof. exact print_row_written. Qed.
Print Assumptions C85_print_row.

(** False: a row is printed on one line or not at all.  A missing date (row 7) cannot be
    printed; row 8 follows on the same line. *)
Theorem C85_lines_refuted : exists props cs p q st,
  fst (print_sink props (EvRow 7 p) (cs, [])) = Exn E_bad_year
  /\ print_sink props (EvRow 8 q) (snd (print_sink props (EvRow 7 p) (cs, []))) = (Ok tt, st)
  /\ snd st = bs "7,08,0,1962-10-21" ++ [x0a].
Proof.
  exists (fun _ _ => []), [Column (bs "N") [] [] (Formatter FSmallInt 0 1 Big); the_column FDate].
  exists (the_row 18446741874686296064), (the_row 4652218415073722368).
  eexists. split; [vm_compute; reflexivity|]. split; [vm_compute; reflexivity|]. reflexivity.
Qed.
Print Assumptions C85_lines_refuted.
