From Coq Require Import Permutation.
From Verif Require Import Base Types Buffer Header Column Metadata Reader Drive Sinks Callbacks RPackage RAgain
  SpecDecomp SpecReader SpecSinks SpecFile SpecRPackage SpecRAgain ProofRAgain Samples PropCells PropPython PropRPackage.
Local Open Scope N_scope.

(** C123.  A sink object of the R package used for one file after another.  Whatever the object was
    used for before, every call has the outcome it has with a new object.  (SinkByChunk: below.) *)
Theorem C123_same_outcome : forall S0 S (p0 : r_program S0) c (src : source S) mk cls size flt inc exc s,
  cls <> RSinkByChunk ->
  fst (r_open_with p0 c src mk cls size flt s) = fst (r_open c src mk cls size flt s)
  /\ (fst (r_open c src mk cls size flt s) = Ok tt -> forall ops,
      fst (r_answers c src mk cls ops (snd (r_open_with p0 c src mk cls size flt s)))
      = fst (r_answers c src mk cls ops (snd (r_open c src mk cls size flt s))))
  /\ fst (r_read_with p0 c src mk cls size inc exc s) = fst (r_read c src mk cls size inc exc s).
Proof. exact r_same_outcome. Qed.
Print Assumptions C123_same_outcome.

(** SinkWholeData: after any calls df is what a new object has; where that has NULL, df is what it was
    before.  (Full claim: the first, without the second, and for the three classes.) *)
Theorem C123_whole_partial : forall S0 (p0 : r_program S0) S c (src : source S) mk size flt inc exc s ops,
  (let p := snd (r_answers c src mk RSinkWholeData ops (snd (r_open c src mk RSinkWholeData size flt s))) in
   let p' := snd (r_answers c src mk RSinkWholeData ops (snd (r_open_with p0 c src mk RSinkWholeData size flt s))) in
   r_df p' = match r_df p with Some f => Some f | None => r_df p0 end)
  /\ r_df (snd (r_read_with p0 c src mk RSinkWholeData size inc exc s))
     = match r_df (snd (r_read c src mk RSinkWholeData size inc exc s)) with Some f => Some f | None => r_df p0 end.
Proof. exact r_whole_again. Qed.
Print Assumptions C123_whole_partial.

(** SinkByChunk, when the object has no frame: as a new one. *)
Theorem C123_chunk_null : forall S0 (p0 : r_program S0) S c (src : source S) mk size flt inc exc s ops, r_df p0 = None ->
  fst (r_open_with p0 c src mk RSinkByChunk size flt s) = fst (r_open c src mk RSinkByChunk size flt s)
  /\ fst (r_answers c src mk RSinkByChunk ops (snd (r_open_with p0 c src mk RSinkByChunk size flt s)))
     = fst (r_answers c src mk RSinkByChunk ops (snd (r_open c src mk RSinkByChunk size flt s)))
  /\ fst (r_read_with p0 c src mk RSinkByChunk size inc exc s) = fst (r_read c src mk RSinkByChunk size inc exc s)
  /\ r_df (snd (r_answers c src mk RSinkByChunk ops (snd (r_open_with p0 c src mk RSinkByChunk size flt s))))
  = r_df (snd (r_answers c src mk RSinkByChunk ops (snd (r_open c src mk RSinkByChunk size flt s))))
  /\ r_df (snd (r_read_with p0 c src mk RSinkByChunk size inc exc s))
     = r_df (snd (r_read c src mk RSinkByChunk size inc exc s)).
Proof. exact r_chunk_null. Qed.
Print Assumptions C123_chunk_null.

(** SinkByChunk with a frame of a file which has the same columns: the rows of the second file stand
    below, all of them and each once, which is not so with a new object (C88). *)
Theorem C123_chunks : forall S0 (p0 : r_program S0) f0 S c (src : source S) mk size inc exc s r0 ev r1 rows,
  max_alloc c < row_limit -> (forall l, length (mk l) = length l) ->
  open_reader c src (Some (r_filter inc exc)) s = Ok (r0, ev) ->
  read_all c src r0 = (Ok tt, r1, SpecSinks.pushes rows ++ [EvEnd]) ->
  dated (rs_h r0) -> md_row_count (rs_md r0) <= r_rows_limit -> r_readable (md_columns (rs_md r0)) rows ->
  lenN rows = md_row_count (rs_md r0) -> r_df p0 = Some f0 ->
  exists order names, Permutation order (filter known (md_columns (rs_md r0)))
    /\ Forall2 (fun c n => until_zero (c_name c) n) order names
    /\ (forall order0 rows0, r_frame_is (mk names) order0 rows0 f0 -> map c_type order0 = map c_type order ->
        exists p g f, r_read_with p0 c src mk RSinkByChunk size inc exc s = (Ok tt, p)
        /\ r_df p = Some f /\ r_frame_is (mk names) order rows g /\ r_below f0 g f).
Proof. exact r_chunks_again. Qed.
Print Assumptions C123_chunks.

(** A program which reads one file, and a second with the same object. *)
Definition r_first (cls : r_class) (inc : option (list bytes)) (file : bytes) : r_program fstate :=
  snd (r_read sample_cfg file_source (fun l => l) cls 2 inc None (file_open file)).
Definition r_second (p : r_program fstate) (cls : r_class) (inc : option (list bytes)) (file : bytes) :
    res unit * option rframe :=
  let '(x, p') := r_read_with p sample_cfg file_source (fun l => l) cls 2 inc None (file_open file) in (x, r_df p').

Definition only_name : option (list bytes) := Some [bs "NAME"].
Definition cells (l : list bytes) : list (option rval) := map (fun t => Some (RText t)) l.
Definition short_names : bytes :=
  file_bytes Big Bit32 false 320 800 (bs "SHORT")
    (Table [FieldDesc (bs "NAME") [] [] 0 4 false] 4 [bs "1abc"; bs "2abc"; bs "3abc"] []).

(** The hypotheses of C123_chunks hold for the sample file with its column NAME (C88_hypotheses); the
    object holds a frame with that column. *)
Example C123_case :
  r_df (r_first RSinkByChunk only_name short_names) = Some [(bs "NAME", cells [bs "1abc"; bs "2abc"; bs "3abc"])]
  /\ r_df (r_first RSinkWholeData only_name short_names) = Some [(bs "NAME", cells [bs "1abc"; bs "2abc"; bs "3abc"])]
  /\ r_df (r_first RSinkWholeData None no_rows) = None
  /\ r_second (r_first RSinkWholeData only_name short_names) RSinkWholeData only_name sample_file
     = (Ok tt, Some [(bs "NAME", six_names)])
  /\ r_second (r_first RSinkByChunk None no_rows) RSinkByChunk only_name short_names
     = (Ok tt, Some [(bs "NAME", cells [bs "1abc"; bs "2abc"; bs "3abc"])]).
Proof. vm_compute. auto 6. Qed.

(** False: df is that of the second file.  With SinkByChunk the rows of the first are there too; those of
    the second are right, where a new object has them wrong. *)
Theorem C123_frame_refuted : exists first second,
  r_df (r_first RSinkByChunk only_name second)
  = Some [(bs "NAME", cells [bs "ijkl"; bs "mnop"; bs "ijkl"; bs "mnop"; bs "qrst"; bs "uvwx"])]
  /\ r_second (r_first RSinkByChunk only_name first) RSinkByChunk only_name second
     = (Ok tt, Some [(bs "NAME", cells [bs "1abc"; bs "2abc"; bs "3abc"] ++ six_names)]).
Proof. exists short_names, sample_file. vm_compute. auto. Qed.
Print Assumptions C123_frame_refuted.

(** False for a second file without rows: df is the frame of the first. *)
Theorem C123_no_rows_refuted : exists first second,
  r_df (r_first RSinkWholeData None second) = None
  /\ r_second (r_first RSinkWholeData None first) RSinkWholeData None second
     = (Ok tt, Some [(bs "NAME", cells [bs "1abc"; bs "2abc"; bs "3abc"])]).
Proof. exists short_names, no_rows. vm_compute. auto. Qed.
Print Assumptions C123_no_rows_refuted.
