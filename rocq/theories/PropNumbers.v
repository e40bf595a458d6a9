(** The numbers given to the methods of the Readers (C111 Python, C112 R). *)
From Coq Require Import QArith.
From Verif Require Import Base Types Buffer Column Metadata Data Reader Drive Sinks Callbacks Python Cli PyArgs RPackage RArgs
  Numbers SpecTime SpecNumbers Samples ProofNumbers.
Local Open Scope N_scope.

(** C111.  Python: every call has one meaning; an int of 64 bits without sign is the number of
    rows, every other int an OverflowError, everything else a TypeError; the program does what
    the calls mean, and a call which raises before the method changes nothing. *)
Theorem C111_calls : forall S c (src : source S) cls l p, pg_reader p <> None ->
  exists ms, Forall2 py_means l ms /\ (forall ms', Forall2 py_means l ms' -> ms' = ms)
    /\ py_methods c src cls l p = follow (py_act c src cls) py_at ms p.
Proof. exact py_numbers. Qed.
Print Assumptions C111_calls.

Definition py_sample : program fstate :=
  snd (py_open sample_cfg file_source SinkByRow 0 (fun _ => true) (file_open sample_file)).

(** Rows are skipped and read; wrong numbers raise and reading goes on where it was. *)
Example C111_case :
  fst (py_methods sample_cfg file_source SinkByRow
    [PcSkip (SizeInt 1); PcRows (SizeInt (-1)); PcRows (SizeInt (2 ^ 64)); PcSkip SizeOther; PcIndex;
     PcRows (SizeInt 2); PcIndex; PcRows (SizeInt 0); PcAll; PcIndex] py_sample)
  = [Ok (PaBool true); Exn E_overflow_error; Exn E_overflow_error; Exn E_type_error; Ok (PaInt 1);
     Ok (PaBool true); Ok (PaInt 3); Ok (PaBool true); Ok PaNone; Ok (PaInt 6)]
  /\ pg_reader py_sample <> None.
Proof. vm_compute. split; [reflexivity|discriminate]. Qed.

(** C112.  R: every call with values of the types of R has one meaning, which the program
    does.  A single number asks for its whole part, from 0 (for -1 < x) below 2^64. *)
Theorem C112_calls : forall S c (src : source S) mk cls l p, rp_reader p <> None -> Forall r_call_value l ->
  exists ms, Forall2 r_means l ms /\ (forall ms', Forall2 r_means l ms' -> ms' = ms)
    /\ r_methods_of c src mk cls l p = follow (r_act c src mk cls) r_at ms p.
Proof. exact r_numbers. Qed.
Print Assumptions C112_calls.

(** The Reader and the sink are left as by the operations alone. *)
Theorem C112_state : forall S c (src : source S) mk cls l ms r a t r' a', Forall2 r_means l ms ->
  drive c src (r_class_sink mk cls) (asked_ops ms) r a = (t, r', a') ->
  snd (r_methods_of c src mk cls l (RProgram (Some r) a)) = RProgram (Some r') a'.
Proof. exact r_state. Qed.
Print Assumptions C112_state.

(** An index below 2^53 comes back as the number it is, and stands for itself when given to
    skip or read_rows. *)
Theorem C112_index : forall S (p : r_program S) i, current_row_index (rp_reader p) = i -> i < 2 ^ 53 ->
  exists b, r_at p = RaNum b /\ double_value b (inject_Z (Z.of_N i))
    /\ r_means (RcSkip (RDoubles [b])) (MeansOp (OpSkip i))
    /\ r_means (RcRows (RDoubles [b])) (MeansOp (OpReadRows i)).
Proof. exact r_index_back. Qed.
Print Assumptions C112_index.

(** The chunk_size of a SinkByChunk is converted in the same way; the other classes have
    none. *)
Theorem C112_chunk_size : forall c first fs mk cls x n file inc exc, num_means x OpSkip (MeansOp (OpSkip n)) ->
  r_read_sized c first fs mk cls x file inc exc
  = r_read_args c first fs mk cls match cls with RSinkByChunk => n | _ => 0 end file inc exc.
Proof. exact r_chunk_size. Qed.
Print Assumptions C112_chunk_size.

(** Those do not look at it, whatever it is; a SinkByChunk refuses what is no number of rows, and
    then there is no Reader. *)
Theorem C112_no_chunk_size : forall c first fs mk cls x file inc exc, cls <> RSinkByChunk ->
  r_read_sized c first fs mk cls x file inc exc = r_read_args c first fs mk cls 0 file inc exc.
Proof. exact r_no_chunk_size. Qed.
Print Assumptions C112_no_chunk_size.

Theorem C112_chunk_refused : forall c first fs mk x e file name inc exc, num_means x OpSkip (MeansError e) ->
  r_file_name file = Ok name ->
  r_read_sized c first fs mk RSinkByChunk x file inc exc = (Exn e, r_nothing).
Proof. exact r_chunk_refused. Qed.
Print Assumptions C112_chunk_refused.

Definition r_sample : r_program fstate :=
  snd (r_open sample_cfg file_source (fun l => l) RSinkWholeData 0 (fun _ => true) (file_open sample_file)).

(** The bits of 2.75, -0.5, -1. *)
Definition two_and_more : N := 1024 * 2 ^ 52 + 3 * 2 ^ 49.
Definition minus_half : N := 2 ^ 63 + 1022 * 2 ^ 52.
Definition minus_one : N := 2 ^ 63 + 1023 * 2 ^ 52.

Example C112_case :
  fst (r_methods_of sample_cfg file_source (fun l => l) RSinkWholeData
    [RcSkip (RDoubles [two_and_more]); RcIndex; RcRows (RInts [Some 1%Z]); RcIndex; RcRows (RDoubles []);
     RcRows (ROther 1); RcSkip (RDoubles [minus_half]); RcSkip (RLogicals [Some true]); RcIndex] r_sample)
  = [Ok (RaBool true); Ok (RaNum (1024 * 2 ^ 52)); Ok (RaBool true); Ok (RaNum (1024 * 2 ^ 52 + 2 ^ 51));
     Exn E_r_single; Exn E_r_compatible; Ok (RaBool true); Ok (RaBool true); Ok (RaNum (1025 * 2 ^ 52))]
  /\ rp_reader r_sample <> None.
Proof. vm_compute. split; [reflexivity|discriminate]. Qed.

(** The number 2.75 and its meaning. *)
Example C112_meaning : num_means (RDoubles [two_and_more]) OpSkip (MeansOp (OpSkip 2)).
Proof.
  apply (num_fits _ (11 # 4)).
  - constructor. exists 0, 1024, (3 * 2 ^ 49). repeat split; reflexivity.
  - split; [reflexivity|]. left. split; [vm_compute; discriminate|reflexivity].
Qed.

(** A chunk_size which is a character vector. *)
Example C112_chunk_case :
  num_means (ROther 1) OpSkip (MeansError E_r_compatible)
  /\ r_file_name (RArgChars [Some (bs "a.sas7bdat")]) = Ok (bs "a.sas7bdat").
Proof. split; [constructor|reflexivity]. Qed.

(** False: every number given to skip is skipped or refused.  skip(-1), skip(NA) and
    read_rows(NaN) are undefined; so is a SinkByChunk with chunk_size = -1, before the file is
    looked at.  Python refuses -1. *)
Theorem C112_refusing_refuted : exists x p c0 first fs file,
  r_single x (Some (inject_Z (-1)))
  /\ rp_reader p <> None
  /\ fst (r_methods_of sample_cfg file_source (fun l => l) RSinkWholeData [RcSkip x; RcIndex] p) = [Undef UB_overflow]
  /\ fst (r_methods_of sample_cfg file_source (fun l => l) RSinkWholeData [RcSkip (RInts [None])] p) = [Undef UB_overflow]
  /\ fst (r_methods_of sample_cfg file_source (fun l => l) RSinkWholeData [RcRows (RDoubles [na_real])] p)
     = [Undef UB_overflow]
  /\ fst (r_read_sized c0 first fs (fun l => l) RSinkByChunk x file RArgNull RArgNull) = Undef UB_overflow.
Proof.
  exists (RDoubles [minus_one]), r_sample, sample_cfg, true, [], (RArgChars [Some (bs "a")]).
  split. { constructor. exists 1, 1023, 0. repeat split; reflexivity. }
  split. { vm_compute. discriminate. }
  repeat split; vm_compute; reflexivity.
Qed.
Print Assumptions C112_refusing_refuted.

(** False: a chunk_size which is not 0 gives chunks.  0.5 is 0: the rows are kept in chunks of
    no row as with chunk_size = 0. *)
Definition half : N := 1022 * 2 ^ 52.
Theorem C112_half_refuted : exists x q, r_single x (Some q) /\ (0 < q)%Q
  /\ r_size x = Ok 0
  /\ (forall c first fs mk file inc exc,
        r_read_sized c first fs mk RSinkByChunk x file inc exc = r_read_args c first fs mk RSinkByChunk 0 file inc exc).
Proof.
  exists (RDoubles [half]), (1 # 2).
  assert (V : double_value half (1 # 2)) by (exists 0, 1022, 0; repeat split; reflexivity).
  split; [constructor; exact V|]. split; [reflexivity|]. split; [vm_compute; reflexivity|].
  intros c first fs mk file inc exc. apply (r_chunk_size c first fs mk RSinkByChunk _ 0). apply (num_fits _ (1 # 2)); [constructor; exact V|].
  split; [reflexivity|]. left. split; [vm_compute; discriminate|reflexivity].
Qed.
Print Assumptions C112_half_refuted.
