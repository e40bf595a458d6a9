(** Properties of the reader over every history of calls (C32 to C41). *)
From Verif Require Import Base Types Buffer Page Column Header Metadata Decomp Data Reader
  SpecDecomp SpecReader SpecFile Samples ProofReader.
Local Open Scope N_scope.

(** The hypothesis [max_alloc c < row_limit] says that an allocation is smaller
    than the address space; it is met by every real machine and by the
    configuration of the examples. *)
Example real_machine : max_alloc sample_cfg < row_limit.
Proof. vm_compute. reflexivity. Qed.

(** C32.  Over every history every call consumes the next rows, with
    consecutive indices. *)
Theorem C32_rows_numbered : forall S c (src : source S) flt s r0 ops t r,
  max_alloc c < row_limit -> opened c src flt s r0 ->
  trace c src ops (Some r0) = (t, r) -> numbered 0 t (current_row_index r).
Proof. exact history_numbered. Qed.
Print Assumptions C32_rows_numbered.

Example C32_case : sample_trace sample_file
    [OpReadRow; OpSkip 1; OpReadRows 2; OpNoSink; OpReadAll; OpReadRow]
  = ([(Ok (OBool true), [(0, bs "AAAAAAAAabcd")], 0);
      (Ok (OBool true), [], 0);
      (Ok (OBool true), [(2, bs "CCCCCCCCijkl"); (3, bs "DDDDDDDDmnop")], 0);
      (Ok (OPtr (Some (PView [] 0))), [], 0);
      (Ok OUnit, [(5, bs "FFFFFFFFuvwx")], 1);
      (Ok (OBool false), [], 1)], 6).
Proof. vm_compute. reflexivity. Qed.

(** C33. *)
Theorem C33_at_most_row_count : forall S c (src : source S) flt s r0 ops t r,
  max_alloc c < row_limit -> opened c src flt s r0 ->
  trace c src ops (Some r0) = (t, r) ->
  current_row_index r <= md_row_count (rs_md r0)
  /\ lenN (rows_of (all_events t)) <= md_row_count (rs_md r0).
Proof. exact history_bounded. Qed.
Print Assumptions C33_at_most_row_count.

(** A file which holds more rows than it announces. *)
Example C33_case :
  let t := Table sample_fields 12 [] [[bs "AAAAAAAAabcd"]; [bs "BBBBBBBBefgh"]] in
  let content := header_bytes Big Bit32 false 320 800 3 (bs "S")
    ++ page_bytes Big Bit32 800 0 0 (description Big Bit32 [] sample_fields 12 1 0) []
    ++ concat (map (data_page Big Bit32 800) (t_pages t)) in
  sample_trace content [OpReadAll; OpReadAll]
  = ([(Ok OUnit, [(0, bs "AAAAAAAAabcd")], 1); (Ok OUnit, [], 1)], 1).
Proof. vm_compute. reflexivity. Qed.

(** C34. *)
Theorem C34_read_rows_is_read_row_times : forall S c (src : source S) k r,
  read_rows c src k r = read_row_times c src k r.
Proof. exact read_rows_times. Qed.
Print Assumptions C34_read_rows_is_read_row_times.

Theorem C34_read_rows_sum : forall S c (src : source S) a b r,
  read_rows c src (a + b) r
  = match read_rows c src a r with
    | (Ok true, r1, ev) => let '(x, r2, ev') := read_rows c src b r1 in (x, r2, ev ++ ev')
    | other => other
    end.
Proof. exact read_rows_plus. Qed.
Print Assumptions C34_read_rows_sum.

Theorem C34_read_rows_true_iff : forall S c (src : source S) flt s r k x r' ev,
  max_alloc c < row_limit -> reachable c src flt s r ->
  read_rows c src k r = (x, r', ev) -> defined x = true ->
  (x = Ok true <-> length (rows_of ev) = k).
Proof.
  exact (fun S c src flt s r k x r' ev M R =>
           read_rows_true S c src k r x r' ev (reachable_wf S c src flt s r M R)).
Qed.
Print Assumptions C34_read_rows_true_iff.

(** read_all is read_rows of any number larger than the rows which are left; in
    particular the number of turns granted to its loop by the model is enough. *)
Theorem C34_read_all : forall S c (src : source S) flt s r k,
  max_alloc c < row_limit -> reachable c src flt s r ->
  md_row_count (rs_md r) - current_row_index (Some r) < N.of_nat k ->
  exists x r' ev, read_rows c src k r = (x, r', ev) /\ x <> Ok true
  /\ read_all c src r
     = (match x with Ok _ => Ok tt | Exn e => Exn e | Abort => Abort | Undef u => Undef u
                | Fuel => Fuel end, r', ev).
Proof.
  exact (fun S c src flt s r k M R =>
           read_all_is_read_rows S c src r k (reachable_wf S c src flt s r M R)).
Qed.
Print Assumptions C34_read_all.

Example C34_case : sample_trace sample_file [OpReadRows 3; OpReadRows 0; OpReadRows 4]
  = ([(Ok (OBool true),
       [(0, bs "AAAAAAAAabcd"); (1, bs "BBBBBBBBefgh"); (2, bs "CCCCCCCCijkl")], 0);
      (Ok (OBool true), [], 0);
      (Ok (OBool false),
       [(3, bs "DDDDDDDDmnop"); (4, bs "EEEEEEEEqrst"); (5, bs "FFFFFFFFuvwx")], 1)], 6).
Proof. vm_compute. reflexivity. Qed.

(** C35.  [consume k] is [k] calls of read_row which ignore the rows and those
    which cannot be decompressed.  When they end in a defined way, skip(k)
    answers the same and the two readers cannot be told apart; skip tells the
    sink the end exactly when it returns false. *)
Theorem C35_skip_is_reading : forall S c (src : source S) flt s r k,
  max_alloc c < row_limit -> reachable c src flt s r ->
  let '(x, r1) := consume c src k r in
  let '(y, r2, ev) := skip c src (N.of_nat k) r in
  (defined x = true -> y = x /\ same_reader c src r1 r2)
  /\ (y = Ok true -> x = Ok true \/ defined x = false)
  /\ (y = Ok false -> x = Ok false \/ defined x = false)
  /\ ev = match y with Ok false => [EvEnd] | _ => [] end.
Proof. exact skip_reading. Qed.
Print Assumptions C35_skip_is_reading.

Example C35_case : sample_trace sample_rle [OpSkip 3; OpReadRow; OpSkip 2; OpSkip 1]
  = ([(Ok (OBool true), [], 0);
      (Ok (OBool true), [(3, bs "mnop" ++ repeat x00 8)], 0);
      (Ok (OBool false), [], 1);
      (Ok (OBool false), [], 1)], 5)
  /\ match reader_of sample_cfg sample_rle with
     | Some r => fst (consume sample_cfg file_source 3 r) = Ok true
     | None => False
     end.
Proof. vm_compute. split; reflexivity. Qed.

(** C36.  Same bytes (the pointer is the same), same reader afterwards, null
    exactly when read_row returns false; the model of read_row_no_sink makes no
    call to the sink. *)
Theorem C36_no_sink : forall S c (src : source S) r,
  let '(x, r1, ev) := read_row c src r in
  let '(y, r2) := read_row_no_sink c src r in
  r1 = r2 /\
  match y with
  | Ok (Some p) => x = Ok true /\ ev = [EvRow (current_row_index (Some r)) p]
  | Ok None => x = Ok false /\ ev = [EvEnd]
  | Exn e => x = Exn e /\ ev = []
  | Abort => x = Abort /\ ev = []
  | Undef u => x = Undef u /\ ev = []
  | Fuel => x = Fuel /\ ev = []
  end.
Proof. exact no_sink_same. Qed.
Print Assumptions C36_no_sink.

Example C36_case :
  match reader_of sample_cfg sample_file with
  | Some r =>
      match read_row_no_sink sample_cfg file_source r with
      | (Ok (Some p), _) => row_text 12 p = bs "AAAAAAAAabcd"
      | _ => False
      end
  | None => False
  end.
Proof. vm_compute. reflexivity. Qed.

(** C37.  After a call which reports the end every further history gives the
    answers of the end and leaves the reader as it is. *)
Theorem C37_end_is_final : forall S c (src : source S) flt s r o x r' ev ops,
  max_alloc c < row_limit -> reachable c src flt s r ->
  step c src o r = (x, r', ev) -> reports_end o x = true ->
  trace c src ops (Some r')
  = (map (fun o => (o, Ok (end_answer o), end_events o)) ops, Some r').
Proof.
  exact (fun S c src flt s r o x r' ev ops M R =>
           end_is_final S c src o r x r' ev ops (reachable_wf S c src flt s r M R)).
Qed.
Print Assumptions C37_end_is_final.

Example C37_case : sample_trace sample_file
    [OpSkip 7; OpReadRow; OpReadRows 2; OpSkip 1; OpNoSink; OpReadAll; OpReadRows 0]
  = ([(Ok (OBool false), [], 1); (Ok (OBool false), [], 1); (Ok (OBool false), [], 1);
      (Ok (OBool false), [], 1); (Ok (OPtr None), [], 0); (Ok OUnit, [], 1);
      (Ok (OBool true), [], 0)], 6).
Proof. vm_compute. reflexivity. Qed.

(** C38.  The properties given to the sink are those of the Reader and stay so. *)
Theorem C38_properties_constant : forall S c (src : source S) flt s r0 ops t r,
  max_alloc c < row_limit -> opened c src flt s r0 ->
  trace c src ops (Some r0) = (t, r) -> properties r = properties (Some r0).
Proof. exact properties_constant. Qed.
Print Assumptions C38_properties_constant.

(** C38.  The constructor gives the properties, once; a call gives rows (only
    the three reading calls do), then the end, exactly when it reports the end
    (or is end_of_data). *)
Theorem C38_properties_first : forall S c (src : source S) flt s r ev,
  open_reader c src flt s = Ok (r, ev) -> ev = [EvProps (rs_h r) (rs_md r)].
Proof. exact open_events. Qed.
Print Assumptions C38_properties_first.

Theorem C38_call : forall S c (src : source S) flt s r o x r' ev,
  max_alloc c < row_limit -> reachable c src flt s r ->
  step c src o r = (x, r', ev) ->
  exists rows, ev = rows ++ (if tells_end o x then [EvEnd] else [])
    /\ Forall (fun e => is_row e = true) rows /\ (pushes o = false -> rows = []).
Proof.
  exact (fun S c src flt s r o x r' ev M R =>
           step_protocol S c src o r x r' ev (reachable_wf S c src flt s r M R)).
Qed.
Print Assumptions C38_call.

Example C38_case : sample_trace sample_file [OpEnd; OpReadRows 6; OpEnd; OpReadRow]
  = ([(Ok OUnit, [], 1);
      (Ok (OBool true),
       [(0, bs "AAAAAAAAabcd"); (1, bs "BBBBBBBBefgh"); (2, bs "CCCCCCCCijkl");
        (3, bs "DDDDDDDDmnop"); (4, bs "EEEEEEEEqrst"); (5, bs "FFFFFFFFuvwx")], 0);
      (Ok OUnit, [], 1); (Ok (OBool false), [], 1)], 6).
Proof. vm_compute. reflexivity. Qed.

(** C39 does not hold: a caller who asks again after the end has the sink told
    again. *)
Theorem C39_end_told_once_refuted : exists content r0 t r,
  opened sample_cfg file_source None (file_open content) r0
  /\ trace sample_cfg file_source [OpReadAll; OpReadRow] (Some r0) = (t, r)
  /\ filter is_end (all_events t) = [EvEnd; EvEnd].
Proof. exact end_told_twice. Qed.
Print Assumptions C39_end_told_once_refuted.

(** C39, what holds: up to the first call which reports the end, the sink is told
    at most once (by that call), if end_of_data is not called. *)
Theorem C39_end_told_once_partial : forall S c (src : source S) flt s r0 ops t r,
  max_alloc c < row_limit -> opened c src flt s r0 ->
  trace c src ops (Some r0) = (t, r) ->
  Forall (fun x => fst (fst x) <> OpEnd) t ->
  Forall (fun x => reports_end (fst (fst x)) (snd (fst x)) = false) (removelast t) ->
  (length (filter is_end (all_events t)) <= 1)%nat.
Proof. exact end_told_once. Qed.
Print Assumptions C39_end_told_once_partial.

Example C39_case :
  let '(t, _) := trace sample_cfg file_source [OpReadRow; OpSkip 2; OpReadAll]
                   (reader_of sample_cfg sample_file) in
  length t = 3%nat
  /\ map (fun x => reports_end (fst (fst x)) (snd (fst x))) t = [false; false; true]
  /\ length (filter is_end (all_events t)) = 1%nat.
Proof. vm_compute. auto. Qed.

(** C40. *)
Theorem C40_empty_reader : forall S c (src : source S) ops,
  trace c src ops None
  = (map (fun o => (o, Ok (match o with
                           | OpReadRow | OpReadRows _ | OpSkip _ => OBool false
                           | OpReadAll | OpEnd => OUnit
                           | OpNoSink => OPtr None
                           end), [])) ops, None)
  /\ current_row_index (@None (rstate S)) = 0
  /\ md_row_count (snd (properties (@None (rstate S)))) = 0
  /\ md_columns (snd (properties (@None (rstate S)))) = [].
Proof. exact (fun S c src ops => conj (empty_inert S c src ops) (conj eq_refl (conj eq_refl eq_refl))). Qed.
Print Assumptions C40_empty_reader.

Example C40_case : fst (trace sample_cfg file_source [OpReadRow; OpNoSink] None)
  = [(OpReadRow, Ok (OBool false), []); (OpNoSink, Ok (OPtr None), [])].
Proof. reflexivity. Qed.

(** C41. *)
Theorem C41_failed_row : forall S c (src : source S) flt s r r1 ev,
  max_alloc c < row_limit -> reachable c src flt s r ->
  read_row c src r = (Exn E_cannot_decompress, r1, ev) ->
  ev = [] /\ current_row_index (Some r1) = current_row_index (Some r) + 1
  /\ exists r2, skip c src 1 r = (Ok true, r2, []) /\ same_reader c src r1 r2.
Proof.
  exact (fun S c src flt s r r1 ev M R =>
           failed_row_is_skipped S c src r r1 ev (reachable_wf S c src flt s r M R)).
Qed.
Print Assumptions C41_failed_row.

Example C41_case : sample_trace sample_rle [OpReadRow; OpReadRow; OpReadRow]
  = ([(Ok (OBool true), [(0, bs "abcd" ++ repeat x20 4 ++ bs "xyz" ++ [x00])], 0);
      (Exn E_cannot_decompress, [], 0);
      (Ok (OBool true), [(2, bs "CCCCCCCCijkl")], 0)], 3).
Proof. vm_compute. reflexivity. Qed.
