(** The reader with a sink which may fail (C77, C78). *)
From Coq Require Import Sorted.
From Verif Require Import Base Types Buffer Page Column Header Metadata Decomp Data Reader Drive
  SpecDecomp SpecReader SpecDrive SpecFile Samples ProofDrive ProofPython.
Local Open Scope N_scope.

(** C77.  A call acts on the sink by the callbacks it makes.  Either all of them return,
    and the call does what it does with a sink which never fails; or the last one fails:
    the call ends at once with that failure, the callbacks are the first ones of the
    call with a sink which never fails, and the reader is where it is after reading the
    rows given, the refused one among them. *)
Theorem C77_call : forall S A c (src : source S) (k : sink A) o r a x r' a' ev x0 r0 ev0,
  drive_step c src k o r a = (x, r', a', ev) -> step c src o r = (x0, r0, ev0) ->
  a' = after k a ev /\
  ((accepts k a ev /\ x = x0 /\ r' = r0 /\ ev = ev0)
   \/ exists before e rest y, ev = before ++ [e] /\ ev0 = ev ++ rest
      /\ refuses k a before e y /\ same_failure y x
      /\ ((e = EvEnd /\ rest = [] /\ r' = r0)
          \/ (is_row e = true /\ read_rows c src (length ev) r = (Ok true, r', ev)))).
Proof. exact drive_call. Qed.
Print Assumptions C77_call.

(** A refused row is behind the reader: it is not given again. *)
Theorem C77_refused_row_is_consumed : forall S A c (src : source S) (k : sink A) flt s o r a x r' a' before i p y,
  max_alloc c < row_limit -> reachable c src flt s r ->
  drive_step c src k o r a = (x, r', a', before ++ [EvRow i p]) ->
  refuses k a before (EvRow i p) y -> current_row_index (Some r') = i + 1 /\ same_failure y x.
Proof. exact refused_consumed. Qed.
Print Assumptions C77_refused_row_is_consumed.

(** Over every history of calls, the client catching the exceptions or not, no row is
    given twice and none after a later one. *)
Theorem C77_rows_increase : forall S A c (src : source S) flt s (k : sink A) r0 a ops t r a',
  max_alloc c < row_limit -> opened c src flt s r0 ->
  drive c src k ops r0 a = (t, r, a') ->
  StronglySorted N.lt (indices (calls_made t))
  /\ Forall (fun i => i < current_row_index (Some r)) (indices (calls_made t))
  /\ current_row_index (Some r) <= md_row_count (rs_md r0).
Proof. exact drive_increasing. Qed.
Print Assumptions C77_rows_increase.

(** With a sink which never fails the histories are those of C32 to C41. *)
Theorem C77_quiet_sink : forall S A c (src : source S) (k : sink A) ops r a t r', quiet k ->
  trace c src ops (Some r) = (t, Some r') ->
  drive c src k ops r a = (t, r', after k a (calls_made t)).
Proof. exact quiet_history. Qed.
Print Assumptions C77_quiet_sink.

(** A sink which keeps the row numbers and end notes; it refuses row 1 and the first
    end. *)
Definition picky : sink (list N) := fun ev l =>
  match ev with
  | EvRow i _ => (if i =? 1 then Exn (E_client 9) else Ok tt, l ++ [i])
  | EvEnd => (if existsb (N.eqb 100) l then Ok tt else Exn (E_client 8), l ++ [100])
  | EvProps _ _ => (Ok tt, l)
  end.

Definition driven (content : bytes) (ops : list op) :=
  match reader_of sample_cfg content with
  | Some r => let '(t, r', l) := drive sample_cfg file_source picky ops r [] in
              Some (map (fun x => snd (fst x)) t, current_row_index (Some r'), l)
  | None => None
  end.

(** read_all fails at row 1 and is called again: rows 2 to 5 follow, and the end, which
    is refused; then a third time. *)
Example C77_case :
  driven sample_file [OpReadAll] = Some ([Exn (E_client 9)], 2, [0; 1])
  /\ driven sample_file [OpReadAll; OpReadRows 2; OpReadAll; OpReadAll]
     = Some ([Exn (E_client 9); Ok (OBool true); Exn (E_client 8); Ok OUnit], 6,
             [0; 1; 2; 3; 4; 5; 100; 100])
  /\ max_alloc sample_cfg < row_limit.
Proof. vm_compute. auto. Qed.

(** Row 1 is the refused one of C77_refused_row_is_consumed. *)
Example C77_refused_case : exists r x r' a' before p,
  reachable sample_cfg file_source None (file_open sample_file) r
  /\ drive_step sample_cfg file_source picky OpReadAll r [] = (x, r', a', before ++ [EvRow 1 p])
  /\ refuses picky [] before (EvRow 1 p) (Exn (E_client 9)).
Proof.
  destruct (reader_of sample_cfg sample_file) as [r|] eqn:R; [|vm_compute in R; discriminate].
  vm_compute in R. injection R as <-.
  eexists _, _, _, _, [EvRow 0 _], _. split.
  - eexists _, [], []. split; [|reflexivity]. apply reader_of_opened. vm_compute. reflexivity.
  - split; [vm_compute; reflexivity|]. vm_compute. intuition discriminate.
Qed.

(** C78.  The constructor calls the sink once, with set_properties, when the header, the
    metadata and the first page have been read, and not at all when one of these fails;
    a failure of the callback is the failure of the constructor. *)
Theorem C78_constructor : forall S A c (src : source S) (k : sink A) flt s a,
  drive_open c src k flt s a
  = match open_reader c src flt s with
    | Ok (r, _) =>
        let e := EvProps (rs_h r) (rs_md r) in
        (rmap (fun _ => r) (fst (k e a)), snd (k e a), [e])
    | Exn e => (Exn e, a, [])
    | Abort => (Abort, a, [])
    | Undef u => (Undef u, a, [])
    | Fuel => (Fuel, a, [])
    end.
Proof. exact drive_open_spec. Qed.
Print Assumptions C78_constructor.

(** A sink which refuses files with more than five rows. *)
Definition few : sink N := fun ev n =>
  match ev with
  | EvProps _ md => (if 5 <? md_row_count md then Exn (E_client 7) else Ok tt, n + 1)
  | _ => (Ok tt, n)
  end.
Example C78_case :
  (let '(x, n, ev) := drive_open sample_cfg file_source few None (file_open sample_file) 0 in
   (match x with Exn e => Some e | _ => None end, n, length ev)) = (Some (E_client 7), 1, 1%nat)
  /\ (let '(x, n, ev) := drive_open sample_cfg file_source few None (file_open (firstn 200 sample_file)) 0 in
   (match x with Ok _ => true | _ => false end, n, length ev)) = (false, 0, 0%nat).
Proof. vm_compute. auto. Qed.
