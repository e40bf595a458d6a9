(** The Python objects of dates, datetimes and times (C94), and the references to None (C95);
    the rows which the Python row sink tells (C61). *)
From Verif Require Import PyObjects Base Types DateTime Buffer Page Column Header Metadata Reader Drive Sinks
  Callbacks Python SpecReader SpecDrive SpecTime SpecSinks SpecCallbacks SpecFile SpecRoundtrip SpecCells SpecTable
  SpecUtf8 SpecPyObjects SpecPython Samples
  ProofUtf8 ProofCalendar ProofPyObjects ProofPyFile ProofPyNames ProofPyDates PropSinks PropCells PropPython.
Local Open Scope Z_scope.

(** C94.  Every value within the calendar becomes the object with the same date and time,
    None when it is missing; two values never become the same object, except None. *)
Theorem C94_object : forall v, in_calendar v -> exists x, to_py v = Ok x /\ shown_as v x.
Proof. exact calendar_shown. Qed.
Print Assumptions C94_object.

Theorem C94_distinct : forall v w x, in_calendar v -> in_calendar w -> x <> PvNone ->
  to_py v = Ok x -> to_py w = Ok x -> v = w.
Proof. exact shown_back. Qed.
Print Assumptions C94_distinct.

(** The dates a reader gives are within it; its times never become a timedelta, and a
    negative one raises ValueError. *)
Theorem C94_dates : forall c p g, cell_value c p (VDate g) -> in_calendar (VDate g).
Proof. exact cell_date. Qed.
Print Assumptions C94_dates.

Theorem C94_times : forall c p u, cell_value c p (VTime (TTicks u)) ->
  Z.abs u < day_us /\ (forall us, to_py (VTime (TTicks u)) <> Ok (PvDelta us))
  /\ (u < 0 -> to_py (VTime (TTicks u)) = Exn E_value_error).
Proof. exact time_objects. Qed.
Print Assumptions C94_times.

(** A datetime in another year (up to 20000) raises. *)
Theorem C94_unsupported : forall n t us, days_from_1960 n t -> (let '(y, _, _) := t in 0 <= y <= 20000) ->
  ~ supported t -> 0 <= us < day_us ->
  to_py (VDateTime (PTicks (jdn_1960 * day_us + n * day_us + us))) = Exn E_bad_year.
Proof. exact bad_year_full. Qed.
Print Assumptions C94_unsupported.

(** The table in Python objects, for files of known content with at least one row. *)
Theorem C94_table : forall c cls size inc exc e fields contents file, holds_table c e fields contents file ->
  NoDup (map fd_name fields) -> Forall (fun n => wanted inc exc n -> utf8_text n) (map fd_name fields) ->
  contents <> [] ->
  exists p f names contents', read_sas c file_source cls size inc exc (file_open file) = (Ok tt, p)
    /\ fst (py_df cls p) = Ok (Some f)
    /\ kept (wanted inc exc) (map fd_name fields) (map fd_name fields) names
    /\ Forall2 (kept (wanted inc exc) (map fd_name fields)) contents contents'
    /\ frame_shows names contents' f.
Proof. exact read_shown. Qed.
Print Assumptions C94_table.

(** Any object with push_rows: a row with such a datetime is never given to it, nor is any
    row behind it; the end of the data fails. *)
Theorem C94_chunks : forall P (o : pyobj P) size h md pre r post p col n t us,
  let rows := pre ++ r :: post in
  NoDup (map c_name (filter known (md_columns md))) -> readable (md_columns md) rows -> (lenN rows < W64)%N ->
  fst (o (PyProps h md) p) = Ok tt ->
  In col (md_columns md) ->
  cell_value col (snd r) (VDateTime (PTicks (jdn_1960 * day_us + n * day_us + us))) ->
  days_from_1960 n t -> (let '(y, _, _) := t in 0 <= y <= 20000) -> ~ supported t -> 0 <= us < day_us ->
  let k := chunk_sink (noted o) in
  let st := after k (chunk_start size p) (EvProps h md :: SpecSinks.pushes rows) in
  exists cks pend, rows = concat cks ++ pend
    /\ Forall2 (py_chunk (md_columns md)) cks (returned (snd (pt_obj st)))
    /\ (length (concat cks) <= length pre)%nat
    /\ fst (k EvEnd st) <> Ok tt.
Proof. exact chunks_blocked. Qed.
Print Assumptions C94_chunks.

Definition objects (x : res (option frame)) : res (list (list (res pyvalue))) :=
  match x with
  | Ok (Some f) => Ok (map (fun col => map (fun v => match v with Some v => to_py v | None => Exn E_value_error end) (snd col)) f)
  | Ok None => Ok []
  | Exn e => Exn e
  | Abort => Abort
  | Undef u => Undef u
  | Fuel => Fuel
  end.

(** The dates and times of the people. *)
Example C94_case :
  objects (df_of SinkByChunk 4 (Some [bs "BORN"; bs "SEEN"; bs "AT"]) None people_file)
  = Ok [[Ok (PvDate 1960 1 2); Ok PvNone]; [Ok (PvDateTime 1960 1 2 0 0 0 250000); Ok PvNone];
        [Ok (PvTime 0 0 0 100000); Ok PvNone]]
  /\ in_calendar (VTime (TTicks (day_us - 1))) /\ to_py (VTime (TTicks (day_us - 1))) = Ok (PvTime 23 59 59 999999).
Proof. split; [vm_compute; reflexivity|]. split; [vm_compute; split; [discriminate|reflexivity]|vm_compute; reflexivity]. Qed.

(** The first second of the year 10000. *)
Lemma year_10000 : days_from_1960 2936550 (10000, 1, 1).
Proof.
  change 2936550 with (2936549 + 1). change (10000, 1, 1) with (next_day (9999, 12, 31)).
  apply day_after; [lia|]. apply days_from_jdn; [vm_compute; intuition discriminate|vm_compute; intuition discriminate|reflexivity].
Qed.

Definition late_row : N * pview :=
  (2%N, PView (map Some (SpecValues.write_int Big 8 4777625834187915264)) 0).
Definition early_rows : list (N * pview) :=
  [(0%N, PView (map Some (SpecValues.write_int Big 8 0)) 0); (1%N, PView (map Some (SpecValues.write_int Big 8 0)) 0)].
Definition seen_column : column := Column (bs "SEEN") [] [] (Formatter FDateTime 0 8 Big).
Definition seen : list column := [seen_column].

(** Two rows of 1960, that one, two rows of 1960: the first two are given. *)
Example C94_chunks_case :
  let rows := early_rows ++ late_row :: early_rows in
  readable seen rows
  /\ cell_value seen_column (snd late_row)
       (VDateTime (PTicks (jdn_1960 * day_us + 2936550 * day_us + 0)))
  /\ ~ supported (10000, 1, 1)
  /\ let k := chunk_sink (noted (fun _ (n : nat) => (Ok tt, S n))) in
     let st n := after k (chunk_start 2 O) (EvProps empty_header (ex_meta 5 seen) :: SpecSinks.pushes (firstn n rows)) in
     length (returned (snd (pt_obj (st 5%nat)))) = 1%nat
     /\ map (fun n => fst (k (EvRow 0 (snd late_row)) (st n))) [0; 1; 2; 3; 4]%nat
        = [Ok tt; Exn E_bad_year; Ok tt; Exn E_bad_year; Ok tt]
     /\ fst (k EvEnd (st 5%nat)) = Exn E_bad_year.
Proof.
  split.
  { repeat (constructor; [repeat constructor; intros _; eexists (VDateTime _); split; [reflexivity|vm_compute; reflexivity]|]).
    constructor. }
  split; [split; [reflexivity|vm_compute; reflexivity]|].
  split; [vm_compute; intuition discriminate|]. vm_compute. auto.
Qed.

(** False of a file with such a datetime: the reader gives all rows to a C++ sink, the
    Python package none. *)
Definition late_file : bytes :=
  file_bytes Big Bit32 false 320 800 (bs "LATE")
    (Table [FieldDesc (bs "SEEN") [] (bs "DATETIME") 0 8 true] 8
       [SpecValues.write_int Big 8 0; SpecValues.write_int Big 8 4777625834187915264] []).

Theorem C94_all_read_refuted : exists file r0 ev r1 rows,
  open_reader sample_cfg file_source (Some (py_filter None None)) (file_open file) = Ok (r0, ev)
  /\ read_all sample_cfg file_source r0 = (Ok tt, r1, SpecSinks.pushes rows ++ [EvEnd])
  /\ readable (md_columns (rs_md r0)) rows /\ length rows = 2%nat
  /\ forall cls, fst (read_sas sample_cfg file_source cls 4 None None (file_open file)) = Exn E_bad_year.
Proof.
  exists late_file.
  destruct (open_reader sample_cfg file_source (Some (py_filter None None)) (file_open late_file))
    as [[r0 ev]| | | |] eqn:O; try (vm_compute in O; discriminate O).
  exists r0, ev. vm_compute in O. injection O as <- <-.
  eexists. eexists [(_, _); (_, _)]. split; [reflexivity|]. split; [vm_compute; reflexivity|].
  split; [|split; [reflexivity|intros []; vm_compute; reflexivity]].
  repeat (constructor; [repeat constructor; intros _; eexists (VDateTime _); split; [reflexivity|vm_compute; reflexivity]|]).
  constructor.
Qed.
Print Assumptions C94_all_read_refuted.

(** C95.  Each missing date, datetime or time which was put in a list and freed with it
    takes a reference to None away; when there is none left the interpreter stops. *)
Theorem C95_count : forall lists count, 0 < count ->
  none_count count lists
  = if missing_dates lists <? count then Ok (count - missing_dates lists) else Abort.
Proof. exact none_lost. Qed.
Print Assumptions C95_count.

(** Lists without them leave the count. *)
Example C95_case :
  none_count 4 [[VTime (TTicks 5); VTime NotATime]; [VNumber 0; VString []]] = Ok 3
  /\ none_count 4 [[VTime (TTicks 5); VTime (TTicks 6)]; [VNumber 0; VString []]] = Ok 4.
Proof. split; reflexivity. Qed.

(** False that the count stays: with a file. *)
Theorem C95_stays_refuted : exists count file f,
  df_of SinkByChunk 4 None None file = Ok (Some f)
  /\ let lists := map (fun col => flat_map (fun v => match v with Some v => [v] | None => [] end) (snd col)) f in
     none_count count lists = Ok (count - 3) /\ none_count 3 lists = Abort.
Proof. exists 10, people_file. eexists. split; [vm_compute; reflexivity|]. vm_compute. auto. Qed.
Print Assumptions C95_stays_refuted.

(** C61, the row sink: the object is told each row which is pushed, once and in order, with
    its index and the values of its columns, also when push_row raises and the program
    reads on. *)
Theorem C61_rows : forall P (o : pyobj P) size h md rows p, showable (md_columns md) rows ->
  fst (o (PyProps h md) p) = Ok tt ->
  let k := row_sink (noted o) in
  let st := after k (chunk_start size p) (EvProps h md :: pushes rows) in
  fst (k EvEnd st) = Ok tt /\
  exists log, snd (pt_obj st) = (PyProps h md, Ok tt) :: log
    /\ Forall2 (fun r x => exists vs, fst x = PyCall (PyPushRow (fst r) vs)
                  /\ Forall2 (fun c v => cell_value c (snd r) v) (filter known (md_columns md)) vs) rows log.
Proof. exact rows_told. Qed.
Print Assumptions C61_rows.

Example C61_rows_hypotheses : showable ex_columns ex_rows.
Proof.
  assert (S : forall c p s, c_type c = TString /\ c_get_string c p = Ok s -> exists v, cell_value c p v /\ in_calendar v)
    by (intros c p s H; exists (VString s); split; [exact H|exact Logic.I]).
  assert (J : forall c p z, c_type c = TInteger /\ c_get_integer c p = Ok z -> exists v, cell_value c p v /\ in_calendar v)
    by (intros c p z H; exists (VInteger z); split; [exact H|exact Logic.I]).
  repeat (constructor; [constructor; [intros _; eapply S; split; [reflexivity|vm_compute; reflexivity]|
    constructor; [intros _; eapply J; split; [reflexivity|vm_compute; reflexivity]|constructor]]|]). constructor.
Qed.

(** An object whose push_row raises for the second row. *)
Definition raising_once : pyobj nat := fun q n =>
  match q with
  | PyCall _ => (if Nat.eqb n 1 then Exn (E_client 9) else Ok tt, S n)
  | _ => (Ok tt, n)
  end.

Example C61_rows_case :
  snd (pt_obj (after (row_sink (noted raising_once)) (chunk_start 0 0%nat)
    (EvProps empty_header (ex_meta 3 ex_columns) :: pushes ex_rows)))
  = [(PyProps empty_header (ex_meta 3 ex_columns), Ok tt);
     (PyCall (PyPushRow 0 [VString (bs "a,b"); VInteger 7]), Ok tt);
     (PyCall (PyPushRow 1 [VString []; VInteger 0]), Exn (E_client 9));
     (PyCall (PyPushRow 2 [VString (bs "xyz"); VInteger 255]), Ok tt)].
Proof. vm_compute. reflexivity. Qed.
