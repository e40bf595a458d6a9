(** C09..C11: the end of a source, sources which fail, termination. *)
From Verif Require Import Base Types Buffer Page Column Header Metadata Decomp Data Reader
  SpecBuffer SpecDecomp ProofBuffer SpecReader SpecFile Samples SpecSource ProofReader ProofSource ProofFinite.
Local Open Scope N_scope.

(** The loops of the code which read page after page have no bound; in the model
    they make at most [page_fuel] turns and then answer [Fuel].  A run which ends
    is one which does not answer [Fuel] for a large enough [page_fuel]. *)

(** C09 does not hold: with a page length of zero the constructor never returns,
    whatever the number of turns, in release and in debug builds. *)
Theorem C09_terminates_refuted : exists content, forall nd k,
  open_reader (Cfg nd 100000 k) file_source None (file_open content) = Fuel.
Proof. exact (ex_intro _ zero_page_file endless). Qed.
Print Assumptions C09_terminates_refuted.

(** C09, what holds: a file with a non zero page length is opened (or refused) and
    every later call returns, in fewer turns than the file has bytes.  Missing:
    page length zero. *)
Theorem C09_file_terminates_partial : forall c flt content,
  max_alloc c < row_limit -> (length content < page_fuel c)%nat ->
  (forall h s b, open_header c file_source (file_open content) = Ok (h, s, b) ->
     0 < h_page_length h) ->
  open_reader c file_source flt (file_open content) <> Fuel
  /\ forall r ops, opened c file_source flt (file_open content) r ->
     Forall (fun t => snd (fst t) <> Fuel) (fst (trace c file_source ops (Some r))).
Proof. exact file_ends. Qed.
Print Assumptions C09_file_terminates_partial.

(** C09 for any source which delivers at most [n] pages. *)
Theorem C09_source_terminates_partial : forall S c (src : source S) flt s h s1 b n,
  max_alloc c < row_limit ->
  open_header c src s = Ok (h, s1, b) -> at_most src (h_page_length h) n s1 ->
  (n < page_fuel c)%nat ->
  open_reader c src flt s <> Fuel
  /\ forall r ops, opened c src flt s r ->
     Forall (fun t => snd (fst t) <> Fuel) (fst (trace c src ops (Some r))).
Proof. exact finite_ends. Qed.
Print Assumptions C09_source_terminates_partial.

(** Reading the header always ends. *)
Theorem C09_header_terminates : forall S c (src : source S) s, open_header c src s <> Fuel.
Proof. exact header_ends. Qed.
Print Assumptions C09_header_terminates.

(** More turns change nothing: the bound of the model is not visible. *)
Theorem C09_turns_irrelevant : forall S nd ma k1 k2 (src : source S) flt s h s1 b n,
  open_header (Cfg nd ma k1) src s = Ok (h, s1, b) -> at_most src (h_page_length h) n s1 ->
  (n < k1)%nat -> (n < k2)%nat ->
  same_outcome (fun x y => snd x = snd y /\ forall ops,
      fst (trace (Cfg nd ma k1) src ops (Some (fst x)))
      = fst (trace (Cfg nd ma k2) src ops (Some (fst y))))
    (open_reader (Cfg nd ma k1) src flt s) (open_reader (Cfg nd ma k2) src flt s).
Proof. exact finite_same. Qed.
Print Assumptions C09_turns_irrelevant.

(** Three pages: three turns are not enough to construct and read to the end when
    the number of rows announced is not reached, four are. *)
Example C09_case :
  match open_header sample_cfg file_source (file_open sample_file) with
  | Ok (h, s, _) =>
      h_page_length h = 800 /\ lenN (fs_rest s) = 2400
      /\ at_most file_source 800 3 s /\ ~ at_most file_source 800 2 s
  | _ => False
  end.
Proof.
  vm_compute. split; [reflexivity|]. split; [reflexivity|]. split.
  - do 3 (right; intros _). right. discriminate.
  - intros [H|H]; [discriminate|]. destruct (H eq_refl) as [K|K]; [discriminate|].
    destruct (K eq_refl) as [L|L]; [discriminate|]. exact (L eq_refl).
Qed.

(** C10.  A file behaves as the file without its incomplete last page: the same
    outcome of the construction, the same properties, and the same answers over
    every history of calls. *)
Theorem C10_truncated : forall c flt content h s b,
  open_header c file_source (file_open content) = Ok (h, s, b) -> 0 < h_page_length h ->
  same_outcome (fun a b => snd a = snd b /\ same_reader c file_source (fst a) (fst b))
    (open_reader c file_source flt (file_open content))
    (open_reader c file_source flt (file_open (whole_pages content h))).
Proof. exact truncated. Qed.
Print Assumptions C10_truncated.

(** C10.  The end is a normal one: wherever a file is cut, no call fails because a
    page cannot be read. *)
Theorem C10_quiet : forall c flt content r ops, max_alloc c < row_limit ->
  open_reader c file_source flt (file_open content) <> Exn E_cannot_read_page
  /\ (opened c file_source flt (file_open content) r ->
      Forall (fun t => ~ read_failed t) (fst (trace c file_source ops (Some r)))).
Proof. exact file_never_fails. Qed.
Print Assumptions C10_quiet.

(** The file cut in its last page: five rows, then the end. *)
Example C10_case : sample_trace (firstn 2700 sample_file) [OpReadAll; OpReadRow]
  = ([(Ok OUnit,
       [(0, bs "AAAAAAAAabcd"); (1, bs "BBBBBBBBefgh"); (2, bs "CCCCCCCCijkl");
        (3, bs "DDDDDDDDmnop"); (4, bs "EEEEEEEEqrst")], 1);
      (Ok (OBool false), [], 1)], 5)
  /\ match open_header sample_cfg file_source (file_open (firstn 2700 sample_file)) with
     | Ok (h, _, _) => length (whole_pages (firstn 2700 sample_file) h) = 1920%nat
     | _ => False
     end.
Proof. vm_compute. split; reflexivity. Qed.

(** C11.  [watched src] is [src] with a note of whether it has failed (said no
    without being at its end); it makes no difference. *)
Theorem C11_watched : forall S nd ma k (src : source S) flt s,
  let c := Cfg nd ma k in
  same_outcome (fun x y => snd x = snd y /\ forall ops,
      fst (trace c (watched src) ops (Some (fst x))) = fst (trace c src ops (Some (fst y))))
    (open_reader c (watched src) flt (s, false)) (open_reader c src flt s).
Proof. exact watched_same. Qed.
Print Assumptions C11_watched.

(** C11.  The source has failed if and only if one of the calls threw
    "cannot read page". *)
Theorem C11_reported : forall S c (src : source S) flt s r0 ops t r, good_source src ->
  max_alloc c < row_limit -> opened c (watched src) flt (s, false) r0 ->
  trace c (watched src) ops (Some r0) = (t, Some r) ->
  source_failed r0 = false /\ (source_failed r = true <-> Exists read_failed t).
Proof. exact failure_reported. Qed.
Print Assumptions C11_reported.

(** C11.  After that call the reader is at its end for ever, and the call itself has
    pushed a row for each row it consumed. *)
Theorem C11_then_end : forall S c (src : source S) flt s o r r' ev ops,
  max_alloc c < row_limit -> reachable c src flt s r ->
  step c src o r = (Exn E_cannot_read_page, r', ev) ->
  trace c src ops (Some r')
  = (map (fun o => (o, Ok (end_answer o), end_events o)) ops, Some r')
  /\ (pushes o = true ->
      current_row_index (Some r') = current_row_index (Some r) + lenN (rows_of ev)).
Proof.
  exact (fun S c src flt s o r r' ev ops M R =>
           failure_is_end S c src o r r' ev ops (reachable_wf S c src flt s r M R)).
Qed.
Print Assumptions C11_then_end.

(** A source which fails at its fifth answer, which is the third page. *)
Example C11_case :
  match open_reader sample_cfg (watched flaky_source) None ((file_open sample_file, 4%nat), false) with
  | Ok (r0, _) =>
      let '(t, r) := trace sample_cfg (watched flaky_source)
                       [OpReadRows 3; OpReadAll; OpReadRow; OpNoSink; OpSkip 2] (Some r0) in
      short 12 t
      = [(Ok (OBool true),
          [(0, bs "AAAAAAAAabcd"); (1, bs "BBBBBBBBefgh"); (2, bs "CCCCCCCCijkl")], 0);
         (Exn E_cannot_read_page, [(3, bs "DDDDDDDDmnop"); (4, bs "EEEEEEEEqrst")], 0);
         (Ok (OBool false), [], 1); (Ok (OPtr None), [], 0); (Ok (OBool false), [], 1)]
      /\ current_row_index r = 5
      /\ match r with Some r => source_failed r = true | None => False end
  | _ => False
  end.
Proof. vm_compute. auto. Qed.

Example C11_source : good_source flaky_source.
Proof.
  intros [f n] k s' data ok H. cbn [src_read flaky_source fst snd] in H. destruct n as [|n].
  - injection H as _ <- <-. split; [apply N.le_0_l|discriminate].
  - destruct (file_read f k) as [[f' d] ok'] eqn:E. injection H as _ <- <-.
    exact (file_source_good _ _ _ _ _ E).
Qed.
