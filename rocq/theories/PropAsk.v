(** What a data source is asked, and what depends on its answers. *)
From Verif Require Import Base Types Buffer Page Column Header Metadata Decomp Data Reader
  SpecBuffer SpecReader SpecAsk Samples ProofAsk.
Local Open Scope N_scope.

(** ** C101: what a data source is asked *)

(** First 288 bytes, then the rest of the header; then pages, each in one piece of the
    announced length and only after the source has said that it is not at its end.  The
    source is not asked again once it has said that it is at its end or has not delivered
    a page, nor once all the announced rows were delivered. *)
Theorem C101_asked : forall S c (src : source S) flt s r0 ev ops l r, good_source src ->
  open_reader c src flt s = Ok (r0, ev) -> trace c src ops (Some r0) = (l, Some r) ->
  let h := rs_h r0 in
  exists d1 d2 g t,
    talks src s (AskRead 288 d1 true :: AskRead (h_header_length h -! 288) d2 true :: t) (source_at r)
    /\ lenN d1 = 288 /\ lenN d2 = h_header_length h -! 288
    /\ paging (h_page_length h) g t
    /\ (g = true \/ current_row_index (Some r) = md_row_count (rs_md r0) -> forall o,
          reader_step c src o (Some r) = (Ok (end_answer o), Some r, end_events o)).
Proof. exact source_asked. Qed.
Print Assumptions C101_asked.

(** A page is asked for when its rows are needed: a call which can be answered with the
    rows of the current page leaves the source alone. *)
Theorem C101_when_needed : forall S c (src : source S) o k r x r' ev, wanted o = Some k ->
  k <= rows_left r -> step c src o r = (x, r', ev) -> source_at r' = source_at r.
Proof. exact asked_when_needed. Qed.
Print Assumptions C101_when_needed.

(** A file is read once, from its start on: the pieces read so far and what is left make up
    the file, and the lengths asked for exceed its length by less than the last one, which
    is a page. *)
Theorem C101_once : forall c flt content r0 ev ops l r,
  open_reader c file_source flt (file_open content) = Ok (r0, ev) ->
  trace c file_source ops (Some r0) = (l, Some r) ->
  exists t, talks file_source (file_open content) t (source_at r)
  /\ pieces t ++ fs_rest (source_at r) = content
  /\ lengths t <= lenN content + h_page_length (rs_h r0).
Proof. exact read_once. Qed.
Print Assumptions C101_once.

(** A source which notes the lengths it is asked for. *)
Definition noting : source (fstate * list N) := Source
  (fun s => file_eof (fst s))
  (fun s n => let '(s', d, ok) := file_read (fst s) n in ((s', snd s ++ [n]), d, ok)).

Definition noted (content : bytes) (ops : list op) : option (list N * list N) :=
  match open_reader sample_cfg noting None (file_open content, []) with
  | Ok (r, _) => match snd (trace sample_cfg noting ops (Some r)) with
                 | Some r' => Some (snd (source_at r), snd (source_at r'))
                 | None => None
                 end
  | _ => None
  end.

(** The file has a header of 320 bytes and three pages of 800 bytes with 2, 3 and 1 rows. *)
Example C101_case :
  good_source noting
  /\ noted sample_file [OpReadRow] = Some ([288; 32; 800], [288; 32; 800])
  /\ noted sample_file [OpReadRows 2] = Some ([288; 32; 800], [288; 32; 800])
  /\ noted sample_file [OpReadRows 3] = Some ([288; 32; 800], [288; 32; 800; 800])
  /\ noted sample_file [OpReadAll; OpReadAll] = Some ([288; 32; 800], [288; 32; 800; 800; 800])
  /\ noted (firstn 1500 sample_file) [OpReadAll; OpReadRow] = Some ([288; 32; 800], [288; 32; 800; 800])
  /\ noted (firstn 1120 sample_file) [OpReadAll; OpReadRow] = Some ([288; 32; 800], [288; 32; 800; 800]).
Proof.
  split.
  - intros [s k] n [s' k'] d ok H. cbn [noting src_read fst snd] in H.
    destruct (file_read s n) as [[s1 d1] ok1] eqn:E. injection H as <- _ <- <-.
    exact (ProofBuffer.file_source_good _ _ _ _ _ E).
  - repeat split; vm_compute; reflexivity.
Qed.

(** ** C102: what was delivered depends only on the answers of the source *)

(** All that a client sees is decided by the conversation with the source: another source
    which gives the same answers to these questions, whatever it does afterwards, leads
    to the same outcome of the constructor, the same answers and the same calls of the
    sink. *)
Theorem C102_answers : forall S c (src : source S) flt s ops,
  exists t s', talks src s t s'
  /\ (forall r0 ev l r, open_reader c src flt s = Ok (r0, ev) ->
        trace c src ops (Some r0) = (l, Some r) -> s' = source_at r)
  /\ forall S2 (src2 : source S2) s2 s2', talks src2 s2 t s2' ->
       session c src2 flt s2 ops = session c src flt s ops.
Proof. exact session_answers. Qed.
Print Assumptions C102_answers.

(** For files: nothing delivered so far depends on the part of the file which was not
    read yet, whatever stands there and however long it is. *)
Theorem C102_files : forall c flt a z1 z2 ops r0 ev l r,
  open_reader c file_source flt (file_open (a ++ z1)) = Ok (r0, ev) ->
  trace c file_source ops (Some r0) = (l, Some r) ->
  fs_eof (source_at r) = false -> lenN z1 <= lenN (fs_rest (source_at r)) ->
  session c file_source flt (file_open (a ++ z2)) ops = Ok (ev, l).
Proof. exact same_beginning. Qed.
Print Assumptions C102_files.

(** The first five rows of the file are on its first two pages: 1920 bytes. *)
Example C102_case : exists r0 ev l r,
  open_reader sample_cfg file_source None (file_open (firstn 1920 sample_file ++ skipn 1920 sample_file))
    = Ok (r0, ev)
  /\ trace sample_cfg file_source [OpReadRows 5] (Some r0) = (l, Some r)
  /\ (length (flat_map (fun x => rows_of (snd x)) l) = 5)%nat
  /\ fs_eof (source_at r) = false /\ lenN (skipn 1920 sample_file) <= lenN (fs_rest (source_at r)).
Proof.
  rewrite firstn_skipn.
  destruct (open_reader sample_cfg file_source None (file_open sample_file)) as [[r0 ev]| | | |] eqn:E;
    try (vm_compute in E; discriminate).
  destruct (trace sample_cfg file_source [OpReadRows 5] (Some r0)) as [l [r|]] eqn:T;
    vm_compute in E; injection E as <- <-; vm_compute in T; [|discriminate].
  injection T as <- <-. eexists. eexists. eexists. eexists. split; [reflexivity|].
  split; [vm_compute; reflexivity|]. split; [vm_compute; reflexivity|]. split; [reflexivity|].
  vm_compute. discriminate.
Qed.
