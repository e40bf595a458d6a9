(** C116: sources given to Readers by name. *)
From Verif Require Import Base Types Buffer Page Column Header Metadata Decomp Data Reader
  SpecHeader SpecMeta SpecReader SpecAsk SpecPages SpecFile Samples SpecConform ProofConformCheck Named SpecNamed ProofNamed PropConform.
Local Open Scope N_scope.

(** When the client has made whatever calls, the source stands behind the pages which
    were needed for the rows passed over, and at no other place: it can be read from
    there.  (Not when no page has data, or when the rows end before their announced
    number: then the source has been read to its end.) *)
Theorem C116_stands : forall c flt content r0 ev ops l r,
  open_reader c file_source flt (file_open content) = Ok (r0, ev) -> readable c content r0 ->
  trace c file_source ops (Some r0) = (l, Some r) ->
  let h := rs_h r0 in
  let ly := layout_of h (rs_md r0) in
  let pages := file_pages content h in
  let i := current_row_index (Some r) in
  (exists k, pages_for ly pages i k
     /\ source_at r = file_open (skipn (N.to_nat (h_header_length h + N.of_nat k * h_page_length h)) content))
  \/ no_data ly pages
  \/ i = lenN (rows_on ly pages) /\ i < md_row_count (rs_md r0).
Proof. exact source_stands. Qed.
Print Assumptions C116_stands.

(** The bytes left in the source behind two rows, and behind three: one page of 800
    bytes less. *)
Definition left_after (content : bytes) (ops : list op) : option N :=
  match snd (trace sample_cfg file_source ops (reader_of sample_cfg content)) with
  | Some r => Some (lenN (fs_rest (source_at r)))
  | None => None
  end.

Example C116_stands_case :
  map (left_after sample_file) [[]; [OpSkip 2]; [OpReadRows 3]; [OpReadRows 5]; [OpReadAll]]
  = [Some 1600; Some 1600; Some 800; Some 800; Some 0].
Proof. vm_compute. reflexivity. Qed.

(** A source which only Reader [v] uses, given by name: whatever the client does with the
    other objects, the Reader behaves as with a source of its own, and leaves the source
    where it left it. *)
Theorem C116_alone : forall S c (src : source S) n v p r w xs w',
  nth v (nw_readers w) None = Some (n, r) -> nth n (nw_sources w) None = Some (source_at r) ->
  (forall u q, nth u (nw_readers w) None = Some (n, q) -> u = v) ->
  Forall (leaves_alone n v) p -> nexec_all c src p w = (xs, w') ->
  exists ops later r', calls_of v p = ops ++ later
  /\ (length xs = length p -> answers_of v p xs = fst (trace c src (calls_of v p) (Some r)))
  /\ trace c src ops (Some r) = (answers_of v p xs, Some r')
  /\ nth v (nw_readers w') None = Some (n, r') /\ nth n (nw_sources w') None = Some (source_at r').
Proof. exact source_alone. Qed.
Print Assumptions C116_alone.

(** Tables one behind the other in one source: each of them is opened from the place
    where the Reader of the previous one has left the source, and gives what it gives
    alone (C90), however it is read, if all of its rows are passed over. *)
Theorem C116_tables : forall c n z files v w, Forall (whole_table c) files ->
  length (nw_readers w) = v ->
  nth n (nw_sources w) None = Some (file_open (flat_map (fun f => fst (fst f)) files ++ z)) ->
  exists w', nexec_all c file_source (one_by_one n v files) w = (flat_map (alone c) files, w')
  /\ nth n (nw_sources w') None = Some (file_open z).
Proof. exact tables. Qed.
Print Assumptions C116_tables.

Definition full_check (content : bytes) : bool :=
  let pages := pages_in content in
  (lenN content =? header_length_field content + lenN pages * page_length_field content)
  && (lenN (rows_on (full_layout content) (removelast pages)) <? md_row_count (m_md (said content))).

Lemma full_check_ok : forall content, full_check content = true -> full_to_the_end content.
Proof.
  intros content H. apply andb_true_iff in H. destruct H as [A B].
  apply N.eqb_eq in A. apply N.ltb_lt in B. exact (conj A B).
Qed.

(** Three files of other byte orders, word sizes and page lengths. *)
Definition three_files : list (bytes * option (column -> bool) * list op) :=
  [(sample_file, None, [OpReadRow; OpReadAll]);
   (spread_file, Some (fun _ => false), [OpSkip 4]);
   (sample_file_64, None, [OpReadRows 6; OpReadRow])].

Example C116_tables_case : Forall (whole_table sample_cfg) three_files.
Proof.
  repeat constructor.
  - exists sample_fields, (t_rows sample_table). split; [exact C90_sample|].
    split; [apply full_check_ok; vm_compute; reflexivity|vm_compute; reflexivity].
  - eexists _, _. split; [exact C90_spread|].
    split; [apply full_check_ok; vm_compute; reflexivity|vm_compute; reflexivity].
  - exists sample_fields, (t_rows sample_table). split; [exact C90_sample_64|].
    split; [apply full_check_ok; vm_compute; reflexivity|vm_compute; reflexivity].
Qed.

Definition answer_short (x : res nval) : res (option (list (N * bytes))) :=
  match x with
  | Ok (NOut (Ok _) ev) => Ok (Some (map (fun y => (fst y, row_text 12 (snd y))) (rows_of ev)))
  | Ok (NOut y _) => rmap (fun _ => None) y
  | Ok _ => Ok None
  | Exn e => Exn e
  | Abort => Abort
  | Undef u => Undef u
  | Fuel => Fuel
  end.

Definition run_named (p : list (nstmt fstate)) : list (res (option (list (N * bytes)))) :=
  map answer_short (fst (nexec_all sample_cfg file_source p (NWorld [] []))).

Example C116_alone_case :
  Forall (leaves_alone (S := fstate) 0 0)
    [NCall 0 (OpReadRows 2); NSource (file_open sample_file_64); NNew 1 None; NCall 1 OpReadRow;
     NCall 0 OpReadAll; NEnd 1; NSourceEnd 1]
  /\ run_named
      [NSource (file_open sample_file); NNew 0 None;
       NCall 0 (OpReadRows 5); NSource (file_open sample_file_64); NNew 1 None; NCall 1 OpReadRow;
       NCall 0 OpReadAll; NEnd 1; NSourceEnd 1]
     = [Ok None; Ok None;
        Ok (Some [(0, bs "AAAAAAAAabcd"); (1, bs "BBBBBBBBefgh"); (2, bs "CCCCCCCCijkl");
                  (3, bs "DDDDDDDDmnop"); (4, bs "EEEEEEEEqrst")]); Ok None; Ok None;
        Ok (Some [(0, bs "AAAAAAAAabcd")]); Ok (Some [(5, bs "FFFFFFFFuvwx")]); Ok None; Ok None].
Proof. split; [repeat constructor; discriminate|vm_compute; reflexivity]. Qed.

(** Nothing tells the Reader that the source was used by someone else: a client who reads
    a page from it (to look at the file, say) makes the Reader miss its rows, without an
    error, and the numbers of the other rows are wrong. *)
Theorem C116_shared_refuted : exists p,
  p = [NSource (file_open sample_file); NNew 0 None; NCall 0 (OpReadRows 2); NRead 0 800; NCall 0 OpReadAll]
  /\ run_named p
     = [Ok None; Ok None; Ok (Some [(0, bs "AAAAAAAAabcd"); (1, bs "BBBBBBBBefgh")]); Ok None;
        Ok (Some [(2, bs "FFFFFFFFuvwx")])].
Proof. eexists. split; [reflexivity|]. vm_compute. reflexivity. Qed.
Print Assumptions C116_shared_refuted.

(** The tables of C116_tables must have rows: a conforming file without rows takes the
    bytes of the next one, which can not be opened then, ... *)
Definition no_rows_file : bytes :=
  file_bytes Big Bit32 false 320 800 (bs "NONE") (Table sample_fields 12 [] []).

Theorem C116_empty_refuted : exists a b, conforms sample_cfg a sample_fields [] /\ conforms sample_cfg b sample_fields (t_rows sample_table)
  /\ lenN a = header_length_field a + lenN (pages_in a) * page_length_field a
  /\ run_named (NSource (file_open (a ++ b)) :: one_by_one 0 0 [(a, None, [OpReadAll]); (b, None, [OpReadAll])])
     = [Ok None; Ok None; Ok (Some []); Exn E_header_too_short].
Proof.
  exists no_rows_file, sample_file. split; [apply conforming_ok; vm_compute; reflexivity|].
  split; [exact C90_sample|]. split; [vm_compute; reflexivity|]. vm_compute. reflexivity.
Qed.
Print Assumptions C116_empty_refuted.

(** ... and a page behind the last row is left to the next Reader, which takes it for a
    header. *)
Definition trailing_file : bytes := sample_file ++ page_bytes Big Bit32 800 1024 0 [plain (zeros 24)] [].
Theorem C116_trailing_refuted : exists a, conforms sample_cfg a sample_fields (t_rows sample_table)
  /\ lenN a = header_length_field a + lenN (pages_in a) * page_length_field a
  /\ run_named (NSource (file_open (a ++ sample_file)) :: one_by_one 0 0 [(a, None, [OpReadAll]); (sample_file, None, [OpReadAll])])
     = Ok None :: map answer_short (alone sample_cfg (a, None, [OpReadAll])) ++ [Exn E_invalid_magic_number].
Proof.
  exists trailing_file. split; [apply conforming_ok; vm_compute; reflexivity|].
  split; [vm_compute; reflexivity|]. vm_compute. reflexivity.
Qed.
Print Assumptions C116_trailing_refuted.

(** A source which ends before its Reader: the rows of the page in memory are still read,
    then the behaviour is undefined. *)
Theorem C116_lifetime_refuted : exists p,
  p = [NSource (file_open sample_file); NNew 0 None; NSourceEnd 0; NCall 0 (OpReadRows 2); NCall 0 OpReadRow]
  /\ run_named p
     = [Ok None; Ok None; Ok None; Ok (Some [(0, bs "AAAAAAAAabcd"); (1, bs "BBBBBBBBefgh")]); Undef UB_lifetime].
Proof. eexists. split; [reflexivity|]. vm_compute. reflexivity. Qed.
Print Assumptions C116_lifetime_refuted.
