(** C129: the pages behind the one where the data begin. *)
From Coq Require Import Permutation.
From Verif Require Import Base Types Buffer Page Column Header Metadata Decomp Data Reader
  SpecBuffer SpecReader SpecFile SpecPages SpecNamed Samples SpecAsk ProofOpen ProofPages ProofOrder ProofRows ProofCheck.
Local Open Scope N_scope.

(** Once the data have begun, the pages which follow can be replaced by any others, of the same
    file or of another one: the file is opened with the same properties and has the rows of the
    pages it has then, as many as are announced. *)
Theorem C129_pages : forall c flt front pre ps qs r,
  let file l := front ++ concat (pre ++ l) in
  opened c file_source flt (file_open (file ps)) r -> readable c (file ps) r ->
  let ly := layout_of (rs_h r) (rs_md r) in
  lenN front = h_header_length (rs_h r) ->
  Forall (fun pg => lenN pg = h_page_length (rs_h r)) (pre ++ ps ++ qs) ->
  ~ no_data ly pre -> rows_on ly (pre ++ ps) <> [] ->
  Forall (good_page ly) qs -> Forall (not_empty ly) qs -> (length (pre ++ qs) < page_fuel c)%nat ->
  exists r', opened c file_source flt (file_open (file qs)) r'
  /\ rs_h r' = rs_h r /\ rs_md r' = rs_md r
  /\ forall ops, seen (md_row_length (rs_md r)) (fst (trace c file_source ops (Some r')))
     = fst (cur_trace ops (0, firstn (N.to_nat (md_row_count (rs_md r)))
                                (rows_on ly pre ++ flat_map (page_rows ly) qs))).
Proof. exact tail_read. Qed.
Print Assumptions C129_pages.

(** In another order they give the same rows in another order, if the announced number does not
    cut any off. *)
Theorem C129_order : forall c flt front pre ps qs r,
  let file l := front ++ concat (pre ++ l) in
  opened c file_source flt (file_open (file ps)) r -> readable c (file ps) r ->
  let ly := layout_of (rs_h r) (rs_md r) in
  lenN front = h_header_length (rs_h r) ->
  Forall (fun pg => lenN pg = h_page_length (rs_h r)) (pre ++ ps) ->
  ~ no_data ly pre -> rows_on ly (pre ++ ps) <> [] -> Permutation ps qs ->
  lenN (rows_on ly (pre ++ ps)) <= md_row_count (rs_md r) ->
  exists r' rows', opened c file_source flt (file_open (file qs)) r'
  /\ rs_h r' = rs_h r /\ rs_md r' = rs_md r
  /\ Permutation (file_rows (file ps) r) rows'
  /\ forall ops, seen (md_row_length (rs_md r)) (fst (trace c file_source ops (Some r')))
     = fst (cur_trace ops (0, rows')).
Proof. exact order_read. Qed.
Print Assumptions C129_order.

(** The header and the three pages of the sample, of 2, 3 and 1 rows. *)
Definition s_front : bytes := firstn 320 sample_file.
Definition s_page (k : nat) : bytes := firstn 800 (skipn (320 + k * 800) sample_file).
Definition s_file (l : list nat) : bytes := s_front ++ concat (map s_page l).

(** The hypotheses, for the pages behind the first one. *)
Example C129_case :
  s_file [0; 1; 2]%nat = sample_file
  /\ match reader_of sample_cfg sample_file with
     | Some r =>
         let ly := layout_of (rs_h r) (rs_md r) in
         readableb sample_cfg sample_file r = true
         /\ lenN s_front = h_header_length (rs_h r)
         /\ map (fun k => lenN (s_page k)) [0; 1; 2]%nat = repeat (h_page_length (rs_h r)) 3
         /\ begins ly (s_page 0) = true
         /\ lenN (rows_on ly (map s_page [0; 1; 2]%nat)) = md_row_count (rs_md r)
         /\ md_row_count (rs_md r) = 6
     | None => False
     end.
Proof. vm_compute. repeat split; reflexivity. Qed.

(** Exchanged, without one of them, and twice the same. *)
Example C129_order_case :
  sample_trace (s_file [0; 2; 1]%nat) [OpReadAll]
  = ([(Ok OUnit, [(0, bs "AAAAAAAAabcd"); (1, bs "BBBBBBBBefgh"); (2, bs "FFFFFFFFuvwx");
                  (3, bs "CCCCCCCCijkl"); (4, bs "DDDDDDDDmnop"); (5, bs "EEEEEEEEqrst")], 1)], 6)
  /\ sample_trace (s_file [0; 2]%nat) [OpSkip 2; OpReadRow; OpReadRow]
     = ([(Ok (OBool true), [], 0); (Ok (OBool true), [(2, bs "FFFFFFFFuvwx")], 0); (Ok (OBool false), [], 1)], 3)
  /\ sample_trace (s_file [0; 1; 1]%nat) [OpSkip 4; OpReadAll]
     = ([(Ok (OBool true), [], 0); (Ok OUnit, [(4, bs "EEEEEEEEqrst"); (5, bs "CCCCCCCCijkl")], 1)], 6).
Proof. vm_compute. repeat split; reflexivity. Qed.

(** The page where the data begin is bound to its place: behind a page of rows its description
    is not read, and this is not reported.  The file is opened as one without columns and
    without rows. *)
Theorem C129_description_refuted : exists front a b c,
  front ++ concat [a; b; c] = sample_file
  /\ rmap (fun x => (lenN (md_columns (rs_md (fst x))), md_row_count (rs_md (fst x))))
       (open_reader sample_cfg file_source None (file_open (front ++ concat [b; a; c]))) = Ok (0, 0)
  /\ sample_trace (front ++ concat [b; a; c]) [OpReadAll] = ([(Ok OUnit, [], 1)], 0).
Proof.
  exists s_front, (s_page 0), (s_page 1), (s_page 2). vm_compute. repeat split; reflexivity.
Qed.
Print Assumptions C129_description_refuted.
