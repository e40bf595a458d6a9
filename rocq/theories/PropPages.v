(** Properties C42 - C45: the rows of the pages. *)
From Verif Require Import Base Types Buffer Page Column Header Metadata Decomp Data Reader
  SpecValues SpecHeader SpecDecomp SpecDecode SpecReader SpecPages SpecRules SpecFile Samples
  ProofReader ProofCheck ProofRows ProofInside ProofRules.
Local Open Scope N_scope.

(** C42, places: going through a page gives the documented places, in order. *)
Theorem C42_page_places : forall h md pg spare, let ly := layout_of h md in
  lenN pg < W64 -> md_row_count md < W64 -> good_page ly pg ->
  exists ph, get_page_header (h_endianness h) (h_format h) (MBuf (map Some pg ++ spare) (lenN pg)) = Ok ph
  /\ match build_page (h_endianness h) (h_format h) md (MBuf (map Some pg ++ spare) (lenN pg)) ph with
     | Ok (Some p) => walk (Datatypes.S (length (row_places ly pg))) p = Ok (row_places ly pg)
     | Ok None => row_places ly pg = []
     | _ => False
     end.
Proof. exact page_walk. Qed.
Print Assumptions C42_page_places.

(** C42, bytes: what is handed out for such a place is the bytes of the page, or
    what they decompress to when they are fewer than the row length. *)
Theorem C42_page_bytes : forall S c h md pg spare (s : S) ph dec row cur place,
  let ly := layout_of h md in
  let d := DState (PState s (MBuf (map Some pg ++ spare) (lenN pg)) ph) dec row cur in
  max_alloc c < row_limit ->
  lenN pg = h_page_length h -> lenN pg < W64 -> good_page ly pg ->
  make_decompressor c (md_compression md) (md_row_length md) = Ok dec ->
  In place (row_places ly pg) ->
  (p <- fst (extract_row_values c h md (fst place) (snd place) d) ;; seen_row (md_row_length md) p)
  = row_content ly pg place.
Proof. exact page_row_bytes. Qed.
Print Assumptions C42_page_bytes.

(** C42, bytes, by the rules of SpecDecode.v: what is handed out is what they say of the bytes
    at the place, whatever these bytes are, and nothing else. *)
Theorem C42_row_rules : forall S c h md pg spare (s : S) ph dec row cur place x,
  let ly := layout_of h md in
  let d := DState (PState s (MBuf (map Some pg ++ spare) (lenN pg)) ph) dec row cur in
  max_alloc c < row_limit ->
  lenN pg = h_page_length h -> lenN pg < W64 -> good_page ly pg ->
  make_decompressor c (md_compression md) (md_row_length md) = Ok dec ->
  In place (row_places ly pg) ->
  ((p <- fst (extract_row_values c h md (fst place) (snd place) d) ;; seen_row (md_row_length md) p) = x
   <-> row_says ly pg place x).
Proof. exact page_row_rules. Qed.
Print Assumptions C42_row_rules.

(** The layout of a sample and one of its pages. *)
Definition sample_layout (content : bytes) : layout :=
  match reader_of sample_cfg content with
  | Some r => layout_of (rs_h r) (rs_md r)
  | None => layout_of empty_header empty_metadata
  end.

Definition sample_page (content : bytes) (i : nat) : bytes :=
  match reader_of sample_cfg content with
  | Some r => nth i (file_pages content (rs_h r)) []
  | None => []
  end.

Example C42_case :
  good_page (sample_layout sample_file) (sample_page sample_file 0)
  /\ row_places (sample_layout sample_file) (sample_page sample_file 0) = [(112, 12); (124, 12)]
  /\ row_places (sample_layout sample_file) (sample_page sample_file 1)
     = [(24, 12); (36, 12); (48, 12)]
  /\ row_places (sample_layout sample_file_64) (sample_page sample_file_64 0)
     = [(208, 12); (220, 12)]
  /\ good_page (sample_layout sample_rle) (sample_page sample_rle 1)
  /\ row_places (sample_layout sample_rle) (sample_page sample_rle 1) = [(884, 6); (890, 10)]
  /\ page_rows (sample_layout sample_rle) (sample_page sample_rle 1)
     = [Ok (bs "mnop" ++ repeat x00 8); Ok (bs "qrstuvwx" ++ repeat x00 4)].
Proof.
  split; [apply good_pageb_ok; vm_compute; reflexivity|].
  split; [vm_compute; reflexivity|]. split; [vm_compute; reflexivity|].
  split; [vm_compute; reflexivity|].
  split; [apply good_pageb_ok; vm_compute; reflexivity|].
  split; vm_compute; reflexivity.
Qed.

(** C43: any history on a file is the same history on a cursor over the list of the
    rows of its pages. *)
Theorem C43_reader_is_cursor : forall c flt content r ops,
  opened c file_source flt (file_open content) r -> readable c content r ->
  let cu := (0, file_rows content r) in
  seen (md_row_length (rs_md r)) (fst (trace c file_source ops (Some r))) = fst (cur_trace ops cu)
  /\ current_row_index (snd (trace c file_source ops (Some r))) = fst (snd (cur_trace ops cu)).
Proof. exact readable_cursor. Qed.
Print Assumptions C43_reader_is_cursor.

(** C43, by the rules of SpecDecode.v: they say one list of rows of a file, compressed or not,
    and any history is the same history on a cursor over this list. *)
Theorem C43_by_rules : forall c flt content r,
  opened c file_source flt (file_open content) r -> readable c content r ->
  exists rows, says_rows content r rows
  /\ (forall other, says_rows content r other -> other = rows)
  /\ forall ops,
     seen (md_row_length (rs_md r)) (fst (trace c file_source ops (Some r))) = fst (cur_trace ops (0, rows))
     /\ current_row_index (snd (trace c file_source ops (Some r))) = fst (snd (cur_trace ops (0, rows))).
Proof. exact cursor_by_rules. Qed.
Print Assumptions C43_by_rules.

(** C43, read_all: it pushes these rows, numbered from 0, and tells the end. *)
Theorem C43_read_all : forall c flt content r rows,
  opened c file_source flt (file_open content) r -> readable c content r ->
  file_rows content r = map Ok rows ->
  seen (md_row_length (rs_md r)) (fst (trace c file_source [OpReadAll] (Some r)))
  = [(OpReadAll, Ok CUnit, numbered 0 rows ++ [CEnd])].
Proof. exact read_all_rows_of. Qed.
Print Assumptions C43_read_all.

(** C43, read_all without compression: the bytes of the pages. *)
Theorem C43_read_all_plain : forall c flt content r,
  opened c file_source flt (file_open content) r -> readable c content r ->
  md_compression (rs_md r) = CompNone ->
  seen (md_row_length (rs_md r)) (fst (trace c file_source [OpReadAll] (Some r)))
  = [(OpReadAll, Ok CUnit,
      numbered 0 (firstn (N.to_nat (md_row_count (rs_md r)))
        (flat_map (fun pg => map (fun p => field pg (fst p) (md_row_length (rs_md r)))
                               (row_places (layout_of (rs_h r) (rs_md r)) pg))
           (file_pages content (rs_h r)))) ++ [CEnd])].
Proof. exact read_all_plain. Qed.
Print Assumptions C43_read_all_plain.

(** The three samples (mix and data pages in both formats, meta pages of a
    compressed file) are readable files. *)
Example C43_case :
  Forall (fun content => exists r, opened sample_cfg file_source None (file_open content) r
                                   /\ readable sample_cfg content r)
    [sample_file; sample_file_64; sample_rle; empty_first_file].
Proof.
  assert (H : Forall (fun content => match reader_of sample_cfg content with
                                     | Some r => readableb sample_cfg content r = true
                                     | None => False end)
    [sample_file; sample_file_64; sample_rle; empty_first_file]).
  { repeat (apply Forall_cons; [vm_compute; reflexivity|]). apply Forall_nil. }
  revert H. apply Forall_impl. intros content H.
  destruct (reader_of sample_cfg content) as [r|] eqn:E; [|contradiction].
  exists r. split; [apply reader_of_opened; exact E|apply readableb_ok; exact H].
Qed.

Example C43_rows :
  match reader_of sample_cfg sample_file with
  | Some r => file_rows sample_file r
              = map Ok [bs "AAAAAAAAabcd"; bs "BBBBBBBBefgh"; bs "CCCCCCCCijkl";
                        bs "DDDDDDDDmnop"; bs "EEEEEEEEqrst"; bs "FFFFFFFFuvwx"]
  | None => False
  end.
Proof. vm_compute. reflexivity. Qed.

(** The rows of the compressed sample by the rules: the second one cannot be decompressed. *)
Example C43_rules : exists r, opened sample_cfg file_source None (file_open sample_rle) r
  /\ says_rows sample_rle r
       [Ok (bs "abcd    xyz" ++ [x00]); Exn E_cannot_decompress; Ok (bs "CCCCCCCCijkl");
        Ok (bs "mnop" ++ repeat x00 8); Ok (bs "qrstuvwx" ++ repeat x00 4)].
Proof.
  destruct (reader_of sample_cfg sample_rle) as [r|] eqn:E; [|vm_compute in E; discriminate].
  assert (H : match reader_of sample_cfg sample_rle with
    | Some r => file_rows sample_rle r
        = [Ok (bs "abcd    xyz" ++ [x00]); Exn E_cannot_decompress; Ok (bs "CCCCCCCCijkl");
           Ok (bs "mnop" ++ repeat x00 8); Ok (bs "qrstuvwx" ++ repeat x00 4)]
    | None => False end) by (vm_compute; reflexivity).
  rewrite E in H. pose proof (reader_of_opened _ _ _ E) as O.
  exists r. split; [exact O|]. apply (says_rows_iff sample_cfg None); [reflexivity|exact O|exact H].
Qed.

(** C44 is false of the code: with an empty data page between two data pages, a
    row which is on no page is pushed instead of the last one. *)
Theorem C44_empty_page_refuted : exists content r rows row,
  opened sample_cfg file_source None (file_open content) r
  /\ file_rows content r = map Ok (rows ++ [bs "DDDDDDDDmnop"])
  /\ seen 12 (fst (trace sample_cfg file_source [OpReadAll] (Some r)))
     = [(OpReadAll, Ok CUnit, numbered 0 (rows ++ [row]) ++ [CEnd])]
  /\ ~ In (Ok row) (file_rows content r).
Proof.
  destruct (reader_of sample_cfg empty_page_file) as [r|] eqn:E; [|vm_compute in E; discriminate].
  exists empty_page_file, r, [bs "AAAAAAAAabcd"; bs "BBBBBBBBefgh"; bs "CCCCCCCCijkl"],
    (repeat x00 12).
  split; [apply reader_of_opened; exact E|].
  assert (H : match reader_of sample_cfg empty_page_file with
    | Some r => file_rows empty_page_file r
        = map Ok [bs "AAAAAAAAabcd"; bs "BBBBBBBBefgh"; bs "CCCCCCCCijkl"; bs "DDDDDDDDmnop"]
      /\ seen 12 (fst (trace sample_cfg file_source [OpReadAll] (Some r)))
        = [(OpReadAll, Ok CUnit, numbered 0 [bs "AAAAAAAAabcd"; bs "BBBBBBBBefgh";
              bs "CCCCCCCCijkl"; repeat x00 12] ++ [CEnd])]
    | None => False end) by (vm_compute; split; reflexivity).
  rewrite E in H. destruct H as [H1 H2]. split; [exact H1|]. split; [exact H2|].
  rewrite H1. cbn. intros K. repeat (destruct K as [K|K]; [discriminate K|]). exact K.
Qed.
Print Assumptions C44_empty_page_refuted.

(** C44, what holds, 1: when no empty page of rows comes behind the page where the
    data begin (see [readable]), a page without rows behind it, or any page before
    it, changes nothing. *)
Theorem C44_empty_page_partial : forall c flt content r ops pre pg post,
  opened c file_source flt (file_open content) r -> readable c content r ->
  let ly := layout_of (rs_h r) (rs_md r) in
  file_pages content (rs_h r) = pre ++ pg :: post ->
  begins ly pg = false \/ Exists (fun q => begins ly q = true) pre ->
  row_places ly pg = [] ->
  seen (md_row_length (rs_md r)) (fst (trace c file_source ops (Some r)))
  = fst (cur_trace ops (0, firstn (N.to_nat (md_row_count (rs_md r))) (rows_on ly (pre ++ post)))).
Proof. exact empty_page_skipped. Qed.
Print Assumptions C44_empty_page_partial.

(** C44, what holds, 2: when the data begin with an empty page of rows, the rows are
    those of the pages behind it. *)
Theorem C44_empty_first_partial : forall c flt content r ops pre pg post,
  opened c file_source flt (file_open content) r -> readable c content r ->
  let ly := layout_of (rs_h r) (rs_md r) in
  file_pages content (rs_h r) = pre ++ pg :: post ->
  Forall (fun q => begins ly q = false) pre ->
  begins ly pg = true -> first_places ly pg = [] ->
  seen (md_row_length (rs_md r)) (fst (trace c file_source ops (Some r)))
  = fst (cur_trace ops (0, firstn (N.to_nat (md_row_count (rs_md r))) (flat_map (page_rows ly) post))).
Proof. exact empty_first_skipped. Qed.
Print Assumptions C44_empty_first_partial.

(** A description without rows, an empty data page, two rows. *)
Example C44_case :
  match reader_of sample_cfg empty_first_file with
  | Some r => map (fun pg => (page_type (layout_of (rs_h r) (rs_md r)) pg,
                              begins (layout_of (rs_h r) (rs_md r)) pg,
                              row_places (layout_of (rs_h r) (rs_md r)) pg))
                (file_pages empty_first_file (rs_h r))
              = [(0, false, []); (256, true, []); (256, true, [(24, 12); (36, 12)])]
              /\ readableb sample_cfg empty_first_file r = true
  | None => False
  end.
Proof. vm_compute. split; reflexivity. Qed.

(** C45 is false in release builds: the data page announces more rows than it
    holds; reading the last one handed out is undefined behaviour. *)
Theorem C45_release_refuted : exists content r p,
  opened sample_cfg file_source None (file_open content) r
  /\ In p (delivered (fst (trace sample_cfg file_source [OpReadAll] (Some r))))
  /\ h_page_length (rs_h r) < pv_off p + md_row_length (rs_md r)
  /\ seen_row (md_row_length (rs_md r)) p = Undef UB_oob_read.
Proof.
  destruct (reader_of sample_cfg overrun_file) as [r|] eqn:E; [|vm_compute in E; discriminate].
  exists overrun_file, r,
    (last (delivered (fst (trace sample_cfg file_source [OpReadAll] (Some r)))) (PView [] 0)).
  split; [apply reader_of_opened; exact E|].
  assert (H : match reader_of sample_cfg overrun_file with
    | Some r => let l := delivered (fst (trace sample_cfg file_source [OpReadAll] (Some r))) in
        lenN l = 65 /\ (h_page_length (rs_h r) <? pv_off (last l (PView [] 0)) + md_row_length (rs_md r)) = true
        /\ seen_row (md_row_length (rs_md r)) (last l (PView [] 0)) = Undef UB_oob_read
    | None => False end) by (vm_compute; repeat split; reflexivity).
  rewrite E in H. cbv zeta in H. destruct H as (H1 & H2 & H3).
  split; [|split; [apply N.ltb_lt; exact H2|exact H3]].
  revert H1. generalize (delivered (fst (trace sample_cfg file_source [OpReadAll] (Some r)))).
  intros l L. destruct l as [|a l]; [discriminate L|].
  rewrite (app_removelast_last (PView [] 0) (l := a :: l)) at 2 by discriminate.
  apply in_or_app. right. left. reflexivity.
Qed.
Print Assumptions C45_release_refuted.

(** C45 is false in debug builds of 64 bit files too: the sum which is checked
    wraps around. *)
Theorem C45_debug_refuted : exists content r p,
  let c := Cfg false 100000 10 in
  opened c file_source None (file_open content) r
  /\ In p (delivered (fst (trace c file_source [OpReadAll] (Some r))))
  /\ h_page_length (rs_h r) < pv_off p + md_row_length (rs_md r).
Proof.
  destruct (reader_of (Cfg false 100000 10) huge_row_file) as [r|] eqn:E;
    [|vm_compute in E; discriminate].
  exists huge_row_file, r,
    (hd (PView [] 0) (delivered (fst (trace (Cfg false 100000 10) file_source [OpReadAll] (Some r))))).
  cbv zeta. split; [apply reader_of_opened; exact E|].
  assert (H : match reader_of (Cfg false 100000 10) huge_row_file with
    | Some r => let l := delivered (fst (trace (Cfg false 100000 10) file_source [OpReadAll] (Some r))) in
        lenN l = 1 /\ (h_page_length (rs_h r) <? pv_off (hd (PView [] 0) l) + md_row_length (rs_md r)) = true
    | None => False end) by (vm_compute; repeat split; reflexivity).
  rewrite E in H. cbv zeta in H. destruct H as (H1 & H2).
  split; [|apply N.ltb_lt; exact H2].
  revert H1. generalize (delivered (fst (trace (Cfg false 100000 10) file_source [OpReadAll] (Some r)))).
  intros l L. destruct l as [|a l]; [discriminate L|]. left. reflexivity.
Qed.
Print Assumptions C45_debug_refuted.

(** C45, what holds, 1: in debug builds, for 32 bit files, from any source and for
    any history, every row handed out is inside the page or is the buffer of the
    decompressor. *)
Theorem C45_debug_32_partial : forall S ma k (src : source S) flt s r ops, ma < row_limit ->
  opened (Cfg false ma k) src flt s r -> h_format (rs_h r) = Bit32 ->
  Forall (row_inside (h_page_length (rs_h r)) (md_row_length (rs_md r)))
    (delivered (fst (trace (Cfg false ma k) src ops (Some r)))).
Proof. exact debug_rows_inside. Qed.
Print Assumptions C45_debug_32_partial.

(** On the file of the first counterexample, a debug build gives the 64 rows of the
    page and stops. *)
Example C45_case :
  let c := Cfg false 100000 10 in
  match reader_of c overrun_file with
  | Some r =>
      h_format (rs_h r) = Bit32
      /\ let '(t, _) := trace c file_source [OpReadRows 64; OpReadRow] (Some r) in
         map (fun x => snd (fst x)) t = [Ok (OBool true); Abort]
         /\ lenN (delivered t) = 64
  | None => False
  end.
Proof. vm_compute. repeat split. Qed.

(** C45, what holds, 2: in both builds, when the pages of a file are good (see
    [readable]), every row handed out can be read and is a row of the pages. *)
Theorem C45_good_pages_partial : forall c flt content r ops,
  opened c file_source flt (file_open content) r -> readable c content r ->
  Forall (fun p => exists v, seen_row (md_row_length (rs_md r)) p = Ok v
                             /\ In (Ok v) (file_rows content r))
    (delivered (fst (trace c file_source ops (Some r)))).
Proof. exact delivered_rows. Qed.
Print Assumptions C45_good_pages_partial.
