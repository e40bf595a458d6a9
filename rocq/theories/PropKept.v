(** Rows which a client keeps. *)
From Verif Require Import Base Types Buffer Page Column Header Metadata Decomp Data Reader Kept
  SpecReader SpecAsk SpecKept Samples ProofKept.
Local Open Scope N_scope.

(** ** C113: the pointers of read_row_no_sink *)

(** Once a Reader is open it asks for no memory: whatever is called, whatever is kept and
    looked at, all goes the same with any other amount of memory, also with none.  So the
    buffers are never replaced, and a pointer into them stays valid as long as the Reader. *)
Theorem C113_no_allocation : forall S c m (src : source S) flt s r p, opened c src flt s r ->
  kexec_all (with_memory c m) src p (r, []) = kexec_all c src p (r, []).
Proof. exact kept_no_allocation. Qed.
Print Assumptions C113_no_allocation.

(** To keep a row gives what read_row_no_sink gives and leaves the Reader as it does; a look
    at once shows the row. *)
Theorem C113_keep : forall S c (src : source S) r kept,
  fst (kexec c src KKeep (r, kept))
  = (x <- fst (read_row_no_sink c src r) ;;
     match x with
     | None => Ok KNull
     | Some p => b <- read_cells (pv_mem p) (pv_off p) (md_row_length (rs_md r)) ;; Ok (KRow b)
     end)
  /\ fst (snd (kexec c src KKeep (r, kept))) = snd (read_row_no_sink c src r).
Proof. exact keep_outcome. Qed.
Print Assumptions C113_keep.

Theorem C113_look : forall S c (src : source S) r kept b w,
  kexec c src KKeep (r, kept) = (Ok (KRow b), w) ->
  kexec c src (KLook (length kept)) w = (Ok (KRow b), w).
Proof. exact keep_then_look. Qed.
Print Assumptions C113_look.

(** A row which could be read when it was kept can be read at any later time: there are as
    many bytes as a row has, all of them written. *)
Theorem C113_valid : forall S c (src : source S) flt s r q tq r1 kept1 b w2 p t w3,
  opened c src flt s r -> kexec_all c src q (r, []) = (tq, (r1, kept1)) ->
  kexec c src KKeep (r1, kept1) = (Ok (KRow b), w2) -> kexec_all c src p w2 = (t, w3) ->
  exists b', kexec c src (KLook (length kept1)) w3 = (Ok (KRow b'), w3) /\ lenN b' = md_row_length (rs_md r).
Proof. exact kept_valid. Qed.
Print Assumptions C113_valid.

(** A row in the page shows the same as long as the source is asked for no further page. *)
Theorem C113_page : forall S c (src : source S) flt s r q tq r1 kept1 p t r2 kept2 j off,
  opened c (counted src) flt s r -> kexec_all c (counted src) q (r, []) = (tq, (r1, kept1)) ->
  kexec_all c (counted src) p (r1, kept1) = (t, (r2, kept2)) -> asked_for r2 = asked_for r1 ->
  nth_error kept1 j = Some (InPage off) ->
  fst (kexec c (counted src) (KLook j) (r2, kept2)) = fst (kexec c (counted src) (KLook j) (r1, kept1)).
Proof. exact kept_page. Qed.
Print Assumptions C113_page.

(** A row which was decompressed shows the same as long as no other row is extracted, also
    when rows are skipped and pages are read. *)
Theorem C113_row : forall S c (src : source S) flt s r q tq r1 kept1 p t r2 kept2 j,
  opened c src flt s r -> kexec_all c src q (r, []) = (tq, (r1, kept1)) ->
  kexec_all c src p (r1, kept1) = (t, (r2, kept2)) -> Forall extracts_none p ->
  nth_error kept1 j = Some InRow ->
  fst (kexec c src (KLook j) (r2, kept2)) = fst (kexec c src (KLook j) (r1, kept1)).
Proof. exact kept_row. Qed.
Print Assumptions C113_row.

(** The next row which is decompressed shows in the place of all those before. *)
Theorem C113_overwritten : forall S c (src : source S) r kept b r' kept' j,
  kexec c src KKeep (r, kept) = (Ok (KRow b), (r', kept')) ->
  nth_error kept' (length kept) = Some InRow -> nth_error kept j = Some InRow ->
  kexec c src (KLook j) (r', kept') = (Ok (KRow b), (r', kept')).
Proof. exact kept_overwritten. Qed.
Print Assumptions C113_overwritten.

(** What a program sees over a file, where the rows it kept are, and how often the source was
    asked for bytes since the Reader was opened. *)
Definition kept_run (content : bytes) (p : list kstmt) : option (list (res kval) * list place * N) :=
  match open_reader sample_cfg (counted file_source) None (file_open content, 0) with
  | Ok (r, _) =>
      let '(t, (r', k)) := kexec_all sample_cfg (counted file_source) p (r, []) in
      Some (t, k, asked_for r' - asked_for r)
  | _ => None
  end.

(** Two rows of the first page stay while they are in it; the decompressed row stays over a
    row which is stored as it is, and over rows which are skipped. *)
Example C113_case :
  kept_run sample_file [KKeep; KKeep; KLook 0; KLook 1]
  = Some ([Ok (KRow (bs "AAAAAAAAabcd")); Ok (KRow (bs "BBBBBBBBefgh"));
           Ok (KRow (bs "AAAAAAAAabcd")); Ok (KRow (bs "BBBBBBBBefgh"))], [InPage 112; InPage 124], 0)
  /\ kept_run sample_rle [KCall (OpSkip 3); KKeep; KCall (OpSkip 1); KLook 0]
     = Some ([Ok (KOut (OBool true)); Ok (KRow (bs "mnop" ++ repeat x00 8)); Ok (KOut (OBool true));
              Ok (KRow (bs "mnop" ++ repeat x00 8))], [InRow], 1).
Proof. vm_compute. repeat split; reflexivity. Qed.

(** With no memory at all the rows of the file are still read, over two further pages. *)
Example C113_memory_case :
  match reader_of sample_cfg sample_file with
  | Some r => fst (kexec_all (with_memory sample_cfg 0) file_source [KCall (OpSkip 5); KKeep; KKeep] (r, []))
              = [Ok (KOut (OBool true)); Ok (KRow (bs "FFFFFFFFuvwx")); Ok KNull]
  | None => False
  end.
Proof. vm_compute. reflexivity. Qed.

(** That a kept row shows what it showed is false.  In a file which is not compressed it
    shows other bytes once the next page was read. *)
Theorem C113_page_refuted : exists p,
  kept_run sample_file p
  = Some ([Ok (KRow (bs "AAAAAAAAabcd")); Ok (KOut (OBool true)); Ok (KRow (repeat x00 12))], [InPage 112], 1).
Proof. exists [KKeep; KCall (OpSkip 2); KLook 0]. vm_compute. reflexivity. Qed.
Print Assumptions C113_page_refuted.

(** In a compressed file it shows another row after the next call, without any page read. *)
Theorem C113_row_refuted : exists q p,
  kept_run sample_rle q = Some ([Ok (KOut (OBool true)); Ok (KRow (bs "mnop" ++ repeat x00 8))], [InRow], 1)
  /\ kept_run sample_rle (q ++ p)
     = Some ([Ok (KOut (OBool true)); Ok (KRow (bs "mnop" ++ repeat x00 8)); Ok (KRow (bs "qrstuvwx" ++ repeat x00 4));
              Ok (KRow (bs "qrstuvwx" ++ repeat x00 4))], [InRow; InRow], 1).
Proof. exists [KCall (OpSkip 3); KKeep], [KKeep; KLook 0]. vm_compute. split; reflexivity. Qed.
Print Assumptions C113_row_refuted.
