(** C114: files on devices which fail to read. *)
From Verif Require Import Base Types Buffer Page Column Header Metadata Decomp Data Reader
  SpecBuffer SpecReader SpecFile Samples SpecAsk Disk SpecDisk ProofDisk.
Local Open Scope N_scope.

(** On a device which does not fail the stream is the one of the other properties. *)
Theorem C114_no_fault : forall c flt content ops,
  session c (disk_source false) flt (disk_open content) ops
  = session c file_source flt (file_open content) ops.
Proof. exact disk_sound. Qed.
Print Assumptions C114_no_fault.

(** A device which fails behind [content], whatever the file contains there: the session is
    the one with the whole file, or an exception says so: from the constructor, or from one
    call.  Up to that call all is as with the whole file, and this call has pushed first rows
    of those it pushes otherwise.  The calls after it say that the data has ended.  So the
    rows behind the fault are never missing without an exception. *)
Theorem C114_fault : forall c flt content z ops,
  with_fault ops (session c file_source flt (file_open (content ++ z)) ops)
    (session c (disk_source true) flt (disk_open content) ops).
Proof. exact disk_faults. Qed.
Print Assumptions C114_fault.

(** A session which has not read behind [content] in the whole file does not see the fault. *)
Theorem C114_far : forall c flt content z ops r0 ev l r,
  open_reader c file_source flt (file_open (content ++ z)) = Ok (r0, ev) ->
  trace c file_source ops (Some r0) = (l, Some r) ->
  fs_eof (source_at r) = false -> lenN z <= lenN (fs_rest (source_at r)) ->
  session c (disk_source true) flt (disk_open content) ops = Ok (ev, l).
Proof. exact disk_far. Qed.
Print Assumptions C114_far.

(** What is seen: the answers, the rows and the number of calls of end_of_data. *)
Definition disk_run (fault : bool) (content : bytes) (ops : list op)
  : res (list (res out * list (N * bytes) * N)) :=
  rmap (fun x => short 12 (snd x)) (session sample_cfg (disk_source fault) None (disk_open content) ops).

(** A fault in the third page, one behind the last page, and one in the second page which is
    not reached by two rows. *)
Example C114_case :
  disk_run true (firstn 2000 sample_file) [OpReadRows 3; OpReadAll; OpReadRow; OpSkip 1]
  = Ok [(Ok (OBool true), [(0, bs "AAAAAAAAabcd"); (1, bs "BBBBBBBBefgh"); (2, bs "CCCCCCCCijkl")], 0);
        (Exn E_cannot_read_page, [(3, bs "DDDDDDDDmnop"); (4, bs "EEEEEEEEqrst")], 0);
        (Ok (OBool false), [], 1); (Ok (OBool false), [], 1)]
  /\ disk_run true sample_file [OpSkip 4; OpReadAll]
     = Ok [(Ok (OBool true), [], 0); (Ok OUnit, [(4, bs "EEEEEEEEqrst"); (5, bs "FFFFFFFFuvwx")], 1)]
  /\ disk_run true (firstn 1200 sample_file) [OpReadRows 2]
     = Ok [(Ok (OBool true), [(0, bs "AAAAAAAAabcd"); (1, bs "BBBBBBBBefgh")], 0)].
Proof. vm_compute. repeat split; reflexivity. Qed.

(** The hypotheses of C114_far: the first two rows of the file. *)
Example C114_far_case :
  match open_reader sample_cfg file_source None (file_open (firstn 1200 sample_file ++ skipn 1200 sample_file)) with
  | Ok (r0, _) =>
      match trace sample_cfg file_source [OpReadRows 2] (Some r0) with
      | (_, Some r) => fs_eof (source_at r) = false
                       /\ lenN (skipn 1200 sample_file) <= lenN (fs_rest (source_at r))
      | _ => False
      end
  | _ => False
  end.
Proof. vm_compute. split; [reflexivity|discriminate]. Qed.

(** The Reader says it once only.  Read again after the exception, the data has ended
    regularly: read_all returns and the sink is told end_of_data, with one row missing. *)
Theorem C114_said_again_refuted : exists content z,
  content ++ z = sample_file
  /\ disk_run true content [OpReadAll; OpReadAll]
     = Ok [(Exn E_cannot_read_page,
            [(0, bs "AAAAAAAAabcd"); (1, bs "BBBBBBBBefgh"); (2, bs "CCCCCCCCijkl");
             (3, bs "DDDDDDDDmnop"); (4, bs "EEEEEEEEqrst")], 0);
           (Ok OUnit, [], 1)].
Proof. exists (firstn 2000 sample_file), (skipn 2000 sample_file). vm_compute. split; reflexivity. Qed.
Print Assumptions C114_said_again_refuted.

(** Inside the header a fault is not told from a short file: both are "header too short". *)
Theorem C114_told_apart_refuted : exists content z,
  content ++ z = sample_file
  /\ disk_run true content [OpReadAll] = Exn E_header_too_short
  /\ disk_run false content [OpReadAll] = Exn E_header_too_short.
Proof. exists (firstn 100 sample_file), (skipn 100 sample_file). vm_compute. repeat split; reflexivity. Qed.
Print Assumptions C114_told_apart_refuted.
