(** C127: files which other programs write while they are read. *)
From Verif Require Import Base Types Buffer Page Column Header Metadata Decomp Data Reader
  SpecBuffer SpecReader SpecFile Samples SpecAsk Change SpecChange ProofChange.
Local Open Scope N_scope.

(** However the file changes, what a client sees is what it sees of one file which stays as it
    is.  Each byte of that file has been at its place at the moment of some read. *)
Theorem C127_one_file : forall seen c flt ops, exists content,
  from_versions seen content
  /\ session c (changing_source seen) flt changing_open ops
     = session c file_source flt (file_open content) ops.
Proof. exact changing_one_file. Qed.
Print Assumptions C127_one_file.

(** A file which is only appended to is seen as one of its beginnings, not shorter than it was
    at the first read. *)
Theorem C127_appended : forall c flt content there ops,
  (forall k, there 0%nat <= there k) ->
  exists m, there 0%nat <= m
  /\ session c (changing_source (appended content there)) flt changing_open ops
     = session c file_source flt (file_open (firstn (N.to_nat m) content)) ops.
Proof. exact appended_prefix. Qed.
Print Assumptions C127_appended.

(** The writer is ahead: at each read the file has the bytes which are asked for, or it is
    complete.  Then the file is seen as if it had been complete from the start. *)
Theorem C127_ahead : forall content there c flt ops r0 ev,
  open_reader c file_source flt (file_open content) = Ok (r0, ev) ->
  (forall k, N.min (lenN content) (asked_to (h_header_length (rs_h r0)) (h_page_length (rs_h r0)) k)
             <= there k) ->
  session c (changing_source (appended content there)) flt changing_open ops
  = session c file_source flt (file_open content) ops.
Proof. exact ahead_session. Qed.
Print Assumptions C127_ahead.

(** What is seen: the answers, the rows and the number of calls of end_of_data. *)
Definition changing_run (seen : nat -> bytes) (ops : list op)
  : res (list (res out * list (N * bytes) * N)) :=
  rmap (fun x => short 12 (snd x)) (session sample_cfg (changing_source seen) None changing_open ops).

(** The last of three pages is written when the fifth read comes: in time. *)
Definition in_time (k : nat) : N := if (k <? 4)%nat then 1920 else 2720.
(** And one read later: too late. *)
Definition too_late (k : nat) : N := if (k <? 5)%nat then 1920 else 2720.

Example C127_case :
  (forall k, in_time 0%nat <= in_time k) /\ lenN sample_file = 2720
  /\ (exists r0 ev, open_reader sample_cfg file_source None (file_open sample_file) = Ok (r0, ev)
      /\ forall k, N.min (lenN sample_file)
                     (asked_to (h_header_length (rs_h r0)) (h_page_length (rs_h r0)) k) <= in_time k)
  /\ changing_run (appended sample_file in_time) [OpReadRows 3; OpReadAll; OpReadAll]
     = Ok [(Ok (OBool true), [(0, bs "AAAAAAAAabcd"); (1, bs "BBBBBBBBefgh"); (2, bs "CCCCCCCCijkl")], 0);
           (Ok OUnit, [(3, bs "DDDDDDDDmnop"); (4, bs "EEEEEEEEqrst"); (5, bs "FFFFFFFFuvwx")], 1);
           (Ok OUnit, [], 1)].
Proof.
  split; [intros k; unfold in_time at 2; destruct (k <? 4)%nat; vm_compute; discriminate|].
  split; [vm_compute; reflexivity|]. split.
  { destruct (open_reader sample_cfg file_source None (file_open sample_file)) as [[r0 ev]| | | |] eqn:E;
      try (exfalso; vm_compute in E; discriminate).
    exists r0, ev. split; [reflexivity|].
    assert (H : rmap (fun x => (h_header_length (rs_h (fst x)), h_page_length (rs_h (fst x))))
                  (open_reader sample_cfg file_source None (file_open sample_file)) = Ok (320, 800))
      by (vm_compute; reflexivity).
    rewrite E in H. cbn [rmap fst] in H. injection H as H1 H2. rewrite H1, H2.
    assert (L : lenN sample_file = 2720) by (vm_compute; reflexivity). rewrite L.
    intros k. unfold in_time.
    destruct k as [|[|[|[|k]]]]; [vm_compute; discriminate ..|]. change (S (S (S (S k))) <? 4)%nat with false. apply N.le_min_l. }
  vm_compute. reflexivity.
Qed.

(** Rows which are appended after a read has met the end of the file are not delivered, also not
    when the client asks again: the file has six rows by then, and its header says six, the
    Reader has given five and says that the data is at its end. *)
Theorem C127_appended_later_refuted : exists content there,
  (forall k, there 0%nat <= there k)
  /\ appended content there 5%nat = sample_file
  /\ changing_run (appended content there) [OpReadAll; OpReadAll; OpReadRow]
     = Ok [(Ok OUnit, [(0, bs "AAAAAAAAabcd"); (1, bs "BBBBBBBBefgh"); (2, bs "CCCCCCCCijkl");
                       (3, bs "DDDDDDDDmnop"); (4, bs "EEEEEEEEqrst")], 1);
           (Ok OUnit, [], 1); (Ok (OBool false), [], 1)].
Proof.
  exists sample_file, too_late.
  split; [intros k; unfold too_late at 2; destruct (k <? 5)%nat; vm_compute; discriminate|].
  split; vm_compute; reflexivity.
Qed.
Print Assumptions C127_appended_later_refuted.

(** The file with one byte changed. *)
Definition rewritten (i : nat) (v : byte) (file : bytes) : bytes := firstn i file ++ v :: skipn (S i) file.

(** A file in which two bytes are written between two reads: the first row and the third one. *)
Definition two_rows (k : nat) : bytes :=
  if (k <? 3)%nat then sample_file
  else rewritten 1152 x49 (rewritten 440 x41 sample_file).

(** The one file of C127_one_file need not have existed at any moment: the Reader gives the first
    row as it was and the third one as it is, and says nothing. *)
Theorem C127_some_moment_refuted : exists seen,
  changing_run seen [OpReadRows 3]
  = Ok [(Ok (OBool true), [(0, bs "AAAAAAAAabcd"); (1, bs "BBBBBBBBefgh"); (2, bs "CCCCCCCCIjkl")], 0)]
  /\ forall k, session sample_cfg (changing_source seen) None changing_open [OpReadRows 3]
               <> session sample_cfg file_source None (file_open (seen k)) [OpReadRows 3].
Proof.
  exists two_rows. split; [vm_compute; reflexivity|]. intros k E.
  assert (A : changing_run two_rows [OpReadRows 3]
    = rmap (fun x => short 12 (snd x)) (session sample_cfg file_source None (file_open (two_rows k)) [OpReadRows 3])).
  { unfold changing_run. rewrite E. reflexivity. }
  unfold two_rows at 2 in A. destruct (k <? 3)%nat; vm_compute in A; discriminate.
Qed.
Print Assumptions C127_some_moment_refuted.
