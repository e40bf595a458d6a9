(** What is the same in every build and with every amount of memory. *)
From Verif Require Import Base Types Buffer Page Column Header Metadata Decomp Data Reader
  SpecFile ProofHeader SpecReader SpecAsk SpecBuilds Samples ProofBuilds.
Local Open Scope N_scope.

(** ** C107: debug and release builds show the same *)

(** For any source, filter and sequence of calls: what is shown by the build with the checks,
    or by the one with less memory, is what the other one shows, up to the point where it is
    terminated by a check or misses memory.  The full claim, that they show the same, is
    refuted below. *)
Theorem C107_agree_partial : forall c1 c2, stricter c1 c2 -> forall S (src : source S) flt s ops,
  agree c1 c2 (session c1 src flt s ops) (session c2 src flt s ops).
Proof. exact builds_agree. Qed.
Print Assumptions C107_agree_partial.

(** So a session in which the debug build is not terminated is the session of the release
    build. *)
Theorem C107_same_partial : forall S (src : source S) flt s ops m k ev l,
  session (Cfg false m k) src flt s ops = Ok (ev, l) -> Forall (fun x => snd (fst x) <> Abort) l ->
  session (Cfg true m k) src flt s ops = Ok (ev, l).
Proof. exact debug_is_release. Qed.
Print Assumptions C107_same_partial.

(** The last page of this file announces 65 rows, of which 64 are on it: the debug build is terminated, the release build delivers a
    65th row. *)
Theorem C107_refuted : exists content ops,
  session (Cfg false 100000 10) file_source None (file_open content) ops
  <> session (Cfg true 100000 10) file_source None (file_open content) ops.
Proof.
  exists overrun_file, [OpSkip 64; OpReadRow]. intros H.
  apply (f_equal (fun x => match x with Ok (_, [_; (_, Abort, _)]) => true | _ => false end)) in H.
  vm_compute in H. discriminate.
Qed.
Print Assumptions C107_refuted.

Example C107_case :
  stricter (Cfg false 100000 10) (Cfg true 100000 10)
  /\ match session (Cfg false 100000 10) file_source None (file_open sample_file) [OpReadRows 4; OpReadAll] with
     | Ok (_, l) => lenN (flat_map (fun x => rows_of (snd x)) l) = 6
                    /\ Forall (fun x => snd (fst x) <> Abort) l
     | _ => False
     end.
Proof. split; [unfold stricter; cbn; repeat split; lia|]. vm_compute. repeat (constructor; try discriminate). Qed.

(** ** C108: the memory a Reader needs *)

(** A limit for each piece of memory which lets the header, a page, the columns and a row of
    a compressed file through changes nothing: all that is shown is what is shown with any
    larger limit. *)
Theorem C108_enough_partial : forall nd m1 m2 k, m1 <= m2 -> forall S (src : source S) flt s r ev ops,
  open_reader (Cfg nd m2 k) src flt s = Ok (r, ev) -> largest_piece (rs_h r) (rs_md r) <= m1 ->
  session (Cfg nd m1 k) src flt s ops = session (Cfg nd m2 k) src flt s ops.
Proof. exact enough_memory. Qed.
Print Assumptions C108_enough_partial.

(** These lengths are only announced; the memory is taken before anything is compared with
    the length of the file: a file of 320 bytes needs 25 times as much to be found empty. *)
Theorem C108_file_refuted : exists content r ev m,
  open_reader (Cfg true 8000 10) file_source None (file_open content) = Ok (r, ev)
  /\ md_columns (rs_md r) = [] /\ md_row_count (rs_md r) = 0
  /\ 24 * lenN content <= m
  /\ open_reader (Cfg true m 10) file_source None (file_open content) = Exn E_bad_alloc.
Proof.
  set (content := header_bytes Big Bit32 false 320 8000 0 (bs "EMPTY")).
  assert (X : match open_reader (Cfg true 8000 10) file_source None (file_open content) with
    | Ok (r, ev) => md_columns (rs_md r) = [] /\ md_row_count (rs_md r) = 0 | _ => False end).
  { vm_compute. split; reflexivity. }
  destruct (open_reader (Cfg true 8000 10) file_source None (file_open content)) as [[r ev]| | | |] eqn:E;
    try contradiction.
  exists content, r, ev, 7999. split; [exact E|]. split; [apply X|]. split; [apply X|].
  split; [vm_compute; discriminate|vm_compute; reflexivity].
Qed.
Print Assumptions C108_file_refuted.

(** A file of 288 bytes may ask for 4 GiB. *)
Theorem C108_header_refuted : exists content, lenN content = 288
  /\ open_reader (Cfg true 4294967294 10) file_source None (file_open content) = Exn E_bad_alloc.
Proof.
  exists (firstn 288 (set_at 196 [xff; xff; xff; xff] sample_file)).
  split; vm_compute; reflexivity.
Qed.
Print Assumptions C108_header_refuted.

(** 800 bytes are enough for the sample file, 799 are not; 120 of them are for each column,
    whatever the filter. *)
Example C108_case :
  match reader_of (Cfg true 100000 10) sample_file with
  | Some r => largest_piece (rs_h r) (rs_md r) = 800
  | None => False
  end
  /\ open_reader (Cfg true 799 10) file_source None (file_open sample_file) = Exn E_bad_alloc.
Proof. split; vm_compute; reflexivity. Qed.
