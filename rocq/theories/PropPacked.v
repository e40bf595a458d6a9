(** C126: how far a changed byte in a compressed row reaches. *)
From Verif Require Import Base Types SpecFile Buffer Page Column Header Metadata Decomp
  Data Reader SpecReader SpecValues SpecHeader SpecDecomp SpecConform SpecDamage SpecPacked
  Samples ProofPacked.
Local Open Scope N_scope.

(** C126.  In both builds and with any filter: a file is opened, and one of its bytes is
    replaced by another; the byte is on a whole page of type 0 which the Reader has not yet
    taken, behind the table of pointers of this page, and not in two of its pieces.  Then the
    changed file is opened too, with the same properties.  In every history of calls for one
    row each (and of skips) at most one call differs, and it is one which gives a row; all
    that comes before and behind it is the same, the numbers of the rows with it, unless the
    call does not come back.  [max_alloc]: memory for a row of [row_limit] bytes cannot be had. *)
Theorem C126_one_call : forall c flt a x y b r, max_alloc c < row_limit ->
  opened c file_source flt (file_open (a ++ x :: b)) r ->
  in_piece (a ++ x :: b) (lenN a) ->
  lenN (a ++ x :: b) <= lenN a + lenN (not_taken r) ->
  exists r', opened c file_source flt (file_open (a ++ y :: b)) r'
    /\ rs_h r' = rs_h r /\ rs_md r' = rs_md r
    /\ forall ops, forallb one_at_a_time ops = true ->
       one_call (map (plain_entry (md_row_length (rs_md r))) (fst (trace c file_source ops (Some r))))
                (map (plain_entry (md_row_length (rs_md r))) (fst (trace c file_source ops (Some r')))).
Proof. exact damage_packed. Qed.
Print Assumptions C126_one_call.

(** Byte [i] of a file replaced. *)
Definition put (i : nat) (v : byte) (file : bytes) : bytes := firstn i file ++ v :: skipn (S i) file.

(** The compressed sample file: byte 2104 is the first command of row 3, the first of the two
    rows on the second page.  With x33 for x83 it is none of the commands: the
    row cannot be had, and row 4 is read as before. *)
Definition one_by_one : list op := [OpSkip 2; OpNoSink; OpReadRow; OpReadRow; OpReadRow; OpEnd].

Example C126_case :
  sample_rle = put 2104 x83 sample_rle /\ max_alloc sample_cfg < row_limit
  /\ in_piece sample_rle 2104
  /\ (exists r, reader_of sample_cfg sample_rle = Some r /\ lenN (not_taken r) = 900
        /\ lenN sample_rle = 2120)
  /\ sample_trace sample_rle one_by_one
     = ([(Ok (OBool true), [], 0); (Ok (OPtr (Some (PView [] 0))), [], 0);
         (Ok (OBool true), [(3, bs "mnop" ++ repeat x00 8)], 0);
         (Ok (OBool true), [(4, bs "qrstuvwx" ++ repeat x00 4)], 0);
         (Ok (OBool false), [], 1); (Ok OUnit, [], 1)], 5)
  /\ sample_trace (put 2104 x33 sample_rle) one_by_one
     = ([(Ok (OBool true), [], 0); (Ok (OPtr (Some (PView [] 0))), [], 0);
         (Exn E_cannot_decompress, [], 0);
         (Ok (OBool true), [(4, bs "qrstuvwx" ++ repeat x00 4)], 0);
         (Ok (OBool false), [], 1); (Ok OUnit, [], 1)], 5).
Proof.
  split; [vm_compute; reflexivity|]. split; [vm_compute; reflexivity|]. split.
  { exists 1, 884. cbv zeta.
    assert (N2 : number_at sample_rle (header_length_field sample_rle + 1 * page_length_field sample_rle
                   + type_at (file_format sample_rle) + 4) 2 = 2) by (vm_compute; reflexivity).
    rewrite N2. split; [vm_compute; reflexivity|]. split; [vm_compute; reflexivity|].
    split; [vm_compute; discriminate|]. split; [vm_compute; reflexivity|]. split; [vm_compute; discriminate|].
    assert (P : forall i, i < 2 -> points_to sample_rle
              (header_length_field sample_rle + 1 * page_length_field sample_rle) i 884 -> i = 0).
    { intros i L H. assert (D : i = 0 \/ i = 1) by lia. destruct D as [->| ->]; [reflexivity|].
      exfalso. destruct H as [H _]. vm_compute in H. apply H. reflexivity. }
    intros i j I J HI HJ. rewrite (P i I HI), (P j J HJ). reflexivity. }
  split; [eexists; split; [vm_compute; reflexivity|]; vm_compute; split; reflexivity|].
  split; vm_compute; reflexivity.
Qed.

(** With calls for more rows the calls behind differ too: the second call ends at the row
    which cannot be had, and the one after it brings what is left. *)
Example C126_all_case :
  sample_trace sample_rle [OpSkip 3; OpReadAll; OpReadAll]
  = ([(Ok (OBool true), [], 0);
      (Ok OUnit, [(3, bs "mnop" ++ repeat x00 8); (4, bs "qrstuvwx" ++ repeat x00 4)], 1);
      (Ok OUnit, [], 1)], 5)
  /\ sample_trace (put 2104 x33 sample_rle) [OpSkip 3; OpReadAll; OpReadAll]
  = ([(Ok (OBool true), [], 0); (Exn E_cannot_decompress, [], 0);
      (Ok OUnit, [(4, bs "qrstuvwx" ++ repeat x00 4)], 1)], 5).
Proof. split; vm_compute; reflexivity. Qed.

(** A call which does not come back: the only row of the second page is mnO and zeros; with
    x81 for x82 in front the letter O becomes a command which takes two bytes, one is left, and
    the byte behind the row is read. *)
Definition long_run : bytes :=
  compressed_file Big Bit32 false 320 900 (bs "SAMPLE") (bs "SASYZCRL") sample_fields 12 2
    [bs "CCCCCCCCijkl"] [[x82 :: bs "mnO" ++ [xe6]]].

Example C126_outside_case :
  long_run = put 2115 x82 long_run
  /\ sample_trace long_run [OpReadRow; OpReadRow; OpReadRow]
     = ([(Ok (OBool true), [(0, bs "CCCCCCCCijkl")], 0);
         (Ok (OBool true), [(1, bs "mnO" ++ repeat x00 9)], 0);
         (Ok (OBool false), [], 1)], 2)
  /\ sample_trace (put 2115 x81 long_run) [OpReadRow; OpReadRow; OpReadRow]
     = ([(Ok (OBool true), [(0, bs "CCCCCCCCijkl")], 0); (Undef UB_oob_read, [], 0)], 2).
Proof. vm_compute. repeat split; reflexivity. Qed.
