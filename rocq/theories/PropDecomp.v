(** Properties of the row decompression. *)
From Verif Require Import Base Types Buffer Decomp SpecValues SpecBuffer SpecDecomp SpecDecode
  Lemmas ProofDecomp ProofDecode.
Local Open Scope N_scope.

(** ** C24 *)

(** What a decompression returns is a row of [n] bytes, all of them written
    (reading an unwritten cell is [Undef UB_uninit]); otherwise it throws, or
    reads outside: it never writes outside the buffer, never hangs. *)
Theorem C24_rle_row : forall n d src, row_buffer n d -> n < row_limit ->
  match fst (rle src d) with
  | Ok row => lenN row = n
  | Exn e => e = E_cannot_decompress
  | Undef u => u = UB_oob_read /\ long_byte_run_last src
  | _ => False
  end.
Proof. exact rle_outcome. Qed.
Print Assumptions C24_rle_row.

Theorem C24_rdc_row : forall n d src, row_buffer n d -> n < row_limit ->
  match fst (rdc src d) with
  | Ok row => lenN row = n
  | Exn e => e = E_cannot_decompress
  | Undef u => u = UB_oob_read \/ u = UB_overlap
  | _ => False
  end.
Proof. exact rdc_outcome. Qed.
Print Assumptions C24_rdc_row.

(** Every row of bytes whatever is read by the rules of SpecDecode.v, and by them alone:
    what they say is what comes out. *)
Theorem C24_rle_exact : forall n d src x, row_buffer n d -> n < row_limit ->
  (fst (rle src d) = x <-> rle_reads n [] src x).
Proof. exact rle_exact. Qed.
Print Assumptions C24_rle_exact.

Theorem C24_rdc_exact : forall n d src x, row_buffer n d -> n < row_limit ->
  (fst (rdc src d) = x <-> rdc_reads n 0 0 [] src x).
Proof. exact rdc_exact. Qed.
Print Assumptions C24_rdc_exact.

(** By the rules: a copy of six bytes of which two are there, into rows of 8 bytes and of
    1; an item after a control word, and two bytes which are left. *)
Example C24_rules :
  rle_reads 8 [] [x85; x41; x42] (Ok [x41; x42; x00; x00; x00; x00; x00; x00])
  /\ fst (rle [x85; x41; x42] (fresh 8)) = Ok [x41; x42; x00; x00; x00; x00; x00; x00]
  /\ rle_reads 1 [] [x85; x41; x42] (Exn E_cannot_decompress)
  /\ rdc_reads 5 0 0 [] [x80; x00; x01; x41; x42; x43] (Ok [x41; x41; x41; x41; x00])
  /\ fst (rdc [x80; x00; x01; x41; x42; x43] (fresh 5)) = Ok [x41; x41; x41; x41; x00].
Proof.
  split; [|split; [reflexivity|split; [|split; [|reflexivity]]]].
  - apply (rle_copies_rest 8 [] (RCopy1 5 [x41; x42; x00; x00; x00; x00]) [x41; x42] [x00; x00; x00; x00]);
      try reflexivity; try discriminate; vm_compute; auto; discriminate.
  - apply (rle_rest_exceeds 1 [] (RCopy1 5 [x41; x42; x00; x00; x00; x00]) [x41; x42] [x00; x00; x00; x00]);
      try reflexivity; try discriminate; vm_compute; auto; discriminate.
  - apply (rdc_does 5 0 0 [] _ 32768 15 (DShortRun 1 x41) [x42; x43]); try reflexivity; try (vm_compute; discriminate).
    + right. split; [reflexivity|]. split; [reflexivity|]. exists x80, x00. split; reflexivity.
    + apply rdc_stops. right. split; vm_compute; [reflexivity|discriminate].
Qed.

(** The buffer made for the reader is a row buffer of the right size. *)
Theorem C24_buffer : forall c n d, dst_new c n = Ok d -> row_buffer n d.
Proof. exact dst_new_row_buffer. Qed.
Print Assumptions C24_buffer.

Example C24_cases :
  fst (rle [xe0; x81; x41; x42; x43] (fresh 8))
    = Ok [x20; x20; x41; x42; x00; x00; x00; x00]
  /\ fst (rle [xe0; x81; x41; x42; x43] (fresh 3)) = Exn E_cannot_decompress
  /\ fst (rdc [x40; x00; x41; x10; x00; x42] (fresh 24))
    = Ok (x41 :: repeat x42 19 ++ repeat x00 4).
Proof. repeat split; reflexivity. Qed.

(** ** C25 *)

Theorem C25_rle_expansion : forall n d cs tail,
  row_buffer n d -> n < row_limit -> Forall rle_valid cs ->
  lenN (rle_expansion cs) <= n ->
  lenN tail <= 1 \/ lenN (rle_expansion cs) = n ->
  tail <> [] \/ last_is_long cs ->
  fst (rle (rle_encoding cs ++ tail) d) = Ok (zero_padded n (rle_expansion cs)).
Proof. exact rle_decodes. Qed.
Print Assumptions C25_rle_expansion.

Definition sample_rle : list rle_cmd :=
  [RAt2 1; RCopy1 2 [x41; x42; x43]; RBlankLong 0 3; RZero2 0; RByteLong 0 0 x2a; RByte3 1 x2d].

Example C25_case :
  Forall rle_valid sample_rle /\ lenN (rle_expansion sample_rle) = 50
  /\ last_is_long sample_rle
  /\ fst (rle (rle_encoding sample_rle) (fresh 52))
     = Ok (zero_padded 52 (rle_expansion sample_rle)).
Proof.
  split; [repeat constructor; vm_compute; auto|]. split; [reflexivity|]. split.
  - intros cs' c E. change sample_rle with (removelast sample_rle ++ [RByte3 1 x2d]) in E.
    apply app_inj_tail in E. destruct E as [_ <-]. vm_compute. discriminate.
  - reflexivity.
Qed.

(** ** C26 *)

(** The full claim, without the condition on the last command, is false: the
    one-byte command which ends the row is dropped. *)
Theorem C26_final_command_refuted : exists n cs,
  Forall rle_valid cs /\ lenN (rle_expansion cs) <= n
  /\ fst (rle (rle_encoding cs) (fresh n)) <> Ok (zero_padded n (rle_expansion cs)).
Proof.
  exists 5, [RCopy1 2 [x41; x42; x43]; RBlank2 0].
  split; [repeat constructor; vm_compute; auto|]. split; [vm_compute; discriminate|].
  vm_compute. discriminate.
Qed.
Print Assumptions C26_final_command_refuted.

(** Nothing more than one such command is ever lost... *)
Theorem C26_loss_partial : forall n d cs,
  row_buffer n d -> n < row_limit -> Forall rle_valid cs ->
  lenN (rle_expansion cs) <= n ->
  exists cs' lost, cs = cs' ++ lost /\ lenN (rle_encoding lost) <= 1
    /\ fst (rle (rle_encoding cs) d) = Ok (zero_padded n (rle_expansion cs')).
Proof. exact rle_loses_one. Qed.
Print Assumptions C26_loss_partial.

(** ...and the claim holds when the last command is a run of zeros. *)
Theorem C26_zeros_partial : forall n d cs l,
  row_buffer n d -> n < row_limit -> Forall rle_valid (cs ++ [RZero2 l]) ->
  lenN (rle_expansion (cs ++ [RZero2 l])) <= n ->
  fst (rle (rle_encoding (cs ++ [RZero2 l])) d)
  = Ok (zero_padded n (rle_expansion (cs ++ [RZero2 l]))).
Proof. exact rle_final_zeros. Qed.
Print Assumptions C26_zeros_partial.

Example C26_case :
  let cs := [RCopy1 2 [x41; x42; x43]; RZero2 0] in
  Forall rle_valid cs
  /\ fst (rle (rle_encoding cs) (fresh 5)) = Ok [x41; x42; x43; x00; x00]
  /\ fst (rle (rle_encoding [RCopy1 2 [x41; x42; x43]; RBlank2 0]) (fresh 5))
     = Ok [x41; x42; x43; x00; x00].
Proof. split; [repeat constructor; vm_compute; auto|]. split; reflexivity. Qed.

(** ** C27 *)

Theorem C27_unknown_command : forall n d cs v tail,
  row_buffer n d -> n < row_limit -> Forall rle_valid cs ->
  lenN (rle_expansion cs) < n -> 0x10 <= b2n v < 0x40 -> tail <> [] ->
  fst (rle (rle_encoding cs ++ v :: tail) d) = Exn E_cannot_decompress.
Proof. exact rle_bad_command. Qed.
Print Assumptions C27_unknown_command.

Theorem C27_overflow : forall n d cs c tail,
  row_buffer n d -> n < row_limit -> Forall rle_valid cs -> rle_valid c ->
  lenN (rle_expansion cs) < n -> n < lenN (rle_expansion cs) + lenN (rle_expand c) ->
  tail <> [] \/ 2 <= lenN (rle_bytes c) ->
  fst (rle (rle_encoding cs ++ rle_bytes c ++ tail) d) = Exn E_cannot_decompress.
Proof. exact rle_overflow. Qed.
Print Assumptions C27_overflow.

Theorem C27_rdc_overflow : forall n d gs g i g2 gs2 tail,
  row_buffer n d -> n < row_limit ->
  Forall (fun g => length g = 16%nat) gs -> lenN (g ++ i :: g2) <= 16 ->
  rdc_all_valid [] (concat gs ++ g ++ [i]) ->
  lenN (rdc_expansion [] (concat gs ++ g)) < n ->
  n < lenN (rdc_expansion [] (concat gs ++ g ++ [i])) ->
  g = [] \/ 3 <= lenN (rdc_bytes i ++ rdc_items_bytes g2 ++ rdc_encoding gs2 ++ tail) ->
  fst (rdc (rdc_encoding (gs ++ (g ++ i :: g2) :: gs2) ++ tail) d)
  = Exn E_cannot_decompress.
Proof. exact rdc_overflow. Qed.
Print Assumptions C27_rdc_overflow.

Example C27_cases :
  fst (rle (rle_encoding sample_rle ++ [x25; x00]) (fresh 60)) = Exn E_cannot_decompress
  /\ fst (rle (rle_encoding sample_rle) (fresh 49)) = Exn E_cannot_decompress
  /\ (let g := [DLiteral x41; DLongRun 0 0 x42] in
      lenN (rdc_expansion [] g) = 20
      /\ fst (rdc (rdc_encoding [g]) (fresh 19)) = Exn E_cannot_decompress).
Proof. repeat split; reflexivity. Qed.

(** ** C28 *)

Theorem C28_rdc_expansion : forall n d gs tail,
  row_buffer n d -> n < row_limit -> groups_ok gs -> rdc_all_valid [] (concat gs) ->
  lenN (rdc_expansion [] (concat gs)) <= n ->
  lenN tail <= 2 \/ lenN (rdc_expansion [] (concat gs)) = n ->
  three_remain gs (lenN tail) ->
  fst (rdc (rdc_encoding gs ++ tail) d)
  = Ok (zero_padded n (rdc_expansion [] (concat gs))).
Proof. exact rdc_decodes. Qed.
Print Assumptions C28_rdc_expansion.

(** Two groups: sixteen literals, then runs and back references. *)
Definition sample_rdc : list (list rdc_item) :=
  [ map (fun k => DLiteral (n2b (65 + N.of_nat k))) (seq 0 16);
    [DShortRun 1 x2a; DShortRef 5 1 1; DLongRun 2 0 x2d; DLiteral x21; DLongRef 1 2 3] ].

Example C28_case :
  groups_ok sample_rdc /\ rdc_all_valid [] (concat sample_rdc)
  /\ three_remain sample_rdc 0 /\ lenN (rdc_expansion [] (concat sample_rdc)) = 66
  /\ fst (rdc (rdc_encoding sample_rdc) (fresh 70))
     = Ok (zero_padded 70 (rdc_expansion [] (concat sample_rdc))).
Proof.
  split; [vm_compute; repeat split; discriminate|].
  split; [vm_compute; repeat split; try reflexivity; try discriminate|].
  split.
  - intros gs' g i E _.
    change sample_rdc with ([hd [] sample_rdc] ++
      [ [DShortRun 1 x2a; DShortRef 5 1 1; DLongRun 2 0 x2d; DLiteral x21]
        ++ [DLongRef 1 2 3] ]) in E.
    apply app_inj_tail in E. destruct E as [_ E].
    apply app_inj_tail in E. destruct E as [_ <-]. vm_compute. discriminate.
  - split; reflexivity.
Qed.

(** ** C29 *)

(** False: the row ABC as three literals loses its last two bytes. *)
Theorem C29_trailing_literals_refuted : exists n gs,
  groups_ok gs /\ rdc_all_valid [] (concat gs) /\ lenN (rdc_expansion [] (concat gs)) <= n
  /\ fst (rdc (rdc_encoding gs) (fresh n))
     <> Ok (zero_padded n (rdc_expansion [] (concat gs))).
Proof.
  exists 3, [[DLiteral x41; DLiteral x42; DLiteral x43]].
  split; [vm_compute; split; discriminate|].
  split; [vm_compute; auto|]. split; vm_compute; discriminate.
Qed.
Print Assumptions C29_trailing_literals_refuted.

(** At most the items of the last two bytes are lost. *)
Theorem C29_loss_partial : forall n d gs,
  row_buffer n d -> n < row_limit -> groups_ok gs -> rdc_all_valid [] (concat gs) ->
  lenN (rdc_expansion [] (concat gs)) <= n ->
  exists kept lost, concat gs = kept ++ lost /\ lenN (rdc_items_bytes lost) <= 2
    /\ fst (rdc (rdc_encoding gs) d) = Ok (zero_padded n (rdc_expansion [] kept)).
Proof. exact rdc_loses_two. Qed.
Print Assumptions C29_loss_partial.

Example C29_case :
  fst (rdc (rdc_encoding [[DLiteral x41; DLiteral x42; DLiteral x43]]) (fresh 3))
  = Ok [x41; x00; x00].
Proof. reflexivity. Qed.

(** ** C30 *)

(** False: a two byte row whose command takes three bytes, a three byte row
    whose control word and item take five, and a back reference which points
    before the row or overlaps its copy. *)
Theorem C30_rle_refuted : exists src n,
  fst (rle src (fresh n)) = Undef UB_oob_read.
Proof. exists [x40; x00], 20. reflexivity. Qed.
Print Assumptions C30_rle_refuted.

Theorem C30_rdc_source_refuted : exists src n,
  fst (rdc src (fresh n)) = Undef UB_oob_read.
Proof. exists [x80; x00; x10], 20. reflexivity. Qed.
Print Assumptions C30_rdc_source_refuted.

Theorem C30_rdc_row_refuted : exists src n,
  16 <= lenN src /\ fst (rdc src (fresh n)) = Undef UB_oob_read.
Proof.
  exists ([x80; x00; x30; x00] ++ repeat x00 12), 20. split; [vm_compute; discriminate|reflexivity].
Qed.
Print Assumptions C30_rdc_row_refuted.

Theorem C30_rdc_overlap_refuted : exists src n,
  fst (rdc src (fresh n)) = Undef UB_overlap.
Proof. exists ([x10; x00] ++ repeat x41 3 ++ [x40; x00; x00]), 20. reflexivity. Qed.
Print Assumptions C30_rdc_overlap_refuted.

(** It holds for RLE except for one shape of the last two bytes. *)
Theorem C30_rle_partial : forall n d src, row_buffer n d -> n < row_limit ->
  ~ long_byte_run_last src -> ~ memory_error (fst (rle src d)).
Proof. exact rle_safe. Qed.
Print Assumptions C30_rle_partial.

(** Exactly then: commands which leave room, and that shape behind them.  For RDC the rules
    of C24_rdc_exact tell it. *)
Theorem C30_rle_exact : forall n d src, row_buffer n d -> n < row_limit ->
  ((exists u, fst (rle src d) = Undef u) <->
   exists cs v y, src = rle_encoding cs ++ [v; y] /\ Forall rle_valid cs /\ lenN (rle_expansion cs) < n
     /\ 0x40 <= b2n v < 0x50).
Proof. exact rle_undefined. Qed.
Print Assumptions C30_rle_exact.

Example C30_case : ~ long_byte_run_last [xc1; x2d; x40].
Proof.
  intros [pre [v [x [E R]]]].
  change [xc1; x2d; x40] with ([xc1] ++ [x2d; x40]) in E.
  change [v; x] with ([v] ++ [x]) in E. rewrite app_assoc in E.
  change ([xc1] ++ [x2d; x40]) with ([xc1; x2d] ++ [x40]) in E.
  apply app_inj_tail in E. destruct E as [E _].
  change [xc1; x2d] with ([xc1] ++ [x2d]) in E.
  apply app_inj_tail in E. destruct E as [_ <-]. vm_compute in R. destruct R as [R _].
  apply R. reflexivity.
Qed.

(** ** C31 *)

Theorem C31_rle_history : forall n rows d, row_buffer n d -> n < row_limit ->
  history rle d rows = map (fun r => fst (rle r (fresh n))) rows.
Proof. exact rle_independent. Qed.
Print Assumptions C31_rle_history.

Theorem C31_rdc_history : forall n rows d, row_buffer n d -> n < row_limit ->
  history rdc d rows = map (fun r => fst (rdc r (fresh n))) rows.
Proof. exact rdc_independent. Qed.
Print Assumptions C31_rdc_history.

(** A row which fails between two which do not. *)
Example C31_case :
  history rle (fresh 4) [[x83; x41; x42; x43; x44]; [xe0; x20; x00]; [xe0; x00]]
  = [Ok [x41; x42; x43; x44]; Exn E_cannot_decompress; Ok [x20; x20; x00; x00]].
Proof. reflexivity. Qed.
