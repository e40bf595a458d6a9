(** Dates, datetimes and times stored on 3 to 7 bytes (SpecShort). *)
From Coq Require Import QArith Qabs.
From Verif Require Import Base Types DateTime Buffer Header Page Column Decomp Metadata Data Reader SpecValues SpecTime SpecHeader
  SpecDecomp SpecReader SpecPages SpecMeta SpecFile SpecRoundtrip SpecConform SpecShort ProofCalendar ProofConformCheck ProofShort
  Samples.
Local Open Scope N_scope.

(** ** C98: a date, datetime or time stored on 3 to 7 bytes is the one which was stored *)

(** The full statement is that a column of 3 to 7 bytes gives the date, datetime or time of
    the double [short_bits e l].  In a big-endian file it holds of the days up to 2^(8k-12)
    from 1960-01-01 in a column of k bytes: with 3 bytes up to 1971, with 4 bytes up to 4830. *)
Theorem C98_big_partial : forall c p l after n t, c_type c = TDate -> fm_endian (c_fm c) = Big -> short_cell c p l after ->
  double_value (short_bits Big l) (inject_Z n) -> (Z.abs n < 2 ^ (8 * Z.of_N (lenN l) - 12))%Z ->
  days_from_1960 n t -> supported t ->
  exists g, c_get_date c p = Ok g /\ date_ymd g = Ok t.
Proof. exact short_big. Qed.
Print Assumptions C98_big_partial.

(** 2020-01-01 (21915 days) on four bytes, with a text behind it. *)
Definition day_column (e : endian) (k : N) : column := Column (bs "D") [] (bs "DATE") (Formatter FDate 0 k e).
Definition day_cell (l after : bytes) : pview := PView (map Some (l ++ after)) 0.

Lemma day_cell_ok : forall e k l after, lenN l = k -> 3 <= k < 8 -> lenN l + lenN after = 8 ->
  short_cell (day_column e k) (day_cell l after) l after.
Proof.
  intros e k l after L K S. split; [exact L|]. split; [lia|]. split; [exact S|].
  exists [], []. split; [cbn [day_cell pv_mem app]; rewrite app_nil_r; reflexivity|reflexivity].
Qed.

Lemma value_2020 : double_value (short_bits Big [x40; xd5; x66; xc0]) (inject_Z 21915).
Proof. exists 0, 1037, 1520349703307264. repeat split; vm_compute; reflexivity. Qed.

Example C98_big_case :
  exists g, c_get_date (day_column Big 4) (day_cell [x40; xd5; x66; xc0] (bs "abcd")) = Ok g /\ date_ymd g = Ok (2020, 1, 1)%Z.
Proof.
  apply (C98_big_partial _ _ [x40; xd5; x66; xc0] (bs "abcd") 21915); [reflexivity|reflexivity| |exact value_2020|reflexivity| |cbn; lia].
  - apply day_cell_ok; [reflexivity|lia|reflexivity].
  - apply days_from_jdn; [cbn; lia|cbn; lia|vm_compute; reflexivity].
Qed.

(** In a little-endian file, when the last of the 8 bytes is up to 61 or from 128 to 189 (a
    blank, a digit or a zero byte), the date is 1960-01-01, the datetime is its midnight and
    the time is midnight, whatever is stored. *)
Theorem C98_little : forall c p l a b, fm_endian (c_fm c) = Little -> short_cell c p l (a ++ [b]) ->
  Byte.to_N b mod 128 <= 61 ->
  (c_type c = TDate -> exists g, c_get_date c p = Ok g /\ date_ymd g = Ok (1960, 1, 1)%Z)
  /\ (c_type c = TDateTime -> c_get_datetime c p = Ok (PTicks (jdn_1960 * day_us)))
  /\ (c_type c = TTime -> c_get_time c p = Ok (TTicks 0)).
Proof. exact short_little. Qed.
Print Assumptions C98_little.

(** 2020-01-01 on four bytes, with a blank text behind it. *)
Example C98_little_case :
  exists g, c_get_date (day_column Little 4) (day_cell [xc0; x66; xd5; x40] (bs "    ")) = Ok g /\ date_ymd g = Ok (1960, 1, 1)%Z.
Proof.
  apply (proj1 (C98_little (day_column Little 4) (day_cell [xc0; x66; xd5; x40] (bs "    ")) [xc0; x66; xd5; x40] (bs "   ") x20
    eq_refl (day_cell_ok Little 4 [xc0; x66; xd5; x40] (bs "    ") eq_refl ltac:(lia) eq_refl) ltac:(vm_compute; discriminate))). reflexivity.
Qed.

(** C98 is false of the code: in this file, which holds the table, 2020-01-01 is read as
    1960-01-01; and in a big-endian column of three bytes, 2000-01-01 (14610 days) as
    2000-01-02. *)
Definition dates_fields : list field_desc :=
  [FieldDesc (bs "DAY") [] (bs "DATE") 0 4 true; FieldDesc (bs "NOTE") [] [] 4 4 false].
Definition dates_file : bytes :=
  file_bytes Little Bit64 true 320 1300 (bs "DATES") (Table dates_fields 8 [[xc0; x66; xd5; x40] ++ bs "none"; [xc0; x66; xd5; x40] ++ bs "1   "] []).

Theorem C98_file_refuted : exists content fields rows row r col g,
  conforms sample_cfg content fields rows /\ nth_error rows 1 = Some row
  /\ open_reader sample_cfg file_source None (file_open content) = Ok (r, [EvProps (rs_h r) (rs_md r)])
  /\ nth_error (md_columns (rs_md r)) 0 = Some col
  /\ c_type col = TDate /\ c_length col = 4 /\ fm_offset (c_fm col) = 0
  /\ (exists l after, row = l ++ after /\ lenN l = 4 /\ double_value (short_bits (fm_endian (c_fm col)) l) (inject_Z 21915))
  /\ c_get_date col (PView (map Some row) 0) = Ok g /\ date_ymd g = Ok (1960, 1, 1)%Z
  /\ days_from_1960 21915 (2020, 1, 1)%Z.
Proof.
  exists dates_file, dates_fields, [[xc0; x66; xd5; x40] ++ bs "none"; [xc0; x66; xd5; x40] ++ bs "1   "], ([xc0; x66; xd5; x40] ++ bs "1   ").
  destruct (open_reader sample_cfg file_source None (file_open dates_file)) as [[r ev]| | | |] eqn:E; try (vm_compute in E; discriminate).
  exists r. vm_compute in E. injection E as <- <-. eexists. eexists.
  split; [apply conforming_ok; vm_compute; reflexivity|]. split; [reflexivity|]. split; [reflexivity|]. split; [reflexivity|].
  split; [reflexivity|]. split; [reflexivity|]. split; [reflexivity|].
  split; [exists [xc0; x66; xd5; x40], (bs "1   "); split; [reflexivity|]; split; [reflexivity|]; exact value_2020|].
  split; [vm_compute; reflexivity|]. split; [vm_compute; reflexivity|].
  apply days_from_jdn; [cbn; lia|cbn; lia|vm_compute; reflexivity].
Qed.
Print Assumptions C98_file_refuted.

Theorem C98_three_bytes_refuted : exists c p l after g,
  c_type c = TDate /\ fm_endian (c_fm c) = Big /\ short_cell c p l after /\ lenN l = 3
  /\ double_value (short_bits Big l) (inject_Z 14610) /\ days_from_1960 14610 (2000, 1, 1)%Z
  /\ c_get_date c p = Ok g /\ date_ymd g = Ok (2000, 1, 2)%Z.
Proof.
  exists (day_column Big 3), (day_cell [x40; xcc; x89] (bs "zzzzz")), [x40; xcc; x89], (bs "zzzzz"). eexists.
  split; [reflexivity|]. split; [reflexivity|].
  split; [apply day_cell_ok; [reflexivity|lia|reflexivity]|]. split; [reflexivity|].
  split; [exists 0, 1036, 3528332813533184; repeat split; vm_compute; reflexivity|].
  split; [apply days_from_jdn; [cbn; lia|cbn; lia|vm_compute; reflexivity]|].
  split; [vm_compute; reflexivity|vm_compute; reflexivity].
Qed.
Print Assumptions C98_three_bytes_refuted.
