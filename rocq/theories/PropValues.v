(** Properties C06, C20, C22, C46, C47, C48, C49, C56, C57. *)
From Verif Require Import Base Types DateTime Buffer Encodings Column Metadata
  SpecValues ProofValues.
From Coq Require Import Permutation.
Local Open Scope N_scope.

(** C06. An integer written in the byte order of the file is read back. *)
Theorem C06_decode_written : forall a e w b off v before after,
  mem b = before ++ map Some (write_int e w v) ++ after -> lenN before = off ->
  v < 256 ^ N.of_nat w -> get_uint a e (N.of_nat w) b off = Ok v.
Proof. exact decode_written. Qed.
Print Assumptions C06_decode_written.

Example C06_decode_written_case :
  get_uint AssertNo Big 4
    (MBuf ([Some xff] ++ map Some (write_int Big 4 305419896) ++ [None]) 6) 1
  = Ok 305419896.
Proof. vm_compute. reflexivity. Qed.

(** C06. The integer decoded from any bytes; big-endian is little-endian of the
    reversed bytes; two byte strings of one length have different values. *)
Theorem C06_decode_bytes : forall a e n b off l before after,
  mem b = before ++ map Some l ++ after -> lenN before = off -> lenN l = n ->
  get_uint a e n b off = Ok (value_of e l).
Proof. exact get_uint_bytes. Qed.
Print Assumptions C06_decode_bytes.

Theorem C06_values : forall l,
  value_of Big l = value_of Little (rev l)
  /\ (forall e, value_of e l < 256 ^ lenN l)
  /\ (forall e l', length l' = length l -> value_of e l' = value_of e l -> l' = l).
Proof. exact value_of_facts. Qed.
Print Assumptions C06_values.

(** C06. 16 bit signed integers. *)
Theorem C06_signed : forall v, v < 65536 -> twos_complement16 v (to_int16 v).
Proof. exact to_int16_spec. Qed.
Print Assumptions C06_signed.

Example C06_signed_case : twos_complement16 65534 (-2) /\ to_int16 65534 = (-2)%Z.
Proof. split; [apply to_int16_spec|]; vm_compute; reflexivity. Qed.

(** C20. The type of a column. *)
Theorem C20_type_table : forall kind len fmt t,
  kind = TNumber \/ kind = TString ->
  (fkind_type (column_kind kind len fmt) = t <-> reported_type kind len fmt t).
Proof. exact column_kind_table. Qed.
Print Assumptions C20_type_table.

Example C20_type_table_case :
  reported_type TNumber 5 (bs "BEST") TNumber
  /\ reported_type TNumber 8 (bs "YYMMDD") TDate
  /\ fkind_type (column_kind TNumber 8 (bs "YYMMDD")) = TDate.
Proof.
  split; [|split; [|vm_compute; reflexivity]].
  - apply column_kind_table; [left; reflexivity|vm_compute; reflexivity].
  - apply column_kind_table; [left; reflexivity|vm_compute; reflexivity].
Qed.

(** C20. The width of a value: the value of a column can be had exactly when the row
    holds that many bytes at the place of the column. *)
Theorem C20_width : forall kind len fmt off e p,
  kind = TNumber \/ kind = TString ->
  let f := Formatter (column_kind kind len fmt) off len e in
  let t := fkind_type (fm_kind f) in
  t <> TUnknown ->
  ((match kind with TString => exists x, fm_get_string f p = Ok x | _ => exists x, fm_get_number f p = Ok x end)
   <-> exists l, lenN l = value_width t len /\ row_has p off l).
Proof. exact value_width_read. Qed.
Print Assumptions C20_width.

Example C20_width_case :
  fkind_type (fm_kind (Formatter (column_kind TNumber 3 (bs "BEST")) 1 3 Big)) <> TUnknown
  /\ value_width (fkind_type (column_kind TNumber 3 (bs "BEST"))) 3 = 3
  /\ row_has (PView (map Some (bs "abcd")) 0) 1 (bs "bcd").
Proof.
  split; [discriminate|]. split; [reflexivity|]. exists [Some x61], []. split; reflexivity.
Qed.

(** C20. The three lists of format names are disjoint: the order of the tests
    does not matter. *)
Theorem C20_names_disjoint : forall f,
  ~ (In f datetime_names /\ In f date_names)
  /\ ~ (In f datetime_names /\ In f time_names)
  /\ ~ (In f date_names /\ In f time_names).
Proof. exact names_disjoint. Qed.
Print Assumptions C20_names_disjoint.

(** C22. The column filters. *)
Theorem C22_filters : forall inc exc c,
  accept_all c = true
  /\ (include_accept inc c = true <-> In (c_name c) inc)
  /\ (exclude_accept exc c = true <-> ~ In (c_name c) exc)
  /\ (include_exclude_accept inc exc c = true <->
      (inc <> [] /\ In (c_name c) inc) \/ (inc = [] /\ ~ In (c_name c) exc)).
Proof. exact filters_spec. Qed.
Print Assumptions C22_filters.

Example C22_filters_case :
  let c := Column (bs "A") [] [] (Formatter FDouble 0 8 Little) in
  include_exclude_accept [bs "A"] [bs "A"] c = true
  /\ include_exclude_accept [] [bs "A"] c = false
  /\ include_exclude_accept [bs "B"] [] c = false.
Proof. vm_compute. auto. Qed.

(** C46. The value of a string column: the stored bytes without the trailing
    blanks, and there is only one such string. *)
Theorem C46_string : forall c p l,
  c_type c = TString -> lenN l = c_length c ->
  row_has p (fm_offset (c_fm c)) l ->
  exists r, c_get_string c p = Ok r /\ right_trimmed l r.
Proof. exact get_string_spec. Qed.
Print Assumptions C46_string.

Theorem C46_string_unique : forall l r1 r2,
  right_trimmed l r1 -> right_trimmed l r2 -> r1 = r2.
Proof. exact right_trimmed_unique. Qed.
Print Assumptions C46_string_unique.

Example C46_string_case :
  let c := Column (bs "A") [] [] (Formatter FString 1 6 Little) in
  let p := PView (map Some (bs "xx a b  z")) 1 in
  row_has p 1 (bs " a b  ") /\ c_get_string c p = Ok (bs " a b")
  /\ right_trimmed (bs " a b  ") (bs " a b").
Proof.
  split; [exists (map Some (bs "xx")), (map Some (bs "z")); split; reflexivity|].
  split; [vm_compute; reflexivity|].
  exists (bs "  "). split; [reflexivity|]. split.
  - repeat constructor; vm_compute; tauto.
  - right. exists (bs " a "), x62. split; [reflexivity|].
    vm_compute. intros H. repeat destruct H as [H|H]; try discriminate H. exact H.
Qed.

(** C47. Numbers: the stored bytes are the most significant ones. *)
Theorem C47_number : forall c p l,
  built_column c -> c_type c = TNumber -> lenN l = c_length c ->
  row_has p (fm_offset (c_fm c)) l ->
  3 <= c_length c <= 8
  /\ c_get_number c p
     = Ok (value_of (fm_endian (c_fm c)) l * 256 ^ (8 - c_length c)).
Proof. exact get_number_spec. Qed.
Print Assumptions C47_number.

Example C47_number_case :
  let c := Column (bs "A") [] [] (Formatter (FIncomplete 3) 0 3 Big) in
  built_column c
  /\ c_get_number c (PView (map Some [x3f; xf8; x00]) 0) = Ok 0x3ff8000000000000.
Proof.
  split; [exists TNumber; split; [left; reflexivity|vm_compute; reflexivity]|].
  vm_compute. reflexivity.
Qed.

(** C47. One and two byte integers, also seen as a number. *)
Theorem C47_integer : forall c p l,
  built_column c -> c_type c = TInteger -> lenN l = c_length c ->
  row_has p (fm_offset (c_fm c)) l ->
  exists z bits, c_get_integer c p = Ok z /\ c_get_number c p = Ok bits
    /\ double_bits_of_int bits z
    /\ ((c_length c = 1 /\ z = Z.of_N (value_of (fm_endian (c_fm c)) l))
        \/ (c_length c = 2
            /\ twos_complement16 (value_of (fm_endian (c_fm c)) l) z)).
Proof. exact get_integer_spec. Qed.
Print Assumptions C47_integer.

Example C47_integer_case :
  let c := Column (bs "A") [] [] (Formatter FInt16 0 2 Big) in
  built_column c
  /\ c_get_integer c (PView (map Some [xff; xfe]) 0) = Ok (-2)%Z
  /\ c_get_number c (PView (map Some [xff; xfe]) 0) = Ok 0xc000000000000000.
Proof.
  split; [exists TNumber; split; [left; reflexivity|vm_compute; reflexivity]|].
  vm_compute. auto.
Qed.

(** C48. A getter of the wrong kind: for every row, even an empty one.  A NaN is
    a pattern above that of infinity.  The time of a date is zero. *)
Theorem C48_wrong_kind : forall c p,
  (c_type c <> TString -> c_get_string c p = Ok [])
  /\ (c_type c <> TInteger -> c_get_integer c p = Ok 0%Z)
  /\ (c_type c = TUnknown \/ c_type c = TString ->
      exists bits, c_get_number c p = Ok bits
                   /\ 0x7FF0000000000000 < bits < 0x8000000000000000)
  /\ (c_type c <> TDateTime -> c_type c <> TDate -> c_get_date c p = Ok NotADate)
  /\ (c_type c <> TDateTime -> c_type c <> TDate -> c_type c <> TTime ->
      c_get_time c p = Ok NotATime)
  /\ (c_type c <> TDateTime -> c_type c <> TDate -> c_type c <> TTime ->
      c_get_datetime c p = Ok NotADateTime)
  /\ (c_type c = TDate -> c_get_time c p = Ok (TTicks 0))
  /\ (forall t, c_type c = TTime -> c_get_time c p = Ok t -> c_get_datetime c p = Ok NotADateTime).
Proof. exact wrong_kind. Qed.
Print Assumptions C48_wrong_kind.

Example C48_wrong_kind_case :
  let c := Column (bs "A") [] [] (Formatter FString 1000 6 Little) in
  c_get_integer c (PView [] 0) = Ok 0%Z /\ c_get_date c (PView [] 0) = Ok NotADate.
Proof. vm_compute. auto. Qed.

(** C49, full statement: for every column made by the reader the getters give
    equal results on two rows which agree on the bytes of the column.  It is
    false for dates, times and datetimes stored on fewer than 8 bytes: 8 bytes
    are read whatever the length of the column (next two theorems). *)
Theorem C49_local_partial : forall c p q,
  built_column c -> (date_like (c_type c) -> 8 <= c_length c) ->
  same_bytes p q (fm_offset (c_fm c)) (c_length c) ->
  c_get_string c p = c_get_string c q /\ c_get_integer c p = c_get_integer c q
  /\ c_get_number c p = c_get_number c q /\ c_get_date c p = c_get_date c q
  /\ c_get_time c p = c_get_time c q /\ c_get_datetime c p = c_get_datetime c q
  /\ c_to_string c p = c_to_string c q.
Proof. exact getters_local. Qed.
Print Assumptions C49_local_partial.

Example C49_local_case :
  let c := Column (bs "A") [] (bs "DATE") (Formatter FDate 0 8 Little) in
  built_column c /\ same_bytes row_a (PView (pv_mem row_a ++ [None]) 0) 0 8.
Proof.
  split; [exists TNumber; split; [left; reflexivity|vm_compute; reflexivity]|].
  exists [x00; x00; x00; x00; x00; x00; xf0; x3f]. split; [reflexivity|]. split.
  - exists [], []. split; reflexivity.
  - exists [], [None]. split; reflexivity.
Qed.

Theorem C49_short_date_refuted :
  exists c p q, built_column c /\ c_type c = TDate /\ c_length c = 4
    /\ same_bytes p q (fm_offset (c_fm c)) (c_length c)
    /\ c_get_date c p = Ok (GDate 2436936) /\ c_get_date c q = Ok (GDate 2436937).
Proof. exact short_date_differs. Qed.
Print Assumptions C49_short_date_refuted.

Theorem C49_short_date_oob_refuted :
  exists c p, built_column c /\ row_has p (fm_offset (c_fm c)) [x00; x00; x00; x00]
    /\ c_length c = 4 /\ c_get_date c p = Undef UB_oob_read.
Proof. exact short_date_oob. Qed.
Print Assumptions C49_short_date_oob_refuted.

(** C56. The groups of [Columns]. *)
Theorem C56_group : forall cs t,
  subsequence (get_columns cs t) cs
  /\ (forall c, In c (get_columns cs t) <-> In c cs /\ c_type c = t).
Proof. exact group_spec. Qed.
Print Assumptions C56_group.

(** The groups of a file are those of their names, in the order of the columns. *)
Theorem C56_named : forall cs,
  let g := columns_of cs in
  let group l t := subsequence l cs /\ forall c, In c l <-> In c cs /\ c_type c = t in
  group (cs_strings g) TString /\ group (cs_numbers g) TNumber /\ group (cs_integers g) TInteger
  /\ group (cs_datetimes g) TDateTime /\ group (cs_dates g) TDate /\ group (cs_times g) TTime.
Proof. exact groups_named. Qed.
Print Assumptions C56_named.

Theorem C56_partition : forall cs,
  let g := columns_of cs in
  Permutation
    (cs_strings g ++ cs_numbers g ++ cs_integers g ++ cs_datetimes g ++ cs_dates g
     ++ cs_times g ++ filter (fun c => ctype_eqb (c_type c) TUnknown) cs) cs.
Proof. exact groups_partition. Qed.
Print Assumptions C56_partition.

Example C56_partition_case :
  let s n := Column n [] [] (Formatter FString 0 1 Little) in
  let d n := Column n [] [] (Formatter FDouble 0 8 Little) in
  let a := bs "a" in let b := bs "b" in let c := bs "c" in
  cs_numbers (columns_of [d a; s b; d c]) = [d a; d c]
  /\ cs_strings (columns_of [d a; s b; d c]) = [s b].
Proof. vm_compute. auto. Qed.

(** C57. Encodings. *)
Theorem C57_encoding : forall b,
  (forall name, In (b2n b, name) encoding_names -> get_encoding b = name)
  /\ (~ In (b2n b) (map fst encoding_names) -> get_encoding b = bs "WINDOWS-1252")
  /\ get_encoding b <> [].
Proof. exact encoding_spec. Qed.
Print Assumptions C57_encoding.

Example C57_encoding_case :
  get_encoding x14 = bs "UTF-8" /\ get_encoding x00 = bs "WINDOWS-1252".
Proof. vm_compute. auto. Qed.
