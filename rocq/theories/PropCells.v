(** Texts and cells: C71 to C76. *)
From Coq Require Import QArith Qabs.
From Verif Require Import Base Types Buffer Float DateTime Column Header Metadata Data Reader Sinks Print Lemmas SpecValues SpecReader
  SpecPages SpecTime SpecSinks SpecNumber SpecDecomp SpecFile Samples SpecRoundtrip SpecCells SpecTable
  ProofFileCheck ProofNumber ProofCells ProofTable.
Local Open Scope N_scope.

(** C71.  The text of an integer is its decimal text, without superfluous zeros; there
    is one such text. *)
Theorem C71_integer : forall c p z, c_type c = TInteger -> c_get_integer c p = Ok z ->
  exists t, c_to_string c p = Ok t /\ short_decimal t z.
Proof. exact integer_text. Qed.
Print Assumptions C71_integer.

Theorem C71_unique : forall t u z, short_decimal t z -> short_decimal u z -> t = u.
Proof. exact short_decimal_unique. Qed.
Print Assumptions C71_unique.

(** C71.  The text of a finite number has six decimals: the value is rounded to the
    nearest millionth, to the even one of two, whatever the size of the number. *)
Theorem C71_number : forall c p bits q, c_type c = TNumber -> c_get_number c p = Ok bits ->
  double_value bits q ->
  exists n t, c_to_string c p = Ok (minus bits ++ t)
    /\ nearest_even (inject_Z 1000000 * Qabs q) n /\ six_decimals n t.
Proof. exact number_text. Qed.
Print Assumptions C71_number.

Theorem C71_special : forall c p bits, c_type c = TNumber -> c_get_number c p = Ok bits ->
  (double_nan bits -> c_to_string c p = Ok (minus bits ++ bs "nan"))
  /\ (double_infinity bits -> c_to_string c p = Ok (minus bits ++ bs "inf")).
Proof. exact number_text_special. Qed.
Print Assumptions C71_special.

(** These are all the numbers. *)
Theorem C71_all : forall bits, bits < 2 ^ 64 ->
  (exists q, double_value bits q) \/ double_nan bits \/ double_infinity bits.
Proof. exact double_cases. Qed.
Print Assumptions C71_all.

Definition num_col : column := Column (bs "X") [] (bs "BEST") (Formatter FDouble 0 8 Little).
Definition num_row (bits : N) : pview := PView (map Some (write_int Little 8 bits)) 0.

(** 2^-7 has seven decimals, 0.0078125: a tie, the even millionth; 1e22; -0.0; a NaN. *)
Example C71_case :
  c_to_string num_col (num_row 4575657221408423936) = Ok (bs "0.007812")
  /\ c_to_string num_col (num_row 4936209963552724370) = Ok (bs "10000000000000000000000.000000")
  /\ c_to_string num_col (num_row (2 ^ 63)) = Ok (bs "-0.000000")
  /\ c_to_string num_col (num_row (2047 * 2 ^ 52 + 1)) = Ok (bs "nan")
  /\ c_to_string (Column (bs "N") [] [] (Formatter FInt16 0 2 Little)) (PView (map Some [xfe; xff]) 0)
     = Ok (bs "-2")
  /\ c_type num_col = TNumber /\ double_value 4575657221408423936 (1 # 128).
Proof. repeat (split; [vm_compute; reflexivity|]). exists 0, 1016, 0. repeat split; vm_compute; reflexivity. Qed.

(** C72.  False: different numbers have different texts.  2^-24 is printed like 0. *)
Theorem C72_distinct_refuted : exists p p' b b',
  c_get_number num_col p = Ok b /\ double_value b (1 # 16777216)
  /\ c_get_number num_col p' = Ok b' /\ double_value b' 0
  /\ c_to_string num_col p = c_to_string num_col p'.
Proof.
  exists (num_row 4499096027743125504), (num_row 0), 4499096027743125504, 0.
  split; [vm_compute; reflexivity|]. split; [exists 0, 999, 0; repeat split; vm_compute; reflexivity|].
  split; [vm_compute; reflexivity|]. split; [exists 0, 0, 0; repeat split; vm_compute; reflexivity|].
  vm_compute. reflexivity.
Qed.
Print Assumptions C72_distinct_refuted.

(** What holds: numbers with the same text are at most a millionth apart. *)
Theorem C72_apart_partial : forall c p bits q c' p' bits' q' t,
  c_type c = TNumber -> c_get_number c p = Ok bits -> double_value bits q ->
  c_type c' = TNumber -> c_get_number c' p' = Ok bits' -> double_value bits' q' ->
  c_to_string c p = Ok t -> c_to_string c' p' = Ok t -> (Qabs (q - q') <= 1 # 1000000)%Q.
Proof. exact number_apart. Qed.
Print Assumptions C72_apart_partial.

Example C72_case :
  c_to_string num_col (num_row 4499096027743125504) = Ok (bs "0.000000")
  /\ c_to_string num_col (num_row 4609434218613702656) = Ok (bs "1.500000").
Proof. vm_compute. auto. Qed.

(** C73.  A table of texts, integers, numbers, days, moments and times, in a file of any
    of the layouts, compressed or not: read_all gives a sink the rows in order, each
    with the values of its contents, and to_string gives their texts (not for missing
    dates: C55).  The full statement is for every table; what is asked for is in
    [holds_table] (the conditions of C66 and C70; dates, moments and times on 8 bytes). *)
Theorem C73_cells_partial : forall c flt e fields contents file, holds_table c e fields contents file ->
  exists r cols evs,
    open_reader c file_source flt (file_open file) = Ok (r, [EvProps (rs_h r) (rs_md r)])
    /\ md_columns (rs_md r) = (match flt with Some p => filter p cols | None => cols end)
    /\ Forall2 (column_for e) fields cols
    /\ fst (trace c file_source [OpReadAll] (Some r)) = [(OpReadAll, Ok OUnit, evs)]
    /\ table_events flt cols contents evs.
Proof. exact file_back. Qed.
Print Assumptions C73_cells_partial.

(** Cell by cell, for any row that has the bytes. *)
Theorem C73_value : forall e d col p v l, column_for e d col -> built_column col ->
  row_has p (fd_offset d) l -> stored e d v l -> exists x, cell_value col p x /\ value_is v x.
Proof. exact cell_back. Qed.
Print Assumptions C73_value.

Theorem C73_text : forall e d col p v l, column_for e d col -> built_column col ->
  row_has p (fd_offset d) l -> stored e d v l -> has_text col v ->
  exists x, c_to_string col p = Ok x /\ text_is v x.
Proof. exact cell_text. Qed.
Print Assumptions C73_text.

(** A table with a column of each type. *)
Definition people : list field_desc :=
  [FieldDesc (bs "NAME") (bs "First name") [] 0 4 false;
   FieldDesc (bs "AGE") [] (bs "BEST") 4 2 true;
   FieldDesc (bs "PAY") [] (bs "BEST") 6 8 true;
   FieldDesc (bs "BORN") [] (bs "DATE") 14 8 true;
   FieldDesc (bs "SEEN") [] (bs "DATETIME") 22 8 true;
   FieldDesc (bs "AT") [] (bs "TIME") 30 8 true;
   FieldDesc (bs "RATE") [] [] 38 3 true].

Definition nan_bits : N := 2047 * 2 ^ 52 + 2 ^ 51.

(** 1.5; 1960-01-02; the same day at 00:00:00.25; 00:00:00.1; 1.5 on three bytes. *)
Definition ann : list content :=
  [Text (bs "Ann"); Whole (-3); Real 4609434218613702656; Day (1960, 1, 2)%Z;
   Moment (1960, 1, 2)%Z 250000; Clock 100000; Real 4609434218613702656].
Definition nobody : list content :=
  [Text []; Whole 7; Missing nan_bits; Missing nan_bits; Missing nan_bits; Missing nan_bits; Real 0].

Definition ann_row (e : endian) : bytes :=
  bs "Ann " ++ write_int e 2 65533 ++ write_int e 8 4609434218613702656 ++ write_int e 8 4607182418800017408
  ++ write_int e 8 4680673793180434432 ++ write_int e 8 4591870180066957722 ++ write_int e 3 4192256.
Definition nobody_row (e : endian) : bytes :=
  bs "    " ++ write_int e 2 7 ++ write_int e 8 nan_bits ++ write_int e 8 nan_bits
  ++ write_int e 8 nan_bits ++ write_int e 8 nan_bits ++ write_int e 3 0.

Definition people_table (e : endian) : table := Table people 41 [ann_row e] [[nobody_row e]].

Lemma is_number_best : forall n o w, is_number (FieldDesc n [] (bs "BEST") o w true).
Proof. intros n o w. repeat split; intros K; vm_compute in K; intuition discriminate. Qed.
Lemma is_number_none : forall n o w, is_number (FieldDesc n [] [] o w true).
Proof. intros n o w. repeat split; intros K; vm_compute in K; intuition discriminate. Qed.
Lemma nan_is_nan : double_nan nan_bits.
Proof. exists 0, (2 ^ 51). vm_compute. repeat split; reflexivity. Qed.

Ltac at_offset n r := exists (firstn n r); eexists; exists (skipn (n + 8) r).

Lemma people_rows : forall e, Forall2 (row_of e people) [ann; nobody] (t_rows (people_table e)).
Proof.
  assert (W : forall (row a l z : bytes) (d : field_desc) (P : bytes -> Prop), row = a ++ l ++ z -> lenN a = fd_offset d -> P l ->
    exists before l after, row = before ++ l ++ after /\ lenN before = fd_offset d /\ P l).
  { intros row a l z d P E L H. exists a, l, z. auto. }
  intros e. constructor; [|constructor; [|constructor]].
  - unfold row_of, people, ann. repeat constructor.
    + apply (W _ [] (bs "Ann ") (skipn 4 (ann_row e))); [reflexivity..|].
      apply (st_text e (FieldDesc _ _ _ 0 4 false) (bs "Ann") (bs " ")); [reflexivity| |reflexivity|repeat constructor].
      right. exists (bs "An"), x6e. split; [reflexivity|]. intros K. vm_compute in K. intuition discriminate.
    + apply (W _ (firstn 4 (ann_row e)) (write_int e 2 65533) (skipn 6 (ann_row e))); [destruct e; vm_compute; reflexivity..|].
      apply (st_int16 e _ (-3)); [reflexivity|reflexivity|lia].
    + apply (W _ (firstn 6 (ann_row e)) (write_int e 8 4609434218613702656) (skipn 14 (ann_row e))); [destruct e; vm_compute; reflexivity..|].
      apply st_real; [reflexivity|cbn; lia|apply is_number_best|]. split; [reflexivity|].
      exists 4609434218613702656. split; reflexivity.
    + apply (W _ (firstn 14 (ann_row e)) (write_int e 8 4607182418800017408) (skipn 22 (ann_row e))); [destruct e; vm_compute; reflexivity..|].
      apply (st_day e _ _ 1); [reflexivity|reflexivity|vm_compute; tauto| |vm_compute; split; discriminate|].
      * repeat split; vm_compute; try discriminate; reflexivity.
      * exists 4607182418800017408. split; [|reflexivity]. exists 0, 1023, 0. repeat split; vm_compute; reflexivity.
    + apply (W _ (firstn 22 (ann_row e)) (write_int e 8 4680673793180434432) (skipn 30 (ann_row e))); [destruct e; vm_compute; reflexivity..|].
      apply (st_moment e _ _ 1); [reflexivity|reflexivity|vm_compute; tauto| |vm_compute; split; discriminate|vm_compute; split; [discriminate|reflexivity]|].
      * repeat split; vm_compute; try discriminate; reflexivity.
      * exists 4680673793180434432, (345601 # 4)%Q. split; [exists 0, 1039, 1433780342489088; repeat split; vm_compute; reflexivity|].
        split; [vm_compute|]; reflexivity.
    + apply (W _ (firstn 30 (ann_row e)) (write_int e 8 4591870180066957722) (skipn 38 (ann_row e))); [destruct e; vm_compute; reflexivity..|].
      apply st_clock; [reflexivity|reflexivity|vm_compute; tauto|vm_compute; split; [discriminate|reflexivity]|].
      exists 4591870180066957722, (3602879701896397 # 36028797018963968)%Q.
      split; [exists 0, 1019, 2702159776422298; repeat split; vm_compute; reflexivity|]. split; [vm_compute|]; reflexivity.
    + apply (W _ (firstn 38 (ann_row e)) (write_int e 3 4192256) []); [destruct e; vm_compute; reflexivity..|].
      apply st_real; [reflexivity|cbn; lia|apply is_number_none|]. split; [reflexivity|].
      exists 4192256. split; reflexivity.
  - unfold row_of, people, nobody. repeat constructor.
    + apply (W _ [] (bs "    ") (skipn 4 (nobody_row e))); [reflexivity..|].
      apply (st_text e (FieldDesc _ _ _ 0 4 false) [] (bs "    ")); [reflexivity|left; reflexivity|reflexivity|repeat constructor].
    + apply (W _ (firstn 4 (nobody_row e)) (write_int e 2 7) (skipn 6 (nobody_row e))); [destruct e; vm_compute; reflexivity..|].
      apply (st_int16 e _ 7); [reflexivity|reflexivity|lia].
    + apply (W _ (firstn 6 (nobody_row e)) (write_int e 8 nan_bits) (skipn 14 (nobody_row e))); [destruct e; vm_compute; reflexivity..|].
      apply st_missing; [reflexivity..|exact nan_is_nan].
    + apply (W _ (firstn 14 (nobody_row e)) (write_int e 8 nan_bits) (skipn 22 (nobody_row e))); [destruct e; vm_compute; reflexivity..|].
      apply st_missing; [reflexivity..|exact nan_is_nan].
    + apply (W _ (firstn 22 (nobody_row e)) (write_int e 8 nan_bits) (skipn 30 (nobody_row e))); [destruct e; vm_compute; reflexivity..|].
      apply st_missing; [reflexivity..|exact nan_is_nan].
    + apply (W _ (firstn 30 (nobody_row e)) (write_int e 8 nan_bits) (skipn 38 (nobody_row e))); [destruct e; vm_compute; reflexivity..|].
      apply st_missing; [reflexivity..|exact nan_is_nan].
    + apply (W _ (firstn 38 (nobody_row e)) (write_int e 3 0) []); [destruct e; vm_compute; reflexivity..|].
      apply st_real; [reflexivity|cbn; lia|apply is_number_none|]. split; [reflexivity|].
      exists 0. split; reflexivity.
Qed.

(** In a 32 bit big-endian file and a shifted 64 bit little-endian one. *)
Definition people_file : bytes := file_bytes Big Bit32 false 320 2000 (bs "PEOPLE") (people_table Big).
Definition people_file_64 : bytes := file_bytes Little Bit64 true 320 4000 (bs "PEOPLE") (people_table Little).

Lemma people_room : forall plen, plen <= 4000 -> room sample_cfg 320 plen 7 2.
Proof.
  intros plen H. unfold room, row_limit. split; [vm_compute; reflexivity|]. split; [vm_compute; discriminate|].
  split; [cbn; lia|]. split; [vm_compute; discriminate|]. vm_compute. lia.
Qed.

Example C73_case : holds_table sample_cfg Big people [ann; nobody] people_file
  /\ holds_table sample_cfg Little people [ann; nobody] people_file_64.
Proof.
  split; (eexists; split; [apply people_rows|]).
  - apply (plain_rows _ _ _ _ Bit32); [reflexivity|reflexivity|apply good_sizesb_ok; vm_compute; reflexivity
      |apply good_tableb_ok; vm_compute; reflexivity|apply people_room; lia|].
    left. apply no_compression_nameb_ok. vm_compute. reflexivity.
  - apply (plain_rows _ _ _ _ Bit64); [reflexivity|reflexivity|apply good_sizesb_ok; vm_compute; reflexivity
      |apply good_tableb_ok; vm_compute; reflexivity|apply people_room; lia|].
    left. apply no_compression_nameb_ok. vm_compute. reflexivity.
Qed.

(** False of the texts of such a table without the exception: a missing date of a file has
    no text. *)
Theorem C73_missing_refuted : exists file contents r ev0 evs i p col,
  holds_table sample_cfg Big people contents file
  /\ open_reader sample_cfg file_source None (file_open file) = Ok (r, ev0)
  /\ fst (trace sample_cfg file_source [OpReadAll] (Some r)) = [(OpReadAll, Ok OUnit, evs)]
  /\ In (EvRow i p) evs /\ In col (md_columns (rs_md r))
  /\ c_get_date col p = Ok NotADate /\ c_to_string col p = Exn E_bad_year.
Proof.
  exists people_file, [ann; nobody].
  eexists _, _, _, _, _, _. split; [apply C73_case|].
  split; [vm_compute; reflexivity|]. split; [vm_compute; reflexivity|].
  split; [right; left; reflexivity|]. split; [do 3 right; left; reflexivity|].
  split; [vm_compute; reflexivity|vm_compute; reflexivity].
Qed.
Print Assumptions C73_missing_refuted.

(** C74.  The csv file of such a table: a line of names, then one line per row with a field
    for each content.  The full statement is for every table. *)
Theorem C74_csv_partial : forall c f e fields contents file, holds_table c e fields contents file ->
  bare_formats f -> fields <> [] -> Forall (fun d => SpecSinks.clean (fd_name d)) fields ->
  Forall texts_plain contents ->
  exists r evs header lines,
    open_reader c file_source None (file_open file) = Ok (r, [EvProps (rs_h r) (rs_md r)])
    /\ fst (trace c file_source [OpReadAll] (Some r)) = [(OpReadAll, Ok OUnit, evs)]
    /\ csv_run f (EvProps (rs_h r) (rs_md r) :: evs) = Ok (concat (map (fun l => l ++ [x0a]) (header :: lines)))
    /\ ~ In x0a header /\ csv_fields header = map (fun d => [x22] ++ fd_name d ++ [x22]) fields
    /\ Forall2 (csv_line f) contents lines.
Proof. exact csv_file. Qed.
Print Assumptions C74_csv_partial.

Definition short_formats : csv_fmt :=
  CsvFmt (fun b => if b =? 0 then bs "0" else bs "1.5")
    (fun t => match t with PTicks _ => bs "T" | _ => bs "not-a-date-time" end)
    (fun d => match d with GDate _ => bs "D" | _ => bs "not-a-date-time" end)
    (fun t => match t with TTicks _ => bs "C" | _ => bs "not-a-date-time" end).

Example C74_case :
  bare_formats short_formats /\ Forall (fun d => SpecSinks.clean (fd_name d)) people
  /\ Forall texts_plain [ann; nobody]
  /\ match open_reader sample_cfg file_source None (file_open people_file) with
     | Ok (r, ev) =>
         csv_run short_formats
           (ev ++ concat (map snd (fst (trace sample_cfg file_source [OpReadAll] (Some r)))))
     | _ => Fuel
     end
     = Ok (bs """NAME"",""AGE"",""PAY"",""BORN"",""SEEN"",""AT"",""RATE""" ++ [x0a]
           ++ bs """Ann"",-3,1.5,D,T,C,1.5" ++ [x0a]
           ++ bs """"",7,,not-a-date-time,not-a-date-time,not-a-date-time,0" ++ [x0a]).
Proof.
  split.
  { repeat split; try (intros K; revert K);
      repeat match goal with
             | |- context [cf_number _ ?b] => cbn; destruct (b =? 0); cbn; intuition discriminate
             | |- context [cf_datetime _ ?t] => destruct t; cbn; intuition discriminate
             | |- context [cf_date _ ?t] => destruct t; cbn; intuition discriminate
             | |- context [cf_time _ ?t] => destruct t; cbn; intuition discriminate
             end. }
  split; [repeat constructor; intros K; vm_compute in K; intuition discriminate|].
  split; [repeat constructor; intros K; vm_compute in K; intuition discriminate|].
  vm_compute. reflexivity.
Qed.

(** False of texts with quotes: two files whose tables are different have the same csv
    file. *)
Definition pair_fields : list field_desc :=
  [FieldDesc (bs "A") [] [] 0 5 false; FieldDesc (bs "B") [] [] 5 5 false].
Definition pair_file (row : bytes) : bytes :=
  file_bytes Big Bit32 false 320 2000 (bs "PAIRS") (Table pair_fields 10 [row] []).

Lemma pair_holds : forall a b pa pb, lenN (a ++ pa) = 5 -> lenN (b ++ pb) = 5 -> unpadded a -> unpadded b ->
  Forall (fun x => x = x20 \/ x = x00) pa -> Forall (fun x => x = x20 \/ x = x00) pb ->
  good_tableb Big Bit32 2000 (Table pair_fields 10 [(a ++ pa) ++ (b ++ pb)] []) = true ->
  holds_table sample_cfg Big pair_fields [[Text a; Text b]] (pair_file ((a ++ pa) ++ (b ++ pb))).
Proof.
  intros a b pa pb LA LB UA UB PA PB G. exists [(a ++ pa) ++ (b ++ pb)]. split.
  - constructor; [|constructor]. constructor; [|constructor; [|constructor]].
    + exists [], (a ++ pa), (b ++ pb). split; [reflexivity|]. split; [reflexivity|]. constructor; auto.
    + exists (a ++ pa), (b ++ pb), []. split; [rewrite app_nil_r; reflexivity|]. split; [exact LA|].
      constructor; auto.
  - apply (plain_rows _ _ _ _ Bit32 false 320 2000 (bs "PAIRS") (Table pair_fields 10 [(a ++ pa) ++ (b ++ pb)] []));
      [reflexivity|reflexivity|apply good_sizesb_ok; vm_compute; reflexivity|apply good_tableb_ok; exact G| |].
    + unfold room, row_limit. repeat split; vm_compute; try discriminate; try reflexivity. lia.
    + left. apply no_compression_nameb_ok. vm_compute. reflexivity.
Qed.

Theorem C74_quotes_refuted : exists file file' contents contents' r r' ev0 ev0' evs evs' text,
  holds_table sample_cfg Big pair_fields contents file
  /\ holds_table sample_cfg Big pair_fields contents' file' /\ contents <> contents'
  /\ open_reader sample_cfg file_source None (file_open file) = Ok (r, ev0)
  /\ open_reader sample_cfg file_source None (file_open file') = Ok (r', ev0')
  /\ fst (trace sample_cfg file_source [OpReadAll] (Some r)) = [(OpReadAll, Ok OUnit, evs)]
  /\ fst (trace sample_cfg file_source [OpReadAll] (Some r')) = [(OpReadAll, Ok OUnit, evs')]
  /\ (forall f, csv_run f (ev0 ++ evs) = Ok text)
  /\ (forall f, csv_run f (ev0' ++ evs') = Ok text).
Proof.
  assert (U : forall t b, ~ blank b -> unpadded (t ++ [b])) by (intros t b NB; right; exists t, b; auto).
  exists (pair_file ((bs "x"",""y" ++ []) ++ (bs "z" ++ bs "    "))),
    (pair_file ((bs "x" ++ bs "    ") ++ (bs "y"",""z" ++ []))),
    [[Text (bs "x"",""y"); Text (bs "z")]], [[Text (bs "x"); Text (bs "y"",""z")]].
  eexists _, _, _, _, _, _, _.
  split.
  { apply pair_holds; [reflexivity|reflexivity|apply (U (bs "x"","""))|apply (U [])|repeat constructor|repeat constructor|vm_compute; reflexivity];
      intros K; vm_compute in K; intuition discriminate. }
  split.
  { apply pair_holds; [reflexivity|reflexivity|apply (U [])|apply (U (bs "y"","""))|repeat constructor|repeat constructor|vm_compute; reflexivity];
      intros K; vm_compute in K; intuition discriminate. }
  split; [discriminate|].
  split; [vm_compute; reflexivity|]. split; [vm_compute; reflexivity|].
  split; [vm_compute; reflexivity|]. split; [vm_compute; reflexivity|].
  split; [intros f; vm_compute; reflexivity|intros f; vm_compute; reflexivity].
Qed.
Print Assumptions C74_quotes_refuted.

(** C75.  What the print sink writes for such a table: after the report, the names and one
    line per row with its index and the texts of its contents; when no name has a brace
    (C60) and no date is missing (C55).  The full statement is for every table. *)
Theorem C75_print_partial : forall c props e fields contents file, holds_table c e fields contents file ->
  Forall (fun d => ~ In x7b (fd_name d) /\ ~ In x7d (fd_name d)) fields ->
  Forall (Forall2 printable fields) contents ->
  exists r evs lines,
    open_reader c file_source None (file_open file) = Ok (r, [EvProps (rs_h r) (rs_md r)])
    /\ fst (trace c file_source [OpReadAll] (Some r)) = [(OpReadAll, Ok OUnit, evs)]
    /\ print_run props (EvProps (rs_h r) (rs_md r) :: evs)
       = Ok (props (rs_h r) (rs_md r) ++ bs "#" ++ concat (map (fun d => [x2c] ++ fd_name d) fields) ++ [x0a]
             ++ concat lines)
    /\ print_lines_of 0 contents lines.
Proof. exact print_file. Qed.
Print Assumptions C75_print_partial.

(** The same people without missing dates. *)
Definition ann_file : bytes := file_bytes Big Bit32 false 320 2000 (bs "PEOPLE") (Table people 41 [ann_row Big] []).

Example C75_case :
  holds_table sample_cfg Big people [ann] ann_file /\ Forall (Forall2 printable people) [ann]
  /\ Forall (fun d => ~ In x7b (fd_name d) /\ ~ In x7d (fd_name d)) people
  /\ match open_reader sample_cfg file_source None (file_open ann_file) with
     | Ok (r, ev) =>
         print_run (fun _ _ => [])
           (ev ++ concat (map snd (fst (trace sample_cfg file_source [OpReadAll] (Some r)))))
     | _ => Fuel
     end
     = Ok (bs "#,NAME,AGE,PAY,BORN,SEEN,AT,RATE" ++ [x0a]
           ++ bs "0,Ann,-3,1.500000,1960-01-02,1960-01-02 00:00:00.250000,00:00:00.100000,1.500000" ++ [x0a]).
Proof.
  split.
  { exists [ann_row Big]. split.
    - pose proof (people_rows Big) as H. inversion H as [|? ? ? ? H1 _]; subst. constructor; [exact H1|constructor].
    - apply (plain_rows _ _ _ _ Bit32 false 320 2000 (bs "PEOPLE") (Table people 41 [ann_row Big] []));
        [reflexivity|reflexivity|apply good_sizesb_ok; vm_compute; reflexivity
        |apply good_tableb_ok; vm_compute; reflexivity| |].
      + unfold room, row_limit. repeat split; vm_compute; try discriminate; try reflexivity. lia.
      + left. apply no_compression_nameb_ok. vm_compute. reflexivity. }
  split; [repeat constructor|].
  split; [repeat constructor; intros K; vm_compute in K; intuition discriminate|].
  vm_compute. reflexivity.
Qed.

(** False of tables with missing dates: the print sink throws, after the rows in front
    of it. *)
Theorem C75_missing_refuted : exists file contents r ev0 evs,
  holds_table sample_cfg Big people contents file
  /\ open_reader sample_cfg file_source None (file_open file) = Ok (r, ev0)
  /\ fst (trace sample_cfg file_source [OpReadAll] (Some r)) = [(OpReadAll, Ok OUnit, evs)]
  /\ forall props, print_run props (ev0 ++ evs) = Exn E_bad_year.
Proof.
  exists people_file, [ann; nobody]. eexists _, _, _. split; [apply C73_case|].
  split; [vm_compute; reflexivity|]. split; [vm_compute; reflexivity|].
  intros props. vm_compute. reflexivity.
Qed.
Print Assumptions C75_missing_refuted.

(** C76.  The report of the print sink determines what it reports, when no text has a
    line break (and the datetimes have different texts). *)
Theorem C76_report_partial : forall dt h md h' md',
  (forall t, one_line (dt t)) -> (forall t t', dt t = dt t' -> t = t') ->
  one_line_facts h md -> one_line_facts h' md' ->
  print_properties dt h md = print_properties dt h' md' -> file_facts h md = file_facts h' md'.
Proof. exact report_determines. Qed.
Print Assumptions C76_report_partial.

(** Each fact is in its line of the report. *)
Theorem C76_lines_partial : forall dt h md, (forall t, one_line (dt t)) -> one_line_facts h md ->
  reports dt h md (print_properties dt h md).
Proof. exact report_lines. Qed.
Print Assumptions C76_lines_partial.

(** False otherwise: with line breaks, the texts of two properties can be cut elsewhere. *)
Theorem C76_report_refuted : exists h md md',
  (forall dt, print_properties dt h md = print_properties dt h md') /\ file_facts h md <> file_facts h md'.
Proof.
  exists empty_header,
    (Metadata CompNone (bs "a") (bs "b" ++ [x0a] ++ bs "  creator proc: c") 0 0 0 0 0 0 0 0 []),
    (Metadata CompNone (bs "a" ++ [x0a] ++ bs "  creator proc: b") (bs "c") 0 0 0 0 0 0 0 0 []).
  split; [intros dt; vm_compute; reflexivity|]. vm_compute. discriminate.
Qed.
Print Assumptions C76_report_refuted.

Example C76_case :
  one_line_facts empty_header (Metadata CompRLE (bs "SAS") (bs "SORT") 8 3 1 1 0 0 0 0 [num_col])
  /\ skipn 211 (print_properties (fun _ => bs "?") empty_header
                  (Metadata CompRLE (bs "SAS") (bs "SORT") 8 3 1 1 0 0 0 0 [num_col]))
     = bs "  compression: RLE" ++ [x0a] ++ bs "  creator: SAS" ++ [x0a] ++ bs "  creator proc: SORT" ++ [x0a]
       ++ bs "  row count: 3" ++ [x0a] ++ bs "  column count: 1" ++ [x0a] ++ bs "Columns:" ++ [x0a]
       ++ bs "  - column #0" ++ [x0a] ++ bs "    name: X" ++ [x0a] ++ bs "    label: " ++ [x0a]
       ++ bs "    format: BEST" ++ [x0a] ++ bs "    type: number" ++ [x0a] ++ bs "Data:" ++ [x0a].
Proof.
  split; [|vm_compute; reflexivity].
  split; repeat constructor; intros K; vm_compute in K; intuition discriminate.
Qed.
