(** Properties C01, C02, C03, C04, C05, C07, C08. *)
From Verif Require Import Base Types Float DateTime Buffer Header Page Column Metadata
  Data Reader SpecValues SpecBuffer SpecHeader ProofBuffer ProofHeader.
Local Open Scope N_scope.

(** C01.  The hypothesis on [max_alloc] says that 288 bytes can be allocated. *)
Theorem C01_short_file : forall c flt content,
  lenN content < 288 -> 288 <= max_alloc c ->
  open_reader c file_source flt (file_open content) = Exn E_header_too_short.
Proof. exact short_file. Qed.
Print Assumptions C01_short_file.

(** C01 for every data source: any failure to deliver the first 288 bytes. *)
Theorem C01_short_source : forall S c (src : source S) flt s s' data,
  good_source src -> 288 <= max_alloc c ->
  src_read src s 288 = (s', data, false) ->
  open_reader c src flt s = Exn E_header_too_short.
Proof. exact short_source. Qed.
Print Assumptions C01_short_source.

Example C01_case : lenN (sample_header x33 x33 x01 1024 287) = 287.
Proof. vm_compute. reflexivity. Qed.

(** C02. *)
Theorem C02_wrong_magic : forall c flt content,
  288 <= lenN content -> 288 <= max_alloc c -> ~ has_magic content ->
  open_reader c file_source flt (file_open content) = Exn E_invalid_magic_number.
Proof. exact wrong_magic. Qed.
Print Assumptions C02_wrong_magic.

Example C02_wrong_magic_case : ~ has_magic (set_at 31 [x10] (sample_header x33 x33 x01 1024 1024)).
Proof. vm_compute. discriminate. Qed.

(** C02 (converse) and C03: what a successful construction says about the file. *)
Theorem C03_header_fields : forall c flt content r ev,
  open_reader c file_source flt (file_open content) = Ok (r, ev) ->
  has_magic content /\ header_of_file content (rs_h r)
  /\ 288 <= h_header_length (rs_h r) <= lenN content.
Proof. exact reader_header. Qed.
Print Assumptions C03_header_fields.

Theorem C02_opened_has_magic : forall c flt content r ev,
  open_reader c file_source flt (file_open content) = Ok (r, ev) -> has_magic content.
Proof. exact (fun c flt content r ev H => proj1 (reader_header c flt content r ev H)). Qed.
Print Assumptions C02_opened_has_magic.

(** C03.  The description of the trimmed texts leaves no choice. *)
Theorem C03_trimmed_text_unique : forall l r1 r2,
  trimmed_text l r1 -> trimmed_text l r2 -> r1 = r2.
Proof. exact trimmed_text_unique. Qed.
Print Assumptions C03_trimmed_text_unique.

(** C03, C04.  Every header which is long enough is accepted, in both builds;
    the source is then just after it.  [header_dates_ok]: the two dates are in the
    range of the conversion, see C50. *)
Theorem C03_header_accepted : forall c content,
  has_magic content -> 288 + shift2 content <= header_length_field content ->
  header_length_field content <= lenN content -> header_length_field content <= max_alloc c ->
  header_dates_ok content ->
  exists h, open_header c file_source (file_open content) =
    Ok (h, FState (skipn (N.to_nat (header_length_field content)) content) false false,
        full (field content 0 (header_length_field content)))
    /\ header_of_file content h.
Proof. exact header_total. Qed.
Print Assumptions C03_header_accepted.

(** All four combinations of format and byte order, with and without shift. *)
Example C03_header_accepted_case :
  let f := sample_header x33 x33 x01 1024 2000 in
  has_magic f /\ shift2 f = 8 /\ header_length_field f = 1024
  /\ header_dates_ok f /\ file_format f = Bit64 /\ file_endian f = Little
  /\ file_endian (sample_header x00 x00 x00 1024 2000) = Big.
Proof.
  cbv zeta. split; [vm_compute; reflexivity|]. split; [vm_compute; reflexivity|].
  split; [vm_compute; reflexivity|]. split; [|vm_compute; auto].
  exists (PTicks epoch_ticks), (PTicks epoch_ticks). split; vm_compute; reflexivity.
Qed.

(** C04. *)
Theorem C04_source_after_header : forall c content h s b,
  open_header c file_source (file_open content) = Ok (h, s, b) ->
  s = FState (skipn (N.to_nat (h_header_length h)) content) false false.
Proof. exact header_consumed. Qed.
Print Assumptions C04_source_after_header.

Theorem C04_header_cut : forall c flt content,
  288 <= lenN content -> has_magic content ->
  288 <= header_length_field content -> header_length_field content <= max_alloc c ->
  lenN content < header_length_field content ->
  open_reader c file_source flt (file_open content) = Exn E_header_too_short.
Proof. exact header_cut. Qed.
Print Assumptions C04_header_cut.

Example C04_header_cut_case :
  let f := sample_header x33 x33 x01 1024 1023 in
  has_magic f /\ header_length_field f = 1024 /\ lenN f = 1023.
Proof. vm_compute. auto. Qed.

(** C04, below the range of the property: a header_length under 288 is reported
    in a release build and kills the process in a debug build. *)
Theorem C04_header_length_small : forall c flt content,
  288 <= lenN content -> has_magic content -> 288 <= max_alloc c ->
  header_length_field content < 288 ->
  open_reader c file_source flt (file_open content)
  = if ndebug c then Exn E_header_too_short else Abort.
Proof. exact header_length_small. Qed.
Print Assumptions C04_header_length_small.

(** C05, full statement: [~ memory_error (open_header c src s)] for every source
    and configuration.  It holds for files in a debug build, and in a release
    build unless header_length is between 288 and 288 plus the shift. *)
Theorem C05_header_safe_partial : forall c content,
  288 <= max_alloc c ->
  (ndebug c = false \/ 288 + shift2 content <= header_length_field content
   \/ header_length_field content < 288) ->
  ~ memory_error (open_header c file_source (file_open content)).
Proof. exact header_safe. Qed.
Print Assumptions C05_header_safe_partial.

Example C05_header_safe_case :
  let f := sample_header x33 x33 x01 1024 2000 in
  288 + shift2 f <= header_length_field f.
Proof. vm_compute. discriminate. Qed.

(** A 288 byte file whose operating system name is read 8 bytes too far. *)
Theorem C05_os_name_refuted : exists content,
  header_length_field content = 288 /\ lenN content = 288 /\ has_magic content
  /\ forall flt, open_reader (Cfg true 1000 10) file_source flt (file_open content)
     = Undef UB_oob_read.
Proof. exact oob_header_read. Qed.
Print Assumptions C05_os_name_refuted.

(** With a source in memory, a header_length below 288 makes the rest of the
    source be written after the end of the header buffer. *)
Theorem C05_custom_source_refuted : exists content,
  header_length_field content = 200 /\ has_magic content /\ good_source mem_source
  /\ forall flt, open_reader (Cfg true 1000 10) mem_source flt content
     = Undef UB_oob_write.
Proof. exact short_header_write. Qed.
Print Assumptions C05_custom_source_refuted.

(** C07. A buffer behaves as a list, over any history of operations. *)
Theorem C07_buffer_history : forall S c (src : source S) ops s,
  good_source src -> Forall (fun o => op_size o < W64) ops ->
  let '(rs, s1, b1) := buffer_run c src ops empty_mbuf s in
  msize b1 <= lenN (mem b1)
  /\ list_run c src ops [] s = (rs, s1, visible b1).
Proof. exact buffer_history. Qed.
Print Assumptions C07_buffer_history.

Theorem C07_resized : forall n l,
  lenN (resized n l) = n
  /\ firstn (Nat.min (N.to_nat n) (length l)) (resized n l)
     = firstn (Nat.min (N.to_nat n) (length l)) l.
Proof. exact resized_prefix. Qed.
Print Assumptions C07_resized.

Example C07_case :
  good_source file_source /\
  let '(rs, _, b) := buffer_run (Cfg true 100 0) file_source
                       [BRead 0 3; BResize 2; BResize 5; BRead 3 2; BResize 1000]
                       empty_mbuf (file_open (bs "abcdef")) in
  rs = [Ok true; Ok true; Ok true; Ok true; Exn E_bad_alloc]
  /\ visible b = [Some x61; Some x62; None; Some x64; Some x65].
Proof. split; [apply file_source_good|vm_compute; auto]. Qed.

(** C08, full statement: for all 64 bit [off] and [len], [assert_check b off len]
    is [Ok tt] if off + len <= size, and the exception otherwise.  True only when
    off + len does not wrap around, and the failure is not an exception. *)
Theorem C08_check_partial : forall b off len, off + len < W64 ->
  (off + len <= msize b -> assert_check b off len = Ok tt)
  /\ (msize b < off + len -> assert_check b off len = Abort).
Proof. exact assert_check_partial. Qed.
Print Assumptions C08_check_partial.

Example C08_check_case :
  assert_check (full (bs "abc")) 1 2 = Ok tt /\ assert_check (full (bs "abc")) 1 3 = Abort.
Proof. vm_compute. auto. Qed.

Theorem C08_wraps_refuted : exists b off len,
  msize b < off + len /\ off < W64 /\ len < W64 /\ assert_check b off len = Ok tt.
Proof. exact check_wraps. Qed.
Print Assumptions C08_wraps_refuted.

Theorem C08_terminates_refuted : exists b off len,
  off + len < W64 /\ msize b < off + len
  /\ assert_check b off len <> Exn E_invalid_buffer_access
  /\ assert_check b off len = Abort.
Proof. exact check_terminates. Qed.
Print Assumptions C08_terminates_refuted.

(** The accesses asked to be checked (ASSERT::YES) are not. *)
Theorem C08_unchecked_refuted : exists b off,
  get_uint AssertYes Little 4 b off = Undef UB_oob_read.
Proof. exact (ex_intro _ (full []) (ex_intro _ 0 eq_refl)). Qed.
Print Assumptions C08_unchecked_refuted.
