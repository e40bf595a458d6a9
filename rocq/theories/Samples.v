(** Small files, made by the writer of SpecFile, for the examples. *)
From Verif Require Import Base Types SpecFile Buffer Page Column Header Metadata Decomp
  Data Reader SpecReader.
Local Open Scope N_scope.

Definition sample_fields : list field_desc :=
  [FieldDesc (bs "ID") (bs "The id") (bs "BEST") 0 8 true;
   FieldDesc (bs "NAME") [] [] 8 4 false].

(** Six rows on three pages: a mix page with two, data pages with three and one. *)
Definition sample_table : table :=
  Table sample_fields 12
    [bs "AAAAAAAAabcd"; bs "BBBBBBBBefgh"]
    [[bs "CCCCCCCCijkl"; bs "DDDDDDDDmnop"; bs "EEEEEEEEqrst"]; [bs "FFFFFFFFuvwx"]].

Definition sample_file : bytes :=
  file_bytes Big Bit32 false 320 800 (bs "SAMPLE") sample_table.
Definition sample_file_64 : bytes :=
  file_bytes Little Bit64 true 320 1300 (bs "SAMPLE") sample_table.

(** Five rows, RLE compressed; the second cannot be decompressed, the third one is
    not compressed, and the last two are on another page. *)
Definition sample_rle : bytes :=
  compressed_file Big Bit32 false 320 900 (bs "SAMPLE") (bs "SASYZCRL") sample_fields 12 5
    [x83 :: bs "abcd" ++ [xe2; x82] ++ bs "xyz";
     bs "3456";
     bs "CCCCCCCCijkl"]
    [[x83 :: bs "mnop" ++ [xe6]; x87 :: bs "qrstuvwx" ++ [xf2]]].

(** A header and nothing else: a dataset without columns and rows. *)
Definition empty_file : bytes :=
  header_bytes Big Bit32 false 320 800 0 (bs "EMPTY").

Definition sample_cfg : cfg := Cfg true 100000 10.

(** The reader of a file: nothing when construction does not succeed. *)
Definition reader_of (c : cfg) (content : bytes) : reader fstate :=
  match open_reader c file_source None (file_open content) with
  | Ok (r, _) => Some r
  | _ => None
  end.

(** What a row holds. *)
Definition row_text (n : N) (p : pview) : bytes :=
  match all_some (slice (pv_off p) n (pv_mem p)) with Some l => l | None => [] end.

(** A short form of the entries: the outcome, the rows pushed (index and bytes),
    how many times the sink was told the end. *)
Definition short (n : N) (t : list entry)
  : list (res out * list (N * bytes) * N) :=
  map (fun x => let '(_, x, ev) := x in
         (match x with Ok (OPtr (Some p)) => Ok (OPtr (Some (PView [] 0))) | _ => x end,
          map (fun y => (fst y, row_text n (snd y))) (rows_of ev),
          lenN (filter is_end ev))) t.

Definition sample_trace (content : bytes) (ops : list op) :=
  let '(t, r) := trace sample_cfg file_source ops (reader_of sample_cfg content) in
  (short 12 t, current_row_index r).

Lemma reader_of_opened : forall c content r, reader_of c content = Some r ->
  opened c file_source None (file_open content) r.
Proof.
  intros c content r H. unfold reader_of, opened in *.
  destruct (open_reader _ _ _ _) as [[r0 ev]| | | |]; try discriminate.
  injection H as <-. exists ev. reflexivity.
Qed.

(** A file whose header says that a page has no byte. *)
Definition zero_page_file : bytes :=
  header_bytes Big Bit32 false 320 0 0 (bs "ZERO").

(** A source which reads a file but fails, without being at its end, when it has
    answered [n] times. *)
Definition flaky_source : source (fstate * nat) :=
  Source (fun s => file_eof (fst s))
    (fun s n => match snd s with
                | O => (s, [], false)
                | Datatypes.S k => let '(f, data, ok) := file_read (fst s) n in ((f, k), data, ok)
                end).

(** An empty data page between two data pages. *)
Definition empty_page_table : table :=
  Table sample_fields 12 [bs "AAAAAAAAabcd"; bs "BBBBBBBBefgh"]
    [[bs "CCCCCCCCijkl"]; []; [bs "DDDDDDDDmnop"]].

Definition empty_page_file : bytes :=
  file_bytes Big Bit32 false 320 800 (bs "SAMPLE") empty_page_table.

(** No row on the first page; then an empty data page, and two rows. *)
Definition empty_first_file : bytes :=
  file_bytes Big Bit32 false 320 800 (bs "SAMPLE")
    (Table sample_fields 12 [] [[]; [bs "AAAAAAAAabcd"; bs "BBBBBBBBefgh"]]).

(** A data page of 800 bytes which announces 65 rows of 12 bytes: the last one
    would be at 792. *)
Definition overrun_file : bytes :=
  header_bytes Big Bit32 false 320 800 2 (bs "SAMPLE")
  ++ page_bytes Big Bit32 800 type_meta 0 (description Big Bit32 [] sample_fields 12 65 0) []
  ++ page_bytes Big Bit32 800 type_data 65 [] [].

(** A row length of 2^64 - 24 in a 64 bit file. *)
Definition huge_row_file : bytes :=
  header_bytes Little Bit64 false 320 1300 2 (bs "SAMPLE")
  ++ page_bytes Little Bit64 1300 type_meta 0
       (description Little Bit64 [] sample_fields (2 ^ 64 - 24) 1 0) []
  ++ page_bytes Little Bit64 1300 type_data 1 [] [].
