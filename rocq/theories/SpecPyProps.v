(** The facts of a file under their names, as Python objects. *)
From Verif Require Import Base Types DateTime Buffer Column Header Metadata Reader Drive Sinks Callbacks PyObjects Python
  PyProps
  SpecTime SpecCells SpecUtf8 SpecPyObjects.
Local Open Scope N_scope.

(** A text which is UTF-8 is this str; any other raises UnicodeDecodeError. *)
Definition has_str (get : bytes -> res pyattr) (name t : bytes) : Prop :=
  (utf8_text t -> get name = Ok (PaStr t)) /\ (~ utf8_text t -> get name = Exn E_unicode_error).

(** The moment as a datetime object, None when it is missing; a year which is not
    supported raises. *)
Definition has_moment (get : bytes -> res pyattr) (name : bytes) (t : ptime) : Prop :=
  (forall x, shown_as (VDateTime t) x -> get name = Ok (PaValue x))
  /\ (forall n day us, days_from_1960 n day -> (let '(y, _, _) := day in (0 <= y <= 20000)%Z) -> ~ supported day ->
        (0 <= us < day_us)%Z -> t = PTicks (jdn_1960 * day_us + n * day_us + us) -> get name = Exn E_bad_year).

(** The word of the enum. *)
Definition has_word {A} (get : bytes -> res pyattr) (name : bytes) (words : list (A * bytes)) (a : A) : Prop :=
  exists w, In (a, w) words /\ get name = Ok (PaEnum w).

Definition py_formats : list (format * bytes) := [(Bit32, bs "bit32"); (Bit64, bs "bit64")].
Definition py_compressions : list (compression * bytes) :=
  [(CompNone, bs "none"); (CompRLE, bs "RLE"); (CompRDC, bs "RDC")].

(** What is known of the file, and nothing more; numbers are exact. *)
Definition py_properties_say (h : header) (md : metadata) (get : bytes -> res pyattr) : Prop :=
  has_word get (bs "format") py_formats (h_format h)
  /\ has_word get (bs "endianness") endian_words (h_endianness h)
  /\ has_word get (bs "platform") platform_words (h_platform h)
  /\ has_word get (bs "compression") py_compressions (md_compression md)
  /\ has_moment get (bs "date_created") (h_date_created h)
  /\ has_moment get (bs "date_modified") (h_date_modified h)
  /\ Forall (fun kt => has_str get (fst kt) (snd kt))
       [(bs "dataset_name", h_dataset_name h); (bs "encoding", h_encoding h); (bs "file_type", h_file_type h);
        (bs "sas_release", h_sas_release h); (bs "sas_server_type", h_sas_server_type h);
        (bs "os_type", h_os_type h); (bs "os_name", h_os_name h);
        (bs "creator", md_creator md); (bs "creator_proc", md_creator_proc md)]
  /\ Forall (fun kn => get (fst kn) = Ok (PaInt (snd kn)))
       [(bs "header_length", h_header_length h); (bs "page_length", h_page_length h);
        (bs "page_count", h_page_count h); (bs "row_length", md_row_length md); (bs "row_count", md_row_count md);
        (bs "column_count", md_column_count md); (bs "col_count_p1", md_col_count_p1 md);
        (bs "col_count_p2", md_col_count_p2 md); (bs "mix_page_row_count", md_mix_page_row_count md);
        (bs "lcs", md_lcs md); (bs "lcp", md_lcp md)]
  /\ get (bs "columns") = Ok (PaColumns (md_columns md))
  /\ Forall (fun c => let get := py_column_attr c in
       has_str get (bs "name") (c_name c) /\ has_str get (bs "label") (c_label c) /\ has_str get (bs "format") (c_format c)
       /\ has_word get (bs "type") type_words (c_type c)) (md_columns md).

Definition property_names : list bytes :=
  [bs "format"; bs "endianness"; bs "platform"; bs "compression"; bs "date_created"; bs "date_modified";
   bs "dataset_name"; bs "encoding"; bs "file_type"; bs "sas_release"; bs "sas_server_type"; bs "os_type"; bs "os_name";
   bs "creator"; bs "creator_proc"; bs "header_length"; bs "page_length"; bs "page_count"; bs "row_length";
   bs "row_count"; bs "column_count"; bs "col_count_p1"; bs "col_count_p2"; bs "mix_page_row_count"; bs "lcs"; bs "lcp";
   bs "columns"].

(** What a program does with its Reader and its sink object. *)
Inductive py_action : Type :=
| ActDo (o : op)
| ActFlush
| ActDf
| ActDrop.

Definition py_act {S} (c : cfg) (src : source S) (cls : py_class) (p : program S) (a : py_action) : program S :=
  match a with
  | ActDo o => snd (py_do c src cls o p)
  | ActFlush => snd (py_flush_sink cls p)
  | ActDf => snd (py_df cls p)
  | ActDrop => py_drop p
  end.
