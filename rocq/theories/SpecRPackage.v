(** What an R program sees: the data frame of the sink object. *)
From Coq Require Import Permutation.
From Verif Require Import Base Types DateTime Column Header Metadata Reader Sinks Callbacks RPackage SpecTime SpecSinks
  SpecFile SpecCells.
Local Open Scope N_scope.

(** Both dates of the header have a text. *)
Definition dated (h : header) : Prop :=
  (exists t, datetime_to_string (h_date_created h) = Ok t)
  /\ (exists t, datetime_to_string (h_date_modified h) = Ok t).

(** The frame has these names, and one column for each column of [order], with the cells
    of the rows. *)
Definition r_frame_is (names : list bytes) (order : list column) (rows : list (N * pview)) (f : rframe) : Prop :=
  map fst f = names
  /\ Forall2 (fun c col => Forall2 (fun r x => exists y, r_cell c (snd r) y /\ x = Some y) rows (snd col)) order f.

(** df is NULL without rows. *)
Definition r_df_is (names : list bytes) (order : list column) (rows : list (N * pview)) (d : option rframe) : Prop :=
  match rows with
  | [] => d = None
  | _ => exists f, d = Some f /\ r_frame_is names order rows f
  end.

(** The rows in the frame of SinkByChunk: when there are two full chunks, the second one
    appears twice and the first one is lost. *)
Definition r_kept_rows (size : N) {A} (rows : list A) : list A :=
  if (0 <? size) && (2 * size <=? lenN rows) then
    firstn (N.to_nat size) (skipn (N.to_nat size) rows) ++ skipn (N.to_nat size) rows
  else rows.

(** What R has for a content in a field: a text up to a zero byte, dates, moments and times as texts, a missing
    number as the NaN of the file, other missing contents as NA. *)
Definition r_content_is (d : field_desc) (v : content) (y : rval) : Prop :=
  match v with
  | Text t => exists u, until_zero t u /\ y = RText u
  | Whole z => y = RInt z
  | Real bits => y = RReal bits
  | Day _ | Moment _ _ | Clock _ => exists t, text_is v t /\ y = RText t
  | Missing bits => (is_number d /\ y = RReal bits) \/ (~ is_number d /\ y = RNa)
  end.

(** The column has the name of field [j], and its contents. *)
Definition r_column_is (fields : list field_desc) (contents : list (list content)) (j : nat)
    (col : bytes * list (option rval)) : Prop :=
  exists d, nth_error fields j = Some d /\ until_zero (fd_name d) (fst col)
    /\ Forall2 (fun vs x => exists v y, nth_error vs j = Some v /\ x = Some y /\ r_content_is d v y)
         contents (snd col).

(** ** Rows one by one *)

(** The element of the list [row] for a value: NULL ([None]) for a missing date, datetime
    or time, NA for a number which is not one. *)
Definition r_row_shows (c : column) (p : pview) (v : value) (x : option rval) : Prop :=
  match v with
  | VString s => exists t, until_zero s t /\ x = Some (RText t)
  | VInteger z => x = Some (RInt z)
  | VNumber b => (x = Some RNa \/ x = Some (RReal b)) /\ (double_nan b -> x = Some RNa)
                 /\ (forall q, double_value b q -> x = Some (RReal b))
  | VDateTime NotADateTime | VDate NotADate | VTime NotATime => x = None
  | _ => exists t, c_to_string c p = Ok t /\ x = Some (RText t)
  end.

Definition r_row_is (cs : list column) (p : pview) (cells : list (option rval)) : Prop :=
  Forall2 (fun c x => if known c then exists v, cell_value c p v /\ r_row_shows c p v x else x = None) cs cells.

(** A sink object which looks at each row when it is given, and one which keeps the list
    it is given. *)
Definition r_looks : robj (list (N * list (option rval))) := fun q l =>
  match q with
  | RqRow hp i row => (Ok tt, l ++ [(i, nth row hp [])])
  | _ => (Ok tt, l)
  end.
Definition r_keeps : robj (list nat) := fun q l =>
  match q with
  | RqRow hp i row => (Ok tt, l ++ [row])
  | _ => (Ok tt, l)
  end.

(** ** The properties *)

(** x$name is this text, up to a zero byte; this number. *)
Definition r_has_text (x : rv) (name t : bytes) : Prop :=
  exists u, until_zero t u /\ r_dollar x name = Ok (RvText u).
Definition r_has_number (x : rv) (name : bytes) (n : N) : Prop :=
  exists b, SpecValues.double_bits_of_int b (Z.of_N n) /\ r_dollar x name = Ok (RvNum b).

(** The text of the moment: its day and its time of day. *)
Definition r_has_moment (x : rv) (name : bytes) (t : ptime) : Prop :=
  forall n day us, days_from_1960 n day -> supported day -> (0 <= us < day_us)%Z ->
    t = PTicks (jdn_1960 * day_us + n * day_us + us) ->
    r_dollar x name = Ok (RvText (iso_date day ++ bs " " ++ iso_time us)).

(** What is known of a column, under its name. *)
Definition r_column_says (c : column) (e : bytes * rv) : Prop :=
  until_zero (c_name c) (fst e)
  /\ r_has_text (snd e) (bs "name") (c_name c)
  /\ r_has_text (snd e) (bs "label") (c_label c)
  /\ r_has_text (snd e) (bs "format") (c_format c)
  /\ exists w, In (c_type c, w) type_words /\ r_has_text (snd e) (bs "type") w.

(** What is known of the file.  Numbers from 2^53 on are not exact. *)
Definition r_properties_say (h : header) (md : metadata) (x : rv) : Prop :=
  (exists w, In (h_endianness h, w) endian_words /\ r_has_text x (bs "endianness") w)
  /\ (exists w, In (h_platform h, w) platform_words /\ r_has_text x (bs "platform") w)
  /\ (exists w, In (md_compression md, w) compression_words /\ r_has_text x (bs "compression") w)
  /\ r_has_moment x (bs "date_created") (h_date_created h)
  /\ r_has_moment x (bs "date_modified") (h_date_modified h)
  /\ Forall (fun kt => r_has_text x (fst kt) (snd kt))
       [(bs "dataset_name", h_dataset_name h); (bs "encoding", h_encoding h); (bs "file_type", h_file_type h);
        (bs "sas_release", h_sas_release h); (bs "sas_server_type", h_sas_server_type h);
        (bs "os_type", h_os_type h); (bs "os_name", h_os_name h);
        (bs "creator", md_creator md); (bs "creator_proc", md_creator_proc md)]
  /\ Forall (fun kn => snd kn < 2 ^ 53 -> r_has_number x (fst kn) (snd kn))
       [(bs "header_length", h_header_length h); (bs "page_length", h_page_length h);
        (bs "page_count", h_page_count h); (bs "row_length", md_row_length md); (bs "row_count", md_row_count md);
        (bs "column_count", md_column_count md); (bs "col_count_p1", md_col_count_p1 md);
        (bs "col_count_p2", md_col_count_p2 md); (bs "mix_page_row_count", md_mix_page_row_count md);
        (bs "lcs", md_lcs md); (bs "lcp", md_lcp md)]
  /\ exists l, r_dollar x (bs "columns") = Ok (RvList l) /\ Forall2 r_column_says (md_columns md) l.
