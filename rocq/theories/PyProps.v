(** The properties of a file as Python objects: [python/pycppsas7bdat/cpp/pycppsas7bdat.cpp],
    [reader.cpp:98-99] and the attribute properties of the sinks ([sink.py:10-16]). *)
From Verif Require Import Base Types DateTime Header Column Metadata Reader Utf8 Callbacks PyObjects Python.
Local Open Scope N_scope.

(** What an attribute gives: a str object (its UTF-8), an int, the member of an enum with
    this name, a date, the Columns. *)
Inductive pyattr : Type :=
| PaStr (s : bytes)
| PaInt (n : N)
| PaEnum (w : bytes)
| PaValue (v : pyvalue)
| PaColumns (cs : list column).

(** The converter of std::string, PyUnicode_FromStringAndSize (Boost.Python; for the attributes
    of pycppsas7bdat.cpp). *)
Definition attr_str (s : bytes) : res pyattr := if utf8_ok s then Ok (PaStr s) else Exn E_unicode_error.

(** pycppsas7bdat.cpp:32-35 Endian, 36-38 Format, 39-42 Platform, 43-46 Compression,
    47-54 ColumnType.  Simplification: an Endian is little or big, no other comes of a header. *)
Definition py_endian (e : endian) : bytes := match e with Little => bs "little" | Big => bs "big" end.
Definition py_format (f : format) : bytes := match f with Bit32 => bs "bit32" | Bit64 => bs "bit64" end.
Definition py_platform (p : platform) : bytes :=
  match p with PlatformUnknown => bs "unknown" | Unix => bs "unix" | Windows => bs "windows" end.
Definition py_compression (k : compression) : bytes :=
  match k with CompNone => bs "none" | CompRLE => bs "RLE" | CompRDC => bs "RDC" end.
Definition py_type (t : ctype) : bytes :=
  match t with
  | TUnknown => bs "unknown" | TString => bs "string" | TNumber => bs "number" | TInteger => bs "integer"
  | TDateTime => bs "datetime" | TDate => bs "date" | TTime => bs "time"
  end.

Fixpoint find_attr (l : list (bytes * res pyattr)) (name : bytes) : res pyattr :=
  match l with
  | [] => Exn E_attribute_error
  | (k, x) :: r => if bytes_eqb k name then x else find_attr r name
  end.

(** 74-123 Properties. *)
Definition py_attr (h : header) (md : metadata) (name : bytes) : res pyattr :=
  find_attr
    [(bs "format", Ok (PaEnum (py_format (h_format h))));
     (bs "endianness", Ok (PaEnum (py_endian (h_endianness h))));
     (bs "platform", Ok (PaEnum (py_platform (h_platform h))));
     (bs "date_created", v <- py_of_datetime (h_date_created h) ;; Ok (PaValue v));
     (bs "date_modified", v <- py_of_datetime (h_date_modified h) ;; Ok (PaValue v));
     (bs "dataset_name", attr_str (h_dataset_name h));
     (bs "encoding", attr_str (h_encoding h));
     (bs "file_type", attr_str (h_file_type h));
     (bs "sas_release", attr_str (h_sas_release h));
     (bs "sas_server_type", attr_str (h_sas_server_type h));
     (bs "os_type", attr_str (h_os_type h));
     (bs "os_name", attr_str (h_os_name h));
     (bs "header_length", Ok (PaInt (h_header_length h)));
     (bs "page_length", Ok (PaInt (h_page_length h)));
     (bs "page_count", Ok (PaInt (h_page_count h)));
     (bs "compression", Ok (PaEnum (py_compression (md_compression md))));
     (bs "creator", attr_str (md_creator md));
     (bs "creator_proc", attr_str (md_creator_proc md));
     (bs "row_length", Ok (PaInt (md_row_length md)));
     (bs "row_count", Ok (PaInt (md_row_count md)));
     (bs "column_count", Ok (PaInt (md_column_count md)));
     (bs "col_count_p1", Ok (PaInt (md_col_count_p1 md)));
     (bs "col_count_p2", Ok (PaInt (md_col_count_p2 md)));
     (bs "mix_page_row_count", Ok (PaInt (md_mix_page_row_count md)));
     (bs "lcs", Ok (PaInt (md_lcs md)));
     (bs "lcp", Ok (PaInt (md_lcp md)));
     (bs "columns", Ok (PaColumns (md_columns md)))] name.

(** 55-59 Column. *)
Definition py_column_attr (c : column) (name : bytes) : res pyattr :=
  find_attr
    [(bs "name", attr_str (c_name c)); (bs "format", attr_str (c_format c)); (bs "label", attr_str (c_label c));
     (bs "type", Ok (PaEnum (py_type (c_type c))))] name.

(** A Properties object of the program: the one which sink.properties is, which shares the
    copy of the C++ sink, or one which reader.properties() gave (reader.cpp:98-99,
    reference_existing_object): the address of the properties in the Reader, which it does
    not keep alive. *)
Inductive py_props : Type :=
| PpShared (h : header) (md : metadata)
| PpReader.

(** An attribute of such an object (pycppsas7bdat.cpp). *)
Definition py_get {S} (p : program S) (x : py_props) (name : bytes) : res pyattr :=
  match x with
  | PpShared h md => py_attr h md name
  | PpReader =>
      match pg_reader p with
      | Some r => py_attr (rs_h r) (rs_md r) name
      | None => Undef UB_lifetime
      end
  end.

(** reader.properties() (reader.cpp:98-99), sink.properties (sink.py:10, 14; None when set_properties was never called). *)
Definition py_reader_properties {S} (p : program S) : res py_props :=
  match pg_reader p with Some _ => Ok PpReader | None => Exn E_name_error end.
Definition py_sink_properties {S} (p : program S) : option py_props :=
  match po_properties (pt_obj (pg_st p)) with Some (h, md) => Some (PpShared h md) | None => None end.

(** The change of the number of references to None when date_created or date_modified is
    asked for and the result is freed: get_date_created (66-71) gives convert's result,
    which is None without a new reference (import_datetime.cpp:37), as an owned one. *)
Definition none_asked (t : ptime) : Z :=
  match py_of_datetime t with
  | Ok PvNone => none_result false - 1
  | _ => 0
  end.
