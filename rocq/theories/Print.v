(** Model of the report which the print sink writes about the file:
    [include/cppsas7bdat/sink/print.hpp] lines 25-62 and the words of
    [src/types.cpp] lines 60-123. *)
From Verif Require Import Base Types DateTime Column Header Metadata Sinks.
Local Open Scope N_scope.

(** src/types.cpp:60-69.  The model has no unknown byte order. *)
Definition endian_word (e : endian) : bytes := match e with Little => bs "little" | Big => bs "big" end.

(** src/types.cpp:71-80. *)
Definition format_word (f : format) : bytes := match f with Bit32 => bs "32bits" | Bit64 => bs "64bits" end.

(** src/types.cpp:82-91. *)
Definition platform_word (p : platform) : bytes :=
  match p with Unix => bs "unix" | Windows => bs "windows" | PlatformUnknown => bs "unknown" end.

(** src/types.cpp:93-104. *)
Definition compression_word (k : compression) : bytes :=
  match k with CompNone => bs "none" | CompRLE => bs "RLE" | CompRDC => bs "RDC" end.

(** src/types.cpp:106-123. *)
Definition type_word (t : ctype) : bytes :=
  match t with
  | TString => bs "string" | TNumber => bs "number" | TInteger => bs "integer"
  | TDateTime => bs "datetime" | TDate => bs "date" | TTime => bs "time" | TUnknown => bs "unknown"
  end.

(** print.hpp:50-60: the five lines of each column. *)
Fixpoint print_columns (i : N) (cs : list column) : list bytes :=
  match cs with
  | [] => []
  | c :: r =>
      [bs "  - column #" ++ dec i; bs "    name: " ++ c_name c; bs "    label: " ++ c_label c;
       bs "    format: " ++ c_format c; bs "    type: " ++ type_word (c_type c)]
      ++ print_columns (i + 1) r
  end.

(** print.hpp:25-62 print_properties, as the list of its lines.  [dt] is what
    operator<< of Boost writes for a datetime. *)
Definition print_lines (dt : ptime -> bytes) (h : header) (md : metadata) : list bytes :=
  [bs "Properties:";
   bs "  format: " ++ format_word (h_format h);
   bs "  endianness: " ++ endian_word (h_endianness h);
   bs "  platform: " ++ platform_word (h_platform h);
   bs "  date created: " ++ dt (h_date_created h);
   bs "  date modified: " ++ dt (h_date_modified h);
   bs "  dataset name: " ++ h_dataset_name h;
   bs "  encoding: " ++ h_encoding h;
   bs "  file type: " ++ h_file_type h;
   bs "  SAS release: " ++ h_sas_release h;
   bs "  SAS server type: " ++ h_sas_server_type h;
   bs "  OS type: " ++ h_os_type h;
   bs "  OS name: " ++ h_os_name h;
   bs "  compression: " ++ compression_word (md_compression md);
   bs "  creator: " ++ md_creator md;
   bs "  creator proc: " ++ md_creator_proc md;
   bs "  row count: " ++ dec (md_row_count md);
   bs "  column count: " ++ dec (md_column_count md);
   bs "Columns:"] ++ print_columns 0 (md_columns md) ++ [bs "Data:"].

Definition print_properties (dt : ptime -> bytes) (h : header) (md : metadata) : bytes :=
  concat (map (fun l => l ++ newline) (print_lines dt h md)).
