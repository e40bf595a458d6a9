(** The arguments of sas_reader and read_sas of the R package
    ([R/CPPSAS7BDAT/src/filter.cpp], [src/reader.cpp:22-48], [R/read_sas.R], [R/reader.R]). *)
From Verif Require Import Base Types Buffer Header Column Metadata Reader Drive Sinks Callbacks RPackage Cli PyArgs.
Local Open Scope N_scope.

Definition E_r_include : exn := E_client 30.  (* "include argument is not a vector of character" *)
Definition E_r_exclude : exn := E_client 31.
Definition E_r_string : exn := E_client 32.   (* "Expecting a single string value" *)

(** A value of R (filter.cpp:14-37): NULL, a character vector ([None] is NA), or something else. 
    The strings of
    R have no NUL. *)
Inductive rarg : Type := RArgNull | RArgChars (elements : list (option bytes)) | RArgOther.

(** Rcpp::as<std::string> of an element (filter.cpp:14-37): CHAR() of the string, which is "NA" for
    NA_STRING. *)
Definition r_string (e : option bytes) : bytes := match e with Some s => s | None => bs "NA" end.

(** filter.cpp:16-31 list_to_set.  Simplification: less than 2^31 elements. *)
Definition r_list_to_set (fault : exn) (arg : rarg) : res (list bytes) :=
  match arg with
  | RArgNull => Ok []
  | RArgChars l => Ok (map r_string l)
  | RArgOther => Exn fault
  end.

(** filter.cpp:33-36. *)
Definition r_filter_args (include exclude : rarg) : res (list bytes * list bytes) :=
  li <- r_list_to_set E_r_include include ;;
  le <- r_list_to_set E_r_exclude exclude ;;
  Ok (li, le).

(** The argument std::string _inputfilename: a character vector of length 1. *)
Definition r_file_name (arg : rarg) : res bytes :=
  match arg with
  | RArgChars [e] => Ok (r_string e)
  | _ => Exn E_r_string
  end.

(** reader.cpp:33-44: the source and the filter, in an unspecified order. *)
Definition r_source_and_filter (filter_first : bool) (fs : fsys) (name : bytes) (include exclude : rarg)
  : res (bytes * (list bytes * list bytes)) :=
  if filter_first
  then f <- r_filter_args include exclude ;; content <- open_file fs name ;; Ok (content, f)
  else content <- open_file fs name ;; f <- r_filter_args include exclude ;; Ok (content, f).

Definition r_nothing : r_program fstate := RProgram None (rsink_new 0, r_new).

(** Opening the named file with a sink object of a class and reading all of it; read_sas.R:6-12
    is the case of SinkWholeData.  Simplification: chunk_size is a whole number below 2^64. *)
Definition r_read_args (c : cfg) (filter_first : bool) (fs : fsys) (mk : list bytes -> list bytes)
    (cls : r_class) (chunk_size : N) (file include exclude : rarg) : res unit * r_program fstate :=
  match (name <- r_file_name file ;; r_source_and_filter filter_first fs name include exclude) with
  | Ok (content, (li, le)) => r_read c file_source mk cls chunk_size (Some li) (Some le) (file_open content)
  | Exn e => (Exn e, r_nothing)
  | Abort => (Abort, r_nothing)
  | Undef u => (Undef u, r_nothing)
  | Fuel => (Fuel, r_nothing)
  end.
