(** The arguments of Reader and read_sas of the Python package
    ([python/pycppsas7bdat/cpp/reader.cpp:21-85], [python/pycppsas7bdat/read_sas.py:9-13]). *)
From Verif Require Import Base Types Buffer Header Column Metadata Reader Drive Sinks Callbacks
  PyObjects Python Cli.
Local Open Scope N_scope.

(** The exceptions (reader.cpp:31-43, 61, 79-84): std::runtime_error becomes RuntimeError. *)
Definition E_include_list : exn := E_client 20.     (* "include argument is not a list" *)
Definition E_include_element : exn := E_client 21.  (* "Element of include argument is not a string" *)
Definition E_exclude_list : exn := E_client 22.
Definition E_exclude_element : exn := E_client 23.
Definition E_type_error : exn := E_client 24.       (* TypeError, Boost.Python.ArgumentError *)
Definition E_overflow_error : exn := E_client 25.   (* OverflowError *)
Definition E_encode_error : exn := E_client 26.     (* UnicodeEncodeError *)

(** A Python object where a text is expected (reader.cpp:39, 79): a str with its code points, a
    bytes object, or
    something else. *)
Inductive pyitem : Type := ItemStr (chars : list N) | ItemBytes (b : bytes) | ItemOther.

(** include and exclude, reader.cpp:29-39. *)
Inductive pyarg : Type := ArgNone | ArgList (items : list pyitem) | ArgOther.

(** The attribute chunk_size, reader.cpp:61: an int, or something else. *)
Inductive pysize : Type := SizeInt (z : Z) | SizeOther.

(** PyUnicode_AsUTF8String: the strict encoder of CPython; a surrogate raises.  The code
    points of a str are below 110000 (hexadecimal). *)
Fixpoint py_encode (chars : list N) : res bytes :=
  match chars with
  | [] => Ok []
  | u :: r =>
      let tail k := n2b (N.lor 0x80 (N.land (N.shiftr u k) 0x3F)) in
      x <- (if u <? 0x80 then Ok [n2b u]
            else if u <? 0x800 then Ok [n2b (N.lor 0xC0 (N.shiftr u 6)); tail 0]
            else if (0xD800 <=? u) && (u <? 0xE000) then Exn E_encode_error
            else if u <? 0x10000 then Ok [n2b (N.lor 0xE0 (N.shiftr u 12)); tail 6; tail 0]
            else if u <? 0x110000 then Ok [n2b (N.lor 0xF0 (N.shiftr u 18)); tail 12; tail 6; tail 0]
            else Exn E_encode_error) ;;
      y <- py_encode r ;; Ok (x ++ y)
  end.

(** boost::python::extract<std::string>, reader.cpp:39: a str is encoded, a bytes object taken as it is
    (Boost.Python, builtin_converters.cpp). *)
Definition extract_string (i : pyitem) : res bytes :=
  match i with
  | ItemStr chars => py_encode chars
  | ItemBytes b => Ok b
  | ItemOther => Exn E_type_error
  end.

(** reader.cpp:34-43: the loop; every exception of an element is replaced.  A std::set as the
    list of what was inserted.  Simplification: the list has less than 2^31 elements. *)
Fixpoint insert_items (fault : exn) (items : list pyitem) (set : list bytes) : res (list bytes) :=
  match items with
  | [] => Ok set
  | i :: r =>
      match extract_string i with
      | Ok n => insert_items fault r (set ++ [n])
      | _ => Exn fault
      end
  end.

(** reader.cpp:27-44 list_to_set. *)
Definition list_to_set (not_a_list not_a_string : exn) (arg : pyarg) : res (list bytes) :=
  match arg with
  | ArgNone => Ok []
  | ArgList items => insert_items not_a_string items []
  | ArgOther => Exn not_a_list
  end.

(** reader.cpp:46-49: the two sets of the filter. *)
Definition py_filter_args (include exclude : pyarg) : res (list bytes * list bytes) :=
  li <- list_to_set E_include_list E_include_element include ;;
  le <- list_to_set E_exclude_list E_exclude_element exclude ;;
  Ok (li, le).

(** reader.cpp:60 extract<size_t>: only of an int; PyLong_AsUnsignedLong. *)
Definition extract_size (a : pysize) : res N :=
  match a with
  | SizeInt z => if ((0 <=? z) && (z <? 2 ^ 64))%Z then Ok (Z.to_N z) else Exn E_overflow_error
  | SizeOther => Exn E_type_error
  end.

(** std::string::c_str() given to open(), reader.cpp:83: up to the first NUL. *)
Fixpoint c_string (s : bytes) : bytes :=
  match s with
  | [] => []
  | b :: r => if Byte.eqb b x00 then [] else b :: c_string r
  end.

(** src/datasource_ifstream.cpp:15-16, src/stream.cpp:15-21: a file which cannot be opened. *)
Definition open_file (fs : fsys) (name : bytes) : res bytes :=
  match fs_get fs (c_string name) with Some content => Ok content | None => Exn E_not_a_valid_file end.

(** The source and the filter are arguments of one constructor (reader.cpp:62-64, 67-68, 71-72):
    which is made first is not
    specified ([filter_first]). *)
Definition source_and_filter (filter_first : bool) (fs : fsys) (name : bytes) (include exclude : pyarg)
  : res (bytes * (list bytes * list bytes)) :=
  if filter_first
  then f <- py_filter_args include exclude ;; content <- open_file fs name ;; Ok (content, f)
  else content <- open_file fs name ;; f <- py_filter_args include exclude ;; Ok (content, f).

(** The program when the constructor of Reader has not begun to read (reader.cpp:53-62). *)
Definition py_nothing : program fstate := Program None (PySt false false (pychunk_new 0) py_new).

(** read_sas(filename, sink, include, exclude) with a sink object of a class of the package
    (read_sas.py:9-13, reader.cpp:52-85); [size] is the attribute of SinkByChunk. *)
Definition py_read (c : cfg) (filter_first : bool) (fs : fsys) (cls : py_class) (size : pysize)
    (file : pyitem) (include exclude : pyarg) : res unit * program fstate :=
  match (name <- extract_string file ;;
         n <- match cls with SinkByChunk => extract_size size | _ => Ok 0 end ;;
         x <- source_and_filter filter_first fs name include exclude ;;
         Ok (n, x)) with
  | Ok (n, (content, (li, le))) =>
      read_sas c file_source cls n (Some li) (Some le) (file_open content)
  | Exn e => (Exn e, py_nothing)
  | Abort => (Abort, py_nothing)
  | Undef u => (Undef u, py_nothing)
  | Fuel => (Fuel, py_nothing)
  end.
