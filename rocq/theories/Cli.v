(** Model of [apps/cppsas7bdat-ci.cpp]. *)
From Verif Require Import Base Types Buffer Header Column Metadata Data Reader Sinks.
Local Open Scope N_scope.

(** A file system: the content of each file by name (no counterpart in /repo). *)
Definition fsys : Type := list (bytes * bytes).

Fixpoint fs_get (fs : fsys) (name : bytes) : option bytes :=
  match fs with
  | [] => None
  | (n, c) :: r => if bytes_eqb n name then Some c else fs_get r name
  end.

Fixpoint fs_put (fs : fsys) (name content : bytes) : fsys :=
  match fs with
  | [] => [(name, content)]
  | (n, c) :: r => if bytes_eqb n name then (n, content) :: r
                   else (n, c) :: fs_put r name content
  end.

(** 43-50 get_csv_filename: std::string::rfind('.') then substr(0, ipos+1). *)
Fixpoint rfind_dot (s : bytes) : option nat :=
  match s with
  | [] => None
  | b :: r =>
      match rfind_dot r with
      | Some n => Some (Datatypes.S n)
      | None => if beq b x2e then Some O else None
      end
  end.

Definition get_csv_filename (name : bytes) : bytes :=
  match rfind_dot name with
  | Some i => firstn (Datatypes.S i) name ++ bs "csv"
  | None => name ++ bs "csv"
  end.

(** The directory entry of a file that is opened for writing (the std::ofstream of
    include/cppsas7bdat/sink/csv.hpp:88): created or truncated. *)
Definition fs_truncate (fs : fsys) (name : bytes) : fsys := fs_put fs name [].

(** 52-59 process_csv.  The two arguments of the Reader constructor are built
    before the constructor runs, in an unspecified order ([sink_first]):
    ifstream(_filename), which opens the file and throws not_a_valid_file when
    that fails (src/datasource_ifstream.cpp:15-16, src/stream.cpp:15-21), and
    csv(_filename), which opens the same file for writing and so truncates it
    (include/cppsas7bdat/sink/csv.hpp:85-93).  The bytes are read later, by the
    constructor, from the file as it is then.  csv_filename (line 54) is computed
    and not used.  Simplification: the file can be created and written.  The
    value is the file system when the constructor has run, and its outcome. *)
Definition process_csv_open (c : cfg) (sink_first : bool) (name : bytes)
    (fs : fsys) : fsys * res (rstate fstate * list event) :=
  let _csv_filename := get_csv_filename name in
  match fs_get fs name, sink_first with
  | None, false => (fs, Exn E_not_a_valid_file)
  | _, _ =>
      let fs' := fs_truncate fs name in
      (fs', match fs_get fs' name with
            | Some content => open_reader c file_source None (file_open content)
            | None => Exn E_not_a_valid_file
            end)
  end.

(** 35-41 process_print: the loop on read_row; [n] is the long given with
    --nlines (or -1).  [fuel] bounds the number of iterations. *)
Fixpoint print_loop {S} (c : cfg) (src : source S) (fuel : nat) (n : Z)
    (r : rstate S) : res unit * rstate S * list event :=
  match fuel with
  | O => (Fuel, r, [])
  | Datatypes.S fuel' =>
      if (n =? 0)%Z then (Ok tt, r, [])
      else
        let '(x, r1, ev) := read_row c src r in
        match x with
        | Ok true =>
            let '(y, r2, ev') :=
              print_loop c src fuel' (if (0 <? n)%Z then n - 1 else n)%Z r1 in
            (y, r2, ev ++ ev')
        | Ok false => (Ok tt, r1, ev)
        | Exn e => (Exn e, r1, ev)
        | Abort => (Abort, r1, ev)
        | Undef u => (Undef u, r1, ev)
        | Fuel => (Fuel, r1, ev)
        end
  end.

Definition process_print {S} (c : cfg) (src : source S) (n : Z) (s : S)
  : res unit * list event :=
  match open_reader c src None s with
  | Ok (r, ev) =>
      let '(x, _, ev') :=
        print_loop c src
          (Datatypes.S (Datatypes.S (N.to_nat (md_row_count (rs_md r))))) n r in
      (x, ev ++ ev')
  | Exn e => (Exn e, [])
  | Abort => (Abort, [])
  | Undef u => (Undef u, [])
  | Fuel => (Fuel, [])
  end.
