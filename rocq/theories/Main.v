(** Model of main of [apps/cppsas7bdat-ci.cpp] over a list of files. *)
From Verif Require Import Base Types Buffer Header Column Metadata Data Reader Drive Sinks Callbacks Cli.
Local Open Scope N_scope.

(** The files and the text given to std::cout (cppsas7bdat-ci.cpp:52-84).  Simplification: the text
    counts as
    written when it is given to the stream (the program never flushes it, and a process
    which terminates need not). *)
Record world : Type := World { w_files : fsys; w_out : bytes }.

(** USAGE, 20-25: the commands which read files; docopt itself is not modelled.  [None]
    when --nlines is not given. *)
Inductive command : Type :=
| CmdPrint (nlines : option Z)
| CmdCsv
| CmdNull.

(** src/datasource_ifstream.cpp:15-16, src/stream.cpp:15-21: a file which does not exist
    throws. *)
Definition opened_file (w : world) (name : bytes) : res fstate :=
  match fs_get (w_files w) name with
  | Some content => Ok (file_open content)
  | None => Exn E_not_a_valid_file
  end.

(** include/cppsas7bdat/sink/null.hpp:16-52 as a sink. *)
Definition null_sink : sink (list column) := fun ev cs =>
  match null_step cs ev with
  | Ok cs' => (Ok tt, cs')
  | Exn e => (Exn e, cs)
  | Abort => (Abort, cs)
  | Undef u => (Undef u, cs)
  | Fuel => (Fuel, cs)
  end.

(** 37-40: the loop of process_print with the print sink; see [print_loop]. *)
Fixpoint drive_print {S A} (c : cfg) (src : source S) (k : sink A) (fuel : nat) (n : Z)
    (r : rstate S) (a : A) : res unit * A :=
  match fuel with
  | O => (Fuel, a)
  | Datatypes.S fuel' =>
      if (n =? 0)%Z then (Ok tt, a)
      else
        let '(x, r1, a1, _) := drive_row c src k r a in
        match x with
        | Ok true => drive_print c src k fuel' (if (0 <? n)%Z then n - 1 else n)%Z r1 a1
        | _ => (rmap (fun _ => tt) x, a1)
        end
  end.

(** 35-41 process_print.  [props] is the text of the properties (print.hpp:26-62). *)
Definition run_print (c : cfg) (props : header -> metadata -> bytes) (n : Z) (name : bytes) (w : world)
  : res unit * world :=
  match opened_file w name with
  | Ok s =>
      let '(x, st, _) := drive_open c file_source (print_sink props) None s ([], w_out w) in
      match x with
      | Ok r =>
          let '(y, st') :=
            drive_print c file_source (print_sink props)
              (Datatypes.S (Datatypes.S (N.to_nat (md_row_count (rs_md r))))) n r st in
          (y, World (w_files w) (snd st'))
      | _ => (rmap (fun _ => tt) x, World (w_files w) (snd st))
      end
  | x => (rmap (fun _ => tt) x, w)
  end.

(** 52-59 process_csv: see [process_csv_open] and, for what follows the constructor,
    [csv_file_sink].  Simplification: a csv sink made from a file name is modelled as far
    as the constructor of the Reader, which always throws here (C105); were it to return,
    the value would be the one of the constructor. *)
Definition run_csv (c : cfg) (sink_first : bool) (name : bytes) (w : world) : res unit * world :=
  let '(fs, x) := process_csv_open c sink_first name (w_files w) in
  (rmap (fun _ => tt) x, World fs (w_out w)).

(** 61-65 process_null. *)
Definition run_null (c : cfg) (name : bytes) (w : world) : res unit * world :=
  match opened_file w name with
  | Ok s =>
      let '(x, st, _) := drive_open c file_source null_sink None s [] in
      match x with
      | Ok r => let '(y, _, _, _) := drive_all c file_source null_sink r st in (y, w)
      | _ => (rmap (fun _ => tt) x, w)
      end
  | x => (rmap (fun _ => tt) x, w)
  end.

(** 79-93: the loops over the files.  Nothing is caught: an exception leaves main, and the
    process terminates. *)
Fixpoint each_file (f : bytes -> world -> res unit * world) (files : list bytes) (w : world)
  : res unit * world :=
  match files with
  | [] => (Ok tt, w)
  | name :: rest =>
      let '(x, w') := f name w in
      match x with
      | Ok _ => each_file f rest w'
      | _ => (x, w')
      end
  end.

(** 67-96 main, after docopt.  --nlines is -1 when it is not given (78). *)
Definition run_main (c : cfg) (props : header -> metadata -> bytes) (sink_first : bool) (cmd : command)
    (files : list bytes) (w : world) : res unit * world :=
  let '(x, w') :=
    match cmd with
    | CmdPrint nlines =>
        each_file (run_print c props (match nlines with Some n => n | None => -1 end)%Z) files w
    | CmdCsv => each_file (run_csv c sink_first) files w
    | CmdNull => each_file (run_null c) files w
    end in
  (match x with Exn _ => Abort | _ => x end, w').
