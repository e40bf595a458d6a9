(** One sink object which several Readers are given. *)
From Verif Require Import Base Types Buffer Page Column Header Metadata Decomp Data Reader Drive Sinks Callbacks.
Local Open Scope N_scope.

(** The csv sink, include/cppsas7bdat/sink/csv.hpp:21-83, as the Reader uses it: its columns and the text
    of its stream.  Simplification: as in [csv_row], of a line which cannot be made nothing is written. *)
Definition csv_sink (f : csv_fmt) : sink (list column * bytes) := fun ev st =>
  match csv_step f st ev with
  | Ok st' => (Ok tt, st')
  | Exn e => (Exn e, st)
  | Abort => (Abort, st)
  | Undef u => (Undef u, st)
  | Fuel => (Fuel, st)
  end.

(** What a program does with its Readers, which are numbered in the order in which they are made: it
    makes one, or calls a function of one (include/cppsas7bdat/reader.hpp:113-139). *)
Inductive call (S : Type) : Type :=
| COpen (flt : option (column -> bool)) (s : S)
| COp (n : nat) (o : op).
Arguments COpen {S} flt s.
Arguments COp {S} n o.

Inductive answer : Type := AMade (x : res unit) | ADone (x : res out).

(** Nothing follows when the process ends. *)
Definition ends_process {X} (x : res X) : bool := match x with Ok _ | Exn _ => false | _ => true end.
Definition is_last (a : answer) : bool := match a with AMade x => ends_process x | ADone x => ends_process x end.

(** The Readers are given one sink by name, include/cppsas7bdat/reader.hpp:51-69, 103-106: each of them
    has a reference to it.  A Reader whose constructor throws does not exist, and is not called. *)
Fixpoint shared_run {S A} (c : cfg) (src : source S) (k : sink A) (calls : list (call S))
    (rs : list (option (rstate S))) (a : A) : list answer * list (option (rstate S)) * A :=
  match calls with
  | [] => ([], rs, a)
  | COpen flt s :: l =>
      let '(x, a1, _) := drive_open c src k flt s a in
      let rs1 := rs ++ [match x with Ok r => Some r | _ => None end] in
      let y := AMade (rmap (fun _ => tt) x) in
      if ends_process x then ([y], rs1, a1)
      else let '(t, rs2, a2) := shared_run c src k l rs1 a1 in (y :: t, rs2, a2)
  | COp n o :: l =>
      match nth_error rs n with
      | Some (Some r) =>
          let '(x, r1, a1, _) := drive_step c src k o r a in
          let rs1 := upd n (Some r1) rs in
          if ends_process x then ([ADone x], rs1, a1)
          else let '(t, rs2, a2) := shared_run c src k l rs1 a1 in (ADone x :: t, rs2, a2)
      | _ => shared_run c src k l rs a
      end
  end.

(** The same program where each Reader has a sink object of its own, and the objects write to the same
    std::ostream (csv.hpp:22-24, include/cppsas7bdat/sink/print.hpp:18-20). *)
Fixpoint own_run {S} (c : cfg) (src : source S) (k : sink (list column * bytes)) (calls : list (call S))
    (rs : list (option (rstate S * list column))) (out : bytes)
  : list answer * list (option (rstate S * list column)) * bytes :=
  match calls with
  | [] => ([], rs, out)
  | COpen flt s :: l =>
      let '(x, (cs, out1), _) := drive_open c src k flt s ([], out) in
      let rs1 := rs ++ [match x with Ok r => Some (r, cs) | _ => None end] in
      let y := AMade (rmap (fun _ => tt) x) in
      if ends_process x then ([y], rs1, out1)
      else let '(t, rs2, out2) := own_run c src k l rs1 out1 in (y :: t, rs2, out2)
  | COp n o :: l =>
      match nth_error rs n with
      | Some (Some (r, cs)) =>
          let '(x, r1, (cs1, out1), _) := drive_step c src k o r (cs, out) in
          let rs1 := upd n (Some (r1, cs1)) rs in
          if ends_process x then ([ADone x], rs1, out1)
          else let '(t, rs2, out2) := own_run c src k l rs1 out1 in (ADone x :: t, rs2, out2)
      | _ => own_run c src k l rs out
      end
  end.
