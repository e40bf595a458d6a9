(** The Reader objects of a C++ program: construction, moves, destruction, references to
    the properties, and sinks given as named objects
    ([include/cppsas7bdat/reader.hpp], [src/reader.cpp]). *)
From Verif Require Import Base Types Buffer Header Column Metadata Reader Drive Sinks.
Local Open Scope N_scope.

(** reader.hpp:98-101 build_sink: of a temporary or a moved object _Sink is the type of the
    sink, which the model of the sink then contains; of a named object _Sink is a
    reference type, and the model contains a reference to that object. *)
Inductive sink_arg (A : Type) : Type := ByValue (a : A) | ByName (n : nat).
Arguments ByValue {A} _.
Arguments ByName {A} _.

(** src/reader-impl.hpp:56-58, 101-102: an object of class Reader::impl.  Simplification: the
    sources are temporaries, so that the impl contains its source; the filter is used
    during the construction only (src/reader.cpp:26-39) and is not kept. *)
Record impl (S A : Type) : Type := Impl { im_r : rstate S; im_sink : sink_arg A }.
Arguments Impl {S A} _ _.
Arguments im_r {S A} _.
Arguments im_sink {S A} _.

(** A reference returned by properties(), src/reader.cpp:41-44: to the static object
    [empty], or to a member of an impl. *)
Inductive pref : Type := RefStatic | RefImpl (i : nat).

(** Whose call: of the sink in an impl, or of a named sink (reader.hpp:51-68). *)
Inductive owner : Type := InImpl (i : nat) | Named (n : nat).

(** The objects of the program.  [w_impls]: the impls in the order of their construction,
    [None] when destroyed or when the construction failed.  [w_readers]: the Reader
    variables in the order of their declaration; [None] when there is no object (any
    more), [Some None] when m_pimpl is null (reader.hpp:108-109).  [w_log]: the calls made to the
    sinks. *)
Record world (S A : Type) : Type := World {
  w_impls : list (option (impl S A));
  w_readers : list (option (option nat));
  w_sinks : list (option A);
  w_refs : list pref;
  w_log : list (owner * event)
}.
Arguments World {S A} _ _ _ _ _.
Arguments w_impls {S A} _.
Arguments w_readers {S A} _.
Arguments w_sinks {S A} _.
Arguments w_refs {S A} _.
Arguments w_log {S A} _.

Definition no_objects {S A} : world S A := World [] [] [] [] [].

(** Statements (reader.hpp:114-125, reader.cpp:12-72).  Variables are known by the number of
    their declaration. *)
Inductive stmt (S A : Type) : Type :=
| SNew (k : sink_arg A) (flt : option (column -> bool)) (s : S)  (* Reader v(source, sink, filter); *)
| SDefault                     (* Reader v; *)
| SMove (w : nat)              (* Reader v(std::move(w)); *)
| SAssign (v w : nat)          (* v = std::move(w); *)
| SDestroy (v : nat)           (* the end of v *)
| SCall (v : nat) (o : op)     (* v.read_row() ... *)
| SIndex (v : nat)             (* v.current_row_index() *)
| SProps (v : nat)             (* const Properties &r = v.properties(); *)
| SLook (r : nat)              (* the value of r *)
| SSink (a : A)                (* Sink n; *)
| SSinkEnd (n : nat).          (* the end of n *)
Arguments SNew {S A} _ _ _.
Arguments SDefault {S A}.
Arguments SMove {S A} _.
Arguments SAssign {S A} _ _.
Arguments SDestroy {S A} _.
Arguments SCall {S A} _ _.
Arguments SIndex {S A} _.
Arguments SProps {S A} _.
Arguments SLook {S A} _.
Arguments SSink {S A} _.
Arguments SSinkEnd {S A} _.

Inductive val : Type := VNone | VOut (x : out) | VIndex (n : N) | VProps (h : header) (md : metadata).

(** A call of a sink which does not exist any more, through the reference of reader.hpp:67. *)
Definition living {A} (k : sink A) : sink (option A) := fun ev a =>
  match a with
  | Some a0 => let '(y, a') := k ev a0 in (y, Some a')
  | None => (Undef UB_lifetime, None)
  end.

(** The sink object an impl works with, and its new state (reader.hpp:51-68, 99-102). *)
Definition sink_now {S A} (w : world S A) (k : sink_arg A) : option A :=
  match k with ByValue a => Some a | ByName n => nth n (w_sinks w) None end.
Definition sink_kept {A} (k : sink_arg A) (a : option A) : sink_arg A :=
  match k, a with ByValue _, Some a' => ByValue a' | _, _ => k end.
Definition sinks_after {A} (k : sink_arg A) (a : option A) (l : list (option A)) : list (option A) :=
  match k with ByValue _ => l | ByName n => upd n a l end.
Definition owner_of {A} (i : nat) (k : sink_arg A) : owner :=
  match k with ByValue _ => InImpl i | ByName n => Named n end.

(** ~unique_ptr of m_pimpl, reader.hpp:90, 109, reader.cpp:14-16. *)
Definition drop_impl {S A} (h : option nat) (l : list (option (impl S A))) : list (option (impl S A)) :=
  match h with Some i => upd i None l | None => l end.

(** reader.hpp:116-120 and src/reader.cpp:22-39 the constructor; 12-16 the default
    constructor, the moves of m_pimpl and the destructor; 41-72 the functions.  Moving a
    Reader to itself leaves it as it is (unique_ptr: reset(release())). *)
Definition exec {S A} (c : cfg) (src : source S) (k : sink A) (st : stmt S A) (w : world S A)
  : res val * world S A :=
  let lost := (Undef UB_lifetime, w) in
  match st with
  | SNew arg flt s =>
      let i := length (w_impls w) in
      let '(x, a, ev) := drive_open c src (living k) flt s (sink_now w arg) in
      let sinks := sinks_after arg a (w_sinks w) in
      let log := w_log w ++ map (pair (owner_of i arg)) ev in
      match x with
      | Ok r => (Ok VNone, World (w_impls w ++ [Some (Impl r (sink_kept arg a))])
                             (w_readers w ++ [Some (Some i)]) sinks (w_refs w) log)
      | _ => (rmap (fun _ => VNone) x, World (w_impls w ++ [None]) (w_readers w ++ [None]) sinks (w_refs w) log)
      end
  | SDefault => (Ok VNone, World (w_impls w) (w_readers w ++ [Some None]) (w_sinks w) (w_refs w) (w_log w))
  | SMove v =>
      match nth v (w_readers w) None with
      | Some h => (Ok VNone, World (w_impls w) (upd v (Some None) (w_readers w) ++ [Some h]) (w_sinks w)
                               (w_refs w) (w_log w))
      | None => lost
      end
  | SAssign v v2 =>
      match nth v (w_readers w) None, nth v2 (w_readers w) None with
      | Some h, Some h2 =>
          if Nat.eqb v v2 then (Ok VNone, w)
          else (Ok VNone, World (drop_impl h (w_impls w)) (upd v (Some h2) (upd v2 (Some None) (w_readers w)))
                            (w_sinks w) (w_refs w) (w_log w))
      | _, _ => lost
      end
  | SDestroy v =>
      match nth v (w_readers w) None with
      | Some h => (Ok VNone, World (drop_impl h (w_impls w)) (upd v None (w_readers w)) (w_sinks w)
                               (w_refs w) (w_log w))
      | None => lost
      end
  | SCall v o =>
      match nth v (w_readers w) None with
      | Some (Some i) =>
          match nth i (w_impls w) None with
          | Some m =>
              let '(x, r', a, ev) := drive_step c src (living k) o (im_r m) (sink_now w (im_sink m)) in
              (rmap VOut x,
               World (upd i (Some (Impl r' (sink_kept (im_sink m) a))) (w_impls w)) (w_readers w)
                 (sinks_after (im_sink m) a (w_sinks w)) (w_refs w)
                 (w_log w ++ map (pair (owner_of i (im_sink m))) ev))
          | None => lost
          end
      | Some None => (rmap VOut (fst (fst (reader_step c src o None))), w)
      | None => lost
      end
  | SIndex v =>
      match nth v (w_readers w) None with
      | Some (Some i) =>
          match nth i (w_impls w) None with
          | Some m => (Ok (VIndex (current_row_index (Some (im_r m)))), w)
          | None => lost
          end
      | Some None => (Ok (VIndex (current_row_index (@None (rstate S)))), w)
      | None => lost
      end
  | SProps v =>
      match nth v (w_readers w) None with
      | Some h => (Ok VNone, World (w_impls w) (w_readers w) (w_sinks w)
                               (w_refs w ++ [match h with Some i => RefImpl i | None => RefStatic end]) (w_log w))
      | None => lost
      end
  | SLook r =>
      match nth_error (w_refs w) r with
      | Some RefStatic => let '(h, md) := properties (@None (rstate S)) in (Ok (VProps h md), w)
      | Some (RefImpl i) =>
          match nth i (w_impls w) None with
          | Some m => let '(h, md) := properties (Some (im_r m)) in (Ok (VProps h md), w)
          | None => lost
          end
      | None => lost
      end
  | SSink a => (Ok VNone, World (w_impls w) (w_readers w) (w_sinks w ++ [Some a]) (w_refs w) (w_log w))
  | SSinkEnd n =>
      match nth n (w_sinks w) None with
      | Some _ => (Ok VNone, World (w_impls w) (w_readers w) (upd n None (w_sinks w)) (w_refs w) (w_log w))
      | None => lost
      end
  end.

(** A program: exceptions are caught, nothing follows the other failures (no counterpart in
    /repo). *)
Fixpoint exec_all {S A} (c : cfg) (src : source S) (k : sink A) (p : list (stmt S A)) (w : world S A)
  : list (res val) * world S A :=
  match p with
  | [] => ([], w)
  | st :: p' =>
      let '(x, w1) := exec c src k st w in
      match x with
      | Ok _ | Exn _ => let '(xs, w2) := exec_all c src k p' w1 in (x :: xs, w2)
      | _ => ([x], w1)
      end
  end.
