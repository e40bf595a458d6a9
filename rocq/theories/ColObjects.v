(** The Column objects of a program: construction, copies, moves, destruction and the
    formatter they share ([include/cppsas7bdat/column.hpp]). *)
From Verif Require Import Base Types Column Sinks.
Local Open Scope N_scope.

(** include/cppsas7bdat/column.hpp:75-80, 41-72: the member [formatter] of FormatterModel<_Fp>.
    Of a temporary _Fp is the type of the formatter, which the model then contains (this is
    what src/metadata.hpp:445-446 does); of a named formatter _Fp is a reference type. *)
Inductive fm_arg : Type := FmValue (fm : formatter) | FmName (n : nat).

(** include/cppsas7bdat/column.hpp:92-95 and 109: a Column.  [co_pimpl]: the FormatterModel the
    std::shared_ptr owns. *)
Record cobj : Type := CObj {
  co_name : bytes;
  co_label : bytes;
  co_format : bytes;
  co_type : ctype;
  co_pimpl : option nat
}.

(** The objects.  [cw_models]: the FormatterModels in the order of their construction, each
    with the number of its owners (use_count of the shared_ptr; simplification: the counter
    does not overflow), [None] when destroyed.  [cw_vars]: the Column variables, [None] when
    destroyed.  [cw_named]: the named formatters.  column.hpp:26-62, 103-110. *)
Record cworld : Type := CWorld {
  cw_models : list (option (fm_arg * N));
  cw_vars : list (option cobj);
  cw_named : list (option formatter)
}.

Definition no_columns : cworld := CWorld [] [] [].

(** Statements.  The elements of a std::vector<Column> are variables like others.  Copies and
    moves are constructions: the members are const and there is no assignment
    (column.hpp:111-116).  [CRead]: any of the accessors of lines 97-106, as a function of the
    formatter. *)
Inductive cstmt (A : Type) : Type :=
| CFormatter (fm : formatter)          (* Formatter f(...); *)
| CFormatterEnd (n : nat)              (* the end of f *)
| CNew (name label fmt : bytes) (k : fm_arg)  (* Column v(name, label, format, formatter); *)
| CCopy (w : nat)                      (* Column v(w); *)
| CMove (w : nat)                      (* Column v(std::move(w)); *)
| CDestroy (v : nat)                   (* the end of v *)
| CRead (v : nat) (g : formatter -> A) (* v.get_string(p) ... v.length() *)
| CEqual (v w : nat)                   (* v == w *)
| CFacts (v : nat).                    (* v.name, v.label, v.format, v.type *)
Arguments CFormatter {A} _.
Arguments CFormatterEnd {A} _.
Arguments CNew {A} _ _ _ _.
Arguments CCopy {A} _.
Arguments CMove {A} _.
Arguments CDestroy {A} _.
Arguments CRead {A} _ _.
Arguments CEqual {A} _ _.
Arguments CFacts {A} _.

Inductive cval (A : Type) : Type :=
| CNothing | CValue (a : A) | CTruth (b : bool) | CTexts (name label fmt : bytes) (t : ctype).
Arguments CNothing {A}.
Arguments CValue {A} _.
Arguments CTruth {A} _.
Arguments CTexts {A} _ _ _ _.

(** column.hpp:41-62: the formatter a FormatterModel works with. *)
Definition fm_now (named : list (option formatter)) (k : fm_arg) : option formatter :=
  match k with FmValue fm => Some fm | FmName n => nth n named None end.

(** The copy constructor and the destructor of std::shared_ptr (the member pimpl,
    column.hpp:64-110). *)
Definition share (h : option nat) (l : list (option (fm_arg * N))) : list (option (fm_arg * N)) :=
  match h with
  | Some a => match nth a l None with
              | Some (k, n) => upd a (Some (k, n + 1)) l
              | None => l
              end
  | None => l
  end.
Definition release (h : option nat) (l : list (option (fm_arg * N))) : list (option (fm_arg * N)) :=
  match h with
  | Some a => match nth a l None with
              | Some (k, n) => upd a (if n =? 1 then None else Some (k, n - 1)) l
              | None => l
              end
  | None => l
  end.

(** include/cppsas7bdat/column.hpp:75-80 the constructor, 81-83 the copy, 84-86 the move (the
    texts are const and so are copied, the shared_ptr is moved and left null), the implicit
    destructor, 88-90 operator==, 92-95 the members, 97-106 the accessors, which follow the
    pointer without a test. *)
Definition cexec {A} (st : cstmt A) (w : cworld) : res (cval A) * cworld :=
  let lost := (Undef UB_lifetime, w) in
  match st with
  | CFormatter fm => (Ok CNothing, CWorld (cw_models w) (cw_vars w) (cw_named w ++ [Some fm]))
  | CFormatterEnd n =>
      match nth n (cw_named w) None with
      | Some _ => (Ok CNothing, CWorld (cw_models w) (cw_vars w) (upd n None (cw_named w)))
      | None => lost
      end
  | CNew name label fmt k =>
      match fm_now (cw_named w) k with
      | Some fm => (Ok CNothing,
                    CWorld (cw_models w ++ [Some (k, 1)])
                      (cw_vars w ++ [Some (CObj name label fmt (fkind_type (fm_kind fm))
                                             (Some (length (cw_models w))))])
                      (cw_named w))
      | None => lost
      end
  | CCopy v =>
      match nth v (cw_vars w) None with
      | Some o => (Ok CNothing, CWorld (share (co_pimpl o) (cw_models w)) (cw_vars w ++ [Some o]) (cw_named w))
      | None => lost
      end
  | CMove v =>
      match nth v (cw_vars w) None with
      | Some o => (Ok CNothing,
                   CWorld (cw_models w)
                     (upd v (Some (CObj (co_name o) (co_label o) (co_format o) (co_type o) None)) (cw_vars w)
                      ++ [Some o]) (cw_named w))
      | None => lost
      end
  | CDestroy v =>
      match nth v (cw_vars w) None with
      | Some o => (Ok CNothing, CWorld (release (co_pimpl o) (cw_models w)) (upd v None (cw_vars w)) (cw_named w))
      | None => lost
      end
  | CRead v g =>
      match nth v (cw_vars w) None with
      | Some o =>
          match co_pimpl o with
          | None => (Undef UB_oob_read, w)
          | Some a =>
              match nth a (cw_models w) None with
              | Some (k, _) => match fm_now (cw_named w) k with
                               | Some fm => (Ok (CValue (g fm)), w)
                               | None => lost
                               end
              | None => lost
              end
          end
      | None => lost
      end
  | CEqual v v2 =>
      match nth v (cw_vars w) None, nth v2 (cw_vars w) None with
      | Some o, Some o2 => (Ok (CTruth (bytes_eqb (co_name o) (co_name o2))), w)
      | _, _ => lost
      end
  | CFacts v =>
      match nth v (cw_vars w) None with
      | Some o => (Ok (CTexts (co_name o) (co_label o) (co_format o) (co_type o)), w)
      | None => lost
      end
  end.

(** A program, up to its first undefined behaviour (a client of column.hpp:64-110; no counterpart
    in /repo). *)
Fixpoint cexec_all {A} (p : list (cstmt A)) (w : cworld) : list (res (cval A)) * cworld :=
  match p with
  | [] => ([], w)
  | st :: p' =>
      let '(x, w1) := cexec st w in
      match x with
      | Ok _ | Exn _ => let '(xs, w2) := cexec_all p' w1 in (x :: xs, w2)
      | _ => ([x], w1)
      end
  end.
