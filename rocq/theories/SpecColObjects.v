(** Columns as plain values. *)
From Verif Require Import Base Types Column Sinks ColObjects.
Local Open Scope N_scope.

(** A column is its texts, its type and its formatter: nothing is shared.  [pc_fm] is [None]
    once the column was moved from. *)
Record pcol : Type := PCol {
  pc_name : bytes;
  pc_label : bytes;
  pc_format : bytes;
  pc_type : ctype;
  pc_fm : option fm_arg
}.

(** The columns alive, and the named formatters. *)
Definition pworld : Type := list (option pcol) * list (option formatter).

Definition pexec {A} (st : cstmt A) (w : pworld) : res (cval A) * pworld :=
  let '(vars, named) := w in
  let lost := (Undef UB_lifetime, w) in
  match st with
  | CFormatter fm => (Ok CNothing, (vars, named ++ [Some fm]))
  | CFormatterEnd n =>
      match nth n named None with Some _ => (Ok CNothing, (vars, upd n None named)) | None => lost end
  | CNew name label fmt k =>
      match fm_now named k with
      | Some fm => (Ok CNothing, (vars ++ [Some (PCol name label fmt (fkind_type (fm_kind fm)) (Some k))], named))
      | None => lost
      end
  | CCopy v => match nth v vars None with Some c => (Ok CNothing, (vars ++ [Some c], named)) | None => lost end
  | CMove v =>
      match nth v vars None with
      | Some c => (Ok CNothing, (upd v (Some (PCol (pc_name c) (pc_label c) (pc_format c) (pc_type c) None)) vars
                                 ++ [Some c], named))
      | None => lost
      end
  | CDestroy v => match nth v vars None with Some _ => (Ok CNothing, (upd v None vars, named)) | None => lost end
  | CRead v g =>
      match nth v vars None with
      | Some c => match pc_fm c with
                  | Some k => match fm_now named k with Some fm => (Ok (CValue (g fm)), w) | None => lost end
                  | None => (Undef UB_oob_read, w)
                  end
      | None => lost
      end
  | CEqual v v2 =>
      match nth v vars None, nth v2 vars None with
      | Some c, Some c2 => (Ok (CTruth (bytes_eqb (pc_name c) (pc_name c2))), w)
      | _, _ => lost
      end
  | CFacts v =>
      match nth v vars None with
      | Some c => (Ok (CTexts (pc_name c) (pc_label c) (pc_format c) (pc_type c)), w)
      | None => lost
      end
  end.

Fixpoint pexec_all {A} (p : list (cstmt A)) (w : pworld) : list (res (cval A)) * pworld :=
  match p with
  | [] => ([], w)
  | st :: p' =>
      let '(x, w1) := pexec st w in
      match x with
      | Ok _ | Exn _ => let '(xs, w2) := pexec_all p' w1 in (x :: xs, w2)
      | _ => ([x], w1)
      end
  end.

(** The columns which own the formatter [a]. *)
Definition owns (a : nat) (o : option cobj) : bool :=
  match o with
  | Some c => match co_pimpl c with Some b => Nat.eqb a b | None => false end
  | None => false
  end.
Definition owners (a : nat) (l : list (option cobj)) : N := lenN (filter (owns a) l).

(** The statement leaves the column [v] as it is. *)
Definition leaves {A} (v : nat) (st : cstmt A) : Prop :=
  match st with CMove w | CDestroy w => w <> v | _ => True end.

(** The statement ends no named formatter. *)
Definition keeps_formatters {A} (st : cstmt A) : Prop :=
  match st with CFormatterEnd _ => False | _ => True end.

(** src/metadata.hpp:427-450 create_columns, as statements: each column is a local variable;
    when the filter accepts it, it is moved into the vector; then the local variable ends.
    [n]: the number of the next variable. *)
Fixpoint creation {A} (accept : column -> bool) (n : nat) (cs : list column) : list (cstmt A) :=
  match cs with
  | [] => []
  | c :: cs' =>
      CNew (c_name c) (c_label c) (c_format c) (FmValue (c_fm c))
      :: (if accept c then [CMove n] else []) ++ CDestroy n
      :: creation accept (if accept c then 2 + n else 1 + n)%nat cs'
  end.

(** The columns of the vector, each with its formatter. *)
Definition readable (w : cworld) : list (option column) :=
  flat_map (fun v => match v with
                     | Some o => [match co_pimpl o with
                                  | Some a => match nth a (cw_models w) None with
                                              | Some (FmValue fm, _) =>
                                                  Some (Column (co_name o) (co_label o) (co_format o) fm)
                                              | _ => None
                                              end
                                  | None => None
                                  end]
                     | None => []
                     end) (cw_vars w).
