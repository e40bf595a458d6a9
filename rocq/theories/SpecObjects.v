(** What the Readers of a C++ program do, by their histories alone: a Reader is what it was
    made of and the calls which have reached it, wherever it has been moved meanwhile. *)
From Verif Require Import Base Types Buffer Header Column Metadata Data Reader Drive Objects.
Local Open Scope N_scope.

(** What a Reader was made of. *)
Record birth (S A : Type) : Type := Birth { b_sink : A; b_filter : option (column -> bool); b_source : S }.
Arguments Birth {S A} _ _ _.
Arguments b_sink {S A} _.
Arguments b_filter {S A} _.
Arguments b_source {S A} _.

(** A Reader which is made and then called, nothing else happening: the Reader, its sink,
    and what the sink has been told.  There is none when the construction fails. *)
Definition play {S A} (c : cfg) (src : source S) (k : sink A) (x : rstate S * A * list event) (o : op)
  : rstate S * A * list event :=
  let '(r, a, ev) := x in
  let '(_, r', a', ev') := drive_step c src k o r a in (r', a', ev ++ ev').

Definition life {S A} (c : cfg) (src : source S) (k : sink A) (b : birth S A) (calls : list op)
  : option (rstate S * A * list event) :=
  match drive_open c src k (b_filter b) (b_source b) (b_sink b) with
  | (Ok r, a, ev) => Some (fold_left (play c src k) calls (r, a, ev))
  | _ => None
  end.

(** What the next call gives. *)
Definition answer {S A} (c : cfg) (src : source S) (k : sink A) (b : birth S A) (calls : list op) (o : op)
  : res out :=
  match life c src k b calls with
  | Some (r, a, _) => fst (fst (fst (drive_step c src k o r a)))
  | None => Undef UB_lifetime
  end.

(** What its sink has been told. *)
Definition heard {S A} (c : cfg) (src : source S) (k : sink A) (b : birth S A) (calls : list op) : list event :=
  match life c src k b calls with
  | Some (_, _, ev) => ev
  | None => snd (drive_open c src k (b_filter b) (b_source b) (b_sink b))
  end.

(** What a variable has: no object, an empty Reader, or the Reader made as number [n]. *)
Inductive place : Type := Nowhere | Empty | Holds (n : nat).

Record table (S A : Type) : Type := Table {
  t_var : nat -> place;
  t_declared : nat;
  t_lives : list (birth S A * list op);
  t_refs : list place
}.
Arguments Table {S A} _ _ _ _.
Arguments t_var {S A} _.
Arguments t_declared {S A} _.
Arguments t_lives {S A} _.
Arguments t_refs {S A} _.

Definition at_var (v : nat) (x : place) (f : nat -> place) : nat -> place :=
  fun u => if Nat.eqb u v then x else f u.

(** Another call of Reader [n]. *)
Fixpoint called {S A} (n : nat) (o : op) (l : list (birth S A * list op)) : list (birth S A * list op) :=
  match l, n with
  | [], _ => []
  | (b, calls) :: r, O => (b, calls ++ [o]) :: r
  | x :: r, Datatypes.S n' => x :: called n' o r
  end.

Definition holds (n : nat) (p : place) : bool := match p with Holds m => Nat.eqb m n | _ => false end.
Definition is_held {S A} (t : table S A) (n : nat) : bool :=
  existsb (fun v => holds n (t_var t v)) (seq 0 (t_declared t)).

(** What an empty Reader answers. *)
Definition empty_answer (o : op) : out :=
  match o with
  | OpReadRow | OpReadRows _ | OpSkip _ => OBool false
  | OpReadAll | OpEnd => OUnit
  | OpNoSink => OPtr None
  end.

Definition tell {S A} (c : cfg) (src : source S) (k : sink A) (st : stmt S A) (t : table S A)
  : res val * table S A :=
  let lost := (Undef UB_lifetime, t) in
  let vars f := Table f (t_declared t) (t_lives t) (t_refs t) in
  match st with
  | SNew (ByValue a) flt s =>
      let b := Birth a flt s in
      let lives := t_lives t ++ [(b, [])] in
      let next p := Table (at_var (t_declared t) p (t_var t)) (Datatypes.S (t_declared t)) lives (t_refs t) in
      match fst (fst (drive_open c src k flt s a)) with
      | Ok _ => (Ok VNone, next (Holds (length (t_lives t))))
      | x => (rmap (fun _ => VNone) x, next Nowhere)
      end
  | SDefault =>
      (Ok VNone, Table (at_var (t_declared t) Empty (t_var t)) (Datatypes.S (t_declared t)) (t_lives t) (t_refs t))
  | SMove v =>
      match t_var t v with
      | Nowhere => lost
      | p => (Ok VNone, Table (at_var (t_declared t) p (at_var v Empty (t_var t))) (Datatypes.S (t_declared t))
                          (t_lives t) (t_refs t))
      end
  | SAssign v u =>
      match t_var t v, t_var t u with
      | Nowhere, _ | _, Nowhere => lost
      | _, p => if Nat.eqb v u then (Ok VNone, t) else (Ok VNone, vars (at_var v p (at_var u Empty (t_var t))))
      end
  | SDestroy v =>
      match t_var t v with
      | Nowhere => lost
      | _ => (Ok VNone, vars (at_var v Nowhere (t_var t)))
      end
  | SCall v o =>
      match t_var t v with
      | Nowhere => lost
      | Empty => (Ok (VOut (empty_answer o)), t)
      | Holds n =>
          match nth_error (t_lives t) n with
          | Some (b, calls) =>
              (rmap VOut (answer c src k b calls o),
               Table (t_var t) (t_declared t) (called n o (t_lives t)) (t_refs t))
          | None => lost
          end
      end
  | SIndex v =>
      match t_var t v with
      | Nowhere => lost
      | Empty => (Ok (VIndex 0), t)
      | Holds n =>
          match nth_error (t_lives t) n with
          | Some (b, calls) =>
              match life c src k b calls with
              | Some (r, _, _) => (Ok (VIndex (ds_row (rs_d r))), t)
              | None => lost
              end
          | None => lost
          end
      end
  | SProps v =>
      match t_var t v with
      | Nowhere => lost
      | p => (Ok VNone, Table (t_var t) (t_declared t) (t_lives t) (t_refs t ++ [p]))
      end
  | SLook r =>
      match nth_error (t_refs t) r with
      | Some Empty => (Ok (VProps empty_header empty_metadata), t)
      | Some (Holds n) =>
          match nth_error (t_lives t) n, is_held t n with
          | Some (b, _), true =>
              match life c src k b [] with
              | Some (r0, _, _) => (Ok (VProps (rs_h r0) (rs_md r0)), t)
              | None => lost
              end
          | _, _ => lost
          end
      | _ => lost
      end
  | SNew (ByName _) _ _ | SSink _ | SSinkEnd _ => lost
  end.

Definition nothing_yet {S A} : table S A := Table (fun _ => Nowhere) 0 [] [].

Fixpoint tell_all {S A} (c : cfg) (src : source S) (k : sink A) (p : list (stmt S A)) (t : table S A)
  : list (res val) * table S A :=
  match p with
  | [] => ([], t)
  | st :: p' =>
      let '(x, t1) := tell c src k st t in
      match x with
      | Ok _ | Exn _ => let '(xs, t2) := tell_all c src k p' t1 in (x :: xs, t2)
      | _ => ([x], t1)
      end
  end.

(** Every Reader of the program owns its sink. *)
Definition owning {S A} (st : stmt S A) : Prop :=
  match st with SNew (ByName _) _ _ | SSink _ | SSinkEnd _ => False | _ => True end.

(** The calls which the sink of Reader [n] gets. *)
Definition mine (n : nat) (l : list (owner * event)) : list event :=
  map snd (filter (fun x => match fst x with InImpl m => Nat.eqb m n | Named _ => false end) l).

(** The same program with a named sink for every Reader, which is declared just before it
    and lives to the end; and what its statements give. *)
Fixpoint with_names {S A} (n : nat) (p : list (stmt S A)) : list (stmt S A) :=
  match p with
  | [] => []
  | SNew (ByValue a) flt s :: p' => SSink a :: SNew (ByName n) flt s :: with_names (Datatypes.S n) p'
  | st :: p' => st :: with_names n p'
  end.

Fixpoint named_outcomes {S A} (p : list (stmt S A)) (xs : list (res val)) : list (res val) :=
  match p, xs with
  | SNew _ _ _ :: p', x :: xs' => Ok VNone :: x :: named_outcomes p' xs'
  | _ :: p', x :: xs' => x :: named_outcomes p' xs'
  | _, _ => []
  end.

(** A Reader handed on before every call: [n] moves to new variables, then the call; [v] is
    the variable which has it. *)
Fixpoint relay {S A} (v : nat) (l : list (nat * op)) : list (stmt S A) :=
  match l with
  | [] => []
  | (n, o) :: r => map SMove (seq v n) ++ SCall (v + n) o :: relay (v + n) r
  end.

(** The calls which named sink [n] gets. *)
Definition told_to (n : nat) (l : list (owner * event)) : list event :=
  map snd (filter (fun x => match fst x with Named m => Nat.eqb m n | InImpl _ => false end) l).

(** What the calls gave, without the moves. *)
Definition of_calls (l : list (res val)) : list (res val) :=
  filter (fun x => match x with Ok VNone => false | _ => true end) l.
