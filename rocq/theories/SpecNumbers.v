(** What the numbers given to a Reader mean. *)
From Coq Require Import QArith.
From Verif Require Import Base Types Buffer Column Metadata Data Reader Drive Sinks Callbacks Python PyArgs RPackage
  Numbers SpecTime SpecNumber.
Local Open Scope N_scope.

(** What a call asks for: an operation, the index, or nothing but an exception; or it is
    undefined. *)
Inductive meaning : Type := MeansOp (o : op) | MeansIndex | MeansError (e : exn) | MeansUndefined.

(** Python: the ints of 64 bits without sign. *)
Inductive size_means : pysize -> (N -> op) -> meaning -> Prop :=
| size_fits : forall n f, n < W64 -> size_means (SizeInt (Z.of_N n)) f (MeansOp (f n))
| size_negative : forall z f, (z < 0)%Z -> size_means (SizeInt z) f (MeansError E_overflow_error)
| size_big : forall n f, W64 <= n -> size_means (SizeInt (Z.of_N n)) f (MeansError E_overflow_error)
| size_other : forall f, size_means SizeOther f (MeansError E_type_error).

Inductive py_means : py_call -> meaning -> Prop :=
| py_means_row : py_means PcRow (MeansOp OpReadRow)
| py_means_rows : forall a m, size_means a OpReadRows m -> py_means (PcRows a) m
| py_means_all : py_means PcAll (MeansOp OpReadAll)
| py_means_skip : forall a m, size_means a OpSkip m -> py_means (PcSkip a) m
| py_means_end : py_means PcEnd (MeansOp OpEnd)
| py_means_index : py_means PcIndex MeansIndex.

(** R: a vector of one number; [None] when it has no value (NA, NaN, infinite). *)
Inductive r_single : rnum -> option Q -> Prop :=
| single_double : forall b q, double_value b q -> r_single (RDoubles [b]) (Some q)
| single_nan : forall b, double_nan b \/ double_infinity b -> r_single (RDoubles [b]) None
| single_int : forall z, (Z.abs z < 2 ^ 31)%Z -> r_single (RInts [Some z]) (Some (inject_Z z))
| single_na : r_single (RInts [None]) None
| single_logical : forall b : bool, r_single (RLogicals [Some b]) (Some (if b then 1 else 0)%Q)
| single_logical_na : r_single (RLogicals [None]) None
| single_raw : forall b, r_single (RRaws [b]) (Some (inject_Z (Z.of_N (b2n b)))).

(** A vector of the types of R: the doubles have 64 bits, the integers 32. *)
Definition r_value (x : rnum) : Prop :=
  match x with
  | RDoubles l => Forall (fun b => b < 2 ^ 64) l
  | RInts l => Forall (fun v => match v with Some z => (Z.abs z < 2 ^ 31)%Z | None => True end) l
  | _ => True
  end.

(** The number without its fraction. *)
Definition whole_part (q : Q) (n : N) : Prop :=
  (q < 2 ^ 64 /\ (inject_Z (Z.of_N n) <= q < inject_Z (Z.of_N n) + 1 \/ (-(1) < q < 0 /\ n = 0%N)))%Q.

Inductive num_means : rnum -> (N -> op) -> meaning -> Prop :=
| num_fits : forall x q n f, r_single x (Some q) -> whole_part q n -> num_means x f (MeansOp (f n))
| num_unfit : forall x q f, r_single x (Some q) -> (q <= -(1) \/ 2 ^ 64 <= q)%Q -> num_means x f MeansUndefined
| num_missing : forall x f, r_single x None -> num_means x f MeansUndefined
| num_length : forall x f, r_length x <> 1 -> num_means x f (MeansError E_r_single)
| num_type : forall f, num_means (ROther 1) f (MeansError E_r_compatible).

Inductive r_means : r_call -> meaning -> Prop :=
| r_means_row : r_means RcRow (MeansOp OpReadRow)
| r_means_rows : forall a m, num_means a OpReadRows m -> r_means (RcRows a) m
| r_means_all : r_means RcAll (MeansOp OpReadAll)
| r_means_skip : forall a m, num_means a OpSkip m -> r_means (RcSkip a) m
| r_means_end : r_means RcEnd (MeansOp OpEnd)
| r_means_index : r_means RcIndex MeansIndex.

(** The operations among the meanings, up to an undefined call. *)
Fixpoint asked_ops (l : list meaning) : list op :=
  match l with
  | [] => []
  | MeansOp o :: r => o :: asked_ops r
  | MeansUndefined :: _ => []
  | _ :: r => asked_ops r
  end.

(** The calls do what they mean: an operation acts on the program, an exception changes
    nothing, undefined behaviour ends everything.  [act] is an operation, [index] the index. *)
Fixpoint follow {P A} (act : op -> P -> res A * P) (index : P -> A) (l : list meaning) (p : P)
  : list (res A) * P :=
  match l with
  | [] => ([], p)
  | MeansOp o :: r =>
      let '(x, p1) := act o p in
      match x with
      | Ok _ | Exn _ => let '(xs, p2) := follow act index r p1 in (x :: xs, p2)
      | _ => ([x], p1)
      end
  | MeansIndex :: r => let '(xs, p2) := follow act index r p in (Ok (index p) :: xs, p2)
  | MeansError e :: r => let '(xs, p2) := follow act index r p in (Exn e :: xs, p2)
  | MeansUndefined :: _ => ([Undef UB_overflow], p)
  end.

(** The operations of the programs, and the index. *)
Definition py_act {S} (c : cfg) (src : source S) (cls : py_class) (o : op) (p : program S) :=
  let '(x, p') := py_do c src cls o p in (rmap py_result x, p').
Definition py_at {S} (p : program S) : py_answer := PaInt (current_row_index (pg_reader p)).
Definition r_act {S} (c : cfg) (src : source S) mk (cls : r_class) (o : op) (p : r_program S) :=
  let '(x, p') := r_do c src mk cls o p in (rmap r_result x, p').
Definition r_at {S} (p : r_program S) : r_answer :=
  RaNum (double_of (Z.of_N (current_row_index (rp_reader p)))).

(** The numbers of the calls are of the types of R. *)
Definition r_call_value (q : r_call) : Prop :=
  match q with RcRows a | RcSkip a => r_value a | _ => True end.
