(** The methods of the Readers of the Python and the R package with the numbers they are given
    ([python/pycppsas7bdat/cpp/reader.cpp:92-104], [R/CPPSAS7BDAT/src/reader.cpp:33, 59-80],
    [src/Rcppsas7bdat.cpp:16-25]). *)
From Coq Require Import Floats.SpecFloat.
From Verif Require Import Base Types Float Buffer Header Column Metadata Data Reader Drive Sinks Callbacks
  PyObjects Python Cli PyArgs RPackage RArgs.
Local Open Scope N_scope.

(** ** Python *)

(** reader.cpp:97-104: the methods, with the object given to those which take a size_t. *)
Inductive py_call : Type :=
| PcRow | PcRows (n : pysize) | PcAll | PcSkip (n : pysize) | PcEnd | PcIndex.

(** What a method returns: a bool, None, an int (reader.cpp:97-104). *)
Inductive py_answer : Type := PaBool (b : bool) | PaNone | PaInt (n : N).

(** The conversion of what the operation returns.  The operation read_row_no_sink is not a
    method (reader.cpp:92-104). *)
Definition py_result (x : out) : py_answer :=
  match x with OBool b => PaBool b | OUnit => PaNone | OPtr _ => PaNone end.

(** Boost.Python converts the argument before the method is called; size_t is converted as in
    the extract of reader.cpp:60. *)
Definition py_method {S} (c : cfg) (src : source S) (cls : py_class) (q : py_call) (p : program S)
  : res py_answer * program S :=
  let do o := let '(x, p') := py_do c src cls o p in (rmap py_result x, p') in
  let sized a mk :=
    match extract_size a with
    | Ok n => do (mk n)
    | Exn e => (Exn e, p)
    | Abort => (Abort, p)
    | Undef u => (Undef u, p)
    | Fuel => (Fuel, p)
    end in
  match pg_reader p with
  | None => (Exn E_name_error, p)
  | Some r =>
      match q with
      | PcRow => do OpReadRow
      | PcRows a => sized a OpReadRows
      | PcAll => do OpReadAll
      | PcSkip a => sized a OpSkip
      | PcEnd => do OpEnd
      | PcIndex => (Ok (PaInt (ds_row (rs_d r))), p)
      end
  end.

(** A program goes on after an exception, and after nothing else (no counterpart in /repo). *)
Fixpoint py_methods {S} (c : cfg) (src : source S) (cls : py_class) (l : list py_call) (p : program S)
  : list (res py_answer) * program S :=
  match l with
  | [] => ([], p)
  | q :: l' =>
      let '(x, p1) := py_method c src cls q p in
      match x with
      | Ok _ | Exn _ => let '(xs, p2) := py_methods c src cls l' p1 in (x :: xs, p2)
      | _ => ([x], p1)
      end
  end.

(** ** R *)

(** What Rcpp throws for an argument of reader.cpp:33, 67, 75. *)

Definition E_r_single : exn := E_client 33.      (* "Expecting a single value: [extent=...]." *)
Definition E_r_compatible : exn := E_client 34.  (* "Not compatible with requested type" *)

(** An R value where a number is expected: a vector of doubles (their 64 bits), of integers
    (32 bits; [None] is NA), of logicals, of bytes, or something else of this length.
    Simplification: complex vectors are left out. *)
Inductive rnum : Type :=
| RDoubles (l : list N)
| RInts (l : list (option Z))
| RLogicals (l : list (option bool))
| RRaws (l : list byte)
| ROther (size : N).

(** NA_real_: a NaN with the payload 1954. *)
Definition na_real : N := 2047 * 2 ^ 52 + 1954.

Definition double_of (z : Z) : N := bits_of_sf (sf_of_Z z).

(** Rcpp::internal::basic_cast<REALSXP> (for reader.cpp:33, 67, 75): Rf_coerceVector for the
    vectors which have numbers. *)
Definition r_doubles (x : rnum) : res (list N) :=
  match x with
  | RDoubles l => Ok l
  | RInts l => Ok (map (fun v : option Z => match v with Some z => double_of z | None => na_real end) l)
  | RLogicals l =>
      Ok (map (fun v : option bool => match v with Some b => double_of (if b then 1 else 0)%Z | None => na_real end) l)
  | RRaws l => Ok (map (fun b : byte => double_of (Z.of_N (b2n b))) l)
  | ROther _ => Exn E_r_compatible
  end.

Definition r_length (x : rnum) : N :=
  match x with
  | RDoubles l => lenN l
  | RInts l => lenN l
  | RLogicals l => lenN l
  | RRaws l => lenN l
  | ROther n => n
  end.

(** static_cast<size_t>(double): towards zero; undefined when the result does not fit (C++17
    [conv.fpint]), for which UB_overflow stands here. *)
Definition to_size (x : double) : res N :=
  match x with
  | S754_zero _ => Ok 0
  | S754_finite s m e =>
      let t := if (0 <=? e)%Z then Z.shiftl (Zpos m) e else Z.shiftr (Zpos m) (- e) in
      let z := cond_Zopp s t in
      if ((0 <=? z) && (z <? 2 ^ 64))%Z then Ok (Z.to_N z) else Undef UB_overflow
  | _ => Undef UB_overflow
  end.

(** Rcpp::as<size_t> (Rcpp/as.h, primitive_as; reader.cpp:33, 67, 75): the length, the type, the
    cast. *)
Definition r_size (x : rnum) : res N :=
  if r_length x =? 1 then
    l <- r_doubles x ;;
    match l with b :: _ => to_size (sf_of_bits b) | [] => Exn E_r_single end
  else Exn E_r_single.

(** Rcppsas7bdat.cpp:18-25: the methods. *)
Inductive r_call : Type :=
| RcRow | RcRows (n : rnum) | RcAll | RcSkip (n : rnum) | RcEnd | RcIndex.

(** What a method returns: a logical, NULL, a numeric (reader.cpp:59-79). *)
Inductive r_answer : Type := RaBool (b : bool) | RaNull | RaNum (bits : N).

Definition r_result (x : out) : r_answer :=
  match x with OBool b => RaBool b | OUnit => RaNull | OPtr _ => RaNull end.

(** reader.cpp:59-80; wrap of a size_t is a numeric. *)
Definition r_method {S} (c : cfg) (src : source S) (mk : list bytes -> list bytes) (cls : r_class) (q : r_call)
    (p : r_program S) : res r_answer * r_program S :=
  let do o := let '(x, p') := r_do c src mk cls o p in (rmap r_result x, p') in
  let sized a mk :=
    match r_size a with
    | Ok n => do (mk n)
    | Exn e => (Exn e, p)
    | Abort => (Abort, p)
    | Undef u => (Undef u, p)
    | Fuel => (Fuel, p)
    end in
  match rp_reader p with
  | None => (Exn E_r_reader, p)
  | Some r =>
      match q with
      | RcRow => do OpReadRow
      | RcRows a => sized a OpReadRows
      | RcAll => do OpReadAll
      | RcSkip a => sized a OpSkip
      | RcEnd => do OpEnd
      | RcIndex => (Ok (RaNum (double_of (Z.of_N (ds_row (rs_d r))))), p)
      end
  end.

Fixpoint r_methods_of {S} (c : cfg) (src : source S) (mk : list bytes -> list bytes) (cls : r_class)
    (l : list r_call) (p : r_program S) : list (res r_answer) * r_program S :=
  match l with
  | [] => ([], p)
  | q :: l' =>
      let '(x, p1) := r_method c src mk cls q p in
      match x with
      | Ok _ | Exn _ => let '(xs, p2) := r_methods_of c src mk cls l' p1 in (x :: xs, p2)
      | _ => ([x], p1)
      end
  end.

(** reader.cpp:31-33: the chunk_size of a SinkByChunk is converted before the file is opened,
    after the conversion of the name (the argument std::string). *)
Definition r_read_sized (c : cfg) (filter_first : bool) (fs : fsys) (mk : list bytes -> list bytes)
    (cls : r_class) (chunk_size : rnum) (file include exclude : rarg) : res unit * r_program fstate :=
  match (_ <- r_file_name file ;; match cls with RSinkByChunk => r_size chunk_size | _ => Ok 0 end) with
  | Ok n => r_read_args c filter_first fs mk cls n file include exclude
  | Exn e => (Exn e, r_nothing)
  | Abort => (Abort, r_nothing)
  | Undef u => (Undef u, r_nothing)
  | Fuel => (Fuel, r_nothing)
  end.
