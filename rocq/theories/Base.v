(** Outcomes, bytes, memory cells and 64 bit arithmetic used by every model file.
    Nothing here models a particular function of /repo; the comments say which
    C++ notion each definition stands for. *)
From Coq Require Strings.String.
From Coq Require Import Strings.Byte.
From Coq Require Export List NArith ZArith Bool Lia Init.Byte.
Export ListNotations.
Export String.StringSyntax.
Local Open Scope N_scope.

(** ** Outcomes *)

(** The exceptions thrown by the library (src/exceptions.cpp:15-41), by the standard /
    Boost functions it calls and by the client code it calls, and that a caller can
    catch. *)
Inductive exn : Type :=
| E_not_a_valid_file
| E_header_too_short
| E_invalid_magic_number
| E_cannot_read_page
| E_cannot_decompress
| E_invalid_buffer_access
| E_out_of_range        (* std::vector::at, std::string_view::substr *)
| E_bad_alloc           (* operator new / std::vector::reserve *)
| E_bad_year            (* boost::gregorian: year outside 1400..9999 *)
| E_format_error        (* fmt::format_error *)
| E_client (code : N).  (* an exception of client code: a sink or a callback *)

(** Kinds of undefined or unspecified behaviour that the model distinguishes (no
    counterpart in /repo). *)
Inductive ub : Type :=
| UB_oob_read           (* read outside an allocation or a string_view *)
| UB_oob_write          (* write outside an allocation *)
| UB_uninit             (* use of an indeterminate byte *)
| UB_overlap            (* memcpy on overlapping ranges *)
| UB_overflow           (* signed integer overflow *)
| UB_lround             (* std::lround of a value that does not fit in long *)
| UB_index              (* std::vector::operator[] out of range *)
| UB_lifetime           (* use of an object after its destruction *)
| UB_api.               (* Python API called while its error indicator is set *)

(** Result of running a piece of C++: a value, a catchable exception,
    [std::terminate], undefined behaviour, or out of fuel (the model gave the
    loop [fuel] iterations and it did not stop).  No counterpart in /repo; [bind] is one
    statement after another. *)
Inductive res (A : Type) : Type :=
| Ok (a : A)
| Exn (e : exn)
| Abort
| Undef (u : ub)
| Fuel.
Arguments Ok {A} a.
Arguments Exn {A} e.
Arguments Abort {A}.
Arguments Undef {A} u.
Arguments Fuel {A}.

Definition bind {A B : Type} (m : res A) (k : A -> res B) : res B :=
  match m with
  | Ok a => k a
  | Exn e => Exn e
  | Abort => Abort
  | Undef u => Undef u
  | Fuel => Fuel
  end.

Notation "x <- m ;; k" := (bind m (fun x => k))
  (at level 61, m at next level, right associativity).
Notation "' p <- m ;; k" := (bind m (fun x => match x with p => k end))
  (at level 61, p pattern, m at next level, right associativity).

(** A function declared [noexcept]: an escaping exception calls [std::terminate].
    E.g. src/types.hpp:143-182, src/formatters.hpp:29-45. *)
Definition noexcept {A : Type} (m : res A) : res A :=
  match m with
  | Exn _ => Abort
  | r => r
  end.

(** Build configuration: [ndebug] is the macro NDEBUG (release build: the
    FMT_ASSERT checks, e.g. src/data.hpp:191-192, are compiled out); an allocation of more than [max_alloc]
    bytes throws bad_alloc (src/memory.hpp:24-28); [page_fuel] bounds the number of iterations that the
    model grants to the loops reading pages. *)
Record cfg : Type := Cfg {
  ndebug : bool;
  max_alloc : N;
  page_fuel : nat
}.

(** FMT_ASSERT(cond, msg) of fmt 8.0.1: nothing under NDEBUG, otherwise
    std::terminate when the condition does not hold. *)
Definition fmt_assert (c : cfg) (cond : bool) : res unit :=
  if ndebug c then Ok tt else if cond then Ok tt else Abort.

(** ** Bytes *)

(** uint8_t (src/types.hpp:50 BYTE). *)

Notation bytes := (list byte).

Definition b2n (b : byte) : N := Byte.to_N b.

Definition n2b (n : N) : byte :=
  match Byte.of_N (n mod 256) with
  | Some b => b
  | None => x00
  end.

(** Byte strings for literals, and the comparison of strings (std::string ==). *)
Definition bs (s : String.string) : bytes := String.list_byte_of_string s.
Arguments bs s%string_scope.

Definition beq (a b : byte) : bool := Byte.eqb a b.

Fixpoint bytes_eqb (a b : bytes) : bool :=
  match a, b with
  | [], [] => true
  | x :: a', y :: b' => beq x y && bytes_eqb a' b'
  | _, _ => false
  end.

(** ** 64 bit unsigned arithmetic (size_t, LP64) *)

Definition W64 : N := 2 ^ 64.
Definition u64 (x : N) : N := x mod W64.
Definition add64 (a b : N) : N := u64 (a + b).
Definition sub64 (a b : N) : N := u64 (a + W64 - b mod W64).
Definition mul64 (a b : N) : N := u64 (a * b).
Infix "+!" := add64 (at level 50, left associativity).
Infix "-!" := sub64 (at level 50, left associativity).
Infix "*!" := mul64 (at level 40, left associativity).

(** ** Memory *)

(** A byte of an allocation; [None] is an indeterminate (never written) byte:
    operator new of src/memory.hpp:24-28 does not write.  [slice], [lenN] and [all_some] are
    notions of lists. *)
Notation cell := (option byte).

Definition slice {A : Type} (off len : N) (l : list A) : list A :=
  firstn (N.to_nat len) (skipn (N.to_nat off) l).

Definition lenN {A : Type} (l : list A) : N := N.of_nat (length l).

Fixpoint all_some (l : list cell) : option bytes :=
  match l with
  | [] => Some []
  | Some b :: r => match all_some r with Some r' => Some (b :: r') | None => None end
  | None :: _ => None
  end.

(** Reading [len] bytes at [off] of an allocation, e.g. src/buffer.hpp:71-78. *)
Definition read_cells (mem : list cell) (off len : N) : res bytes :=
  if off + len <=? lenN mem then
    match all_some (slice off len mem) with
    | Some v => Ok v
    | None => Undef UB_uninit
    end
  else Undef UB_oob_read.

(** Overwriting part of a list: positions [off .. off + length new) (used for
    src/buffer.hpp:97-113). *)
Definition splice {A : Type} (off : N) (new l : list A) : list A :=
  firstn (N.to_nat off) l ++ new ++ skipn (N.to_nat off + length new) l.

(** Writing bytes at [off] of an allocation, src/buffer.hpp:97-113. *)
Definition write_cells (mem : list cell) (off : N) (new : list cell)
  : res (list cell) :=
  if off + lenN new <=? lenN mem then Ok (splice off new mem)
  else Undef UB_oob_write.
