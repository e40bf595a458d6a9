(** Model of [include/cppsas7bdat/source/ifstream.hpp] on a file which other programs write
    while it is read. *)
From Verif Require Import Base Types Buffer.
Local Open Scope N_scope.

(** ifstream.hpp:17-18: the stream: its position, how often it was asked to read, eofbit and
    failbit. *)
Record cstate : Type := CState {
  cg_pos : N;
  cg_reads : nat;
  cg_eof : bool;
  cg_fail : bool
}.

(** include/cppsas7bdat/source/ifstream.hpp:22 eof(). *)
Definition changing_eof (s : cstate) : bool := cg_eof s.

(** include/cppsas7bdat/source/ifstream.hpp:23-28 read_bytes: std::istream::read at the position
    of the stream, then good().  [seen k]: the whole file as the [k]-th call of read finds it,
    any bytes.  It is counted in calls and not in time, because the stream has a buffer: some of
    the bytes which a call finds may have been fetched from the file earlier.  Simplification:
    one call finds one sequence of bytes; a write between two system calls of the same call
    is covered since [seen k] may be any mixture. *)
Definition changing_read (seen : nat -> bytes) (s : cstate) (n : N) : cstate * bytes * bool :=
  let '(f, data, ok) :=
    file_read (FState (skipn (N.to_nat (cg_pos s)) (seen (cg_reads s))) (cg_eof s) (cg_fail s)) n in
  (CState (cg_pos s + lenN data) (S (cg_reads s)) (fs_eof f) (fs_fail f), data, ok).

Definition changing_source (seen : nat -> bytes) : source cstate :=
  Source changing_eof (changing_read seen).

(** include/cppsas7bdat/source/ifstream.hpp:20: the stream just opened. *)
Definition changing_open : cstate := CState 0 0 false false.
