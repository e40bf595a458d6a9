(** Model of [include/cppsas7bdat/source/ifstream.hpp] on a file which changes, on a device
    whose faults come and go. *)
From Verif Require Import Base Types Buffer Change.
Local Open Scope N_scope.

(** ifstream.hpp:17-18: the stream ([Change.v]) and its badbit. *)
Record device : Type := Device { dv_stream : cstate; dv_bad : bool }.

(** include/cppsas7bdat/source/ifstream.hpp:22 eof(): eofbit alone. *)
Definition device_eof (s : device) : bool := cg_eof (dv_stream s).

(** include/cppsas7bdat/source/ifstream.hpp:23-28 read_bytes: std::istream::read, then good().
    [seen] as in [changing_read].  [fault k]: the device fails in the [k]-th call behind so many
    of the bytes which are there.  A fault which is met sets badbit (see [disk_read] in
    [Disk.v]); the source never clears it, so the later calls read nothing, whether the device
    has recovered or not.  Simplification: the bytes before the fault are all stored. *)
Definition device_read (seen : nat -> bytes) (fault : nat -> option N) (s : device) (n : N)
  : device * bytes * bool :=
  let c := dv_stream s in
  let left := skipn (N.to_nat (cg_pos c)) (seen (cg_reads c)) in
  let regular := let '(c', data, ok) := changing_read seen c n in (Device c' false, data, ok) in
  if dv_bad s then (Device (CState (cg_pos c) (S (cg_reads c)) (cg_eof c) true) true, [], false)
  else match fault (cg_reads c) with
       | Some j =>
           if negb (cg_eof c || cg_fail c) && (n <? 2 ^ 63) && (j <? n) && (j <=? lenN left) then
             (Device (CState (cg_pos c + j) (S (cg_reads c)) false false) true,
              firstn (N.to_nat j) left, false)
           else regular
       | None => regular
       end.

Definition device_source (seen : nat -> bytes) (fault : nat -> option N) : source device :=
  Source device_eof (device_read seen fault).

(** include/cppsas7bdat/source/ifstream.hpp:20: the stream just opened. *)
Definition device_open : device := Device changing_open false.
