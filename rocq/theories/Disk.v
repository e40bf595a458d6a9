(** Model of [include/cppsas7bdat/source/ifstream.hpp] on a device which may fail to read
    (badbit). *)
From Verif Require Import Base Types Buffer.
Local Open Scope N_scope.

(** ifstream.hpp:17-18: the stream and its badbit.  [dk_file]: the bytes which can still be read,
    eofbit and
    failbit. *)
Record disk : Type := Disk { dk_file : fstate; dk_bad : bool }.

(** include/cppsas7bdat/source/ifstream.hpp:22 eof(): std::ios::eof, eofbit alone. *)
Definition disk_eof (s : disk) : bool := fs_eof (dk_file s).

(** include/cppsas7bdat/source/ifstream.hpp:23-28 read_bytes: std::istream::read, then good().
    [fault]: behind the readable bytes the device fails, instead of the file ending there.
    Once badbit is set the stream is not good: read sets failbit and reads nothing.  A read
    which meets the fault stores the bytes before it and sets badbit, without eofbit or
    failbit: std::basic_filebuf::underflow (or xsgetn) of libstdc++ throws on a read error
    and istream::read catches that and sets badbit.  Simplifications: the fault stays, and all
    the bytes before it are stored; how many are stored is not seen by the Reader, which
    does not look at a page it could not read. *)
Definition disk_read (fault : bool) (s : disk) (n : N) : disk * bytes * bool :=
  let f := dk_file s in
  if dk_bad s then (Disk (FState (fs_rest f) (fs_eof f) true) true, [], false)
  else if fault && negb (fs_eof f || fs_fail f) && (n <? 2 ^ 63) && (lenN (fs_rest f) <? n) then
    (Disk (FState [] false false) true, fs_rest f, false)
  else let '(f', data, ok) := file_read f n in (Disk f' false, data, ok).

Definition disk_source (fault : bool) : source disk := Source disk_eof (disk_read fault).

(** include/cppsas7bdat/source/ifstream.hpp:18-20: the stream just opened; [content]: what can be
    read of it. *)
Definition disk_open (content : bytes) : disk := Disk (file_open content) false.
