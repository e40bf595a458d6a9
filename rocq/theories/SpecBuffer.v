(** What a reading buffer is, said without the definitions of [Buffer.v]: a list
    of bytes, some of which are not known yet. *)
From Verif Require Import Base Buffer.
Local Open Scope N_scope.

(** The part of a buffer a client can see. *)
Definition visible (b : mbuf) : list cell := firstn (N.to_nat (msize b)) (mem b).

(** A buffer of [n] bytes which starts like [l]; new bytes are not known. *)
Definition resized (n : N) (l : list cell) : list cell :=
  firstn (N.to_nat n) l ++ repeat None (N.to_nat n - length l).

(** [l] with [data] written at [off]. *)
Definition overwritten (off : N) (data : bytes) (l : list cell) : list cell :=
  firstn (N.to_nat off) l ++ map Some data ++ skipn (N.to_nat off + length data) l.

(** What is done with a buffer: changing its size, or reading [len] bytes of the
    source at [off]; the source delivers [data]. *)
Inductive buf_op : Type :=
| BResize (n : N)
| BRead (off len : N).

Definition op_size (o : buf_op) : N :=
  match o with
  | BResize n => n
  | BRead off len => off + len
  end.

(** A data source keeps its promises: it never stores more than was asked for,
    and stores exactly that when it says so. *)
Definition good_source {S : Type} (src : source S) : Prop :=
  forall s n s' data ok, src_read src s n = (s', data, ok) ->
    lenN data <= n /\ (ok = true -> lenN data = n).

(** Undefined behaviour about memory. *)
Definition memory_error {A : Type} (r : res A) : Prop :=
  match r with
  | Undef UB_oob_read | Undef UB_oob_write | Undef UB_uninit
  | Undef UB_overlap | Undef UB_index | Undef UB_lifetime => True
  | _ => False
  end.

(** A client doing these operations on a buffer of the library. *)
Definition buffer_step {S : Type} (c : cfg) (src : source S) (o : buf_op)
    (b : mbuf) (s : S) : res bool * S * mbuf :=
  match o with
  | BResize n =>
      match resize c b n with
      | Ok b' => (Ok true, s, b')
      | Exn e => (Exn e, s, b)
      | Abort => (Abort, s, b)
      | Undef u => (Undef u, s, b)
      | Fuel => (Fuel, s, b)
      end
  | BRead off len => read_stream c src b s len off
  end.

Fixpoint buffer_run {S : Type} (c : cfg) (src : source S) (ops : list buf_op)
    (b : mbuf) (s : S) : list (res bool) * S * mbuf :=
  match ops with
  | [] => ([], s, b)
  | o :: ops' =>
      let '(r, s1, b1) := buffer_step c src o b s in
      let '(rs, s2, b2) := buffer_run c src ops' b1 s1 in (r :: rs, s2, b2)
  end.

(** The same operations on a list: only the lack of memory makes one fail, and
    then nothing has changed. *)
Definition list_step {S : Type} (c : cfg) (src : source S) (o : buf_op)
    (l : list cell) (s : S) : res bool * S * list cell :=
  if (op_size o <=? max_alloc c) || (op_size o <=? lenN l) then
    match o with
    | BResize n => (Ok true, s, resized n l)
    | BRead off len =>
        let '(s', data, ok) := src_read src s len in
        (Ok ok, s', overwritten off data (resized (off + len) l))
    end
  else (Exn E_bad_alloc, s, l).

Fixpoint list_run {S : Type} (c : cfg) (src : source S) (ops : list buf_op)
    (l : list cell) (s : S) : list (res bool) * S * list cell :=
  match ops with
  | [] => ([], s, l)
  | o :: ops' =>
      let '(r, s1, l1) := list_step c src o l s in
      let '(rs, s2, l2) := list_run c src ops' l1 s1 in (r :: rs, s2, l2)
  end.
