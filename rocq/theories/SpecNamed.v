(** How far a source has been read, and what a client who has named it finds there. *)
From Verif Require Import Base Types Buffer Header Column Metadata Data Reader SpecHeader SpecMeta SpecReader SpecAsk SpecPages SpecConform Named.
Local Open Scope N_scope.

Definition no_data (ly : layout) (pages : list bytes) : Prop := Forall (fun q => begins ly q = false) pages.

(** [k] pages are needed for the first [i] rows: they have that many rows and the data
    begin on one of them, and one page less is not enough. *)
Definition pages_for (ly : layout) (pages : list bytes) (i : N) (k : nat) : Prop :=
  (k <= length pages)%nat
  /\ ~ no_data ly (firstn k pages)
  /\ i <= lenN (rows_on ly (firstn k pages))
  /\ (lenN (rows_on ly (firstn (k - 1) pages)) < i \/ no_data ly (firstn (k - 1) pages)).

(** The last page of the file has one of the announced rows, and nothing follows it. *)
Definition full_to_the_end (content : bytes) : Prop :=
  let pages := pages_in content in
  lenN content = header_length_field content + lenN pages * page_length_field content
  /\ lenN (rows_on (full_layout content) (removelast pages)) < md_row_count (m_md (said content)).

(** ** Programs *)

(** The statements which leave source [n] to Reader [v] alone. *)
Definition leaves_alone {S} (n v : nat) (st : nstmt S) : Prop :=
  match st with
  | NSource _ | NCall _ _ => True
  | NSourceEnd m | NNew m _ | NRead m _ => m <> n
  | NEnd u => u <> v
  end.

(** The calls of Reader [v] in a program, and what is answered to them. *)
Definition call_of {S} (v : nat) (st : nstmt S) : list op :=
  match st with NCall u o => if Nat.eqb u v then [o] else [] | _ => [] end.

Definition calls_of {S} (v : nat) (p : list (nstmt S)) : list op := flat_map (call_of v) p.

Definition answer_of {S} (v : nat) (x : nstmt S * res nval) : list entry :=
  match x with
  | (NCall u o, Ok (NOut y ev)) => if Nat.eqb u v then [(o, y, ev)] else []
  | _ => []
  end.

Definition answers_of {S} (v : nat) (p : list (nstmt S)) (xs : list (res nval)) : list entry :=
  flat_map (answer_of v) (combine p xs).

(** The files which are in one source, one after the other, are each opened and read as
    far as [ops] say, the Readers being numbered from [v]. *)
Definition calls {S} (v : nat) (ops : list op) : list (nstmt S) := map (NCall v) ops.

Fixpoint one_by_one (n v : nat) (files : list (bytes * option (column -> bool) * list op)) : list (nstmt fstate) :=
  match files with
  | [] => []
  | (_, flt, ops) :: l => NNew n flt :: calls v ops ++ one_by_one n (Datatypes.S v) l
  end.

(** A conforming file with rows on its last page, and calls which pass over all of its
    rows. *)
Definition whole_table (c : cfg) (f : bytes * option (column -> bool) * list op) : Prop :=
  let '(content, _, ops) := f in
  exists fields rows, conforms c content fields rows /\ full_to_the_end content
    /\ fst (snd (cur_trace ops (0, map Ok rows))) = lenN rows.

(** What each of them gives, when it is read alone. *)
Definition alone (c : cfg) (f : bytes * option (column -> bool) * list op) : list (res nval) :=
  let '(content, flt, ops) := f in
  match session c file_source flt (file_open content) ops with
  | Ok (ev, l) => Ok (NMade ev) :: map (fun x => Ok (NOut (snd (fst x)) (snd x))) l
  | _ => []
  end.
