(** What a Python program should get: the DataFrame of the rows. *)
From Verif Require Import PyObjects Base Types Buffer Column Header Metadata Reader Drive Sinks Callbacks Python
  SpecReader SpecSinks SpecFile SpecCells SpecUtf8 SpecPyObjects.
Local Open Scope N_scope.

(** The frame of these rows: the columns in the order of the file, with their names, and
    in each the value of every row, in order. *)
Definition frame_is (cs : list column) (rows : list (N * pview)) (f : frame) : Prop :=
  Forall2 (fun c col => fst col = c_name c
             /\ Forall2 (fun r x => exists v, cell_value c (snd r) v /\ x = Some v) rows (snd col))
    cs f.

(** The frame of a table of contents: cell (i, j) is the value of content j of row i. *)
Definition frame_holds (names : list bytes) (contents : list (list content)) (f : frame) : Prop :=
  map fst f = names
  /\ Forall (fun col => length (snd col) = length contents) f
  /\ forall i j vs v col, nth_error contents i = Some vs -> nth_error vs j = Some v ->
       nth_error f j = Some col ->
       exists x, nth_error (snd col) i = Some (Some x) /\ value_is v x.

(** The same in Python objects: cell (i, j) becomes the object of content j of row i. *)
Definition frame_shows (names : list bytes) (contents : list (list content)) (f : frame) : Prop :=
  map fst f = names
  /\ Forall (fun col => length (snd col) = length contents) f
  /\ forall i j vs v col, nth_error contents i = Some vs -> nth_error vs j = Some v ->
       nth_error f j = Some col ->
       exists x o, nth_error (snd col) i = Some (Some x) /\ to_py x = Ok o /\ object_is v o.

(** The types of all columns are known; their names differ and are UTF-8. *)
Definition named (cs : list column) : Prop :=
  Forall (fun c => known c = true) cs /\ NoDup (map c_name cs)
  /\ Forall (fun c => utf8_text (c_name c)) cs.

(** The state of a Python object after some requests. *)
Fixpoint told {P} (o : pyobj P) (qs : list pyreq) (p : P) : P :=
  match qs with
  | [] => p
  | q :: r => told o r (snd (o q p))
  end.

(** The columns a program asks for: those of the list include, or, without it, those
    which are not in the list exclude; an empty list counts as none. *)
Definition wanted (include exclude : option (list bytes)) (name : bytes) : Prop :=
  match include with
  | Some ((_ :: _) as l) => In name l
  | _ => match exclude with
         | Some ((_ :: _) as l) => ~ In name l
         | _ => True
         end
  end.

(** The elements of [l] (contents, names) at the places of the wanted names. *)
Inductive kept {A} (w : bytes -> Prop) : list bytes -> list A -> list A -> Prop :=
| kept_nil : kept w [] [] []
| kept_yes : forall n ns a l l', w n -> kept w ns l l' -> kept w (n :: ns) (a :: l) (a :: l')
| kept_no : forall n ns a l l', ~ w n -> kept w ns l l' -> kept w (n :: ns) (a :: l) l'.

(** Calls of the Reader which return and do not tell the end. *)
Inductive reads {S} (c : cfg) (src : source S) (cls : py_class) : program S -> program S -> Prop :=
| reads_none : forall p, reads c src cls p p
| reads_call : forall o b p p1 p2, py_do c src cls o p = (Ok b, p1) -> tells_end o (Ok b) = false ->
    reads c src cls p1 p2 -> reads c src cls p p2.

(** A program which has opened a file and made such calls. *)
Definition reading {S} (c : cfg) (src : source S) (cls : py_class) (size : N) (flt : column -> bool) (s : S)
    (p : program S) : Prop :=
  exists p0, py_open c src cls size flt s = (Ok tt, p0) /\ reads c src cls p0 p.

(** What df answers after all rows have been read: the frame, but for a file without
    rows a ValueError (SinkByChunk) or None (SinkWholeData). *)
Definition df_answer (cls : py_class) (rows : list (N * pview)) (f : frame) : res (option frame) :=
  match cls, rows with
  | SinkByChunk, [] => Exn E_value_error
  | SinkWholeData, [] => Ok None
  | _, _ => Ok (Some f)
  end.
