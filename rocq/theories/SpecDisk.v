(** Devices which fail. *)
From Verif Require Import Base Types Buffer Reader SpecReader SpecAsk.
Local Open Scope N_scope.

(** What a program sees when the device fails ([bad]), beside what it sees of the whole file
    ([good]): the same calls have the same answers, until one call throws; before it throws
    it has given the sink a first part of what it gives otherwise; all calls which follow say
    that the data is at its end. *)
Definition cut_by_fault (ops : list op) (good bad : list entry) : Prop :=
  exists l o x ev more good' ops',
    good = l ++ (o, x, ev ++ more) :: good'
    /\ bad = l ++ (o, Exn E_cannot_read_page, ev)
               :: map (fun o' => (o', Ok (end_answer o'), end_events o')) ops'
    /\ ops = map (fun t => fst (fst t)) l ++ o :: ops'.

(** The same for a whole session: the constructor may throw because of the fault. *)
Definition with_fault (ops : list op) (good bad : res (list event * list entry)) : Prop :=
  bad = good \/ bad = Exn E_header_too_short \/ bad = Exn E_cannot_read_page
  \/ exists ev g b, good = Ok (ev, g) /\ bad = Ok (ev, b) /\ cut_by_fault ops g b.
