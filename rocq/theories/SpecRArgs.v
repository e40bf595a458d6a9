(** What the arguments of read_sas in R mean. *)
From Verif Require Import Base Types Buffer Column Cli SpecSinks PyArgs RArgs SpecPyArgs.
Local Open Scope N_scope.

(** The names of an argument: NULL, or the strings of a vector without NA. *)
Inductive r_names : rarg -> list bytes -> Prop :=
| r_names_null : r_names RArgNull []
| r_names_chars : forall l, r_names (RArgChars (map Some l)) l.

(** The columns asked for: those of include, or, when it is NULL or empty, those which are not
    in exclude. *)
Definition r_mentions (arg : rarg) (n : bytes) : Prop := exists l, arg = RArgChars l /\ In (Some n) l.
Definition r_without (arg : rarg) : Prop := arg = RArgNull \/ arg = RArgChars [].
Definition r_chosen (include exclude : rarg) (n : bytes) : Prop :=
  (~ r_without include /\ r_mentions include n) \/ (r_without include /\ ~ r_mentions exclude n).

(** The file a string stands for. *)
Definition r_file_for (fs : fsys) (file : rarg) (content : bytes) : Prop :=
  exists name, file = RArgChars [Some name] /\ ~ In x00 name /\ has_file fs name content.
