(** What the arguments of read_sas mean. *)
From Verif Require Import Base Types Buffer Column Cli SpecSinks SpecUtf8 PyArgs.
Local Open Scope N_scope.

(** The bytes of a text: UTF-8. *)
Definition text_bytes (t : list N) (n : bytes) : Prop := Forall character t /\ n = flat_map utf8_of t.

(** The name an object stands for. *)
Inductive item_name : pyitem -> bytes -> Prop :=
| name_text : forall t n, text_bytes t n -> item_name (ItemStr t) n
| name_bytes : forall n, item_name (ItemBytes n) n.

(** The names of an argument. *)
Inductive arg_names : pyarg -> list bytes -> Prop :=
| names_none : arg_names ArgNone []
| names_list : forall items names, Forall2 item_name items names -> arg_names (ArgList items) names.

(** An element which stands for no name. *)
Definition bad_element (items : list pyitem) : Prop :=
  exists i, In i items /\ forall n, ~ item_name i n.

(** The columns asked for: those of the list include, or, when it is missing or empty, those
    which are not in the list exclude. *)
Definition mentions (arg : pyarg) (n : bytes) : Prop :=
  exists items i, arg = ArgList items /\ In i items /\ item_name i n.
Definition without_elements (arg : pyarg) : Prop := arg = ArgNone \/ arg = ArgList [].
Definition chosen (include exclude : pyarg) (n : bytes) : Prop :=
  (~ without_elements include /\ mentions include n) \/ (without_elements include /\ ~ mentions exclude n).

(** The first file with this name. *)
Definition has_file (fs : fsys) (name content : bytes) : Prop :=
  exists pre post, fs = pre ++ (name, content) :: post /\ ~ In name (map fst pre).

(** The file an object stands for: names end at a zero byte. *)
Definition file_for (fs : fsys) (file : pyitem) (content : bytes) : Prop :=
  exists n name, item_name file n /\ until_zero n name /\ has_file fs name content.

(** A good chunk_size. *)
Definition good_size (size : pysize) (n : N) : Prop := size = SizeInt (Z.of_N n) /\ n < W64.
