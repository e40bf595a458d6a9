(** What the sinks should produce: CSV lines and their fields, chunks of rows, decimal
    texts.  Only the types of the model are used. *)
From Coq Require Import Permutation.
From Verif Require Import Base Types Float DateTime Column Header Metadata Reader SpecReader Sinks.
Local Open Scope N_scope.

(** ** Values *)

(** The value of a row in a column, by the type of the column. *)
Definition cell_value (c : column) (p : pview) (v : value) : Prop :=
  match v with
  | VString s => c_type c = TString /\ c_get_string c p = Ok s
  | VInteger z => c_type c = TInteger /\ c_get_integer c p = Ok z
  | VNumber b => c_type c = TNumber /\ c_get_number c p = Ok b
  | VDateTime t => c_type c = TDateTime /\ c_get_datetime c p = Ok t
  | VDate d => c_type c = TDate /\ c_get_date c p = Ok d
  | VTime t => c_type c = TTime /\ c_get_time c p = Ok t
  end.

Definition known (c : column) : bool := match c_type c with TUnknown => false | _ => true end.

(** The getters return a value for each cell of the rows. *)
Definition readable (cs : list column) (rows : list (N * pview)) : Prop :=
  Forall (fun r => Forall (fun c => known c = true -> exists v, cell_value c (snd r) v) cs) rows.

(** ** Decimal texts *)

Fixpoint digits_value (acc : Z) (t : bytes) : option Z :=
  match t with
  | [] => Some acc
  | b :: r =>
      let d := (Z.of_N (b2n b) - 48)%Z in
      if ((0 <=? d) && (d <=? 9))%Z then digits_value (acc * 10 + d)%Z r else None
  end.

(** [t] is the decimal text of [z]. *)
Definition decimal (t : bytes) (z : Z) : Prop :=
  exists r, r <> [] /\ digits_value 0 r = Some (Z.abs z) /\ t = (if (z <? 0)%Z then x2d :: r else r).

(** ** CSV *)

(** The fields of a line: split at the commas which are not between quotes. *)
Fixpoint fields (quoted : bool) (cur : bytes) (s : bytes) : list bytes :=
  match s with
  | [] => [cur]
  | b :: r =>
      if beq b x22 then fields (negb quoted) (cur ++ [b]) r
      else if beq b x2c && negb quoted then cur :: fields quoted [] r
      else fields quoted (cur ++ [b]) r
  end.

Definition csv_fields (line : bytes) : list bytes := fields false [] line.

(** No quote, no line break; and no comma either. *)
Definition clean (s : bytes) : Prop := ~ In x22 s /\ ~ In x0a s.
Definition bare (s : bytes) : Prop := clean s /\ ~ In x2c s.

(** What fmt and Boost print for numbers, datetimes, dates and times has none of
    these. *)
Definition bare_formats (f : csv_fmt) : Prop :=
  (forall b, bare (cf_number f b)) /\ (forall t, bare (cf_datetime f t))
  /\ (forall d, bare (cf_date f d)) /\ (forall t, bare (cf_time f t)).

(** The text of a value in the CSV file. *)
Definition csv_shows (f : csv_fmt) (v : value) (t : bytes) : Prop :=
  match v with
  | VString s => t = [x22] ++ s ++ [x22]
  | VInteger z => decimal t z
  | VNumber b => t = if sf_isnan (sf_of_bits b) then [] else cf_number f b
  | VDateTime x => t = cf_datetime f x
  | VDate x => t = cf_date f x
  | VTime x => t = cf_time f x
  end.

(** Column names and texts of a row without quote and line break. *)
Definition names_clean (cs : list column) : Prop := Forall (fun c => clean (c_name c)) cs.
Definition texts_clean (cs : list column) (p : pview) : Prop :=
  forall c s, In c cs -> c_get_string c p = Ok s -> clean s.

(** The line of a row: one field per column, the text of its value. *)
Definition csv_line_of (f : csv_fmt) (cs : list column) (p : pview) (line : bytes) : Prop :=
  ~ In x0a line
  /\ Forall2 (fun c t => if known c then exists v, cell_value c p v /\ csv_shows f v t else t = [])
       cs (csv_fields line).

(** ** Chunks *)

(** The rows cut into chunks of [n] (all rows in one chunk when n is 0): no chunk is
    empty, only the last one may be shorter. *)
Definition chunked {A} (n : N) (rows : list A) (chunks : list (list A)) : Prop :=
  rows = concat chunks /\ Forall (fun ch => ch <> []) chunks
  /\ Forall (fun ch => lenN ch = n) (removelast chunks)
  /\ (n <> 0 -> Forall (fun ch => lenN ch <= n) chunks).

(** The dict given to Python for a chunk: one entry per column, with the values of
    the rows of the chunk, in order. *)
Definition py_data (cs : list column) (ch : list (N * pview)) (d : list (bytes * list value)) : Prop :=
  Permutation (map fst d) (map c_name (filter known cs))
  /\ forall c, In c cs -> known c = true ->
       exists vs, In (c_name c, vs) d /\ Forall2 (fun r v => cell_value c (snd r) v) ch vs.

(** The range of rows announced with a chunk: the indices of its first and last row. *)
Definition py_range (ch : list (N * pview)) (first last : N) : Prop :=
  exists l, map fst ch = l ++ [last] /\ hd_error (l ++ [last]) = Some first.

(** A delivered chunk. *)
Definition py_chunk (cs : list column) (ch : list (N * pview)) (k : pycall) : Prop :=
  match k with
  | PyPushRows a b d => py_data cs ch d /\ exists l, map fst ch = l ++ [b]
  | _ => False
  end.

(** Its range is right. *)
Definition py_ranges (ch : list (N * pview)) (k : pycall) : Prop :=
  match k with PyPushRows a b _ => py_range ch a b | _ => False end.

(** What is delivered at the end: everything at once, nothing when there is no row. *)
Definition py_delivered (cs : list column) (rows : list (N * pview)) (calls : list pycall) : Prop :=
  match rows with
  | [] => calls = []
  | _ => exists d, calls = [PySetData d] /\ py_data cs rows d
  end.

(** Consecutive rows, from row [i]. *)
Definition consecutive (i : N) (rows : list (N * pview)) : Prop := map fst rows = from i (length rows).

(** What is in front of the first zero byte. *)
Definition until_zero (s t : bytes) : Prop := ~ In x00 t /\ (s = t \/ exists r, s = t ++ x00 :: r).

(** What R gets for a value: numbers as they are, a text up to a zero byte, a date, datetime
    or time as the text of the cell, NA when it is missing. *)
Definition r_shows (c : column) (p : pview) (v : value) (y : rval) : Prop :=
  match v with
  | VString s => exists t, until_zero s t /\ y = RText t
  | VInteger z => y = RInt z
  | VNumber b => y = RReal b
  | VDateTime NotADateTime | VDate NotADate | VTime NotATime => y = RNa
  | _ => exists t, c_to_string c p = Ok t /\ y = RText t
  end.

Definition r_cell (c : column) (p : pview) (y : rval) : Prop := exists v, cell_value c p v /\ r_shows c p v y.

(** The getters return a value for each cell of the rows, which R can be given. *)
Definition r_readable (cs : list column) (rows : list (N * pview)) : Prop :=
  Forall (fun r => Forall (fun c => known c = true -> exists y, r_cell c (snd r) y) cs) rows.

(** The index of a row is an R integer. *)
Definition r_rows_limit : N := 2147483648.

(** The data frame given to R for a chunk, as it is when R receives it: the indices of
    the rows, and for each column of [order] the values of the rows. *)
Definition r_data (order : list column) (ch : list (N * pview)) (k : rcall) : Prop :=
  rc_index_seen k = map (fun r => Some (RInt (Z.of_N (fst r)))) ch
  /\ Forall2 (fun c vec => Forall2 (fun r x => exists y, r_cell c (snd r) y /\ x = Some y) ch vec)
       order (rc_rows_seen k).

(** Everything at once. *)
Definition r_delivered (order : list column) (rows : list (N * pview)) (calls : list rcall) : Prop :=
  match rows with
  | [] => calls = []
  | _ => exists k, calls = [k] /\ r_data order rows k
  end.

(** end_of_data. *)
Definition is_end (e : event) : Prop := match e with EvEnd => True | _ => False end.

(** set_properties is called first only. *)
Definition no_props (evs : list event) : Prop :=
  Forall (fun e => match e with EvProps _ _ => False | _ => True end) evs.

(** The rows pushed one after the other. *)
Definition pushes (rows : list (N * pview)) : list event := map (fun r => EvRow (fst r) (snd r)) rows.

(** A history as the reader makes it: rows of increasing indices, below the row count. *)
Fixpoint increasing (from limit : N) (rows : list (N * pview)) : Prop :=
  match rows with
  | [] => True
  | (i, _) :: r => from <= i < limit /\ increasing (i + 1) limit r
  end.
