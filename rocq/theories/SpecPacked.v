(** A file of which one byte has been changed, in the rows of a page of compressed rows. *)
From Verif Require Import Base Types Buffer Page Column Header Metadata Decomp Data Reader
  SpecValues SpecHeader SpecReader SpecConform SpecDamage.
Local Open Scope N_scope.

(** ** Where the byte is *)

(** Size of the offsets and lengths in the table of pointers of a page. *)
Definition word (f : format) : N := match f with Bit32 => 4 | Bit64 => 8 end.

(** A number stored in the file. *)
Definition number_at (content : bytes) (off n : N) : N :=
  value_of (file_endian content) (field content off n).

(** Pointer [i] of the page which begins at [start] points to a piece with byte [o] of the
    page. *)
Definition points_to (content : bytes) (start i o : N) : Prop :=
  let w := word (file_format content) in
  let at_i := start + rows_at (file_format content) + i * (3 * w) in
  number_at content at_i w <= o < number_at content at_i w + number_at content (at_i + w) w.

(** Byte [q] of the file is on a whole page of type 0, behind its table of pointers, and not
    in two pieces. *)
Definition in_piece (content : bytes) (q : N) : Prop :=
  exists k o, let start := header_length_field content + k * page_length_field content in
    let n := number_at content (start + type_at (file_format content) + 4) 2 in
    q = start + o /\ o < page_length_field content
    /\ start + page_length_field content <= lenN content
    /\ number_at content (start + type_at (file_format content)) 2 = 0
    /\ rows_at (file_format content) + n * (3 * word (file_format content)) <= o
    /\ forall i j, i < n -> j < n -> points_to content start i o -> points_to content start j o -> i = j.

(** What the Reader has not taken from its file. *)
Definition not_taken (r : rstate fstate) : bytes := fs_rest (ps_is (ds_p (rs_d r))).

(** ** What a caller gets *)

(** An entry of a history with the bytes of the rows in place of the pointers. *)
Definition plain (len : N) (p : pview) : pview := PView (row_under len p) 0.
Definition plain_event (len : N) (e : event) : event :=
  match e with EvRow i p => EvRow i (plain len p) | _ => e end.
Definition plain_out (len : N) (x : res out) : res out :=
  match x with Ok (OPtr (Some p)) => Ok (OPtr (Some (plain len p))) | _ => x end.
Definition plain_entry (len : N) (en : entry) : entry :=
  let '(o, x, ev) := en in (o, plain_out len x, map (plain_event len) ev).

(** Calls for one row at most, and those which give it. *)
Definition one_at_a_time (o : op) : bool :=
  match o with OpReadRow | OpNoSink | OpSkip _ | OpEnd => true | _ => false end.
Definition gives_row (o : op) : bool :=
  match o with OpReadRow | OpNoSink => true | _ => false end.

(** Nothing is called after undefined behaviour or the end of the process. *)
Definition last_one (en : entry) : bool :=
  let '(_, x, _) := en in match x with Ok _ | Exn _ => false | _ => true end.

(** The two histories are the same but for one call for a row; behind it they are the same
    again, if it comes back in both. *)
Definition one_call (t t' : list entry) : Prop :=
  t' = t \/ exists a o x ev x' ev' b b',
    t = a ++ (o, x, ev) :: b /\ t' = a ++ (o, x', ev') :: b' /\ gives_row o = true
    /\ (b' = b \/ last_one (o, x, ev) = true \/ last_one (o, x', ev') = true).
