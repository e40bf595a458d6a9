(** A file of which one byte has been changed, in the rows of a data page. *)
From Verif Require Import Base Types Buffer Page Column Header Metadata Decomp Data Reader
  SpecValues SpecHeader SpecReader SpecConform.
Local Open Scope N_scope.

(** ** Where the byte is *)

(** Where the two bytes for the type of a page are, and where the rows of a data page begin. *)
Definition type_at (f : format) : N := match f with Bit32 => 16 | Bit64 => 32 end.
Definition rows_at (f : format) : N := type_at f + 8.

(** Byte [q] of the file is on a whole page of type 256 which announces rows, behind the header
    of the page. *)
Definition in_data_page (content : bytes) (q : N) : Prop :=
  exists k o, let start := header_length_field content + k * page_length_field content in
    q = start + o /\ rows_at (file_format content) <= o < page_length_field content
    /\ start + page_length_field content <= lenN content
    /\ value_of (file_endian content) (field content (start + type_at (file_format content)) 2) = 256
    /\ value_of (file_endian content) (field content (start + type_at (file_format content) + 2) 2) <> 0.

(** ** What a caller gets *)

(** The bytes of the row a pointer refers to. *)
Definition row_under (len : N) (p : pview) : list cell :=
  firstn (N.to_nat len) (skipn (N.to_nat (pv_off p)) (pv_mem p)).

(** The rows handed out by a history of calls, to the sink or as a result. *)
Definition rows_out (len : N) (t : list entry) : list (list cell) :=
  flat_map (fun en => let '(_, x, ev) := en in
              map (fun ip => row_under len (snd ip)) (rows_of ev)
              ++ match x with Ok (OPtr (Some p)) => [row_under len p] | _ => [] end) t.

(** Everything else: the calls, their outcomes, the calls to the sink with their indices,
    and where on the page the rows are, without the bytes. *)
Definition bare (p : pview) : pview := PView [] (pv_off p).
Definition bare_event (e : event) : event :=
  match e with EvRow i p => EvRow i (bare p) | _ => e end.
Definition bare_out (x : res out) : res out :=
  match x with Ok (OPtr (Some p)) => Ok (OPtr (Some (bare p))) | _ => x end.
Definition bare_entry (en : entry) : entry :=
  let '(o, x, ev) := en in (o, bare_out x, map bare_event ev).

(** Nothing has changed, or one row, in one byte. *)
Definition one_byte (l l' : list cell) : Prop :=
  exists a x y b, l = a ++ Some x :: b /\ l' = a ++ Some y :: b.

Definition one_row (l l' : list (list cell)) : Prop :=
  l' = l \/ exists a r r' b, l = a ++ r :: b /\ l' = a ++ r' :: b /\ one_byte r r'.
