(** What becomes of any compressed row at all, not only of the encodings of SpecDecomp.v:
    the rules by which it is read, command by command. *)
From Verif Require Import Base Types SpecValues SpecDecomp.
Local Open Scope N_scope.

(** ** RLE *)

(** The data of the commands which copy. *)
Definition rle_copies (c : rle_cmd) : option bytes :=
  match c with
  | RCopyLong _ _ data | RCopy1 _ data | RCopy17 _ data | RCopy33 _ data | RCopy49 _ data => Some data
  | _ => None
  end.

(** [rle_reads n out src x]: a row of [n] bytes of which [out] has been produced, [src] still
    to be read, becomes [x]. *)
Inductive rle_reads (n : N) : bytes -> bytes -> res bytes -> Prop :=
(** The row is full, or at most one byte is left: the rest is zeros. *)
| rle_stops : forall out src, lenN out = n \/ lenN out < n /\ lenN src <= 1 ->
    rle_reads n out src (Ok (zero_padded n out))
(** A command. *)
| rle_does : forall out c src x, lenN out < n -> 2 <= lenN (rle_bytes c ++ src) -> rle_valid c ->
    lenN out + lenN (rle_expand c) <= n -> rle_reads n (out ++ rle_expand c) src x ->
    rle_reads n out (rle_bytes c ++ src) x
(** A command which produces too much. *)
| rle_exceeds : forall out c src, lenN out < n -> 2 <= lenN (rle_bytes c ++ src) -> rle_valid c ->
    n < lenN out + lenN (rle_expand c) ->
    rle_reads n out (rle_bytes c ++ src) (Exn E_cannot_decompress)
(** The data of a copy are cut: what is there is copied, when there is room for it. *)
| rle_copies_rest : forall out c here missing src, lenN out < n -> 2 <= lenN src -> rle_valid c ->
    rle_copies c = Some (here ++ missing) -> missing <> [] -> rle_bytes c = src ++ missing ->
    lenN out + lenN here <= n ->
    rle_reads n out src (Ok (zero_padded n (out ++ here)))
| rle_rest_exceeds : forall out c here missing src, lenN out < n -> 2 <= lenN src -> rle_valid c ->
    rle_copies c = Some (here ++ missing) -> missing <> [] -> rle_bytes c = src ++ missing ->
    n < lenN out + lenN here ->
    rle_reads n out src (Exn E_cannot_decompress)
(** No command. *)
| rle_unknown : forall out v src, lenN out < n -> src <> [] -> 0x10 <= b2n v < 0x40 ->
    rle_reads n out (v :: src) (Exn E_cannot_decompress)
(** The third byte of a long run of a byte is missing: it is read behind the end. *)
| rle_passes : forall out v y, lenN out < n -> 0x40 <= b2n v < 0x50 ->
    rle_reads n out [v; y] (Undef UB_oob_read).

(** ** RDC *)

(** The fields of an item have their sizes. *)
Definition rdc_fits (i : rdc_item) : Prop :=
  match i with
  | DLiteral _ => True
  | DShortRun cnt _ => cnt < 16
  | DLongRun cnt x _ => cnt < 16 /\ x < 256
  | DLongRef cnt x y => cnt < 16 /\ x < 256 /\ y < 256
  | DShortRef len cnt x => cnt < 16 /\ x < 256 /\ 3 <= len < 16
  end.

(** How many bytes it stands for; how far a reference goes back. *)
Definition rdc_size (i : rdc_item) : N :=
  match i with
  | DLiteral _ => 1
  | DShortRun cnt _ => cnt + 3
  | DLongRun cnt x _ => cnt + 16 * x + 19
  | DLongRef _ _ y => y + 16
  | DShortRef len _ _ => len
  end.
Definition rdc_back (i : rdc_item) : option N :=
  match i with
  | DLongRef cnt x _ | DShortRef _ cnt x => Some (cnt + 3 + 16 * x)
  | _ => None
  end.

(** The next control bit: [m] bits of the word [w] are left; when none is, the next two
    bytes are the next word. *)
Definition next_bit (w m : N) (src : bytes) (w' m' : N) (src' : bytes) : Prop :=
  (0 < m /\ w' = w /\ m' = m - 1 /\ src' = src)
  \/ (m = 0 /\ m' = 15 /\ exists h l, src = h :: l :: src' /\ w' = 256 * b2n h + b2n l).

Inductive rdc_reads (n : N) : N -> N -> bytes -> bytes -> res bytes -> Prop :=
(** The row is full, or at most two bytes are left: the rest is zeros. *)
| rdc_stops : forall w m out src, lenN out = n \/ lenN out < n /\ lenN src <= 2 ->
    rdc_reads n w m out src (Ok (zero_padded n out))
(** An item. *)
| rdc_does : forall w m out src w' m' i src' x, lenN out < n -> 3 <= lenN src ->
    next_bit w m src w' m' (rdc_bytes i ++ src') -> N.testbit w' m' = (rdc_flag i =? 1) ->
    rdc_valid out i -> lenN out + rdc_size i <= n ->
    rdc_reads n w' m' (out ++ rdc_expand out i) src' x -> rdc_reads n w m out src x
(** One which produces too much, be it a good reference or not. *)
| rdc_exceeds : forall w m out src w' m' i src', lenN out < n -> 3 <= lenN src ->
    next_bit w m src w' m' (rdc_bytes i ++ src') -> N.testbit w' m' = (rdc_flag i =? 1) ->
    rdc_fits i -> n < lenN out + rdc_size i ->
    rdc_reads n w m out src (Exn E_cannot_decompress)
(** A reference before the row: it is read there. *)
| rdc_refers_before : forall w m out src w' m' i src' ofs, lenN out < n -> 3 <= lenN src ->
    next_bit w m src w' m' (rdc_bytes i ++ src') -> N.testbit w' m' = true ->
    rdc_fits i -> rdc_back i = Some ofs -> lenN out + rdc_size i <= n -> lenN out < ofs ->
    rdc_reads n w m out src (Undef UB_oob_read)
(** A reference into its own copy: memcpy on ranges which overlap. *)
| rdc_refers_self : forall w m out src w' m' i src' ofs, lenN out < n -> 3 <= lenN src ->
    next_bit w m src w' m' (rdc_bytes i ++ src') -> N.testbit w' m' = true ->
    rdc_fits i -> rdc_back i = Some ofs -> lenN out + rdc_size i <= n -> ofs <= lenN out -> ofs < rdc_size i ->
    rdc_reads n w m out src (Undef UB_overlap)
(** One or two bytes behind a control word, and a first item which takes more. *)
| rdc_passes : forall w out h l v rest, lenN out < n -> 0x80 <= b2n h ->
    rest = [] \/ (exists y, rest = [y]) /\ 0x10 <= b2n v < 0x30 ->
    rdc_reads n w 0 out (h :: l :: v :: rest) (Undef UB_oob_read).
