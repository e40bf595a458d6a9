(** The two row compressions, said from the side of the encoder: what each
    command expands to and how it is written. *)
From Verif Require Import Base Types Decomp SpecValues.
Local Open Scope N_scope.

(** ** RLE (SASYZCRL) *)

(** Each command carries the fields of its encoding: the low half [l] of the
    command byte, a second byte [x], and data. *)
Inductive rle_cmd : Type :=
| RCopyLong (l x : N) (data : bytes)     (* 0 *)
| RByteLong (l x : N) (v : byte)         (* 4 *)
| RAtLong (l x : N)                      (* 5 *)
| RBlankLong (l x : N)                   (* 6 *)
| RZeroLong (l x : N)                    (* 7 *)
| RCopy1 (l : N) (data : bytes)          (* 8 *)
| RCopy17 (l : N) (data : bytes)         (* 9 *)
| RCopy33 (l : N) (data : bytes)         (* 10 *)
| RCopy49 (l : N) (data : bytes)         (* 11 *)
| RByte3 (l : N) (v : byte)              (* 12 *)
| RAt2 (l : N)                           (* 13 *)
| RBlank2 (l : N)                        (* 14 *)
| RZero2 (l : N).                        (* 15 *)

Definition times (n : N) (v : byte) : bytes := repeat v (N.to_nat n).

Definition at_sign : byte := x40.
Definition blank_char : byte := x20.
Definition zero_char : byte := x00.

(** What a command stands for. *)
Definition rle_expand (c : rle_cmd) : bytes :=
  match c with
  | RCopyLong _ _ data | RCopy1 _ data | RCopy17 _ data | RCopy33 _ data
  | RCopy49 _ data => data
  | RByteLong l x v => times (16 * l + x + 18) v
  | RAtLong l x => times (256 * l + x + 17) at_sign
  | RBlankLong l x => times (256 * l + x + 17) blank_char
  | RZeroLong l x => times (256 * l + x + 17) zero_char
  | RByte3 l v => times (l + 3) v
  | RAt2 l => times (l + 2) at_sign
  | RBlank2 l => times (l + 2) blank_char
  | RZero2 l => times (l + 2) zero_char
  end.

(** How it is written. *)
Definition cmd_byte (code l : N) : byte := byte_of (16 * code + l).

Definition rle_bytes (c : rle_cmd) : bytes :=
  match c with
  | RCopyLong l x data => [cmd_byte 0 l; byte_of x] ++ data
  | RByteLong l x v => [cmd_byte 4 l; byte_of x; v]
  | RAtLong l x => [cmd_byte 5 l; byte_of x]
  | RBlankLong l x => [cmd_byte 6 l; byte_of x]
  | RZeroLong l x => [cmd_byte 7 l; byte_of x]
  | RCopy1 l data => [cmd_byte 8 l] ++ data
  | RCopy17 l data => [cmd_byte 9 l] ++ data
  | RCopy33 l data => [cmd_byte 10 l] ++ data
  | RCopy49 l data => [cmd_byte 11 l] ++ data
  | RByte3 l v => [cmd_byte 12 l; v]
  | RAt2 l => [cmd_byte 13 l]
  | RBlank2 l => [cmd_byte 14 l]
  | RZero2 l => [cmd_byte 15 l]
  end.

Definition rle_valid (c : rle_cmd) : Prop :=
  match c with
  | RCopyLong l x data => l < 16 /\ x < 256 /\ lenN data = 256 * l + x + 64
  | RByteLong l x _ | RAtLong l x | RBlankLong l x | RZeroLong l x =>
      l < 16 /\ x < 256
  | RCopy1 l data => l < 16 /\ lenN data = l + 1
  | RCopy17 l data => l < 16 /\ lenN data = l + 17
  | RCopy33 l data => l < 16 /\ lenN data = l + 33
  | RCopy49 l data => l < 16 /\ lenN data = l + 49
  | RByte3 l _ | RAt2 l | RBlank2 l | RZero2 l => l < 16
  end.

Definition rle_expansion (cs : list rle_cmd) : bytes := concat (map rle_expand cs).
Definition rle_encoding (cs : list rle_cmd) : bytes := concat (map rle_bytes cs).

(** A row of [n] bytes which starts with [l]. *)
Definition zero_padded (n : N) (l : bytes) : bytes :=
  l ++ times (n - lenN l) zero_char.

(** The last command, if any, takes more than one byte. *)
Definition last_is_long (cs : list rle_cmd) : Prop :=
  forall cs' c, cs = cs' ++ [c] -> 2 <= lenN (rle_bytes c).

(** ** RDC (SASYZCR2) *)

Inductive rdc_item : Type :=
| DLiteral (v : byte)
| DShortRun (cnt : N) (v : byte)          (* cnt + 3 times v *)
| DLongRun (cnt x : N) (v : byte)         (* cnt + 16 x + 19 times v *)
| DLongRef (cnt x y : N)                  (* y + 16 bytes, cnt + 3 + 16 x back *)
| DShortRef (len cnt x : N).              (* len bytes, cnt + 3 + 16 x back *)

(** Literals have control bit 0, the others 1. *)
Definition rdc_flag (i : rdc_item) : N :=
  match i with DLiteral _ => 0 | _ => 1 end.

Definition rdc_bytes (i : rdc_item) : bytes :=
  match i with
  | DLiteral v => [v]
  | DShortRun cnt v => [cmd_byte 0 cnt; v]
  | DLongRun cnt x v => [cmd_byte 1 cnt; byte_of x; v]
  | DLongRef cnt x y => [cmd_byte 2 cnt; byte_of x; byte_of y]
  | DShortRef len cnt x => [cmd_byte len cnt; byte_of x]
  end.

(** The bytes an item adds to the row produced so far. *)
Definition back_copy (ofs n : N) (out : bytes) : bytes :=
  firstn (N.to_nat n) (skipn (length out - N.to_nat ofs) out).

Definition rdc_expand (out : bytes) (i : rdc_item) : bytes :=
  match i with
  | DLiteral v => [v]
  | DShortRun cnt v => times (cnt + 3) v
  | DLongRun cnt x v => times (cnt + 16 * x + 19) v
  | DLongRef cnt x y => back_copy (cnt + 3 + 16 * x) (y + 16) out
  | DShortRef len cnt x => back_copy (cnt + 3 + 16 * x) len out
  end.

(** The fields fit, and a reference points into the row already produced, far
    enough for the copied part not to overlap its copy. *)
Definition rdc_valid (out : bytes) (i : rdc_item) : Prop :=
  match i with
  | DLiteral _ => True
  | DShortRun cnt _ => cnt < 16
  | DLongRun cnt x _ => cnt < 16 /\ x < 256
  | DLongRef cnt x y =>
      cnt < 16 /\ x < 256 /\ y < 256
      /\ y + 16 <= cnt + 3 + 16 * x /\ cnt + 3 + 16 * x <= lenN out
  | DShortRef len cnt x =>
      cnt < 16 /\ x < 256 /\ 3 <= len < 16
      /\ len <= cnt + 3 + 16 * x /\ cnt + 3 + 16 * x <= lenN out
  end.

Fixpoint rdc_expansion (out : bytes) (is : list rdc_item) : bytes :=
  match is with
  | [] => out
  | i :: is' => rdc_expansion (out ++ rdc_expand out i) is'
  end.

Fixpoint rdc_all_valid (out : bytes) (is : list rdc_item) : Prop :=
  match is with
  | [] => True
  | i :: is' => rdc_valid out i /\ rdc_all_valid (out ++ rdc_expand out i) is'
  end.

(** Sixteen items after a control word, first item in the highest bit. *)
Fixpoint control_word (weight : N) (g : list rdc_item) : N :=
  match g with
  | [] => 0
  | i :: g' => rdc_flag i * weight + control_word (weight / 2) g'
  end.

Definition rdc_items_bytes (g : list rdc_item) : bytes := concat (map rdc_bytes g).

Definition rdc_group (g : list rdc_item) : bytes :=
  write_int Big 2 (control_word 32768 g) ++ rdc_items_bytes g.

Definition rdc_encoding (gs : list (list rdc_item)) : bytes :=
  concat (map rdc_group gs).

(** Every group but the last has 16 items, the last one from 1 to 16. *)
Fixpoint groups_ok (gs : list (list rdc_item)) : Prop :=
  match gs with
  | [] => True
  | [g] => 1 <= lenN g <= 16
  | g :: gs' => lenN g = 16 /\ groups_ok gs'
  end.

(** In the last group, three bytes remain before each item but the first;
    [tail] is the number of bytes after the encoding. *)
Definition three_remain (gs : list (list rdc_item)) (tail : N) : Prop :=
  forall gs' g i, gs = gs' ++ [g ++ [i]] -> g <> [] ->
    3 <= lenN (rdc_bytes i) + tail.

(** ** The row buffer *)

(** A row buffer of [n] bytes, whatever it contains; rows are far smaller than
    the address space. *)
Definition row_buffer (n : N) (d : dst) : Prop := d_n d = n /\ lenN (d_mem d) = n.

Definition row_limit : N := W64 - 8192.

(** A buffer in which nothing has been written. *)
Definition fresh (n : N) : dst := Dst (repeat None (N.to_nat n)) n 0.

(** A history of decompressions with one row buffer. *)
Fixpoint history (f : bytes -> dst -> res bytes * dst) (d : dst) (rows : list bytes)
  : list (res bytes) :=
  match rows with
  | [] => []
  | r :: rows' => let '(x, d') := f r d in x :: history f d' rows'
  end.

(** The last command byte is followed by one byte where its command takes two. *)
Definition long_byte_run_last (src : bytes) : Prop :=
  exists pre v x, src = pre ++ [v; x] /\ 0x40 <= b2n v < 0x50.
