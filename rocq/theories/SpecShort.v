(** Dates, datetimes and times stored on 3 to 7 bytes.  SAS keeps the first bytes of the
    double (sign, exponent and the beginning of the fraction); the others are zero. *)
From Coq Require Import QArith Qabs.
From Verif Require Import Base Types DateTime Column SpecValues SpecTime.
Local Open Scope N_scope.

(** The 64 bits of the double whose first bytes are these (the last ones in the order of
    the file when it is little-endian). *)
Definition short_bits (e : endian) (l : bytes) : N := value_of e l * 256 ^ (8 - lenN l).

(** The row has the column, of 3 to 7 bytes, and what is behind it up to 8 bytes. *)
Definition short_cell (c : column) (p : pview) (l after : bytes) : Prop :=
  lenN l = c_length c /\ 3 <= lenN l < 8 /\ lenN l + lenN after = 8
  /\ row_has p (fm_offset (c_fm c)) (l ++ after).
