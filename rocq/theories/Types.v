(** Model of the integer and string decoding of [src/types.hpp] and of the
    enumerations of [include/cppsas7bdat/types.hpp]. *)
From Verif Require Import Base.
Local Open Scope N_scope.

(** include/cppsas7bdat/types.hpp: enum class Endian / Format / Platform /
    Compression.  [Endian::unknown] is never used for decoding and is left out:
    [src/header.hpp:62] always picks little or big. *)
Inductive endian : Type := Little | Big.
Inductive format : Type := Bit32 | Bit64.
Inductive platform : Type := Unix | Windows | PlatformUnknown.
Inductive compression : Type := CompNone | CompRLE | CompRDC.

(** src/types.hpp:184-194 and src/buffer.hpp:190-193: sizeof(integer_t). *)
Definition integer_size (f : format) : N :=
  match f with Bit32 => 4 | Bit64 => 8 end.

(** src/types.hpp:95-96, little-endian value of a byte string: what [std::memcpy] into an unsigned
    integer gives on the (little-endian) host. *)
Fixpoint le_val (l : bytes) : N :=
  match l with
  | [] => 0
  | b :: r => b2n b + 256 * le_val r
  end.

(** src/types.hpp:76-88 ENDIAN::get_val<T> for unsigned T of [length l] bytes:
    memcpy then big_to_native (byte reversal on the host) or little_to_native.
    Simplification: the host is little-endian. *)
Definition get_val (e : endian) (l : bytes) : N :=
  match e with
  | Big => le_val (rev l)
  | Little => le_val l
  end.

(** Reinterpretation of a 16 bit unsigned integer as int16_t. *)
Definition to_int16 (n : N) : Z :=
  if n <? 32768 then Z.of_N n else (Z.of_N n - 65536)%Z.

(** <cctype> std::isspace / std::isprint in the "C" locale, argument an
    unsigned char value.  For the [char] arguments of src/metadata.hpp:310-316
    (negative for bytes >= 128) glibc answers false for both, which is what these
    functions return. *)
Definition isspace (b : byte) : bool :=
  let n := b2n b in ((9 <=? n) && (n <=? 13)) || (n =? 32).
Definition isprint (b : byte) : bool :=
  let n := b2n b in (32 <=? n) && (n <=? 126).

(** The loop "while (_length && P(_buf[_length-1])) --_length": the list is given
    reversed. *)
Fixpoint drop_while (p : byte -> bool) (l : bytes) : bytes :=
  match l with
  | [] => []
  | b :: r => if p b then drop_while p r else l
  end.

Definition drop_while_end (p : byte -> bool) (l : bytes) : bytes :=
  rev (drop_while p (rev l)).

(** src/types.hpp:27-34 get_string_trim_0. *)
Definition get_string_trim_0 (l : bytes) : bytes :=
  drop_while_end (fun b => beq b x00 || isspace b) l.

(** src/types.hpp:36-48 get_string_trim: leading white space, then trailing
    non printable or white space characters. *)
Definition get_string_trim (l : bytes) : bytes :=
  drop_while_end (fun b => negb (isprint b) || isspace b) (drop_while isspace l).
