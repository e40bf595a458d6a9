(** PyUnicode_FromStringAndSize as used by Boost.Python for a std::string
    ([python/pycppsas7bdat/cpp/sink.hpp:329], [pycppsas7bdat.cpp:52]): which bytes CPython's
    strict UTF-8 decoder accepts.  Library code, modelled from its documentation (RFC 3629:
    no overlong form, no surrogate, nothing above 10FFFF). *)
From Verif Require Import Base.
Local Open Scope N_scope.

Definition in_range (lo hi : N) (b : byte) : bool := (lo <=? b2n b) && (b2n b <=? hi).
Definition continues (b : byte) : bool := in_range 0x80 0xBF b.

Fixpoint utf8_ok (l : bytes) : bool :=
  match l with
  | [] => true
  | a :: r =>
      if b2n a <=? 0x7F then utf8_ok r
      else if in_range 0xC2 0xDF a then
        match r with b :: r' => continues b && utf8_ok r' | _ => false end
      else if in_range 0xE0 0xEF a then
        match r with
        | b :: c :: r' =>
            (if b2n a =? 0xE0 then in_range 0xA0 0xBF b
             else if b2n a =? 0xED then in_range 0x80 0x9F b
             else continues b) && continues c && utf8_ok r'
        | _ => false
        end
      else if in_range 0xF0 0xF4 a then
        match r with
        | b :: c :: d :: r' =>
            (if b2n a =? 0xF0 then in_range 0x90 0xBF b
             else if b2n a =? 0xF4 then in_range 0x80 0x8F b
             else continues b) && continues c && continues d && utf8_ok r'
        | _ => false
        end
      else false
  end.
