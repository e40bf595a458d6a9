(** Texts in UTF-8, as RFC 3629 has it: the bytes of a list of characters. *)
From Verif Require Import Base.
Local Open Scope N_scope.

(** The characters: the code points but the surrogates. *)
Definition character (u : N) : Prop := u < 0xD800 \/ 0xE000 <= u < 0x110000.

Definition byte_of (n : N) : byte := n2b n.
Definition utf8_of (u : N) : bytes :=
  if u <? 0x80 then [byte_of u]
  else if u <? 0x800 then [byte_of (0xC0 + u / 64); byte_of (0x80 + u mod 64)]
  else if u <? 0x10000
  then [byte_of (0xE0 + u / 4096); byte_of (0x80 + u / 64 mod 64); byte_of (0x80 + u mod 64)]
  else [byte_of (0xF0 + u / 262144); byte_of (0x80 + u / 4096 mod 64); byte_of (0x80 + u / 64 mod 64);
        byte_of (0x80 + u mod 64)].

Definition utf8_text (l : bytes) : Prop := exists us, Forall character us /\ l = flat_map utf8_of us.
