(** The decoder accepts exactly the texts in UTF-8. *)
From Verif Require Import Base Lemmas Utf8 SpecUtf8.
Local Open Scope N_scope.

Lemma in_range_true : forall lo hi b, in_range lo hi b = true <-> lo <= b2n b <= hi.
Proof. intros lo hi b. unfold in_range. rewrite andb_true_iff, !N.leb_le. tauto. Qed.

Lemma of_byte : forall n b, n = b2n b -> byte_of n = b.
Proof. intros n b ->. apply n2b_b2n. Qed.

Lemma byte_value : forall n, n < 256 -> b2n (byte_of n) = n.
Proof. intros n H. unfold byte_of. rewrite b2n_n2b. apply N.mod_small. exact H. Qed.

Lemma two_digits : forall h l, l < 64 -> (h * 64 + l) / 64 = h /\ (h * 64 + l) mod 64 = l.
Proof.
  intros h l H. split.
  - symmetry. apply (N.div_unique _ 64 h l); lia.
  - symmetry. apply (N.mod_unique _ 64 h l); lia.
Qed.

Lemma digits : forall n, n = n / 64 * 64 + n mod 64 /\ n mod 64 < 64.
Proof.
  intros n. pose proof (N.div_mod n 64 ltac:(lia)). pose proof (N.mod_lt n 64 ltac:(lia)). lia.
Qed.

Ltac ranges := repeat match goal with
  | H : _ && _ = true |- _ => apply andb_true_iff in H; destruct H
  | H : in_range _ _ _ = true |- _ => apply in_range_true in H
  | H : continues _ = true |- _ => apply in_range_true in H
  end.

Ltac bytes_same := repeat match goal with
  | |- byte_of ?n :: _ = ?x :: _ => rewrite (of_byte n x) by lia; apply f_equal
  end; reflexivity.

Lemma ok_text : forall n l, (length l <= n)%nat -> utf8_ok l = true -> utf8_text l.
Proof.
  assert (ADD : forall u w l, character u -> utf8_of u = w -> utf8_text l -> utf8_text (w ++ l)).
  { intros u w l C E (us & F & ->). exists (u :: us). split; [constructor; assumption|]. cbn [flat_map]. rewrite E. reflexivity. }
  induction n as [|n IH]; intros l L H.
  { destruct l; [|cbn in L; lia]. exists []. split; [constructor|reflexivity]. }
  destruct l as [|a r]; [exists []; split; [constructor|reflexivity]|]. cbn [utf8_ok] in H. cbn [length] in L.
  destruct (N.leb_spec (b2n a) 0x7F) as [A|A].
  { apply (ADD (b2n a) [a]); [left; lia| |apply IH; [lia|exact H]].
    unfold utf8_of. destruct (N.ltb_spec (b2n a) 0x80); [|lia]. f_equal. apply of_byte. reflexivity. }
  destruct (in_range 0xC2 0xDF a) eqn:R2.
  { destruct r as [|b r]; [discriminate|]. ranges. cbn [length] in L.
    destruct (two_digits (b2n a - 0xC0) (b2n b - 0x80)) as [D M]; [lia|].
    apply (ADD ((b2n a - 0xC0) * 64 + (b2n b - 0x80)) [a; b]); [left; lia| |apply IH; [lia|assumption]].
    unfold utf8_of. rewrite D, M.
    destruct (N.ltb_spec ((b2n a - 0xC0) * 64 + (b2n b - 0x80)) 0x80); [lia|].
    destruct (N.ltb_spec ((b2n a - 0xC0) * 64 + (b2n b - 0x80)) 0x800); [|lia].
    bytes_same. }
  destruct (in_range 0xE0 0xEF a) eqn:R3.
  { destruct r as [|b [|c r]]; try discriminate. ranges. cbn [length] in L.
    assert (B : continues b = true /\ (b2n a = 0xE0 -> 0xA0 <= b2n b) /\ (b2n a = 0xED -> b2n b <= 0x9F)).
    { destruct (N.eqb_spec (b2n a) 0xE0); [|destruct (N.eqb_spec (b2n a) 0xED)]; ranges;
        (split; [apply in_range_true|]); lia. }
    destruct B as (B1 & B2 & B3). ranges.
    set (h := (b2n a - 0xE0) * 64 + (b2n b - 0x80)).
    destruct (two_digits (b2n a - 0xE0) (b2n b - 0x80)) as [D M]; [lia|]. fold h in D, M.
    destruct (two_digits h (b2n c - 0x80)) as [D' M']; [lia|].
    set (u := h * 64 + (b2n c - 0x80)) in *.
    apply (ADD u [a; b; c]); [|
      |apply IH; [lia|assumption]].
    { destruct (N.lt_ge_cases u 0xD800); [left; lia|right]. split; [|lia].
      destruct (N.eq_dec (b2n a) 0xED) as [E|E]; [|lia]. specialize (B3 E). lia. }
    unfold utf8_of. replace (u / 4096) with (u / 64 / 64) by (rewrite N.div_div by lia; reflexivity).
    rewrite D', M', D, M.
    destruct (N.ltb_spec u 0x80); [lia|].
    destruct (N.ltb_spec u 0x800); [destruct (N.eq_dec (b2n a) 0xE0) as [E|E]; [specialize (B2 E); lia|lia]|].
    destruct (N.ltb_spec u 0x10000); [|lia].
    bytes_same. }
  destruct (in_range 0xF0 0xF4 a) eqn:R4; [|discriminate].
  destruct r as [|b [|c [|d r]]]; try discriminate. ranges. cbn [length] in L.
  assert (B : continues b = true /\ (b2n a = 0xF0 -> 0x90 <= b2n b) /\ (b2n a = 0xF4 -> b2n b <= 0x8F)).
  { destruct (N.eqb_spec (b2n a) 0xF0); [|destruct (N.eqb_spec (b2n a) 0xF4)]; ranges;
      (split; [apply in_range_true|]); lia. }
  destruct B as (B1 & B2 & B3). ranges.
  destruct (two_digits (b2n a - 0xF0) (b2n b - 0x80)) as [D M]; [lia|].
  set (h := (b2n a - 0xF0) * 64 + (b2n b - 0x80)) in *.
  destruct (two_digits h (b2n c - 0x80)) as [D' M']; [lia|].
  set (g := h * 64 + (b2n c - 0x80)) in *.
  destruct (two_digits g (b2n d - 0x80)) as [D'' M'']; [lia|].
  set (u := g * 64 + (b2n d - 0x80)) in *.
  apply (ADD u [a; b; c; d]); [| |apply IH; [lia|assumption]].
  { right. destruct (N.eq_dec (b2n a) 0xF4) as [E|E]; destruct (N.eq_dec (b2n a) 0xF0) as [E'|E'];
      try (specialize (B3 E)); try (specialize (B2 E')); lia. }
  unfold utf8_of. replace (u / 262144) with (u / 64 / 64 / 64) by (rewrite !N.div_div by lia; reflexivity).
  replace (u / 4096) with (u / 64 / 64) by (rewrite N.div_div by lia; reflexivity).
  rewrite D'', M'', D', M', D, M.
  assert (U : 0x10000 <= u) by (destruct (N.eq_dec (b2n a) 0xF0) as [E'|E']; try (specialize (B2 E')); lia).
  destruct (N.ltb_spec u 0x80); [lia|]. destruct (N.ltb_spec u 0x800); [lia|]. destruct (N.ltb_spec u 0x10000); [lia|].
  bytes_same.
Qed.

Lemma in_range_of : forall lo hi n, n < 256 -> in_range lo hi (byte_of n) = (lo <=? n) && (n <=? hi).
Proof. intros lo hi n H. unfold in_range. rewrite byte_value by exact H. reflexivity. Qed.

Lemma text_step : forall u l, character u -> utf8_ok (utf8_of u ++ l) = utf8_ok l.
Proof.
  intros u l C. unfold character in C. unfold utf8_of.
  destruct (digits u) as [D0 M0]. destruct (digits (u / 64)) as [D1 M1]. destruct (digits (u / 64 / 64)) as [D2 M2].
  replace (u / 262144) with (u / 64 / 64 / 64) by (rewrite !N.div_div by lia; reflexivity).
  replace (u / 4096) with (u / 64 / 64) by (rewrite N.div_div by lia; reflexivity).
  set (m0 := u mod 64) in *. set (q1 := u / 64) in *. set (m1 := q1 mod 64) in *. set (q2 := q1 / 64) in *.
  set (m2 := q2 mod 64) in *. set (q3 := q2 / 64) in *. clearbody m0 m1 m2 q3.
  Ltac decide_all := repeat match goal with
    | |- context [?x <=? ?y] => destruct (N.leb_spec x y); [|try lia]; try lia; cbn [andb]
    | |- context [?x =? ?y] => destruct (N.eqb_spec x y); try lia; cbn [andb]
    end.
  destruct (N.ltb_spec u 0x80).
  { cbn [app utf8_ok]. rewrite byte_value by lia. decide_all; try reflexivity. }
  destruct (N.ltb_spec u 0x800).
  { cbn [app utf8_ok]. unfold continues. rewrite byte_value, !in_range_of by lia. decide_all; try reflexivity. }
  destruct (N.ltb_spec u 0x10000).
  { cbn [app utf8_ok]. unfold continues. rewrite byte_value, !in_range_of by lia.
    destruct (N.leb_spec (0xE0 + q2) 0x7F); [lia|]. destruct (N.leb_spec (0xE0 + q2) 0xDF); [lia|]. rewrite andb_false_r.
    decide_all; try reflexivity. }
  cbn [app utf8_ok]. unfold continues. rewrite byte_value, !in_range_of by lia.
  destruct (N.leb_spec (0xF0 + q3) 0x7F); [lia|]. destruct (N.leb_spec (0xF0 + q3) 0xDF); [lia|].
  destruct (N.leb_spec (0xF0 + q3) 0xEF); [lia|]. rewrite !andb_false_r.
  decide_all; try reflexivity.
Qed.

Lemma utf8_ok_text : forall l, utf8_ok l = true <-> utf8_text l.
Proof.
  intros l. split; [apply (ok_text (length l)); lia|].
  intros (us & F & ->). induction F as [|u us C F IH]; [reflexivity|].
  cbn [flat_map]. rewrite text_step by exact C. exact IH.
Qed.
