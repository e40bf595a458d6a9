(** Proofs about the pages and their rows. *)
From Verif Require Import Base Types Lemmas Buffer Page Header Column Metadata Decomp Data
  Reader SpecValues SpecBuffer SpecHeader SpecDecomp SpecReader SpecPages ProofValues
  ProofBuffer ProofHeader ProofDecomp ProofMetaInv ProofReader.
Local Open Scope N_scope.

(** ** A buffer holding a page *)

Definition holds (b : mbuf) (pg : bytes) : Prop :=
  wf_mbuf b /\ msize b = lenN pg /\ visible b = map Some pg.

Lemma holds_read : forall b pg off len, holds b pg -> off + len <= lenN pg ->
  read_cells (mem b) off len = Ok (field pg off len).
Proof.
  intros b pg off len (W & M & V) L. unfold wf_mbuf, visible in *.
  apply read_cells_init; [lia|].
  assert (E : mem b = map Some pg ++ skipn (N.to_nat (msize b)) (mem b)).
  { rewrite <- V. symmetry. apply firstn_skipn. }
  rewrite E, slice_app1 by (rewrite lenN_map; exact L). apply slice_map.
Qed.

Lemma holds_uint : forall a b pg e n off, holds b pg -> off + n <= lenN pg ->
  get_uint a e n b off = Ok (value_of e (field pg off n)).
Proof.
  intros a b pg e n off H L. unfold get_uint, get_raw.
  assert (E : (match a with AssertNo | AssertYes => read_cells (mem b) off n end)
              = Ok (field pg off n)).
  { destruct a; apply holds_read; assumption. }
  rewrite E. cbn [bind]. rewrite get_val_value. reflexivity.
Qed.

Lemma field_one : forall pg off, off < lenN pg ->
  exists x, field pg off 1 = [x] /\ byte_at pg off = b2n x.
Proof.
  intros pg off L. unfold field, byte_at, lenN in *.
  destruct (nth_error pg (N.to_nat off)) as [x|] eqn:E.
  - exists x. split; [|reflexivity]. apply nth_error_split in E.
    destruct E as (a & b & -> & LA). rewrite <- LA, skipn_app, Nat.sub_diag, skipn_all.
    reflexivity.
  - apply nth_error_None in E. lia.
Qed.

Lemma holds_byte : forall b pg off, holds b pg -> off < lenN pg ->
  exists x, get_byte b off = Ok x /\ b2n x = byte_at pg off.
Proof.
  intros b pg off H L. unfold get_byte, get_raw. rewrite (holds_read _ pg) by (try exact H; lia).
  destruct (field_one pg off L) as (x & -> & E). cbn. exists x. auto.
Qed.

Lemma holds_string : forall a b pg off len, holds b pg -> off + len <= lenN pg ->
  get_raw a b off len = Ok (field pg off len).
Proof. intros a b pg off len H L. destruct a; apply holds_read; assumption. Qed.

Lemma prefix_eq : forall f, page_bit_offset f = prefix f.
Proof. destruct f; reflexivity. Qed.
Lemma word_eq : forall f, integer_size f = word f.
Proof. destruct f; reflexivity. Qed.

Lemma holds_page_header : forall ly b pg, holds b pg ->
  prefix (ly_format ly) + 6 <= lenN pg ->
  get_page_header (ly_endian ly) (ly_format ly) b
  = Ok (PageHeader (page_type ly pg) (page_blocks ly pg) (page_subs ly pg)).
Proof.
  intros ly b pg H L. unfold get_page_header, get_uint16. rewrite prefix_eq.
  rewrite !(holds_uint _ b pg) by (try exact H; lia). reflexivity.
Qed.

(** ** The table of the subheaders *)

Definition to_sub (s : sub_entry) : page_subheader :=
  PageSubheader (se_pos s) (se_len s) (se_comp s) (se_type s).

Lemma holds_entry : forall ly b pg i, holds b pg -> lenN pg < W64 ->
  prefix (ly_format ly) + 8 + (i + 1) * (3 * word (ly_format ly)) <= lenN pg ->
  se_pos (nth_entry ly pg i) + se_len (nth_entry ly pg i) <= lenN pg ->
  get_page_subheader (ly_endian ly) (ly_format ly) b (subheader_pos (ly_format ly) i)
  = Ok (to_sub (nth_entry ly pg i)).
Proof.
  intros ly b pg i H B T F. pose proof H as (W & M & V).
  unfold get_page_subheader, subheader_pos, subheader_size, get_uinteger.
  rewrite prefix_eq, word_eq.
  set (w := word (ly_format ly)) in *. set (q := prefix (ly_format ly)) in *.
  assert (2 <= w) by (subst w; destruct (ly_format ly); cbn; lia).
  assert (A : forall x y, x + y <= lenN pg -> assert_check b x y = Ok tt).
  { intros x y L. apply assert_check_partial; lia. }
  rewrite A by lia. cbn [bind].
  rewrite !(holds_uint _ b pg) by (try exact H; lia). cbn [bind].
  destruct (holds_byte b pg (q + 8 + i * (3 * w) + w * 2) H) as (x & -> & X); [lia|].
  cbn [bind].
  destruct (holds_byte b pg (q + 8 + i * (3 * w) + w * 2 + 1) H) as (y & -> & Y); [lia|].
  cbn [bind].
  unfold nth_entry in F |- *. fold q w in F |- *. cbn [se_pos se_len] in F.
  rewrite A by exact F. cbn [bind]. unfold to_sub. cbn [se_pos se_len se_comp se_type].
  rewrite X, Y. f_equal. f_equal; f_equal; lia.
Qed.

(** Processing a table is a fold over its entries. *)
Fixpoint fold_subs {T} (body : T -> page_subheader -> res T) (l : list sub_entry) (acc : T)
  : res T :=
  match l with
  | [] => Ok acc
  | s :: l' =>
      acc' <- (if skipped s then Ok acc else body acc (to_sub s)) ;;
      fold_subs body l' acc'
  end.

Lemma process_fold : forall T ly b pg (body : T -> page_subheader -> res T) n i acc,
  holds b pg -> lenN pg < W64 ->
  prefix (ly_format ly) + 8 + (i + N.of_nat n) * (3 * word (ly_format ly)) <= lenN pg ->
  Forall (fun s => se_pos s + se_len s <= lenN pg) (map (nth_entry ly pg) (from i n)) ->
  process_subheaders (ly_endian ly) (ly_format ly) b body n i acc
  = fold_subs body (map (nth_entry ly pg) (from i n)) acc.
Proof.
  intros T ly b pg body n. induction n as [|n IH]; intros i acc H B L F; [reflexivity|].
  cbn [from map fold_subs process_subheaders]. inversion F as [|s l F1 F2]; subst.
  rewrite (holds_entry ly b pg) by
    first [assumption | clear -L; destruct (ly_format ly); cbn [prefix word] in *; lia].
  cbn [bind]. unfold TRUNCATED_SUBHEADER_ID, skipped.
  change (sh_length (to_sub (nth_entry ly pg i))) with (se_len (nth_entry ly pg i)).
  change (sh_compression (to_sub (nth_entry ly pg i))) with (se_comp (nth_entry ly pg i)).
  match goal with |- bind ?m _ = bind ?m' _ => destruct m as [a| | | |]; cbn [bind]; try reflexivity end.
  apply IH; try assumption.
  replace (i + 1 + N.of_nat n) with (i + N.of_nat (Datatypes.S n)) by lia. exact L.
Qed.

Lemma process_page_fold : forall T ly b pg (body : T -> page_subheader -> res T) h acc,
  holds b pg -> lenN pg < W64 -> ph_subheaders_count h = page_subs ly pg ->
  prefix (ly_format ly) + 8 + page_subs ly pg * (3 * word (ly_format ly)) <= lenN pg ->
  Forall (fun s => se_pos s + se_len s <= lenN pg) (entries ly pg) ->
  process_page_subheaders (ly_endian ly) (ly_format ly) b h body acc
  = fold_subs body (entries ly pg) acc.
Proof.
  intros T ly b pg body h acc H B E L F. unfold process_page_subheaders. rewrite E.
  apply process_fold; try assumption. rewrite N.add_0_l, N2Nat.id. exact L.
Qed.

Lemma data_check_entry : forall comp s, skipped s = false ->
  data_subheader_check comp (to_sub s) = is_data_entry comp s.
Proof.
  intros comp s K. unfold skipped in K. apply orb_false_iff in K. destruct K as [K _].
  unfold data_subheader_check, is_data_entry, to_sub, COMPRESSED_SUBHEADER_ID,
    COMPRESSED_SUBHEADER_TYPE. cbn [sh_compression sh_type]. rewrite K. cbn [negb andb].
  destruct comp; [reflexivity| |]; rewrite (orb_comm (se_comp s =? 4)); reflexivity.
Qed.

Lemma skipped_not_data : forall comp s, skipped s = true -> is_data_entry comp s = false.
Proof.
  intros comp s K. unfold skipped in K. unfold is_data_entry. destruct comp; [reflexivity| |];
    (apply orb_true_iff in K; destruct K as [K|K];
     [rewrite K; reflexivity|apply N.eqb_eq in K; rewrite K, andb_false_r; reflexivity]).
Qed.

Lemma fold_data : forall comp l acc,
  fold_subs (fun acc sh => Ok (if data_subheader_check comp sh
                               then acc ++ [(sh_offset sh, sh_length sh)] else acc)) l acc
  = Ok (acc ++ map (fun s => (se_pos s, se_len s)) (filter (is_data_entry comp) l)).
Proof.
  intros comp l. induction l as [|s l IH]; intros acc; cbn [fold_subs filter map].
  - rewrite app_nil_r. reflexivity.
  - destruct (skipped s) eqn:K; cbn [bind].
    + rewrite (skipped_not_data comp s K). apply IH.
    + rewrite (data_check_entry comp s K).
      destruct (is_data_entry comp s); rewrite IH; [|reflexivity].
      cbn [map]. rewrite <- app_assoc. reflexivity.
Qed.

(** ** The rows of a page *)

Definition page_count (pg : page) : N :=
  match pg_kind pg with PMeta l => lenN l | PRows n _ _ => n end.

(** The places which are left. *)
Definition lines (pg : page) : list (N * N) :=
  match pg_kind pg with
  | PMeta l => skipn (N.to_nat (pg_row pg)) l
  | PRows n off len =>
      map (fun k => (off + k * len, len)) (from (pg_row pg) (N.to_nat (n - pg_row pg)))
  end.

Lemma from_length : forall n i, length (from i n) = n.
Proof. induction n; intros; cbn; [|rewrite IHn]; reflexivity. Qed.

Lemma lines_nil : forall pg, pg_row pg <= page_count pg ->
  lines pg = [] -> page_next pg = true.
Proof.
  intros [[l|n off len] k] L H; unfold page_next, lines, page_count in *; cbn [pg_kind pg_row] in *;
    apply N.eqb_eq.
  - apply (f_equal (@length _)) in H. rewrite skipn_length in H. cbn in H. unfold lenN in *. lia.
  - apply (f_equal (@length _)) in H. rewrite map_length, from_length in H. cbn in H. lia.
Qed.

Lemma lines_cons : forall pg p l B, pg_row pg <= page_count pg -> page_count pg < W64 -> B < W64 ->
  Forall (fun p => fst p + snd p <= B) (lines pg) ->
  lines pg = p :: l ->
  page_next pg = false /\ page_read_line pg = Ok p /\ lines (page_inc pg) = l
  /\ pg_row (page_inc pg) <= page_count (page_inc pg) /\ page_count (page_inc pg) < W64.
Proof.
  intros [[l0|n off len] k] p l B L C BB F H;
    unfold page_next, page_inc, page_read_line, lines, page_count in *; cbn [pg_kind pg_row] in *.
  - assert (K : k < lenN l0).
    { apply (f_equal (@length _)) in H. rewrite skipn_length in H. cbn in H. unfold lenN in *. lia. }
    rewrite add64_small by lia.
    assert (E : l0 = firstn (N.to_nat k) l0 ++ p :: l) by (rewrite <- H; symmetry; apply firstn_skipn).
    assert (LF : length (firstn (N.to_nat k) l0) = N.to_nat k).
    { rewrite firstn_length. unfold lenN in K. lia. }
    split; [apply N.eqb_neq; lia|]. split.
    + rewrite E, nth_error_app2 by lia. rewrite LF, Nat.sub_diag. reflexivity.
    + split; [|split; [lia|exact C]]. rewrite E, skipn_app, LF.
      replace (N.to_nat (k + 1)) with (Datatypes.S (N.to_nat k)) by lia.
      rewrite skipn_all2 by lia.
      replace (Datatypes.S (N.to_nat k) - N.to_nat k)%nat with 1%nat by lia. reflexivity.
  - destruct (N.to_nat (n - k)) as [|m] eqn:M; [discriminate H|].
    cbn [from map] in H, F. injection H as <- <-. inversion F as [|x y F1 F2]; subst.
    cbn [fst snd] in F1. rewrite (add64_small k 1) by lia.
    split; [apply N.eqb_neq; lia|]. split.
    + unfold mul64. rewrite (N.mul_comm len k), u64_small by lia. rewrite add64_small by lia.
      reflexivity.
    + split; [|split; [lia|exact C]]. replace (N.to_nat (n - (k + 1))) with m by lia. reflexivity.
Qed.

(** What the library makes of a page it has read. *)
Definition page_for (ly : layout) (pg : bytes) : option page :=
  if page_type ly pg =? 0 then
    match row_places ly pg with [] => None | l => Some (Page (PMeta l) 0) end
  else if page_type ly pg =? 256 then
    Some (Page (PRows (page_blocks ly pg) (prefix (ly_format ly) + 8) (ly_row_length ly)) 0)
  else if is_mix (page_type ly pg) then
    Some (Page (PRows (N.min (ly_row_count ly) (ly_mix_count ly)) (mix_start ly pg)
                  (ly_row_length ly)) 0)
  else None.

Lemma mix_offset_start : forall ly pg h, ph_subheaders_count h = page_subs ly pg ->
  mix_offset (ly_format ly) h = mix_start ly pg.
Proof.
  intros ly pg h E. unfold mix_offset, mix_start. cbv zeta. rewrite E, prefix_eq, word_eq.
  set (n := page_subs ly pg).
  destruct (ly_format ly); cbn [prefix word].
  - pose proof (N.div_mod n 2 ltac:(lia)) as D. pose proof (N.mod_lt n 2 ltac:(lia)) as R.
    set (q := n / 2) in *. set (r := n mod 2) in *.
    assert (K : r = 0 \/ r = 1) by lia. rewrite D. destruct K as [-> | ->].
    + replace (16 + 8 + (2 * q + 0) * (3 * 4)) with (0 + (3 + 3 * q) * 8) by lia.
      rewrite N.mod_add by lia. 
      replace (0 + (3 + 3 * q) * 8 + 7) with ((3 + 3 * q) * 8 + 7) by lia.
      rewrite N.div_add_l by lia. change (7 / 8) with 0. change (0 mod 8) with 0. lia.
    + replace (16 + 8 + (2 * q + 1) * (3 * 4)) with (4 + (4 + 3 * q) * 8) by lia.
      rewrite N.mod_add by lia.
      replace (4 + (4 + 3 * q) * 8 + 7) with ((4 + 3 * q) * 8 + 11) by lia.
      rewrite N.div_add_l by lia. change (11 / 8) with 1. change (4 mod 8) with 4. lia.
  - replace (32 + 8 + n * (3 * 8)) with (0 + (5 + 3 * n) * 8) by lia.
    rewrite N.mod_add by lia.
    replace (0 + (5 + 3 * n) * 8 + 7) with ((5 + 3 * n) * 8 + 7) by lia.
    rewrite N.div_add_l by lia. change (7 / 8) with 0. change (0 mod 8) with 0. lia.
Qed.

Lemma build_page_holds : forall h md b pg ph, let ly := layout_of h md in
  holds b pg -> lenN pg < W64 -> good_page ly pg ->
  ph = PageHeader (page_type ly pg) (page_blocks ly pg) (page_subs ly pg) ->
  build_page (h_endianness h) (h_format h) md b ph = Ok (page_for ly pg).
Proof.
  intros h md b pg ph ly H B (G1 & G2 & G3) ->.
  unfold build_page, page_for. cbn [ph_type ph_block_count].
  unfold PAGE_META_TYPE, PAGE_DATA_TYPE.
  destruct (N.eqb_spec (page_type ly pg) 0) as [T|T].
  - destruct (G3 T) as [G4 G5]. unfold data_subheaders_of_page.
    pose proof (process_page_fold _ ly b pg
      (fun acc sh => Ok (if data_subheader_check (md_compression md) sh
           then acc ++ [(sh_offset sh, sh_length sh)] else acc))
      (PageHeader (page_type ly pg) (page_blocks ly pg) (page_subs ly pg)) []
      H B eq_refl G4 G5) as P.
    change (ly_endian ly) with (h_endianness h) in P. change (ly_format ly) with (h_format h) in P.
    rewrite P, fold_data. cbn [bind app].
    unfold row_places. rewrite (proj2 (N.eqb_eq _ _) T).
    change (ly_compression ly) with (md_compression md).
    destruct (map _ _); reflexivity.
  - rewrite prefix_eq.
    destruct (page_type ly pg =? 256); [reflexivity|].
    change (is_page_mix (page_type ly pg)) with (is_mix (page_type ly pg)).
    destruct (is_mix (page_type ly pg)); [|reflexivity].
    pose proof (mix_offset_start ly pg
      (PageHeader (page_type ly pg) (page_blocks ly pg) (page_subs ly pg)) eq_refl) as M.
    change (ly_format ly) with (h_format h) in M. rewrite M. reflexivity.
Qed.

Lemma page_for_lines : forall ly pg p, page_for ly pg = Some p ->
  lines p = row_places ly pg /\ pg_row p = 0.
Proof.
  intros ly pg p H. unfold page_for, row_places in *.
  destruct (page_type ly pg =? 0).
  - destruct (map _ _); [discriminate|]. injection H as <-. split; reflexivity.
  - destruct (page_type ly pg =? 256).
    + injection H as <-. unfold lines. cbn [pg_kind pg_row].
      rewrite N.sub_0_r. split; reflexivity.
    + destruct (is_mix (page_type ly pg)); [|discriminate].
      injection H as <-. unfold lines. cbn [pg_kind pg_row].
      rewrite N.sub_0_r. split; reflexivity.
Qed.

Lemma page_for_none : forall ly pg, page_for ly pg = None -> row_places ly pg = [].
Proof.
  intros ly pg H. unfold page_for, row_places in *.
  destruct (page_type ly pg =? 0).
  - destruct (map _ _); [reflexivity|discriminate].
  - destruct (page_type ly pg =? 256); [discriminate|].
    destruct (is_mix (page_type ly pg)); [discriminate|reflexivity].
Qed.

(** ** The pages of a file *)

Lemma pages_of_more : forall plen, 0 < plen -> forall n m rest,
  (length rest < n)%nat -> (length rest < m)%nat -> pages_of n plen rest = pages_of m plen rest.
Proof.
  intros plen P. induction n as [|n IH]; intros m rest N M; [lia|].
  destruct m as [|m]; [lia|]. cbn [pages_of].
  destruct (N.leb_spec plen (lenN rest)) as [L|L]; [|reflexivity].
  f_equal. unfold lenN in L. apply IH; rewrite skipn_length; lia.
Qed.

Lemma complete_pages_eq : forall plen rest, 0 < plen ->
  complete_pages plen rest
  = if plen <=? lenN rest
    then field rest 0 plen :: complete_pages plen (skipn (N.to_nat plen) rest) else [].
Proof.
  intros plen rest P. unfold complete_pages at 1. cbn [pages_of].
  destruct (N.leb_spec plen (lenN rest)) as [L|L]; [|reflexivity].
  f_equal. unfold complete_pages, lenN in *. apply pages_of_more; rewrite ?skipn_length; lia.
Qed.

Lemma field_front : forall rest plen, plen <= lenN rest -> lenN (field rest 0 plen) = plen.
Proof. intros. rewrite field_slice. apply lenN_slice_le. lia. Qed.

Lemma complete_pages_length : forall plen rest, 0 < plen ->
  Forall (fun pg => lenN pg = plen) (complete_pages plen rest).
Proof.
  intros plen rest P. unfold complete_pages. generalize (Datatypes.S (length rest)).
  intros n. revert rest. induction n as [|n IH]; intros rest; cbn [pages_of]; [constructor|].
  destruct (N.leb_spec plen (lenN rest)) as [L|L]; constructor; [|apply IH].
  apply field_front. exact L.
Qed.

(** ** Reading a page of a file *)

(** A reader which has its file open and its page buffer at its size. *)
Definition reading (plen : N) (p : pstate fstate) (rest : bytes) : Prop :=
  ps_is p = FState rest false false /\ wf_mbuf (ps_buf p) /\ msize (ps_buf p) = plen.

Definition header_of (ly : layout) (pg : bytes) : page_header :=
  PageHeader (page_type ly pg) (page_blocks ly pg) (page_subs ly pg).

Lemma overwritten_all : forall (data : bytes) l, lenN l = lenN data ->
  overwritten 0 data l = map Some data.
Proof.
  intros data l H. unfold overwritten, lenN in *. cbn [N.to_nat firstn app].
  rewrite skipn_all2 by lia. apply app_nil_r.
Qed.

Lemma read_page_some : forall c ly p rest,
  0 < ly_page_length ly -> ly_page_length ly < 2 ^ 63 ->
  reading (ly_page_length ly) p rest -> ly_page_length ly <= lenN rest ->
  prefix (ly_format ly) + 6 <= ly_page_length ly ->
  let pg := field rest 0 (ly_page_length ly) in
  exists p', read_page c file_source (ly_endian ly) (ly_format ly) (ly_page_length ly) p
             = (Ok true, p')
    /\ reading (ly_page_length ly) p' (skipn (N.to_nat (ly_page_length ly)) rest)
    /\ holds (ps_buf p') pg /\ ps_hdr p' = header_of ly pg.
Proof.
  intros c ly p rest P0 P1 (RI & RW & RM) L X pg. set (plen := ly_page_length ly) in *.
  unfold read_page. rewrite RI. cbn [src_eof file_source file_eof fs_eof].
  assert (E : src_read file_source (FState rest false false) plen
              = (FState (skipn (N.to_nat plen) rest) false false, pg, true)).
  { cbn [src_read file_source]. unfold file_read. cbn [fs_eof fs_fail fs_rest orb].
    destruct (N.leb_spec (2 ^ 63) plen); [lia|].
    destruct (N.leb_spec plen (lenN rest)); [|lia]. reflexivity. }
  assert (LP : lenN pg = plen) by (apply field_front; exact L).
  destruct (read_stream_spec _ c file_source (ps_buf p) _ plen 0 _ _ _ RW
              ltac:(unfold W64; lia) ltac:(right; lia) E ltac:(lia)) as (b' & R & W' & M' & V').
  rewrite R. cbn [mem msize].
  assert (H : holds b' pg).
  { split; [exact W'|]. split; [rewrite M', LP; lia|]. rewrite V'. apply overwritten_all.
    rewrite resized_len. lia. }
  rewrite (holds_page_header ly b' pg H) by lia.
  eexists. split; [reflexivity|]. split; [|split; [exact H|reflexivity]].
  split; [reflexivity|]. split; [exact W'|]. cbn [ps_buf]. rewrite M'. lia.
Qed.

Lemma read_page_none : forall c ly p rest,
  ly_page_length ly < 2 ^ 63 ->
  reading (ly_page_length ly) p rest -> lenN rest < ly_page_length ly ->
  exists p', read_page c file_source (ly_endian ly) (ly_format ly) (ly_page_length ly) p
             = (Ok false, p').
Proof.
  intros c ly p rest P1 (RI & RW & RM) L. set (plen := ly_page_length ly) in *.
  unfold read_page. rewrite RI. cbn [src_eof file_source file_eof fs_eof].
  assert (E : src_read file_source (FState rest false false) plen
              = (FState [] true true, rest, false)).
  { cbn [src_read file_source]. unfold file_read. cbn [fs_eof fs_fail fs_rest orb].
    destruct (N.leb_spec (2 ^ 63) plen); [lia|].
    destruct (N.leb_spec plen (lenN rest)); [lia|]. reflexivity. }
  destruct (read_stream_spec _ c file_source (ps_buf p) _ plen 0 _ _ _ RW
              ltac:(unfold W64; lia) ltac:(right; lia) E ltac:(lia)) as (b' & R & _).
  rewrite R. cbn. eexists. reflexivity.
Qed.

(** What read_next_page does: it skips the pages without rows. *)
Definition empty_page (ly : layout) (pg : bytes) : Prop := page_for ly pg = None.

Lemma read_next_page_file : forall c h md, let ly := layout_of h md in
  0 < ly_page_length ly -> ly_page_length ly < 2 ^ 63 ->
  forall fuel p rest, reading (ly_page_length ly) p rest ->
  let pages := complete_pages (ly_page_length ly) rest in
  Forall (good_page ly) pages -> (length pages < fuel)%nat ->
  exists pre x p',
    read_next_page c file_source (ly_endian ly) (ly_format ly) (ly_page_length ly) md fuel p
    = (Ok x, p') /\ Forall (empty_page ly) pre /\
    match x with
    | None => pages = pre
    | Some pg => exists P rest', pages = pre ++ P :: complete_pages (ly_page_length ly) rest'
        /\ reading (ly_page_length ly) p' rest' /\ holds (ps_buf p') P
        /\ page_for ly P = Some pg
    end.
Proof.
  intros c h md ly P0 P1. induction fuel as [|fuel IH]; intros p rest R pages G F; [lia|].
  cbn [read_next_page]. subst pages. rewrite complete_pages_eq in G, F |- * by exact P0.
  destruct (N.leb_spec (ly_page_length ly) (lenN rest)) as [L|L].
  - inversion G as [|? ? G1 G2]; subst. pose proof G1 as (G3 & _).
    rewrite field_front in G3 by exact L.
    destruct (read_page_some c ly p rest P0 P1 R L G3) as (p1 & RP & R1 & H1 & K1).
    rewrite RP.
    pose proof (build_page_holds h md (ps_buf p1) _ (ps_hdr p1) H1) as B.
    rewrite field_front in B by exact L. specialize (B ltac:(unfold W64; lia) G1 K1).
    change (h_endianness h) with (ly_endian ly) in B. change (h_format h) with (ly_format ly) in B.
    rewrite B. fold ly. destruct (page_for ly (field rest 0 (ly_page_length ly))) as [pg|] eqn:PF.
    + exists [], (Some pg), p1. split; [reflexivity|]. split; [constructor|].
      eexists _, _. split; [reflexivity|]. split; [exact R1|]. split; [exact H1|exact PF].
    + destruct (IH p1 _ R1 G2 ltac:(cbn [length] in F; lia)) as (pre & x & p' & E & EP & X).
      rewrite E. exists (field rest 0 (ly_page_length ly) :: pre), x, p'.
      split; [reflexivity|]. split; [constructor; [exact PF|exact EP]|].
      destruct x as [pg|].
      * destruct X as (P & rest' & X1 & X2). exists P, rest'. split; [|exact X2].
        rewrite X1. reflexivity.
      * rewrite X. reflexivity.
  - destruct (read_page_none c ly p rest P1 R L) as (p' & RP). rewrite RP.
    exists [], None, p'. split; [reflexivity|]. split; [constructor|reflexivity].
Qed.

(** ** Extracting a row *)

Definition dec_kind (comp : compression) (d : decompressor) : Prop :=
  match comp, d with
  | CompNone, DNone | CompRDC, DRDC _ | CompRLE, DRLE _ => True
  | _, _ => False
  end.

(** What is obtained for a row, compared with its bytes. *)
Definition row_matches (rl : N) (x : res pview) (row : res bytes) : Prop :=
  match row with
  | Ok v => exists p, x = Ok p /\ seen_row rl p = Ok v
  | Exn e => x = Exn e
  | Abort => x = Abort
  | Undef u => x = Undef u
  | Fuel => x = Fuel
  end.

(** A place which can be used. *)
Definition usable (ly : layout) (P : bytes) (place : N * N) : Prop :=
  fst place + snd place <= lenN P
  /\ (ly_compression ly = CompNone -> ly_row_length ly <= snd place).

Lemma rle_mem : forall n s d r, row_buffer n d -> n < row_limit ->
  fst (rle s d) = Ok r -> d_mem (snd (rle s d)) = map Some r.
Proof.
  intros n s d r B L H. destruct (rle_refines n s d B L) as [W _]. unfold rle in *.
  destruct (finish (rle_loop _ _ (dst_reset d))) as [x e] eqn:F. cbn [fst snd] in *. subst x.
  eapply finish_mem; eassumption.
Qed.

Lemma rdc_mem : forall n s d r, row_buffer n d -> n < row_limit ->
  fst (rdc s d) = Ok r -> d_mem (snd (rdc s d)) = map Some r.
Proof.
  intros n s d r B L H. destruct (rdc_refines n s d B L) as [W _]. unfold rdc in *.
  destruct (finish (rdc_loop _ _ _ _ (dst_reset d))) as [x e] eqn:F. cbn [fst snd] in *. subst x.
  eapply finish_mem; eassumption.
Qed.

Lemma extract_row : forall S c h md off len (d : dstate S) P x d', let ly := layout_of h md in
  holds (ps_buf (ds_p d)) P -> lenN P = ly_page_length ly -> lenN P < W64 ->
  dec_ok md (ds_dec d) -> dec_kind (ly_compression ly) (ds_dec d) ->
  usable ly P (off, len) ->
  extract_row_values c h md off len d = (x, d') ->
  row_matches (ly_row_length ly) x (row_content ly P (off, len))
  /\ dec_kind (ly_compression ly) (ds_dec d').
Proof.
  intros S c h md off len d P x d' ly H LP B O K (U1 & U2) E. cbn [fst snd] in U1, U2.
  unfold extract_row_values in E. rewrite add64_small in E by lia.
  change (h_page_length h) with (ly_page_length ly) in E.
  change (md_row_length md) with (ly_row_length ly) in E.
  assert (FA : fmt_assert c (off + len <=? ly_page_length ly) = Ok tt).
  { unfold fmt_assert. destruct (N.leb_spec (off + len) (ly_page_length ly)); [|lia].
    destruct (ndebug c); reflexivity. }
  rewrite FA in E. unfold row_content. change (md_row_length md) with (ly_row_length ly) in E.
  destruct (N.ltb_spec len (ly_row_length ly)) as [L|L].
  - rewrite (holds_read _ P) in E by assumption.
    destruct (ly_compression ly) eqn:C; destruct (ds_dec d) as [|z|z] eqn:D;
      cbn [dec_kind] in K; try contradiction.
    + specialize (U2 eq_refl). lia.
    + destruct O as [O1 O2]. change (md_row_length md) with (ly_row_length ly) in O1, O2.
      assert (F : row_buffer (ly_row_length ly) (fresh (ly_row_length ly))).
      { split; [reflexivity|]. cbn [d_mem fresh]. rewrite lenN_repeat. apply N2Nat.id. }
      pose proof (rle_same _ (field P off len) z _ O1 F O2) as [R1 _].
      pose proof (fun v => rle_mem _ (field P off len) z v O1 O2) as R2.
      pose proof (rle_buffer _ (field P off len) z O1 O2) as [_ R3].
      destruct (rle (field P off len) z) as [r z'] eqn:RZ.
      destruct (rle (field P off len) (fresh (ly_row_length ly))) as [r2 z2] eqn:RF.
      cbn [fst snd] in R1, R2, R3 |- *. subst r2. injection E as <- <-. cbn [ds_dec].
      split; [|exact I].
      destruct r as [v| | | |]; cbn [bind row_matches]; try reflexivity.
      eexists. split; [reflexivity|]. unfold seen_row. cbn [pv_mem pv_off].
      pose proof (R2 v eq_refl) as M1. rewrite M1 in R3 |- *. rewrite lenN_map in R3.
      rewrite read_cells_map by lia. rewrite <- R3. f_equal. apply slice_all.
    + destruct O as [O1 O2]. change (md_row_length md) with (ly_row_length ly) in O1, O2.
      assert (F : row_buffer (ly_row_length ly) (fresh (ly_row_length ly))).
      { split; [reflexivity|]. cbn [d_mem fresh]. rewrite lenN_repeat. apply N2Nat.id. }
      pose proof (rdc_same _ (field P off len) z _ O1 F O2) as [R1 _].
      pose proof (fun v => rdc_mem _ (field P off len) z v O1 O2) as R2.
      pose proof (rdc_buffer _ (field P off len) z O1 O2) as [_ R3].
      destruct (rdc (field P off len) z) as [r z'] eqn:RZ.
      destruct (rdc (field P off len) (fresh (ly_row_length ly))) as [r2 z2] eqn:RF.
      cbn [fst snd] in R1, R2, R3 |- *. subst r2. injection E as <- <-. cbn [ds_dec].
      split; [|exact I].
      destruct r as [v| | | |]; cbn [bind row_matches]; try reflexivity.
      eexists. split; [reflexivity|]. unfold seen_row. cbn [pv_mem pv_off].
      pose proof (R2 v eq_refl) as M1. rewrite M1 in R3 |- *. rewrite lenN_map in R3.
      rewrite read_cells_map by lia. rewrite <- R3. f_equal. apply slice_all.
  - injection E as <- <-. split; [|exact K]. cbn [row_matches]. eexists. split; [reflexivity|].
    unfold seen_row. cbn [pv_mem pv_off]. apply holds_read; [exact H|lia].
Qed.

(** ** The rows which are left *)

Lemma count_to_length : forall n, lenN (count_to n) = n.
Proof. intros n. unfold lenN, count_to. rewrite from_length. lia. Qed.

Lemma value_of_2 : forall e l, lenN l <= 2 -> value_of e l < 65536.
Proof.
  intros e l H. rewrite <- get_val_value.
  assert (E : get_val e l < 256 ^ lenN l) by (apply get_val_lt).
  eapply N.lt_le_trans; [exact E|]. change 65536 with (256 ^ 2).
  apply N.pow_le_mono_r; lia.
Qed.

Lemma page_number_lt : forall ly i pg, page_number ly i pg < 65536.
Proof.
  intros. unfold page_number. apply value_of_2. rewrite field_slice, lenN_slice. lia.
Qed.

Lemma page_for_count : forall ly P pg, ly_row_count ly < W64 -> page_for ly P = Some pg ->
  page_count pg < W64.
Proof.
  intros ly P pg R H. unfold page_for in H.
  destruct (page_type ly P =? 0) eqn:T.
  - destruct (row_places ly P) as [|a l] eqn:E; [discriminate|]. injection H as <-.
    unfold page_count. cbn [pg_kind]. rewrite <- E. unfold row_places. rewrite T.
    rewrite lenN_map. unfold entries.
    assert (F : forall A (f : A -> bool) l, lenN (filter f l) <= lenN l).
    { intros A f l0. unfold lenN. induction l0 as [|x l0 IH]; cbn; [lia|].
      destruct (f x); cbn [length]; lia. }
    eapply N.le_lt_trans; [apply F|]. rewrite lenN_map, count_to_length.
    pose proof (page_number_lt ly 2 P). unfold page_subs, W64. lia.
  - destruct (page_type ly P =? 256).
    + injection H as <-. unfold page_count. cbn [pg_kind].
      pose proof (page_number_lt ly 1 P). unfold page_blocks, W64. lia.
    + destruct (is_mix (page_type ly P)); [|discriminate]. injection H as <-.
      unfold page_count. cbn [pg_kind]. lia.
Qed.

Lemma good_usable : forall ly P, good_page ly P -> Forall (usable ly P) (row_places ly P).
Proof.
  intros ly P (_ & G & _). rewrite Forall_forall in G |- *. intros p I.
  split; [apply G; exact I|]. intros C. unfold row_places in I. rewrite C in I.
  destruct (page_type ly P =? 0).
  - exfalso. apply in_map_iff in I. destruct I as (s & _ & I). apply filter_In in I.
    destruct I as [_ I]. cbn in I. discriminate.
  - destruct (page_type ly P =? 256).
    + apply in_map_iff in I. destruct I as (k & <- & _). cbn [snd]. lia.
    + destruct (is_mix (page_type ly P)); [|contradiction].
      apply in_map_iff in I. destruct I as (k & <- & _). cbn [snd]. lia.
Qed.

(** The pages which are still in the file. *)
Definition good_pages (c : cfg) (ly : layout) (rest : bytes) : Prop :=
  let pages := complete_pages (ly_page_length ly) rest in
  Forall (good_page ly) pages /\ Forall (not_empty ly) pages /\ (length pages < page_fuel c)%nat.

Inductive todo (c : cfg) (ly : layout) (d : dstate fstate) : list (res bytes) -> Prop :=
| TodoEnd : ds_page d = None -> todo c ly d []
| TodoPage : forall pg P rest,
    ds_page d = Some pg ->
    reading (ly_page_length ly) (ds_p d) rest -> holds (ps_buf (ds_p d)) P ->
    pg_row pg <= page_count pg -> page_count pg < W64 ->
    Forall (usable ly P) (lines pg) -> good_pages c ly rest ->
    todo c ly d (map (row_content ly P) (lines pg)
                 ++ flat_map (page_rows ly) (complete_pages (ly_page_length ly) rest)).

Lemma empty_pages_rows : forall ly l, Forall (empty_page ly) l -> flat_map (page_rows ly) l = [].
Proof.
  intros ly l. induction l as [|p l IH]; intros F; [reflexivity|].
  inversion F; subst. cbn [flat_map]. rewrite IH by assumption. rewrite app_nil_r.
  unfold page_rows. rewrite page_for_none by assumption. reflexivity.
Qed.

Lemma page_for_not_empty : forall ly P pg, not_empty ly P -> page_for ly P = Some pg ->
  row_places ly P <> [].
Proof.
  intros ly P pg N H. unfold page_for in H. unfold not_empty in N.
  destruct (page_type ly P =? 0) eqn:T.
  - destruct (row_places ly P); [discriminate|]. intros K. discriminate.
  - destruct (N.eqb_spec (page_type ly P) 256) as [E|E].
    + apply N. left. exact E.
    + destruct (is_mix (page_type ly P)); [|discriminate]. apply N. right. reflexivity.
Qed.

Definition page_bounds (ly : layout) : Prop :=
  0 < ly_page_length ly /\ ly_page_length ly < 2 ^ 63 /\ ly_row_count ly < W64.

(** next(): either the rows are over, or there is a current row. *)
Lemma data_next_todo : forall c h md d l x d', let ly := layout_of h md in
  page_bounds ly -> todo c ly d l -> ds_row d <> md_row_count md ->
  data_next c file_source h md d = (x, d') ->
  todo c ly d' l /\ ds_row d' = ds_row d /\ ds_dec d' = ds_dec d /\
  match l with
  | [] => x = Ok false /\ ds_page d' = None
  | r :: l' => x = Ok true /\ exists pg P place,
      ds_page d' = Some pg /\ holds (ps_buf (ds_p d')) P /\ lenN P = ly_page_length ly
      /\ usable ly P place /\ page_read_line pg = Ok place /\ row_content ly P place = r
      /\ forall i dec, todo c ly (DState (ds_p d') dec i (Some (page_inc pg))) l'
  end.
Proof.
  intros c h md d l x d' ly (B1 & B2 & B3) T N H. unfold data_next in H.
  destruct (N.eqb_spec (ds_row d) (md_row_count md)); [contradiction|].
  destruct T as [T|pg P rest T1 T2 T3 T4 T5 T6 (T7 & T8 & T9)].
  - rewrite T in H. injection H as <- <-.
    split; [apply TodoEnd; exact T|]. auto.
  - assert (LP : lenN P = ly_page_length ly).
    { destruct T2 as (_ & _ & T2). destruct T3 as (_ & T3 & _). congruence. }
    rewrite T1 in H. destruct (lines pg) as [|place ls] eqn:LN.
    + rewrite lines_nil in H by assumption.
      destruct (read_next_page_file c h md B1 B2 (page_fuel c) (ds_p d) rest T2 T7 T9)
        as (pre & y & p' & E & EP & Y).
      change (h_endianness h) with (ly_endian ly) in H.
      change (h_format h) with (ly_format ly) in H.
      change (h_page_length h) with (ly_page_length ly) in H.
      fold ly in E, EP, Y. rewrite E in H. cbn [map app].
      destruct y as [pg'|].
      * destruct Y as (P' & rest' & Y1 & Y2 & Y3 & Y4). injection H as <- <-.
        rewrite Y1 in T7, T8, T9 |- *. apply Forall_app in T7, T8.
        destruct T7 as [_ T7]. destruct T8 as [_ T8].
        inversion T7 as [|? ? G7 T7']; subst. inversion T8 as [|? ? G8 T8']; subst.
        rewrite flat_map_app, empty_pages_rows by exact EP. cbn [flat_map app].
        destruct (page_for_lines _ _ _ Y4) as [L1 L2].
        pose proof (good_usable _ _ G7) as U. pose proof (page_for_not_empty _ _ _ G8 Y4) as NE.
        pose proof (page_for_count _ _ _ B3 Y4) as CT.
        assert (PR : page_rows ly P' = map (row_content ly P') (lines pg'))
          by (unfold page_rows; rewrite L1; reflexivity).
        rewrite PR. rewrite <- L1 in U, NE.
        rewrite app_length in T9. cbn [length] in T9.
        assert (GP : good_pages c ly rest').
        { split; [exact T7'|]. split; [exact T8'|]. lia. }
        assert (R0 : pg_row pg' <= page_count pg') by lia.
        assert (LP' : lenN P' = ly_page_length ly).
        { destruct Y2 as (_ & _ & Y2). destruct Y3 as (_ & Y3 & _). congruence. }
        split; [|split; [reflexivity|split; [reflexivity|]]].
        -- apply TodoPage; try assumption. reflexivity.
        -- destruct (lines pg') as [|place ls] eqn:LN'; [congruence|].
           cbn [map app]. split; [reflexivity|].
           pose proof (lines_cons pg' place ls (ly_page_length ly) R0 CT ltac:(unfold W64; lia))
             as LC.
           rewrite LN' in LC. specialize (LC ltac:(revert U; apply Forall_impl; intros a A; destruct A as [A _]; lia)
                                            eq_refl).
           destruct LC as (C1 & C2 & C3 & C4 & C5). inversion U as [|? ? U1 U2]; subst.
           exists pg', P', place. cbn [ds_page ds_p].
           split; [reflexivity|]. split; [exact Y3|]. split; [exact LP'|].
           split; [exact U1|]. split; [exact C2|]. split; [reflexivity|].
           intros i dec. apply TodoPage; try assumption. reflexivity.
      * injection H as <- <-. rewrite Y, empty_pages_rows by exact EP.
        split; [apply TodoEnd; reflexivity|]. auto.
    + pose proof (lines_cons pg place ls (ly_page_length ly) T4 T5 ltac:(unfold W64; lia)) as LC.
      rewrite LN in LC. specialize (LC ltac:(revert T6; apply Forall_impl; intros a A; destruct A as [A _]; lia)
                                            eq_refl).
      destruct LC as (C1 & C2 & C3 & C4 & C5). rewrite C1 in H. injection H as <- <-.
      cbn [map app]. inversion T6 as [|? ? U1 U2]; subst.
      split; [|split; [reflexivity|split; [reflexivity|split; [reflexivity|]]]].
      * replace (row_content ly P place :: map (row_content ly P) (lines (page_inc pg))
                 ++ flat_map (page_rows ly) (complete_pages (ly_page_length ly) rest))
          with (map (row_content ly P) (lines pg)
                 ++ flat_map (page_rows ly) (complete_pages (ly_page_length ly) rest))
          by (rewrite LN; reflexivity).
        apply TodoPage; try assumption. 2:{ split; auto. } rewrite LN. constructor; assumption.
      * exists pg, P, place.
        split; [exact T1|]. split; [exact T3|]. split; [exact LP|].
        split; [exact U1|]. split; [exact C2|]. split; [reflexivity|].
        intros i dec. apply TodoPage; try assumption; [reflexivity|].
        split; auto.
Qed.

(** ** The reader is a cursor over the rows *)

Definition row_limited (md : metadata) (i : N) (l : list (res bytes)) : list (res bytes) :=
  firstn (N.to_nat (md_row_count md - i)) l.

Record sim (c : cfg) (h : header) (md : metadata) (d : dstate fstate) (cu : cursor) : Prop := {
  sim_wf : wf_d md d;
  sim_bounds : page_bounds (layout_of h md);
  sim_kind : dec_kind (md_compression md) (ds_dec d);
  sim_todo : exists l, todo c (layout_of h md) d l /\ cu = (ds_row d, row_limited md (ds_row d) l)
}.

Lemma data_next_sim : forall c h md d i l x d',
  sim c h md d (i, l) -> data_next c file_source h md d = (x, d') ->
  i = ds_row d /\
  match l with
  | [] => x = Ok false /\ sim c h md d' (i, [])
  | r :: l' => x = Ok true /\ wf_d md d' /\ ds_row d' = ds_row d
      /\ ds_row d <> md_row_count md /\ dec_kind (md_compression md) (ds_dec d')
      /\ exists pg P place,
      ds_page d' = Some pg /\ holds (ps_buf (ds_p d')) P
      /\ lenN P = h_page_length h
      /\ usable (layout_of h md) P place /\ page_read_line pg = Ok place
      /\ row_content (layout_of h md) P place = r
      /\ forall dec, dec_ok md dec -> dec_kind (md_compression md) dec ->
           sim c h md (DState (ds_p d') dec (ds_row d + 1) (Some (page_inc pg))) (i + 1, l')
  end.
Proof.
  intros c h md d i l x d' [W B K (l0 & T & E)] H. injection E as -> ->. split; [reflexivity|].
  destruct (N.eq_dec (ds_row d) (md_row_count md)) as [R|R].
  - assert (L : row_limited md (ds_row d) l0 = []).
    { unfold row_limited. rewrite R, N.sub_diag. reflexivity. }
    rewrite L. unfold data_next in H. rewrite (proj2 (N.eqb_eq _ _) R) in H. injection H as <- <-.
    split; [reflexivity|]. split; try assumption. exists l0. split; [exact T|]. rewrite L. reflexivity.
  - pose proof (data_next_todo c h md d l0 x d' B T R H) as (T' & R' & D' & X).
    pose proof W as (W1 & W2 & W3).
    assert (W' : wf_d md d') by (unfold wf_d; rewrite R', D'; exact W).
    destruct l0 as [|r l0].
    + unfold row_limited. rewrite firstn_nil. destruct X as [-> X]. split; [reflexivity|].
      split; try assumption; [rewrite D'; exact K|]. exists []. split; [exact T'|].
      rewrite R'. unfold row_limited. rewrite firstn_nil. reflexivity.
    + destruct X as [-> (pg & P & place & X1 & X2 & X3 & X4 & X5 & X6 & X7)].
      unfold row_limited.
      replace (N.to_nat (md_row_count md - ds_row d))
        with (Datatypes.S (N.to_nat (md_row_count md - (ds_row d + 1)))) by lia.
      cbn [firstn]. split; [reflexivity|]. split; [exact W'|]. split; [exact R'|].
      split; [exact R|]. split; [rewrite D'; exact K|].
      exists pg, P, place. do 6 (split; [assumption|]). intros dec O KD.
      split; [|exact B|exact KD|].
      * unfold wf_d. cbn [ds_row ds_dec]. split; [lia|]. split; [exact W2|exact O].
      * exists l0. split; [apply X7|]. reflexivity.
Qed.

Lemma data_read_line_sim : forall S (md : metadata) (d : dstate S) pg place,
  wf_d md d -> ds_row d <> md_row_count md -> ds_page d = Some pg ->
  page_read_line pg = Ok place ->
  data_read_line d
  = (Ok place, DState (ds_p d) (ds_dec d) (ds_row d + 1) (Some (page_inc pg))).
Proof.
  intros S md d pg place W R E L. unfold data_read_line. rewrite E, L.
  destruct (row_inc _ _ _ W R) as [-> _]. reflexivity.
Qed.

Lemma read_line_sim : forall c h md d i l x d',
  sim c h md d (i, l) -> read_line c file_source h md d = (x, d') ->
  i = ds_row d /\
  match l with
  | [] => x = Ok None /\ sim c h md d' (i, [])
  | r :: l' =>
      sim c h md d' (i + 1, l') /\ exists y, row_matches (md_row_length md) y r
      /\ x = (v <- y ;; Ok (Some v))
  end.
Proof.
  intros c h md d i l x d' S H. unfold read_line in H.
  destruct (data_next c file_source h md d) as [n d1] eqn:N.
  pose proof (data_next_sim _ _ _ _ _ _ _ _ S N) as [I X]. split; [exact I|].
  destruct l as [|r l'].
  - destruct X as [-> X]. injection H as <- <-. auto.
  - destruct X as (-> & W & R & NR & K & pg & P & place & X1 & X2 & X3 & X4 & X5 & X6 & X7).
    rewrite <- R in NR.
    rewrite (data_read_line_sim _ md d1 pg place W NR X1 X5) in H. destruct place as [off len].
    rewrite R in H.
    set (d2 := DState (ds_p d1) (ds_dec d1) (ds_row d + 1) (Some (page_inc pg))) in *.
    destruct (extract_row_values c h md off len d2) as [y d3] eqn:EX.
    assert (O : dec_ok md (ds_dec d2)) by apply W.
    pose proof (extract_props _ _ _ _ _ _ _ _ _ O EX) as (Y1 & Y2 & Y3 & Y4 & _).
    assert (LP : lenN P < W64).
    { pose proof (sim_bounds _ _ _ _ _ S) as (_ & B & _). cbn [ly_page_length layout_of] in B.
      unfold W64. lia. }
    pose proof (extract_row _ c h md off len d2 P y d3 X2 X3 LP O K X4 EX) as [M1 M2].
    injection H as <- <-. rewrite X6 in M1. split.
    + specialize (X7 (ds_dec d3) Y4 M2).
      replace d3 with (DState (ds_p d3) (ds_dec d3) (ds_row d3) (ds_page d3)) by (destruct d3; reflexivity).
      rewrite Y1, Y2, Y3. exact X7.
    + exists y. split; [exact M1|reflexivity].
Qed.

(** The reader. *)
Definition sim_r (c : cfg) (r : rstate fstate) (cu : cursor) : Prop :=
  sim c (rs_h r) (rs_md r) (rs_d r) cu.

Definition row_len (r : rstate fstate) : N := md_row_length (rs_md r).

Lemma read_row_sim : forall c r cu x r' ev, sim_r c r cu ->
  read_row c file_source r = (x, r', ev) ->
  sim_r c r' (snd (fst (cur_read_row cu))) /\ rs_md r' = rs_md r /\
  (x, map (seen_event (row_len r)) ev) = (fst (fst (cur_read_row cu)), snd (cur_read_row cu)).
Proof.
  intros c r [i l] x r' ev S H. unfold read_row in H.
  destruct (read_line c file_source (rs_h r) (rs_md r) (rs_d r)) as [y d'] eqn:L.
  pose proof (read_line_sim _ _ _ _ _ _ _ _ S L) as [I X].
  destruct l as [|a l].
  - destruct X as [-> X]. injection H as <- <- <-. cbn. auto.
  - destruct X as (X & z & M & ->). destruct a as [v|e| |u|]; cbn [row_matches] in M.
    + destruct M as (p & -> & M). injection H as <- <- <-. cbn [cur_read_row fst snd].
      split; [exact X|]. split; [reflexivity|]. cbn. fold (row_len r) in M. rewrite M, I. reflexivity.
    + subst z. injection H as <- <- <-. cbn. auto.
    + subst z. injection H as <- <- <-. cbn. auto.
    + subst z. injection H as <- <- <-. cbn. auto.
    + subst z. injection H as <- <- <-. cbn. auto.
Qed.

Lemma read_rows_sim : forall c n r cu x r' ev, sim_r c r cu ->
  read_rows c file_source n r = (x, r', ev) ->
  sim_r c r' (snd (fst (cur_read_rows n cu))) /\ rs_md r' = rs_md r /\
  (x, map (seen_event (row_len r)) ev)
  = (fst (fst (cur_read_rows n cu)), snd (cur_read_rows n cu)).
Proof.
  intros c n. induction n as [|n IH]; intros r cu x r' ev S H; cbn [read_rows cur_read_rows] in *.
  - injection H as <- <- <-. auto.
  - destruct (read_row c file_source r) as [[y r1] ev1] eqn:R.
    pose proof (read_row_sim _ _ _ _ _ _ S R) as (S1 & MD & E).
    destruct (cur_read_row cu) as [[z cu1] ce1] eqn:CR. cbn [fst snd] in S1, E.
    injection E as -> <-.
    destruct z as [[|]| | | |].
    + destruct (read_rows c file_source n r1) as [[w r2] ev2] eqn:RR.
      pose proof (IH _ _ _ _ _ S1 RR) as (S2 & MD2 & E2).
      destruct (cur_read_rows n cu1) as [[w' cu2] ce2] eqn:CRR. cbn [fst snd] in *.
      injection E2 as -> <-. injection H as <- <- <-.
      split; [exact S2|]. split; [congruence|]. rewrite map_app. unfold row_len in *. rewrite MD.
      reflexivity.
    + injection H as <- <- <-. auto.
    + injection H as <- <- <-. auto.
    + injection H as <- <- <-. auto.
    + injection H as <- <- <-. auto.
    + injection H as <- <- <-. auto.
Qed.

Lemma read_all_sim : forall c m n r cu x r' ev, sim_r c r cu ->
  (length (snd cu) < n)%nat -> (length (snd cu) < m)%nat ->
  read_all_loop c file_source n r = (x, r', ev) ->
  sim_r c r' (snd (fst (cur_read_rows m cu))) /\ rs_md r' = rs_md r /\
  x = rmap (fun _ => tt) (fst (fst (cur_read_rows m cu)))
  /\ map (seen_event (row_len r)) ev = snd (cur_read_rows m cu).
Proof.
  intros c m n. revert m. induction n as [|n IH]; intros m r cu x r' ev S N M H; [lia|].
  destruct m as [|m]; [lia|]. cbn [read_all_loop cur_read_rows] in *.
  destruct (read_row c file_source r) as [[y r1] ev1] eqn:R.
  pose proof (read_row_sim _ _ _ _ _ _ S R) as (S1 & MD & E).
  destruct cu as [i l]. cbn [snd] in N, M.
  destruct (cur_read_row (i, l)) as [[z cu1] ce1] eqn:CR. cbn [fst snd] in S1, E.
  injection E as -> <-.
  destruct z as [[|]| | | |].
  - destruct (read_all_loop c file_source n r1) as [[w r2] ev2] eqn:RR.
    assert (L : (length (snd cu1) < n /\ length (snd cu1) < m)%nat).
    { destruct l as [|[]]; cbn in CR; try discriminate. injection CR as <- _. cbn in *. lia. }
    destruct L as [L1 L2].
    pose proof (IH _ _ _ _ _ _ S1 L1 L2 RR) as (S2 & MD2 & X2 & E2).
    destruct (cur_read_rows m cu1) as [[w' cu2] ce2] eqn:CRR. cbn [fst snd] in *.
    injection H as <- <- <-. split; [exact S2|]. split; [congruence|]. split; [exact X2|].
    rewrite map_app. unfold row_len in *. rewrite <- E2, MD. reflexivity.
  - injection H as <- <- <-. cbn. auto.
  - injection H as <- <- <-. cbn. auto.
  - injection H as <- <- <-. cbn. auto.
  - injection H as <- <- <-. cbn. auto.
  - injection H as <- <- <-. cbn. auto.
Qed.

Lemma data_skip_sim : forall c h md n d i l x d',
  sim c h md d (i, l) -> data_skip c file_source h md n d = (x, d') ->
  x = Ok (N.of_nat n <=? lenN l)
  /\ sim c h md d' (if N.of_nat n <=? lenN l then (i + N.of_nat n, skipn n l)
                    else (i + lenN l, [])).
Proof.
  intros c h md n. induction n as [|n IH]; intros d i l x d' S H; cbn [data_skip] in H.
  - injection H as <- <-. cbn [N.of_nat skipn]. rewrite N.add_0_r.
    destruct (N.leb_spec 0 (lenN l)); [|lia]. auto.
  - destruct (data_next c file_source h md d) as [y d1] eqn:N.
    pose proof (data_next_sim _ _ _ _ _ _ _ _ S N) as [I X].
    destruct l as [|r l'].
    + destruct X as [-> X]. injection H as <- <-.
      destruct (N.leb_spec (N.of_nat (Datatypes.S n)) (lenN (@nil (res bytes)))) as [L|L].
      * cbn in L. lia.
      * rewrite lenN_nil, N.add_0_r. auto.
    + destruct X as (-> & W & R & NR & K & pg & P & place & X1 & X2 & X3 & X4 & X5 & X6 & X7).
      rewrite <- R in NR.
      rewrite (data_read_line_sim _ md d1 pg place W NR X1 X5), R in H.
      specialize (X7 (ds_dec d1) ltac:(apply W) K).
      pose proof (IH _ _ _ _ _ X7 H) as [-> Y].
      rewrite lenN_cons.
      destruct (N.leb_spec (N.of_nat n) (lenN l'));
        destruct (N.leb_spec (N.of_nat (Datatypes.S n)) (1 + lenN l')); try lia;
        (split; [reflexivity|]).
      * cbn [skipn]. replace (i + N.of_nat (Datatypes.S n)) with (i + 1 + N.of_nat n) by lia. exact Y.
      * replace (i + (1 + lenN l')) with (i + 1 + lenN l') by lia. exact Y.
Qed.

Lemma cur_length : forall c r i l, sim_r c r (i, l) ->
  (length l <= N.to_nat (md_row_count (rs_md r) - ds_row (rs_d r)))%nat.
Proof.
  intros c r i l [_ _ _ (l0 & _ & E)]. injection E as -> ->. unfold row_limited.
  rewrite firstn_length. lia.
Qed.

Lemma step_sim : forall c o r cu x r' ev, sim_r c r cu ->
  step c file_source o r = (x, r', ev) ->
  sim_r c r' (snd (fst (cur_step o cu))) /\ rs_md r' = rs_md r /\
  rmap (seen_out (row_len r)) x = fst (fst (cur_step o cu))
  /\ map (seen_event (row_len r)) ev = snd (cur_step o cu).
Proof.
  intros c o r cu x r' ev S H. destruct o; cbn [step cur_step] in *.
  - destruct (read_row c file_source r) as [[y r1] ev1] eqn:R. injection H as <- <- <-.
    pose proof (read_row_sim _ _ _ _ _ _ S R) as (S1 & MD & E).
    destruct (cur_read_row cu) as [[z cu1] ce1]. cbn [fst snd] in *. injection E as -> ->.
    split; [exact S1|]. split; [exact MD|]. split; [|reflexivity]. destruct z; reflexivity.
  - destruct (read_rows c file_source (N.to_nat n) r) as [[y r1] ev1] eqn:R. injection H as <- <- <-.
    pose proof (read_rows_sim _ _ _ _ _ _ _ S R) as (S1 & MD & E).
    destruct (cur_read_rows (N.to_nat n) cu) as [[z cu1] ce1]. cbn [fst snd] in *.
    injection E as -> ->.
    split; [exact S1|]. split; [exact MD|]. split; [|reflexivity]. destruct z; reflexivity.
  - destruct (read_all c file_source r) as [[y r1] ev1] eqn:R. injection H as <- <- <-.
    unfold read_all in R. destruct cu as [i l]. pose proof (cur_length _ _ _ _ S) as L.
    eapply (read_all_sim c (Datatypes.S (length l))) in R; [|exact S|cbn [snd]; lia|cbn [snd]; lia].
    destruct R as (S1 & MD & X & E). cbn [snd].
    destruct (cur_read_rows (Datatypes.S (length l)) (i, l)) as [[z cu1] ce1]. cbn [fst snd] in *.
    split; [exact S1|]. split; [exact MD|]. split; [|exact E]. rewrite X. destruct z; reflexivity.
  - unfold skip in H.
    destruct (data_skip c file_source (rs_h r) (rs_md r) (N.to_nat n) (rs_d r)) as [y d'] eqn:R.
    injection H as <- <- <-. destruct cu as [i l].
    pose proof (data_skip_sim _ _ _ _ _ _ _ _ _ S R) as [-> Y]. rewrite N2Nat.id in *.
    unfold cur_skip. destruct (n <=? lenN l); cbn [fst snd];
      (split; [exact Y|]; split; [reflexivity|]; split; reflexivity).
  - destruct (read_row_no_sink c file_source r) as [y r1] eqn:R. injection H as <- <- <-.
    unfold read_row_no_sink in R. destruct cu as [i l].
    destruct (read_line c file_source (rs_h r) (rs_md r) (rs_d r)) as [w d'] eqn:L.
    injection R as <- <-. pose proof (read_line_sim _ _ _ _ _ _ _ _ S L) as [I X].
    destruct l as [|a l].
    + destruct X as [-> X]. cbn. auto.
    + destruct X as (X & z & M & ->). destruct a as [v|e| |u|]; cbn [row_matches] in M.
      * destruct M as (p & -> & M). cbn. fold (row_len r) in M. rewrite M. auto.
      * subst z. cbn. auto.
      * subst z. cbn. auto.
      * subst z. cbn. auto.
      * subst z. cbn. auto.
  - injection H as <- <- <-. cbn. auto.
Qed.

Lemma trace_sim : forall c ops r cu, sim_r c r cu ->
  seen (row_len r) (fst (trace c file_source ops (Some r))) = fst (cur_trace ops cu)
  /\ current_row_index (snd (trace c file_source ops (Some r))) = fst (snd (cur_trace ops cu)).
Proof.
  intros c ops. induction ops as [|o ops IH]; intros r cu S; cbn [trace cur_trace].
  - split; [reflexivity|]. cbn. destruct S as [_ _ _ (l & _ & ->)]. reflexivity.
  - unfold reader_step. destruct (step c file_source o r) as [[x r1] ev] eqn:E.
    pose proof (step_sim _ _ _ _ _ _ _ S E) as (S1 & MD & X & Y).
    destruct (cur_step o cu) as [[x' cu1] ev'] eqn:CE. cbn [fst snd] in S1, X, Y. subst x' ev'.
    destruct (IH r1 cu1 S1) as [I1 I2].
    assert (RL : row_len r1 = row_len r) by (unfold row_len; rewrite MD; reflexivity).
    assert (C1 : current_row_index (Some r1) = fst cu1).
    { destruct S1 as [_ _ _ (l & _ & ->)]. reflexivity. }
    destruct x as [y|e| |u|]; cbn [rmap bind].
    + destruct (trace c file_source ops (Some r1)) as [t r2].
      destruct (cur_trace ops cu1) as [t' cu2]. cbn [fst snd seen map] in *.
      unfold seen in *. rewrite RL in I1. rewrite I1, I2. auto.
    + destruct (trace c file_source ops (Some r1)) as [t r2].
      destruct (cur_trace ops cu1) as [t' cu2]. cbn [fst snd seen map] in *.
      unfold seen in *. rewrite RL in I1. rewrite I1, I2. auto.
    + split; [reflexivity|exact C1].
    + split; [reflexivity|exact C1].
    + split; [reflexivity|exact C1].
Qed.
