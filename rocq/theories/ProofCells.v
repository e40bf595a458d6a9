(** The cells of the rows come back. *)
From Coq Require Import QArith Qabs Lqa.
From Verif Require Import SpecHeader ProofHeader SpecDecomp SpecMeta SpecConform ProofConform.
From Verif Require Import Base Types Buffer Float DateTime Column Header Metadata Reader Sinks Lemmas SpecValues ProofValues SpecReader
  SpecPages ProofRows SpecFile SpecTime ProofRound ProofCalendar ProofTime ProofText SpecSinks ProofCsv SpecNumber ProofNumber SpecRoundtrip
  ProofRoundtrip ProofRoundtripC SpecCells SpecTable ProofBuilt.
Local Open Scope N_scope.

(** ** Types *)

Lemma type_unique : forall e d col t, column_for e d col ->
  reported_type (if fd_numeric d then TNumber else TString) (fd_length d) (fd_format d) t -> c_type col = t.
Proof.
  intros e d col t (_ & _ & _ & _ & _ & _ & R) H. unfold c_type.
  set (k := if fd_numeric d then TNumber else TString) in *.
  assert (K : k = TNumber \/ k = TString) by (subst k; destruct (fd_numeric d); auto).
  apply (column_kind_table k _ _ _ K) in R. apply (column_kind_table k _ _ _ K) in H. congruence.
Qed.

(** ** Bytes *)

Lemma row_part : forall p row before l after, row_has p 0 row -> row = before ++ l ++ after ->
  row_has p (lenN before) l.
Proof.
  intros p row before l after (b & a & E & L) R.
  exists (b ++ map Some before), (map Some after ++ a). split.
  - rewrite E, R, !map_app, <- !app_assoc. reflexivity.
  - rewrite lenN_app, lenN_map. lia.
Qed.

Lemma write_int_len : forall e w v, lenN (write_int e w v) = N.of_nat w.
Proof. intros e w v. unfold lenN. rewrite write_int_length. reflexivity. Qed.

Lemma write_int_value : forall e w v, v < 256 ^ N.of_nat w -> value_of e (write_int e w v) = v.
Proof. intros e w v H. rewrite <- get_val_value. apply get_val_write. exact H. Qed.

Lemma value_bits_lt : forall bits q, double_value bits q -> bits < 2 ^ 64.
Proof.
  intros bits q (s & ex & ma & Hs & He & Hm & B & _).
  change (2 ^ 64) with (2 * (2048 * 2 ^ 52)). change (2 ^ 63) with (2048 * 2 ^ 52) in B.
  set (w := 2 ^ 52) in *. clearbody w. nia.
Qed.

Lemma nan_bits_lt : forall bits, double_nan bits -> bits < 2 ^ 64.
Proof.
  intros bits (s & ma & Hs & Hm & B).
  change (2 ^ 64) with (2 * (2048 * 2 ^ 52)). change (2 ^ 63) with (2048 * 2 ^ 52) in B.
  set (w := 2 ^ 52) in *. clearbody w. nia.
Qed.

Lemma holds_written : forall e d col p bits, column_for e d col ->
  row_has p (fd_offset d) (write_int e 8 bits) -> bits < 2 ^ 64 -> holds_bits col p bits.
Proof.
  intros e d col p bits (_ & _ & _ & O & _ & E & _) R B. exists (write_int e 8 bits).
  split; [apply write_int_len|]. split; [rewrite O; exact R|]. rewrite E.
  apply write_int_value. exact B.
Qed.

(** ** Roundings *)

Lemma close_integer : forall t us (y : Q), (Qabs (inject_Z t - y) <= (1 # 2) + (1 # 2 ^ 35))%Q ->
  (Qabs (inject_Z us - y) + (1 # 2 ^ 35) < 1 # 2)%Q -> t = us.
Proof.
  intros t us y A B.
  assert (C : (Qabs (inject_Z (t - us)) < 1)%Q).
  { apply (Qle_lt_trans _ (Qabs (inject_Z t - y) + Qabs (inject_Z us - y))).
    - unfold Z.sub. rewrite inject_Z_plus, inject_Z_opp.
      setoid_replace (inject_Z t + - inject_Z us)%Q with ((inject_Z t - y) + - (inject_Z us - y))%Q by ring.
      rewrite <- (Qabs_opp (inject_Z us - y)). apply Qabs_triangle.
    - set (z := 1 # 2 ^ 35) in *. clearbody z. lra. }
  change (Qabs (inject_Z (t - us))) with (inject_Z (Z.abs (t - us))) in C.
  change 1%Q with (inject_Z 1) in C. rewrite <- Zlt_Qlt in C. lia.
Qed.

Lemma int_nearest : forall n, nearest (inject_Z n) n.
Proof.
  intros n. assert (E : (Qabs (inject_Z n - inject_Z n) == 0)%Q).
  { setoid_replace (inject_Z n - inject_Z n)%Q with 0%Q by ring. reflexivity. }
  split; rewrite E; [discriminate|]. intros K. discriminate K.
Qed.

(** |q| is small when the microseconds are. *)
Lemma micros_bound : forall us (q : Q) b, (Z.abs us + 1 <= 1000000 * b)%Z ->
  (Qabs (inject_Z us - inject_Z 1000000 * q) + (1 # 2 ^ 35) < 1 # 2)%Q -> (Qabs q < inject_Z b)%Q.
Proof.
  intros us q b B H.
  assert (M : (inject_Z 1000000 * Qabs q == Qabs (inject_Z 1000000 * q))%Q).
  { rewrite Qabs_Qmult. reflexivity. }
  assert (T : (Qabs (inject_Z 1000000 * q) <= inject_Z (Z.abs us) + Qabs (inject_Z us - inject_Z 1000000 * q))%Q).
  { setoid_replace (inject_Z 1000000 * q)%Q with (inject_Z us + - (inject_Z us - inject_Z 1000000 * q))%Q at 1 by ring.
    eapply Qle_trans; [apply Qabs_triangle|]. rewrite Qabs_opp. apply Qle_refl. }
  rewrite <- M in T.
  assert (B' : (inject_Z (Z.abs us) + 1 <= inject_Z 1000000 * inject_Z b)%Q).
  { rewrite <- inject_Z_mult. change 1%Q with (inject_Z 1). rewrite <- inject_Z_plus, <- Zle_Qle. exact B. }
  set (B0 := inject_Z b) in *. set (U := inject_Z (Z.abs us)) in *. set (Y := Qabs (inject_Z us - inject_Z 1000000 * q)) in *.
  set (A := Qabs q) in *. clearbody A U Y B0. clear M.
  assert (Z35 : (0 < 1 # 2 ^ 35)%Q) by reflexivity. set (z := 1 # 2 ^ 35) in *. clearbody z.
  assert (K : (inject_Z 1000000 * A < inject_Z 1000000 * B0)%Q) by lra.
  clear - K. unfold inject_Z in K. lra.
Qed.

(** ** Cells *)

Lemma cell_back : forall e d col p v l, column_for e d col -> built_column col ->
  row_has p (fd_offset d) l -> stored e d v l -> exists x, cell_value col p x /\ value_is v x.
Proof.
  intros e d col p v l CF BC R ST. pose proof CF as (_ & _ & CFMT & CO & CL & CE & _).
  destruct ST as [t pad NU UP LE BL|z NU L B|z NU L B|bits l NU L IN (BB & hi & HI & ->)
                 |t n l NU L ID D S (bits & V & ->)
                 |t n us l NU L ID D S US (bits & q & V & Q & ->)
                 |us l NU L ID US (bits & q & V & Q & ->)|bits NU L N].
  - assert (T : c_type col = TString).
    { apply (type_unique e d col _ CF). rewrite NU. constructor. }
    exists (VString t). split; [|reflexivity]. split; [exact T|].
    destruct (get_string_spec col p (t ++ pad) T) as (r & G & RT).
    + unfold c_length. rewrite CL. exact LE.
    + rewrite CO. exact R.
    + rewrite G. f_equal. apply (right_trimmed_unique _ _ _ RT).
      exists pad. split; [reflexivity|].
      split; [|exact UP]. revert BL. apply Forall_impl. intros b [-> | ->]; vm_compute; tauto.
  - assert (T : c_type col = TInteger).
    { apply (type_unique e d col _ CF). rewrite NU, L. constructor. }
    destruct (get_integer_spec col p (write_int e 1 (Z.to_N z)) BC T) as (y & bits & G & _ & _ & X).
    + unfold c_length. rewrite CL, L. apply write_int_len.
    + rewrite CO. exact R.
    + rewrite CE, write_int_value in X by (change (256 ^ N.of_nat 1) with 256; lia).
      exists (VInteger y). split; [split; [exact T|exact G]|]. cbn [value_is].
      unfold c_length in X. rewrite CL, L in X. destruct X as [[_ X]|[X _]]; [lia|discriminate X].
  - assert (T : c_type col = TInteger).
    { apply (type_unique e d col _ CF). rewrite NU, L. constructor. }
    pose proof (Z.mod_pos_bound z 65536 eq_refl) as M.
    destruct (get_integer_spec col p (write_int e 2 (Z.to_N (z mod 65536))) BC T) as (y & bits & G & _ & _ & X).
    + unfold c_length. rewrite CL, L. apply write_int_len.
    + rewrite CO. exact R.
    + rewrite CE, write_int_value in X by (change (256 ^ N.of_nat 2) with 65536; lia).
      exists (VInteger y). split; [split; [exact T|exact G]|]. cbn [value_is].
      unfold c_length in X. rewrite CL, L in X. destruct X as [[X _]|[_ [X1 X2]]]; [discriminate X|].
      rewrite Z2N.id in X2 by lia. clear - X1 X2 B M.
      pose proof (Z.div_mod y 65536 ltac:(lia)). pose proof (Z.div_mod z 65536 ltac:(lia)).
      assert (y / 65536 = z / 65536 \/ y / 65536 <> z / 65536)%Z as [K|K] by lia; [lia|]. lia.
  - assert (T : c_type col = TNumber).
    { apply (type_unique e d col _ CF). rewrite NU. destruct IN as (N1 & N2 & N3). constructor; assumption. }
    destruct (get_number_spec col p (write_int e (N.to_nat (fd_length d)) hi) BC T) as (_ & G).
    + unfold c_length. rewrite CL, write_int_len. lia.
    + rewrite CO. exact R.
    + exists (VNumber bits). split; [|reflexivity]. split; [exact T|]. rewrite G, CE, write_int_value.
      * unfold c_length. rewrite CL, <- HI. reflexivity.
      * rewrite N2Nat.id. rewrite HI in BB. clear - BB L.
        assert (P : 256 ^ (8 - fd_length d) * 256 ^ fd_length d = 2 ^ 64).
        { rewrite <- N.pow_add_r. replace (8 - fd_length d + fd_length d) with 8 by lia. reflexivity. }
        assert (0 < 256 ^ (8 - fd_length d)) by (apply N.neq_0_lt_0, N.pow_nonzero; discriminate).
        rewrite <- P in BB. set (a := 256 ^ (8 - fd_length d)) in *. set (b := 256 ^ fd_length d) in *.
        clearbody a b. nia.
  - assert (T : c_type col = TDate).
    { apply (type_unique e d col _ CF). rewrite NU. constructor; [lia|lia|exact ID]. }
    pose proof (holds_written e d col p bits CF R (value_bits_lt _ _ V)) as HB.
    destruct (column_date col p bits _ n t T HB V (int_nearest n) D S) as [(g & G & Y) _].
    exists (VDate g). split; [split; [exact T|exact G]|exact Y].
  - assert (T : c_type col = TDateTime).
    { apply (type_unique e d col _ CF). rewrite NU. constructor; [lia|lia|exact ID]. }
    pose proof (holds_written e d col p bits CF R (value_bits_lt _ _ V)) as HB.
    pose proof (supported_range n t D S) as RG.
    destruct (column_datetime col p bits q T HB V) as (u & G & EU & _).
    + apply (micros_bound (n * day_us + us)); [|exact Q]. unfold day_us in *. change (2 ^ 42)%Z with 4398046511104%Z. lia.
    + assert (u = n * day_us + us)%Z by (apply (close_integer _ _ _ EU Q)). subst u.
      exists (VDateTime (PTicks (jdn_1960 * day_us + (n * day_us + us)))).
      split; [split; [exact T|exact G]|]. exists n. split; [exact D|lia].
  - assert (T : c_type col = TTime).
    { apply (type_unique e d col _ CF). rewrite NU. constructor; [lia|lia|exact ID]. }
    pose proof (holds_written e d col p bits CF R (value_bits_lt _ _ V)) as HB.
    destruct (column_time_mod col p bits q T HB V) as (u & G & EU & _).
    + apply (micros_bound us); [|exact Q]. unfold day_us in *. change (2 ^ 37)%Z with 137438953472%Z. lia.
    + assert (u = us)%Z by (apply (close_integer _ _ _ EU Q)). subst u.
      exists (VTime (TTicks us)). rewrite Z.mod_small in G by exact US. split; [split; [exact T|exact G]|reflexivity].
  - pose proof (holds_written e d col p bits CF R (nan_bits_lt _ N)) as HB.
    pose proof CF as (_ & _ & _ & _ & _ & _ & RT). rewrite NU in RT.
    change (fkind_type (fm_kind (c_fm col))) with (c_type col) in RT.
    destruct (c_type col) eqn:T.
    + inversion RT; lia.
    + inversion RT.
    + exists (VNumber bits). split; [|reflexivity]. split; [exact T|].
      destruct (get_number_spec col p (write_int e 8 bits) BC T) as (_ & G).
      * unfold c_length. rewrite CL, L. apply write_int_len.
      * rewrite CO. exact R.
      * rewrite G, CE, write_int_value by (exact (nan_bits_lt _ N)).
        unfold c_length. rewrite CL, L. change (256 ^ (8 - 8)) with 1. rewrite N.mul_1_r. reflexivity.
    + inversion RT; lia.
    + exists (VDateTime NotADateTime). split; [|reflexivity]. split; [exact T|].
      apply (column_datetime_nan col p bits T HB N).
    + exists (VDate NotADate). split; [|reflexivity]. split; [exact T|].
      apply (column_date_nan col p bits T HB N).
    + exists (VTime NotATime). split; [|reflexivity]. split; [exact T|].
      apply (column_time_nan col p bits T HB N).
Qed.

(** ** Texts *)

Lemma cell_text : forall e d col p v l, column_for e d col -> built_column col ->
  row_has p (fd_offset d) l -> stored e d v l -> has_text col v ->
  exists x, c_to_string col p = Ok x /\ text_is v x.
Proof.
  intros e d col p v l CF BC R ST HT.
  destruct (cell_back e d col p v l CF BC R ST) as (x & CV & VI).
  destruct ST as [t pad NU UP LE BL|z NU L B|z NU L B|bits l NU L IN (BB & _)
                 |t n l NU L ID D S _
                 |t n us l NU L ID D S US _
                 |us l NU L ID US _|bits NU L N].
  - destruct x as [s|y|b|u|g|u]; try contradiction. cbn [value_is] in VI. subst s. destruct CV as [T G].
    exists t. split; [|reflexivity]. unfold c_type, c_get_string, c_to_string, fm_to_string in *.
    destruct (fm_kind (c_fm col)); try discriminate T. exact G.
  - destruct x as [s|y|b|u|g|u]; try contradiction. cbn [value_is] in VI. subst y. destruct CV as [T G].
    apply (integer_text col p z T G).
  - destruct x as [s|y|b|u|g|u]; try contradiction. cbn [value_is] in VI. subst y. destruct CV as [T G].
    apply (integer_text col p z T G).
  - destruct x as [s|y|b|u|g|u]; try contradiction. cbn [value_is] in VI. subst b. destruct CV as [T G].
    destruct (number_text_special col p bits T G) as [SN SI].
    destruct (double_cases bits BB) as [(q & V)|[N|N]].
    + destruct (number_text col p bits q T G V) as (n & t & A & B & C).
      exists (minus bits ++ t). split; [exact A|]. left. exists q, n, t. auto.
    + exists (minus bits ++ bs "nan"). split; [exact (SN N)|]. right. right. auto.
    + exists (minus bits ++ bs "inf"). split; [exact (SI N)|]. right. left. auto.
  - destruct x as [s|y|b|u|g|u]; try contradiction. cbn [value_is] in VI. destruct CV as [T G].
    exists (iso_date t). split; [|reflexivity]. destruct (column_texts col p) as (K & _).
    apply (K g t T G VI).
  - destruct x as [s|y|b|[|u]|g|u]; try contradiction. cbn [value_is] in VI. destruct CV as [T G].
    destruct VI as (m & Dm & ->). eexists. split; [|reflexivity]. destruct (column_texts col p) as (_ & _ & K).
    apply (K m t us T G Dm S US).
  - destruct x as [s|y|b|u|g|u]; try contradiction. cbn [value_is] in VI. subst u. destruct CV as [T G].
    eexists. split; [|reflexivity]. destruct (column_texts col p) as (_ & K & _).
    apply (K us T G US).
  - cbn [has_text] in HT. destruct x as [s|y|b|u|g|u]; destruct CV as [T G]; try (rewrite HT in T; discriminate T).
    cbn [value_is] in VI. subst b. destruct (number_text_special col p bits T G) as [SN _].
    exists (minus bits ++ bs "nan"). split; [exact (SN N)|]. reflexivity.
Qed.

(** ** Rows *)

Lemma seen_row_has : forall rl p row, seen_row rl p = Ok row -> row_has p 0 row.
Proof.
  intros rl p row H. apply read_cells_Ok in H. destruct H as (L & E & B).
  exists (firstn (N.to_nat (pv_off p)) (pv_mem p)), (skipn (N.to_nat rl) (skipn (N.to_nat (pv_off p)) (pv_mem p))).
  unfold slice in E. split.
  - rewrite <- E, firstn_skipn, firstn_skipn. reflexivity.
  - unfold lenN in *. rewrite firstn_length_le by lia. lia.
Qed.

Lemma row_shown : forall e flt fields cols vs row p, Forall2 (column_for e) fields cols ->
  Forall (fun col => (match flt with Some f => f col | None => true end) = true -> built_column col) cols ->
  row_of e fields vs row -> row_has p 0 row -> shown flt cols vs p.
Proof.
  intros e flt fields cols vs row p F. revert vs. unfold row_of, shown.
  induction F as [|d col fields cols CF F IH]; intros vs B R RH; inversion R as [|? v ? vs' (b & l & a & E & O & ST) R']; subst.
  - constructor.
  - inversion B as [|? ? B1 B2]; subst. constructor; [|apply IH; assumption].
    intros K. specialize (B1 K). pose proof (row_part p _ b l a RH eq_refl) as RP. rewrite O in RP. split.
    + apply (cell_back e d col p v l CF B1 RP ST).
    + apply (cell_text e d col p v l CF B1 RP ST).
Qed.

Lemma seen_pushes : forall rl rows i evs, map (seen_event rl) evs = numbered i rows ++ [CEnd] ->
  exists l, evs = pushes l ++ [EvEnd] /\ map fst l = from i (length rows)
    /\ Forall2 (fun row r => seen_row rl (snd r) = Ok row) rows l.
Proof.
  induction rows as [|row rows IH]; intros i evs H.
  - destruct evs as [|[| |] [|]]; try discriminate H. exists []. repeat split; constructor.
  - destruct evs as [|[h md|j p|] evs]; try discriminate H. cbn [map numbered app seen_event] in H.
    assert (H1 : CRow j (seen_row rl p) = CRow i (Ok row)) by (apply (f_equal (hd CEnd)) in H; exact H).
    assert (H2 : map (seen_event rl) evs = numbered (i + 1) rows ++ [CEnd]) by (apply (f_equal (@tl _)) in H; exact H).
    injection H1 as -> H1. destruct (IH (i + 1) evs H2) as (l & -> & E & F).
    exists ((i, p) :: l). split; [reflexivity|]. split; [cbn [map fst length from]; rewrite E; reflexivity|].
    constructor; assumption.
Qed.

Lemma one_entry : forall rl tr o x evs, seen rl tr = [(o, x, evs)] -> x = Ok CUnit ->
  exists evs', tr = [(o, Ok OUnit, evs')] /\ map (seen_event rl) evs' = evs.
Proof.
  intros rl tr o x evs H X. destruct tr as [|[[o' x'] evs'] [|]]; try discriminate H. cbn in H.
  injection H as <- E <-. exists evs'. split; [|reflexivity]. rewrite X in E. clear X.
  destruct x' as [[b| |q]| | | | ]; try discriminate E. reflexivity.
Qed.

Lemma rows_shown : forall e flt fields cols rl rows contents (l : list (N * pview)), Forall2 (column_for e) fields cols ->
  Forall (fun col => (match flt with Some f => f col | None => true end) = true -> built_column col) cols ->
  Forall2 (row_of e fields) contents rows ->
  Forall2 (fun row r => seen_row rl (snd r) = Ok row) rows l ->
  Forall2 (fun vs r => shown flt cols vs (snd r)) contents l.
Proof.
  intros e flt fields cols rl rows contents l F B R. revert l.
  induction R as [|vs row contents rows R1 R2 IH]; intros l S; inversion S as [|? r ? l' S1 S2]; subst; constructor.
  - apply (row_shown e flt fields cols vs row); try assumption. apply (seen_row_has rl). exact S1.
  - apply IH. exact S2.
Qed.

Lemma same_length : forall A B (R : A -> B -> Prop) l l', Forall2 R l l' -> length l = length l'.
Proof. intros A B R l l' F. induction F; cbn; congruence. Qed.
Arguments same_length {A B R l l'}.

Lemma kept_built : forall flt (cols : list column) l,
  Forall built_column l -> l = (match flt with Some p => filter p cols | None => cols end) ->
  Forall (fun col => (match flt with Some f => f col | None => true end) = true -> built_column col) cols.
Proof.
  intros flt cols l B E. subst l. apply Forall_forall. intros col I K.
  apply (proj1 (Forall_forall _ _) B). destruct flt; [apply filter_In; auto|exact I].
Qed.

Lemma table_back : forall c flt e f sh hlen plen name t contents,
  good_sizes f sh hlen plen name -> good_table e f plen t ->
  room c hlen plen (lenN (t_fields t)) (1 + lenN (t_pages t)) ->
  no_compression_name (t_fields t) \/ t_row_length t <= max_alloc c ->
  Forall2 (row_of e (t_fields t)) contents (t_rows t) ->
  exists r cols evs,
    open_reader c file_source flt (file_open (file_bytes e f sh hlen plen name t))
    = Ok (r, [EvProps (rs_h r) (rs_md r)])
    /\ md_columns (rs_md r) = (match flt with Some p => filter p cols | None => cols end)
    /\ Forall2 (column_for e) (t_fields t) cols
    /\ fst (trace c file_source [OpReadAll] (Some r)) = [(OpReadAll, Ok OUnit, evs)]
    /\ table_events flt cols contents evs.
Proof.
  intros c flt e f sh hlen plen name t contents H1 H2 H3 H4 RO.
  destruct (round_trip c flt e f sh hlen plen name t H1 H2 H3 H4)
    as (r & cols & O & _ & _ & _ & _ & _ & _ & _ & MC & CF & T).
  destruct (T [OpReadAll]) as [T1 _]. cbv zeta in T1. cbn [cur_trace cur_step snd] in T1.
  rewrite map_length, numbered_from in T1. cbn [fst] in T1.
  destruct (one_entry _ _ _ _ _ T1 eq_refl) as (evs & TR & SE).
  destruct (seen_pushes _ _ _ _ SE) as (l & EV & IX & SR).
  exists r, cols, evs. split; [exact O|]. split; [exact MC|]. split; [exact CF|]. split; [exact TR|].
  exists l. split; [exact EV|]. split; [rewrite (same_length RO); exact IX|].
  apply (rows_shown e flt (t_fields t) cols (t_row_length t) (t_rows t)); try assumption.
  apply (kept_built flt cols (md_columns (rs_md r))); [|exact MC].
  assert (OP : opened c file_source flt (file_open (file_bytes e f sh hlen plen name t)) r) by (eexists; exact O).
  apply opened_built in OP. revert OP. apply Forall_impl. intros col [X _]. exact X.
Qed.

Lemma table_back_compressed : forall c flt e f sh hlen plen name k fields rl first pages rows contents,
  good_sizes f sh hlen plen name -> good_compressed e f plen k fields rl first pages rows ->
  room c hlen plen (lenN fields) (1 + lenN pages) -> rl <= max_alloc c ->
  Forall2 (row_of e fields) contents rows ->
  exists r cols evs,
    open_reader c file_source flt (file_open
      (compressed_file e f sh hlen plen name (comp_text k) fields rl (lenN rows) first pages))
    = Ok (r, [EvProps (rs_h r) (rs_md r)])
    /\ md_columns (rs_md r) = (match flt with Some p => filter p cols | None => cols end)
    /\ Forall2 (column_for e) fields cols
    /\ fst (trace c file_source [OpReadAll] (Some r)) = [(OpReadAll, Ok OUnit, evs)]
    /\ table_events flt cols contents evs.
Proof.
  intros c flt e f sh hlen plen name k fields rl first pages rows contents H1 H2 H3 H4 RO.
  destruct (round_trip_compressed c flt e f sh hlen plen name k fields rl first pages rows H1 H2 H3 H4)
    as (r & cols & O & _ & _ & _ & _ & _ & _ & _ & MC & CF & T).
  destruct (T [OpReadAll]) as [T1 _]. cbv zeta in T1. cbn [cur_trace cur_step snd] in T1.
  rewrite map_length, numbered_from in T1. cbn [fst] in T1.
  destruct (one_entry _ _ _ _ _ T1 eq_refl) as (evs & TR & SE).
  destruct (seen_pushes _ _ _ _ SE) as (l & EV & IX & SR).
  exists r, cols, evs. split; [exact O|]. split; [exact MC|]. split; [exact CF|]. split; [exact TR|].
  exists l. split; [exact EV|]. split; [rewrite (same_length RO); exact IX|].
  apply (rows_shown e flt fields cols rl rows); try assumption.
  apply (kept_built flt cols (md_columns (rs_md r))); [|exact MC].
  assert (OP : opened c file_source flt (file_open
      (compressed_file e f sh hlen plen name (comp_text k) fields rl (lenN rows) first pages)) r) by (eexists; exact O).
  apply opened_built in OP. revert OP. apply Forall_impl. intros col [X _]. exact X.
Qed.

(** ** Blanks lost at the end of a row *)

Lemma nth_error_eq : forall A (l l' : list A), (forall i, nth_error l i = nth_error l' i) -> l = l'.
Proof.
  intros A. induction l as [|x l IH]; intros [|y l'] H; [reflexivity|discriminate (H 0%nat)|discriminate (H 0%nat)|].
  f_equal; [pose proof (H 0%nat) as E; cbn in E; congruence|]. apply IH. intros i. exact (H (Datatypes.S i)).
Qed.

Lemma nth_error_skipn_add : forall A k (l : list A) i, nth_error (skipn k l) i = nth_error l (k + i).
Proof.
  intros A. induction k as [|k IH]; intros l i; [reflexivity|].
  destruct l as [|x l]; [destruct i; reflexivity|]. apply IH.
Qed.

Lemma nth_error_firstn_lt : forall A k (l : list A) i, (i < k)%nat -> nth_error (firstn k l) i = nth_error l i.
Proof.
  intros A. induction k as [|k IH]; intros l i L; [lia|]. destruct l as [|x l]; [reflexivity|].
  destruct i as [|i]; [reflexivity|]. cbn. apply IH. lia.
Qed.

Lemma stored_numeric_length : forall e d v l, stored e d v l -> lenN l = fd_length d.
Proof.
  intros e d v l ST.
  destruct ST as [t pad NU UP LE BL|z NU L B|z NU L B|bits l NU L IN (BB & hi & HI & ->)
                 |t n l NU L ID D S (bits & V & ->)
                 |t n us l NU L ID D S US (bits & q & V & Q & ->)
                 |us l NU L ID US (bits & q & V & Q & ->)|bits NU L N];
    rewrite ?write_int_len, ?L; try reflexivity; [exact LE|]. lia.
Qed.

Lemma blank_row_of : forall e fields vs row got, blank_like fields row got -> row_of e fields vs row ->
  row_of e fields vs got.
Proof.
  intros e fields vs row got [->|(a & n & z & -> & -> & F)] R; [exact R|].
  unfold row_of in *. induction R as [|d v fields vs (b & l & w & E & O & ST) R IH]; [constructor|].
  pose proof (Forall_inv F) as F1. apply Forall_inv_tail in F. constructor; [|exact (IH F)]. clear IH R F.
  set (row := a ++ times n blank_char ++ times z zero_char) in *.
  set (got := a ++ times (n + z) zero_char) in *.
  pose proof (stored_numeric_length _ _ _ _ ST) as LL.
  assert (LG : lenN got = lenN row).
  { subst row got. unfold times. rewrite !lenN_app, !lenN_repeat. lia. }
  assert (LR : fd_offset d + fd_length d <= lenN row) by (rewrite E, !lenN_app; lia).
  assert (P : forall i x, nth_error got i = Some x -> nth_error row i = Some x
              \/ (length a <= i < length a + N.to_nat n)%nat /\ x = x00).
  { intros i x I. subst row got. destruct (Nat.lt_ge_cases i (length a)) as [C|C].
    - left. rewrite nth_error_app1 in * by exact C. exact I.
    - rewrite nth_error_app2 in I |- * by exact C.
      assert (X : x = x00) by (apply nth_error_In in I; apply repeat_spec in I; exact I). subst x.
      assert (K : (i - length a < N.to_nat (n + z))%nat).
      { unfold times in I. rewrite <- (repeat_length zero_char (N.to_nat (n + z))). apply nth_error_Some. congruence. }
      destruct (Nat.lt_ge_cases i (length a + N.to_nat n)) as [C2|C2]; [right; split; [lia|reflexivity]|left].
      rewrite nth_error_app2 by (unfold times; rewrite repeat_length; lia).
      unfold times. rewrite repeat_length.
      destruct (nth_error (repeat zero_char (N.to_nat z)) (i - length a - N.to_nat n)) as [y|] eqn:Y.
      + apply nth_error_In in Y. apply repeat_spec in Y. subst y. reflexivity.
      + apply nth_error_None in Y. rewrite repeat_length in Y. lia. }
  assert (Q : forall i x, nth_error row i = Some x -> (length a <= i)%nat -> x = x20 \/ x = x00).
  { intros i x I C. subst row. rewrite nth_error_app2 in I by exact C. apply nth_error_In in I.
    apply in_app_or in I. destruct I as [I|I]; apply repeat_spec in I; auto. }
  assert (SP : got = firstn (N.to_nat (fd_offset d)) got ++ SpecHeader.field got (fd_offset d) (fd_length d)
                     ++ skipn (N.to_nat (fd_offset d + fd_length d)) got
               /\ lenN (firstn (N.to_nat (fd_offset d)) got) = fd_offset d).
  { split; [|rewrite lenN_firstn; lia]. unfold SpecHeader.field.
    rewrite N2Nat.inj_add, <- (skipn_skipn' _ (N.to_nat (fd_length d)) (N.to_nat (fd_offset d)) got).
    rewrite (firstn_skipn (N.to_nat (fd_length d))), firstn_skipn. reflexivity. }
  destruct SP as [SP1 SP2].
  assert (FN : forall i, (i < N.to_nat (fd_length d))%nat ->
     nth_error (SpecHeader.field got (fd_offset d) (fd_length d)) i = nth_error got (N.to_nat (fd_offset d) + i)).
  { intros i I. unfold SpecHeader.field. rewrite nth_error_firstn_lt by exact I. apply nth_error_skipn_add. }
  assert (LN : forall i, (i < N.to_nat (fd_length d))%nat -> nth_error l i = nth_error row (N.to_nat (fd_offset d) + i)).
  { intros i I. rewrite E. rewrite nth_error_app2 by (unfold lenN in O; lia).
    rewrite nth_error_app1 by (unfold lenN in *; lia). f_equal. unfold lenN in O. lia. }
  assert (LF : length (SpecHeader.field got (fd_offset d) (fd_length d)) = N.to_nat (fd_length d)).
  { pose proof (ProofHeader.lenN_field got (fd_offset d) (fd_length d)) as X. unfold lenN in *. lia. }
  assert (SOME : forall i, (i < N.to_nat (fd_length d))%nat ->
     exists x, nth_error got (N.to_nat (fd_offset d) + i) = Some x).
  { intros i I. destruct (nth_error got (N.to_nat (fd_offset d) + i)) eqn:X; [eauto|].
    apply nth_error_None in X. unfold lenN in *. lia. }
  assert (NU : fd_numeric d = true -> SpecHeader.field got (fd_offset d) (fd_length d) = l).
  { intros NU. apply nth_error_eq. intros i. destruct (Nat.lt_ge_cases i (N.to_nat (fd_length d))) as [C|C].
    - rewrite FN, LN by exact C. destruct (SOME i C) as [x X]. rewrite X. destruct (P _ _ X) as [Y|[Y _]]; [congruence|].
      exfalso. specialize (F1 NU). unfold lenN in F1. lia.
    - transitivity (@None byte); [|symmetry]; apply nth_error_None; unfold lenN in *; lia. }
  exists (firstn (N.to_nat (fd_offset d)) got), (SpecHeader.field got (fd_offset d) (fd_length d)),
    (skipn (N.to_nat (fd_offset d + fd_length d)) got).
  split; [exact SP1|]. split; [exact SP2|].
  destruct (fd_numeric d) eqn:ND; [rewrite (NU eq_refl); exact ST|].
  inversion ST as [t pad _ UP LE BL| | | | | | |]; subst; try congruence.
  assert (TA : t = [] \/ (N.to_nat (fd_offset d) + length t <= length a)%nat).
  { destruct UP as [UP|(r & x & UP & NB)]; [left; exact UP|right].
    destruct (Nat.le_gt_cases (N.to_nat (fd_offset d) + length t) (length a)) as [C|C]; [exact C|]. exfalso.
    assert (K : (length r < N.to_nat (fd_length d))%nat)
      by (rewrite UP in LE; unfold lenN in LE; rewrite !app_length in LE; cbn in LE; lia).
    pose proof (LN _ K) as X. rewrite UP, <- app_assoc, nth_error_app2, Nat.sub_diag in X by lia. cbn [app nth_error] in X.
    rewrite UP, app_length in C. cbn [length] in C. symmetry in X. apply Q in X; [|lia].
    apply NB. destruct X as [-> | ->]; vm_compute; tauto. }
  assert (FE : SpecHeader.field got (fd_offset d) (fd_length d) = t ++ skipn (length t) (SpecHeader.field got (fd_offset d) (fd_length d))).
  { rewrite <- (firstn_skipn (length t) (SpecHeader.field got (fd_offset d) (fd_length d))) at 1. f_equal.
    destruct TA as [->|TA]; [reflexivity|]. apply nth_error_eq. intros i.
    destruct (Nat.lt_ge_cases i (length t)) as [C|C].
    - rewrite nth_error_firstn_lt by exact C.
      assert (C2 : (i < N.to_nat (fd_length d))%nat) by (unfold lenN in LE; rewrite app_length in LE; lia).
      rewrite FN by exact C2. destruct (SOME i C2) as [x X]. rewrite X.
      destruct (P _ _ X) as [Y|[Y _]]; [|lia].
      rewrite <- LN, nth_error_app1 in Y by assumption. symmetry. exact Y.
    - transitivity (@None byte); [|symmetry]; apply nth_error_None; [rewrite firstn_length|]; lia. }
  rewrite FE. apply st_text; [exact ND|exact UP|rewrite <- FE; unfold lenN; lia|].
  apply Forall_forall. intros x I. apply In_nth_error in I. destruct I as [i I].
  rewrite nth_error_skipn_add in I.
  assert (C : (length t + i < N.to_nat (fd_length d))%nat).
  { rewrite <- LF. apply nth_error_Some. congruence. }
  rewrite FN in I by exact C. destruct (P _ _ I) as [Y|[_ Y]]; [|right; exact Y].
  rewrite <- LN in Y by exact C. rewrite nth_error_app2 in Y by lia. apply nth_error_In in Y.
  rewrite Forall_forall in BL. exact (BL x Y).
Qed.

Lemma table_back_any : forall c flt fields rows contents file, nearly_conforms c file fields rows ->
  Forall2 (row_of (file_endian file) fields) contents rows ->
  exists r cols evs,
    open_reader c file_source flt (file_open file) = Ok (r, [EvProps (rs_h r) (rs_md r)])
    /\ md_columns (rs_md r) = (match flt with Some p => filter p cols | None => cols end)
    /\ Forall2 (column_for (file_endian file)) fields cols
    /\ fst (trace c file_source [OpReadAll] (Some r)) = [(OpReadAll, Ok OUnit, evs)]
    /\ table_events flt cols contents evs.
Proof.
  intros c flt fields rows contents file H RO0.
  destruct (nearly_back c flt file fields rows H) as (r & cols & got & O & _ & MD & CF & BL & T).
  assert (RO : Forall2 (row_of (file_endian file) fields) contents got).
  { clear -RO0 BL. revert got BL. induction RO0; intros got BL; inversion BL; subst; constructor.
    - eapply blank_row_of; eassumption.
    - auto. }
  assert (MC : md_columns (rs_md r) = (match flt with Some p => filter p cols | None => cols end)) by (rewrite MD; reflexivity).
  destruct (T [OpReadAll]) as [T1 _]. cbv zeta in T1. cbn [cur_trace cur_step snd] in T1.
  rewrite map_length, numbered_from in T1. cbn [fst] in T1.
  destruct (one_entry _ _ _ _ _ T1 eq_refl) as (evs & TR & SE).
  destruct (seen_pushes _ _ _ _ SE) as (l & EV & IX & SR).
  exists r, cols, evs. split; [exact O|]. split; [exact MC|]. split; [exact CF|]. split; [exact TR|].
  exists l. split; [exact EV|]. split; [rewrite (same_length RO); exact IX|].
  apply (rows_shown (file_endian file) flt fields cols (md_row_length (m_md (said file))) got); try assumption.
  apply (kept_built flt cols (md_columns (rs_md r))); [|exact MC].
  assert (OP : opened c file_source flt (file_open file) r) by (eexists; exact O).
  apply opened_built in OP. revert OP. apply Forall_impl. intros col [X _]. exact X.
Qed.

Lemma file_back : forall c flt e fields contents file, holds_table c e fields contents file ->
  exists r cols evs,
    open_reader c file_source flt (file_open file) = Ok (r, [EvProps (rs_h r) (rs_md r)])
    /\ md_columns (rs_md r) = (match flt with Some p => filter p cols | None => cols end)
    /\ Forall2 (column_for e) fields cols
    /\ fst (trace c file_source [OpReadAll] (Some r)) = [(OpReadAll, Ok OUnit, evs)]
    /\ table_events flt cols contents evs.
Proof.
  intros c flt e fields contents file (rows & RO & H).
  destruct H as [f sh hlen plen name t <- <- H1 H2 H3 H4|f sh hlen plen name k rl first pages H1 H2 H3 H4|file H <-].
  - apply table_back; assumption.
  - apply table_back_compressed; assumption.
  - exact (table_back_any c flt fields rows contents file H RO).
Qed.

Lemma text_kept : forall e fields cols vs row, Forall2 (column_for e) fields cols ->
  row_of e fields vs row -> Forall2 printable fields vs -> Forall2 has_text cols vs.
Proof.
  intros e fields cols vs row F. revert vs. unfold row_of.
  induction F as [|d col fields cols CF F IH]; intros vs R P;
    inversion R as [|? v ? vs' (b & l & a & E & O & ST) R']; subst; [constructor|].
  inversion P as [|? ? ? ? P1 P2]; subst. constructor; [|apply IH; assumption].
  destruct v; try exact Logic.I. cbn [has_text printable] in *. inversion ST as [| | | | | | |bits' NU L N]; subst.
  apply (type_unique e d col _ CF). rewrite NU. destruct P1 as (N1 & N2 & N3).
  constructor; try assumption. lia.
Qed.
