(** Model of [src/page.hpp] and [src/subheaders.hpp]. *)
From Verif Require Import Base Types Buffer.
Local Open Scope N_scope.

(** src/page.hpp:18-25. *)
Definition PAGE_INVALID_TYPE : N := 65535.
Definition PAGE_META_TYPE : N := 0.
Definition PAGE_DATA_TYPE : N := 256.
Definition PAGE_MIX_TYPE1 : N := 512.
Definition PAGE_MIX_TYPE2 : N := 640.
Definition PAGE_AMD_TYPE : N := 1024.

(** src/page.hpp:27-29. *)
Definition is_page_mix (t : N) : bool := (t =? PAGE_MIX_TYPE1) || (t =? PAGE_MIX_TYPE2).
(** src/page.hpp:31-34. *)
Definition is_page_meta_mix_amd (t : N) : bool :=
  (t =? PAGE_META_TYPE) || (t =? PAGE_AMD_TYPE) || is_page_mix t.
(** src/page.hpp:36-38. *)
Definition is_page_data_mix (t : N) : bool := (t =? PAGE_DATA_TYPE) || is_page_mix t.

(** src/page.hpp:45-53. *)
Definition page_bit_offset (f : format) : N :=
  match f with Bit64 => 32 | Bit32 => 16 end.

(** src/page.hpp:69-79 PAGE_HEADER. *)
Record page_header : Type := PageHeader {
  ph_type : N;
  ph_block_count : N;
  ph_subheaders_count : N
}.

Definition reset_page_header : page_header := PageHeader PAGE_INVALID_TYPE 0 0.

(** src/page.hpp:66-79: the members of READ_PAGE. *)
Record pstate (S : Type) : Type := PState {
  ps_is : S;
  ps_buf : mbuf;
  ps_hdr : page_header
}.
Arguments PState {S} _ _ _.
Arguments ps_is {S} _.
Arguments ps_buf {S} _.
Arguments ps_hdr {S} _.

(** src/page.hpp:105-114 _get_page_header. *)
Definition get_page_header (e : endian) (f : format) (b : mbuf) : res page_header :=
  t <- get_uint16 e b (page_bit_offset f + 0) ;;
  n <- get_uint16 e b (page_bit_offset f + 2) ;;
  k <- get_uint16 e b (page_bit_offset f + 4) ;;
  Ok (PageHeader t n k).

(** src/page.hpp:91-103 read_page. *)
Definition read_page {S} (c : cfg) (src : source S) (e : endian) (f : format)
    (page_length : N) (p : pstate S) : res bool * pstate S :=
  if src_eof src (ps_is p) then
    (Ok false, PState (ps_is p) (ps_buf p) reset_page_header)
  else
    let '(r, s', b') := read_stream c src (ps_buf p) (ps_is p) page_length 0 in
    let p' := PState s' b' reset_page_header in
    match r with
    | Ok true =>
        match get_page_header e f b' with
        | Ok h => (Ok true, PState s' b' h)
        | Exn ex => (Exn ex, p')
        | Abort => (Abort, p')
        | Undef u => (Undef u, p')
        | Fuel => (Fuel, p')
        end
    | Ok false =>
        if src_eof src s' then (Ok false, p') else (Exn E_cannot_read_page, p')
    | Exn ex => (Exn ex, p')
    | Abort => (Abort, p')
    | Undef u => (Undef u, p')
    | Fuel => (Fuel, p')
    end.

(** src/subheaders.hpp:18-23. *)
Record page_subheader : Type := PageSubheader {
  sh_offset : N;
  sh_length : N;
  sh_compression : N;
  sh_type : N
}.

(** src/page.hpp:116-118. *)
Definition subheader_size (f : format) : N := 3 * integer_size f.

(** src/page.hpp:138-149 _get_page_subheader. *)
Definition get_page_subheader (e : endian) (f : format) (b : mbuf) (off : N)
  : res page_subheader :=
  _ <- assert_check b off (subheader_size f) ;;
  o <- get_uinteger e f b off ;;
  l <- get_uinteger e f b (off + integer_size f) ;;
  cp <- get_byte b (off + integer_size f * 2) ;;
  ty <- get_byte b (off + integer_size f * 2 + 1) ;;
  _ <- assert_check b o l ;;
  Ok (PageSubheader o l (b2n cp) (b2n ty)).

(** src/subheaders.hpp:25-27. *)
Definition TRUNCATED_SUBHEADER_ID : N := 1.
Definition COMPRESSED_SUBHEADER_ID : N := 4.
Definition COMPRESSED_SUBHEADER_TYPE : N := 1.

(** src/page.hpp:123: position of entry [i] of the subheader table. *)
Definition subheader_pos (f : format) (i : N) : N :=
  page_bit_offset f + 8 + i * subheader_size f.

(** src/page.hpp:120-136 process_page_subheaders: [n] entries left, the next one
    is number [i]; [body] is the functor _process acting on an accumulator. *)
Fixpoint process_subheaders {T : Type} (e : endian) (f : format) (b : mbuf)
    (body : T -> page_subheader -> res T) (n : nat) (i : N) (acc : T) : res T :=
  match n with
  | O => Ok acc
  | S n' =>
      sh <- get_page_subheader e f b (subheader_pos f i) ;;
      acc' <- (if (sh_length sh =? 0)
                  || (sh_compression sh =? TRUNCATED_SUBHEADER_ID)
               then Ok acc else body acc sh) ;;
      process_subheaders e f b body n' (i + 1) acc'
  end.

Definition process_page_subheaders {T : Type} (e : endian) (f : format)
    (b : mbuf) (h : page_header) (body : T -> page_subheader -> res T)
    (acc : T) : res T :=
  process_subheaders e f b body (N.to_nat (ph_subheaders_count h)) 0 acc.

(** src/subheaders.hpp:29-44 DataSubHeader::check. *)
Definition data_subheader_check (comp : compression) (sh : page_subheader) : bool :=
  match comp with
  | CompNone => false
  | _ => ((sh_compression sh =? COMPRESSED_SUBHEADER_ID)
          || (sh_compression sh =? 0))
         && (sh_type sh =? COMPRESSED_SUBHEADER_TYPE)
  end.
