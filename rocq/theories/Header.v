(** Model of [src/header.hpp] and of the first two steps of
    [src/sas7bdat-impl.hpp] (check_header, read_header). *)
From Verif Require Import Base Types Float DateTime Buffer Encodings.
Local Open Scope N_scope.

(** include/cppsas7bdat/properties.hpp: struct Header.  [filename] is never set
    by the reader. *)
Record header : Type := Header {
  h_format : format;
  h_endianness : endian;
  h_platform : platform;
  h_date_created : ptime;
  h_date_modified : ptime;
  h_dataset_name : bytes;
  h_encoding : bytes;
  h_file_type : bytes;
  h_sas_release : bytes;
  h_sas_server_type : bytes;
  h_os_type : bytes;
  h_os_name : bytes;
  h_header_length : N;
  h_page_length : N;
  h_page_count : N
}.

(** src/header.hpp:19. *)
Definition HEADER_SIZE : N := 288.

(** src/header.hpp:20-23. *)
Definition MAGIC_NUMBER : bytes :=
  [x00; x00; x00; x00; x00; x00; x00; x00; x00; x00; x00;
   x00; xc2; xea; x81; x60; xb3; x14; x11; xcf; xbd; x92;
   x08; x00; x09; xc7; x31; x8c; x18; x1f; x10; x11].

(** src/header.hpp:26-33: the state of CHECK_HEADER. *)
Record check_header_st (S : Type) : Type := CheckHeader {
  ch_is : S;
  ch_buf : mbuf;
  ch_align1 : N;
  ch_align2 : N;
  ch_big : bool;
  ch_64 : bool
}.
Arguments CheckHeader {S} _ _ _ _ _ _.
Arguments ch_is {S} _.
Arguments ch_buf {S} _.
Arguments ch_align1 {S} _.
Arguments ch_align2 {S} _.
Arguments ch_big {S} _.
Arguments ch_64 {S} _.

(** src/header.hpp:35-39 the constructor: read the first 288 bytes. *)
Definition check_header_ctor {S} (c : cfg) (src : source S) (s : S)
  : res (S * mbuf) :=
  match read_stream c src empty_mbuf s HEADER_SIZE 0 with
  | (Ok true, s', b) => Ok (s', b)
  | (Ok false, _, _) => Exn E_header_too_short
  | (Exn e, _, _) => Exn e
  | (Abort, _, _) => Abort
  | (Undef u, _, _) => Undef u
  | (Fuel, _, _) => Fuel
  end.

(** src/header.hpp:41-50. *)
Definition check_magic_number (b : mbuf) : res unit :=
  l <- get_raw AssertNo b 0 (lenN MAGIC_NUMBER) ;;
  if bytes_eqb l MAGIC_NUMBER then Ok tt else Exn E_invalid_magic_number.

(** src/header.hpp:52-66 set_aligns_endianness. *)
Definition set_aligns_endianness {S} (s : S) (b : mbuf)
  : res (check_header_st S) :=
  b32 <- get_byte b 32 ;;
  b35 <- get_byte b 35 ;;
  b37 <- get_byte b 37 ;;
  let is64 := beq b32 x33 in
  let align2 := if is64 then 4 else 0 in
  let align1 := if beq b35 x33 then 4 else 0 in
  let big := negb (beq b37 x01) in
  Ok (CheckHeader s b align1 align2 big is64).

(** src/sas7bdat-impl.hpp:43-49 check_header. *)
Definition check_header {S} (c : cfg) (src : source S) (s : S)
  : res (check_header_st S) :=
  '(s', b) <- check_header_ctor c src s ;;
  _ <- check_magic_number b ;;
  set_aligns_endianness s' b.

(** src/header.hpp:86-103 set_header_length_and_read.  The source is an owning
    pointer; the FMT_ASSERT of line 83 on it always holds. *)
Definition set_header_length_and_read {S} (c : cfg) (src : source S)
    (e : endian) (s : S) (b : mbuf) (align1 : N) : res (N * S * mbuf) :=
  hl <- get_uint32 e b (196 + align1) ;;
  _ <- fmt_assert c (HEADER_SIZE <=? hl) ;;
  match read_stream c src b s (hl -! HEADER_SIZE) HEADER_SIZE with
  | (Ok true, s', b') => Ok (hl, s', b')
  | (Ok false, _, _) => Exn E_header_too_short
  | (Exn ex, _, _) => Exn ex
  | (Abort, _, _) => Abort
  | (Undef u, _, _) => Undef u
  | (Fuel, _, _) => Fuel
  end.

(** src/header.hpp:105-147 set_header. *)
Definition set_header (c : cfg) (e : endian) (f : format) (b : mbuf)
    (align1 total_align hl : N) : res header :=
  _ <- fmt_assert c (288 + total_align <=? msize b) ;;
  b39 <- get_byte b 39 ;;
  let pf := if beq b39 x31 then Unix
            else if beq b39 x32 then Windows else PlatformUnknown in
  b70 <- get_byte b 70 ;;
  name <- get_string AssertNo b 92 64 ;;
  ftype <- get_string AssertNo b 156 8 ;;
  cr <- get_double_bits e b (164 + align1) ;;
  created <- get_datetime_from_epoch (sf_of_bits cr) ;;
  mo <- get_double_bits e b (172 + align1) ;;
  modified <- get_datetime_from_epoch (sf_of_bits mo) ;;
  plen <- get_uint32 e b (200 + align1) ;;
  pcount <- get_uint32 e b (204 + align1) ;;
  release <- get_string AssertNo b (216 + total_align) 8 ;;
  server <- get_string AssertNo b (224 + total_align) 16 ;;
  ostype <- get_string AssertNo b (240 + total_align) 16 ;;
  o272 <- get_byte b (272 + total_align) ;;
  osname <- (if negb (beq o272 x00)
             then get_string AssertNo b (272 + total_align) 16
             else get_string AssertNo b (256 + total_align) 16) ;;
  Ok (Header f e pf created modified name (get_encoding b70) ftype release
             server ostype osname hl plen pcount).

(** src/sas7bdat-impl.hpp:112-127 read_header (dispatch on the byte order and the
    format) and 51-58 _read_header. *)
Definition read_header {S} (c : cfg) (src : source S) (ch : check_header_st S)
  : res (header * S * mbuf) :=
  let e := if ch_big ch then Big else Little in
  let f := if ch_64 ch then Bit64 else Bit32 in
  let total_align := ch_align1 ch + ch_align2 ch in
  '(hl, s', b') <- set_header_length_and_read c src e (ch_is ch) (ch_buf ch)
                     (ch_align1 ch) ;;
  h <- set_header c e f b' (ch_align1 ch) total_align hl ;;
  Ok (h, s', b').

(** src/sas7bdat-impl.hpp:174-178 READ::header. *)
Definition open_header {S} (c : cfg) (src : source S) (s : S)
  : res (header * S * mbuf) :=
  ch <- check_header c src s ;; read_header c src ch.
