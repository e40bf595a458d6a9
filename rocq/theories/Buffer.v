(** Model of [src/buffer.hpp] (MBUFFER, EBUFFER, BUFFER) and of the data sources. *)
From Verif Require Import Base Types.
Local Open Scope N_scope.

(** ** Data sources *)

(** include/cppsas7bdat/reader.hpp DataSourceConcept: eof() and
    read_bytes(p, n).  A source is any state machine; [src_read s n] returns the
    next state, the bytes stored at p (the caller's buffer has room for n) and
    the Boolean result. *)
Record source (S : Type) : Type := Source {
  src_eof : S -> bool;
  src_read : S -> N -> S * bytes * bool
}.
Arguments Source {S} _ _.
Arguments src_eof {S} _ _.
Arguments src_read {S} _ _ _.

(** include/cppsas7bdat/source/ifstream.hpp:17-18: the state of a std::ifstream opened on a regular
    file: the bytes not yet read
    and the eofbit / failbit flags.  Simplification: no I/O error (badbit); [Disk.v] has it. *)
Record fstate : Type := FState {
  fs_rest : bytes;
  fs_eof : bool;
  fs_fail : bool
}.

(** include/cppsas7bdat/source/ifstream.hpp:17-29.  std::istream::read(p, n): if
    the stream is not good, set failbit and read nothing; otherwise extract n
    characters, setting eofbit|failbit if the end is met first.  A length >= 2^63
    becomes a negative std::streamsize: libstdc++ extracts nothing and, as the
    count differs, sets eofbit|failbit. *)
Definition file_eof (s : fstate) : bool := fs_eof s.

Definition file_read (s : fstate) (n : N) : fstate * bytes * bool :=
  if fs_eof s || fs_fail s then
    (FState (fs_rest s) (fs_eof s) true, [], false)
  else if 2 ^ 63 <=? n then
    (FState (fs_rest s) true true, [], false)
  else if n <=? lenN (fs_rest s) then
    (FState (skipn (N.to_nat n) (fs_rest s)) false false,
     firstn (N.to_nat n) (fs_rest s), true)
  else
    (FState [] true true, fs_rest s, false).

Definition file_source : source fstate := Source file_eof file_read.

(** ifstream.hpp:20: the state of the source just opened on a file with the given content. *)
Definition file_open (content : bytes) : fstate := FState content false false.

(** ** MBUFFER *)

(** src/buffer.hpp:21-25: m_size and the allocation m_buffer (a null pointer is
    the empty allocation). *)
Record mbuf : Type := MBuf {
  mem : list cell;
  msize : N
}.

Definition empty_mbuf : mbuf := MBuf [] 0.

(** src/memory.hpp:24-28 aligned_alloc: operator new; throws bad_alloc. *)
Definition alloc (c : cfg) (n : N) : res (list cell) :=
  if n <=? max_alloc c then Ok (repeat None (N.to_nat n)) else Exn E_bad_alloc.

(** src/buffer.hpp:28-29 MBUFFER(size). *)
Definition mbuf_new (c : cfg) (n : N) : res mbuf :=
  m <- alloc c n ;; Ok (MBuf m n).

(** src/buffer.hpp:36-49 resize. *)
Definition resize (c : cfg) (b : mbuf) (n : N) : res mbuf :=
  if msize b <? n then
    fresh <- alloc c n ;;
    m <- (if negb (msize b =? 0)
          then write_cells fresh 0 (firstn (N.to_nat (msize b)) (mem b))
          else Ok fresh) ;;
    Ok (MBuf m n)
  else Ok (MBuf (mem b) n).

(** src/buffer.hpp:51-58 read_stream(is, read_length, offset_in_buffer).
    Returns the outcome together with the source and buffer afterwards. *)
Definition read_stream {S : Type} (c : cfg) (src : source S) (b : mbuf) (s : S)
    (read_length offset_in_buffer : N) : res bool * S * mbuf :=
  match resize c b (offset_in_buffer +! read_length) with
  | Ok b' =>
      let '(s', data, ok) := src_read src s read_length in
      match (if lenN data =? 0 then Ok (mem b')
             else write_cells (mem b') offset_in_buffer (map Some data)) with
      | Ok m => (Ok ok, s', MBuf m (msize b'))
      | Exn e => (Exn e, s', b')
      | Abort => (Abort, s', b')
      | Undef u => (Undef u, s', b')
      | Fuel => (Fuel, s', b')
      end
  | Exn e => (Exn e, s, b)
  | Abort => (Abort, s, b)
  | Undef u => (Undef u, s, b)
  | Fuel => (Fuel, s, b)
  end.

(** src/buffer.hpp:62-64 check: size_t addition wraps. *)
Definition check (b : mbuf) (off len : N) : bool := (off +! len) <=? msize b.

(** src/buffer.hpp:66-69 assert_check is noexcept and throws inside, hence
    std::terminate. *)
Definition assert_check (b : mbuf) (off len : N) : res unit :=
  noexcept (if check b off len then Ok tt else Exn E_invalid_buffer_access).

(** buffer.hpp:17 ASSERT: which instance of MBUFFER::data (71-91) is called. *)
Inductive assert_mode : Type := AssertNo | AssertYes.

(** src/buffer.hpp:71-78 (const overload): the ASSERT template argument is not
    used when DEBUG is not defined.  The getters of EBUFFER/BUFFER are const, so
    they all use this overload.  The pointer is dereferenced by the caller:
    [get_raw] returns the [len] bytes at [off]. *)
Definition get_raw (a : assert_mode) (b : mbuf) (off len : N) : res bytes :=
  match a with
  | AssertNo | AssertYes => read_cells (mem b) off len
  end.

(** src/buffer.hpp:93-95 operator[], 128-131 get_byte. *)
Definition get_byte (b : mbuf) (off : N) : res byte :=
  l <- get_raw AssertNo b off 1 ;;
  match l with
  | [x] => Ok x
  | _ => Undef UB_oob_read
  end.

(** src/buffer.hpp:145-149 get_uint16, 157-161 get_uint32, 203-207 get_uinteger:
    [n] is sizeof the integer. *)
Definition get_uint (a : assert_mode) (e : endian) (n : N) (b : mbuf) (off : N)
  : res N :=
  l <- get_raw a b off n ;; Ok (get_val e l).

Definition get_uint16 (e : endian) (b : mbuf) (off : N) : res N :=
  get_uint AssertNo e 2 b off.
Definition get_uint32 (e : endian) (b : mbuf) (off : N) : res N :=
  get_uint AssertNo e 4 b off.
Definition get_uinteger (e : endian) (f : format) (b : mbuf) (off : N) : res N :=
  get_uint AssertNo e (integer_size f) b off.

(** src/buffer.hpp:163-167 get_double: the 64 bits of the double. *)
Definition get_double_bits (e : endian) (b : mbuf) (off : N) : res N :=
  get_uint AssertNo e 8 b off.

(** src/buffer.hpp:169-174 get_string (trimmed), 176-181 get_string_untrim. *)
Definition get_string (a : assert_mode) (b : mbuf) (off len : N) : res bytes :=
  l <- get_raw a b off len ;; Ok (get_string_trim l).
Definition get_string_untrim (a : assert_mode) (b : mbuf) (off len : N)
  : res bytes :=
  get_raw a b off len.
