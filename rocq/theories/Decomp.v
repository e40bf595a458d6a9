(** Model of [src/decompressors.hpp]. *)
From Verif Require Import Base Types Buffer.
Local Open Scope N_scope.

(** src/decompressors.hpp:16-18. *)
Definition C_NULL : byte := x00.
Definition C_SPACE : byte := x20.
Definition C_AT : byte := x40.

(** src/decompressors.hpp:45-81 DST_VALUES: the buffer, n_dst and i_dst.  The
    size of the buffer is n_dst. *)
Record dst : Type := Dst {
  d_mem : list cell;
  d_n : N;
  d_i : N
}.

(** src/decompressors.hpp:50-52. *)
Definition dst_new (c : cfg) (n : N) : res dst :=
  b <- mbuf_new c n ;; Ok (Dst (mem b) n 0).

(** 59 reset. *)
Definition dst_reset (d : dst) : dst := Dst (d_mem d) (d_n d) 0.

(** 73 check(). *)
Definition dst_check (d : dst) : bool := d_i d <? d_n d.

(** 74-80 check(n), assert_check(n): not noexcept, the exception is catchable. *)
Definition dst_assert_check (d : dst) (n : N) : res unit :=
  if (d_i d +! n) <=? d_n d then Ok tt else Exn E_cannot_decompress.

(** 67-71 store_value; src/buffer.hpp:100-103 set (std::memset). *)
Definition store_value (d : dst) (v : byte) (n : N) : res dst :=
  _ <- dst_assert_check d n ;;
  m <- write_cells (d_mem d) (d_i d) (repeat (Some v) (N.to_nat n)) ;;
  Ok (Dst m (d_n d) (d_i d + n)).

(** 61-65 fill. *)
Definition dst_fill (d : dst) : res dst :=
  let n := d_n d -! d_i d in
  if n =? 0 then Ok d else store_value d C_NULL n.

(** 98-102 store_pattern; src/buffer.hpp:104-108 copy(dest, src, n), a memcpy
    within the buffer.  The source starts before the buffer when the offset is
    larger than i_dst; the two ranges overlap when the offset is smaller than
    the length. *)
Definition store_pattern (d : dst) (ofs n : N) : res dst :=
  _ <- dst_assert_check d n ;;
  if d_i d <? ofs then Undef UB_oob_read
  else if ofs <? n then Undef UB_overlap
  else
    m <- write_cells (d_mem d) (d_i d) (slice (d_i d - ofs) n (d_mem d)) ;;
    Ok (Dst m (d_n d) (d_i d + n)).

(** 20-37 SRC_VALUES is represented by the bytes from i_src on.  28 pop():
    string_view::operator[], undefined at the end of the view. *)
Definition pop (src : bytes) : res (byte * bytes) :=
  match src with
  | [] => Undef UB_oob_read
  | x :: r => Ok (x, r)
  end.

(** 200-205 store_values of RLE; src/buffer.hpp:109-112 copy(offset, BYTES). *)
Definition store_values (src : bytes) (d : dst) (n : N) : res (bytes * dst) :=
  let n := N.min n (lenN src) in
  _ <- dst_assert_check d n ;;
  m <- write_cells (d_mem d) (d_i d) (map Some (firstn (N.to_nat n) src)) ;;
  Ok (skipn (N.to_nat n) src, Dst m (d_n d) (d_i d + n)).

(** 208-263: one turn of the loop of RLE::operator(). *)
Definition rle_step (src : bytes) (d : dst) : res (bytes * dst) :=
  '(val, src) <- pop src ;;
  let command := b2n val / 16 in
  let low := b2n val mod 16 in
  let insert := fun src v n => d' <- store_value d v n ;; Ok (src, d') in
  match command with
  | 0 => '(x, src) <- pop src ;; store_values src d (low * 256 + b2n x + 64)
  | 4 => '(x, src) <- pop src ;;
         '(v, src) <- pop src ;; insert src v (low * 16 + b2n x + 18)
  | 5 => '(x, src) <- pop src ;; insert src C_AT (low * 256 + b2n x + 17)
  | 6 => '(x, src) <- pop src ;; insert src C_SPACE (low * 256 + b2n x + 17)
  | 7 => '(x, src) <- pop src ;; insert src C_NULL (low * 256 + b2n x + 17)
  | 8 => store_values src d (low + 1)
  | 9 => store_values src d (low + 17)
  | 10 => store_values src d (low + 33)
  | 11 => store_values src d (low + 49)
  | 12 => '(v, src) <- pop src ;; insert src v (low + 3)
  | 13 => insert src C_AT (low + 2)
  | 14 => insert src C_SPACE (low + 2)
  | 15 => insert src C_NULL (low + 2)
  | _ => Exn E_cannot_decompress
  end.

(** 207-264: the loop.  On failure the destination is as before the failing
    command: nothing is written before the checks. *)
Fixpoint rle_loop (fuel : nat) (src : bytes) (d : dst) : res unit * dst :=
  if (2 <=? lenN src) && dst_check d then
    match fuel with
    | O => (Fuel, d)
    | S fuel' =>
        match rle_step src d with
        | Ok (src', d') => rle_loop fuel' src' d'
        | Exn e => (Exn e, d)
        | Abort => (Abort, d)
        | Undef u => (Undef u, d)
        | Fuel => (Fuel, d)
        end
    end
  else (Ok tt, d).

(** fill() and as_bytes() after the loop: 265-266 and 158-159. *)
Definition finish (r : res unit * dst) : res bytes * dst :=
  match r with
  | (Ok tt, d) =>
      match dst_fill d with
      | Ok d' => (read_cells (d_mem d') 0 (d_n d'), d')
      | Exn e => (Exn e, d)
      | Abort => (Abort, d)
      | Undef u => (Undef u, d)
      | Fuel => (Fuel, d)
      end
  | (Exn e, d) => (Exn e, d)
  | (Abort, d) => (Abort, d)
  | (Undef u, d) => (Undef u, d)
  | (Fuel, d) => (Fuel, d)
  end.

(** 195-267 RLE::operator(). *)
Definition rle (src : bytes) (d : dst) : res bytes * dst :=
  finish (rle_loop (length src) src (dst_reset d)).

(** 116-156: one turn of the loop of RDC::operator(), with ctrl_mask and
    ctrl_bits. *)
Definition rdc_step (src : bytes) (mask bits : N) (d : dst)
  : res (bytes * N * N * dst) :=
  let mask := mask / 2 in
  '(src, mask, bits) <-
     (if mask =? 0 then
        '(h, src) <- pop src ;;
        '(l, src) <- pop src ;;
        Ok (src, 32768, b2n h * 256 + b2n l)
      else Ok (src, mask, bits)) ;;
  if N.land bits mask =? 0 then
    '(v, src) <- pop src ;;
    d' <- store_value d v 1 ;; Ok (src, mask, bits, d')
  else
    '(val, src) <- pop src ;;
    let cmd := b2n val / 16 in
    let cnt := b2n val mod 16 in
    if cmd =? 0 then
      '(v, src) <- pop src ;;
      d' <- store_value d v (cnt + 3) ;; Ok (src, mask, bits, d')
    else if cmd =? 1 then
      '(x, src) <- pop src ;;
      '(v, src) <- pop src ;;
      d' <- store_value d v (cnt + (b2n x * 16 + 19)) ;; Ok (src, mask, bits, d')
    else if cmd =? 2 then
      '(x, src) <- pop src ;;
      '(y, src) <- pop src ;;
      d' <- store_pattern d (cnt + 3 + b2n x * 16) (b2n y + 16) ;;
      Ok (src, mask, bits, d')
    else
      '(x, src) <- pop src ;;
      d' <- store_pattern d (cnt + 3 + b2n x * 16) cmd ;;
      Ok (src, mask, bits, d').

(** 115-157: the loop. *)
Fixpoint rdc_loop (fuel : nat) (src : bytes) (mask bits : N) (d : dst)
  : res unit * dst :=
  if (3 <=? lenN src) && dst_check d then
    match fuel with
    | O => (Fuel, d)
    | S fuel' =>
        match rdc_step src mask bits d with
        | Ok (src', mask', bits', d') => rdc_loop fuel' src' mask' bits' d'
        | Exn e => (Exn e, d)
        | Abort => (Abort, d)
        | Undef u => (Undef u, d)
        | Fuel => (Fuel, d)
        end
    end
  else (Ok tt, d).

(** 104-160 RDC::operator(). *)
Definition rdc (src : bytes) (d : dst) : res bytes * dst :=
  finish (rdc_loop (length src) src 0 0 (dst_reset d)).

(** The decompressor held by READ_DATA: 39-43 None, RDC, RLE. *)
Inductive decompressor : Type := DNone | DRDC (d : dst) | DRLE (d : dst).

(** src/sas7bdat-impl.hpp:141-159 read_data: the choice of the decompressor. *)
Definition make_decompressor (c : cfg) (comp : compression) (row_length : N)
  : res decompressor :=
  match comp with
  | CompRDC => d <- dst_new c row_length ;; Ok (DRDC d)
  | CompRLE => d <- dst_new c row_length ;; Ok (DRLE d)
  | CompNone => Ok DNone
  end.
