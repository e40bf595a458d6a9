(** Model of the date/time part of [src/types.hpp] and [src/types.cpp], including
    the parts of Boost.Date_Time (1.86) that they call. *)
From Verif Require Import Base Types Float.
Local Open Scope Z_scope.

(** ** Boost.Date_Time *)

(** boost::posix_time::ptime: not_a_date_time or a count of microseconds since
    the origin of the Julian day numbers (64 bits).  The infinities of Boost are
    left out: no function of the library produces them except for values where
    [std::lround] is already out of range or equal to -2^63. *)
Inductive ptime : Type := NotADateTime | PTicks (t : Z).

(** boost::gregorian::date: the Julian day number (uint32), or not_a_date_time. *)
Inductive gdate : Type := NotADate | GDate (dn : N).

(** boost::posix_time::time_duration in microseconds (include/cppsas7bdat/types.hpp TIME). *)
Inductive tduration : Type := NotATime | TTicks (t : Z).

Definition us_per_day : Z := 86400 * 1000000.

Definition u32 (x : Z) : Z := x mod 2 ^ 32.
Definition u16 (x : Z) : Z := x mod 2 ^ 16.

(** boost gregorian_calendar_base::from_day_number: uint32 arithmetic, year,
    month and day as unsigned short. *)
Definition from_day_number (dn : Z) : Z * Z * Z :=
  let a := u32 (dn + 32044) in
  let b := u32 (4 * a + 3) / 146097 in
  let c := u32 (a - u32 (146097 * b) / 4) in
  let d := u32 (4 * c + 3) / 1461 in
  let e := u32 (c - u32 (1461 * d) / 4) in
  let m := u32 (5 * e + 2) / 153 in
  let day := u16 (u32 (e - u32 (153 * m + 2) / 5 + 1)) in
  let month := u16 (u32 (m + 3 - u32 (12 * (m / 10)))) in
  let year := u16 (u32 (100 * b + d - 4800 + m / 10)) in
  (year, month, day).

(** boost gregorian_calendar_base::day_number, for src/types.hpp:148, 172. *)
Definition day_number (y m d : Z) : Z :=
  let a := u16 ((14 - m) / 12) in
  let yy := u16 (y + 4800 - a) in
  let mm := u16 (m + 12 * a - 3) in
  u32 (d + (153 * mm + 2) / 5 + 365 * yy + yy / 4 - yy / 100 + yy / 400 - 32045).

(** Construction of a year_month_day: greg_year (1400..9999), greg_month and
    greg_day throw when out of range. *)
Definition check_ymd (p : Z * Z * Z) : res (Z * Z * Z) :=
  let '(y, m, d) := p in
  if (1400 <=? y) && (y <=? 9999) && (1 <=? m) && (m <=? 12)
     && (1 <=? d) && (d <=? 31)
  then Ok p else Exn E_bad_year.

(** date::year()/month()/day(): from_day_number of the stored number; for
    not_a_date_time the stored number is 2^32 - 2. *)
Definition date_ymd (d : gdate) : res (Z * Z * Z) :=
  match d with
  | GDate n => check_ymd (from_day_number (Z.of_N n))
  | NotADate => check_ymd (from_day_number (2 ^ 32 - 2))
  end.

(** ptime::date(), src/types.hpp:164, 173. *)
Definition ptime_date (t : ptime) : res gdate :=
  match t with
  | NotADateTime => Ok NotADate
  | PTicks n =>
      '(y, m, d) <- check_ymd (from_day_number (u32 (Z.quot n us_per_day))) ;;
      Ok (GDate (Z.to_N (day_number y m d)))
  end.

(** ptime::time_of_day(), src/types.hpp:160. *)
Definition ptime_tod (t : ptime) : tduration :=
  match t with
  | NotADateTime => NotATime
  | PTicks n => TTicks (Z.rem n us_per_day)
  end.

(** ptime(date, time_duration{}), src/types.hpp:148, 172. *)
Definition ptime_of_date (d : gdate) : ptime :=
  match d with
  | NotADate => NotADateTime
  | GDate n => PTicks (Z.of_N n * us_per_day)
  end.

(** int64 addition / multiplication of the tick counts. *)
Definition add_i64 (a b : Z) : res Z :=
  if int64_ok (a + b) then Ok (a + b) else Undef UB_overflow.
Definition mul_i64 (a b : Z) : res Z :=
  if int64_ok (a * b) then Ok (a * b) else Undef UB_overflow.

(** ptime start(date(1960, 1, 1)). *)
Definition epoch_ticks : Z := day_number 1960 1 1 * us_per_day.

(** start + days(n), src/types.hpp:155, 173. *)
Definition add_days (t n : Z) : res Z :=
  d <- mul_i64 n us_per_day ;; add_i64 t d.

(** ** src/types.hpp *)

(** types.hpp:150, 154. *)

Definition seconds_in_a_day : double := sf_of_Z (24 * 60 * 60).
Definition million : double := sf_of_Z 1000000.

(** src/types.hpp:143-157 get_datetime_from_epoch.  Simplification: the products
    are rounded on their own (no contraction to fused multiply-add). *)
Definition get_datetime_from_epoch (x : double) : res ptime :=
  noexcept
    (if sf_isnan x then Ok NotADateTime
     else
       let days := sf_round (sf_div x seconds_in_a_day) in
       let x1 := sf_sub x (sf_mul days seconds_in_a_day) in
       let secs := sf_round x1 in
       let micro := sf_round (sf_mul (sf_sub x1 secs) million) in
       d <- lround days ;;
       s <- lround secs ;;
       u <- lround micro ;;
       t1 <- add_days epoch_ticks d ;;
       s' <- mul_i64 s 1000000 ;;
       t2 <- add_i64 t1 s' ;;
       t3 <- add_i64 t2 u ;;
       Ok (PTicks t3)).

(** src/types.hpp:159-161 get_time_from_epoch. *)
Definition get_time_from_epoch (x : double) : res tduration :=
  noexcept (t <- get_datetime_from_epoch x ;; Ok (ptime_tod t)).

(** src/types.hpp:163-165 get_date_from_epoch_seconds. *)
Definition get_date_from_epoch_seconds (x : double) : res gdate :=
  noexcept (t <- get_datetime_from_epoch x ;; ptime_date t).

(** src/types.hpp:167-174 get_date_from_epoch_days. *)
Definition get_date_from_epoch_days (x : double) : res gdate :=
  noexcept
    (if sf_isnan x then Ok NotADate
     else
       n <- lround x ;;
       t <- add_days epoch_ticks n ;;
       ptime_date (PTicks t)).

(** src/types.hpp:176-182 get_date_from_epoch. *)
Definition get_date_from_epoch (x : double) : res gdate :=
  noexcept
    (d <- get_date_from_epoch_days x ;;
     match d with
     | NotADate => get_date_from_epoch_seconds x
     | _ => Ok d
     end).

(** ** Rendering (src/types.cpp) *)

(** The digits fmt writes, src/types.cpp:21-55. *)

Definition digit (n : N) : byte := n2b (48 + n).

Fixpoint dec_fuel (fuel : nat) (n : N) (acc : bytes) : bytes :=
  match fuel with
  | O => acc
  | S f =>
      let acc' := digit (n mod 10) :: acc in
      if (n <? 10)%N then acc' else dec_fuel f (n / 10) acc'
  end.

(** Decimal digits of a natural number (fmt "{}", std::to_string), of an integer, and the padding
    of "{:02}" (src/types.cpp:21-55, src/formatters.hpp). *)
Definition dec (n : N) : bytes := dec_fuel (S (N.to_nat (N.log2 n))) n [].

Definition dec_Z (z : Z) : bytes :=
  if z <? 0 then x2d :: dec (Z.to_N (- z)) else dec (Z.to_N z).

Definition pad0 (w : nat) (l : bytes) : bytes := repeat x30 (w - length l) ++ l.

(** fmt "{:0w}" of an integer: zero padding after the sign. *)
Definition fmt0 (w : nat) (z : Z) : bytes :=
  if z <? 0 then x2d :: pad0 (w - 1) (dec (Z.to_N (- z)))
  else pad0 w (dec (Z.to_N z)).

(** src/types.cpp:32, 41, 57: std::string(szBuffer, r.size) after fmt::format_to_n(szBuffer, cap, ...):
    reads past the buffer when the text is longer than it. *)
Definition from_buffer (cap : N) (text : bytes) : res bytes :=
  if (lenN text <=? cap)%N then Ok text else Undef UB_oob_read.

(** The tick count of a time_duration; not_a_date_time is stored as 2^63 - 2. *)
Definition td_ticks (t : tduration) : Z :=
  match t with
  | NotATime => 2 ^ 63 - 2
  | TTicks z => z
  end.

Definition td_hours (z : Z) : Z := Z.quot z (3600 * 1000000).
Definition td_minutes (z : Z) : Z := Z.rem (Z.quot z (60 * 1000000)) 60.
Definition td_seconds (z : Z) : Z := Z.rem (Z.quot z 1000000) 60.
Definition td_fraction (z : Z) : Z := Z.rem z 1000000.

Definition time_text (z : Z) : bytes :=
  fmt0 2 (td_hours z) ++ [x3a] ++ fmt0 2 (td_minutes z) ++ [x3a]
  ++ fmt0 2 (td_seconds z)
  ++ (if td_fraction z =? 0 then [] else [x2e] ++ fmt0 6 (td_fraction z)).

Definition date_text (p : Z * Z * Z) : bytes :=
  let '(y, m, d) := p in
  fmt0 4 y ++ [x2d] ++ fmt0 2 m ++ [x2d] ++ fmt0 2 d.

(** src/types.cpp:44-58 to_string(TIME), 16 byte buffer. *)
Definition time_to_string (t : tduration) : res bytes :=
  from_buffer 16 (time_text (td_ticks t)).

(** src/types.cpp:35-42 to_string(DATE), 16 byte buffer. *)
Definition date_to_string (d : gdate) : res bytes :=
  p <- date_ymd d ;; from_buffer 16 (date_text p).

(** src/types.cpp:15-33 to_string(DATETIME), 32 byte buffer. *)
Definition datetime_to_string (t : ptime) : res bytes :=
  d <- ptime_date t ;;
  p <- date_ymd d ;;
  from_buffer 32 (date_text p ++ [x20] ++ time_text (td_ticks (ptime_tod t))).

(** std::to_string(double), i.e. "%f" of glibc: exact value rounded half to
    even at 6 decimals.  [neg] is the sign bit. *)
Definition round_half_even (num den : Z) : Z :=
  let q := num / den in
  let r := num mod den in
  match (2 * r) ?= den with
  | Lt => q
  | Gt => q + 1
  | Eq => if Z.even q then q else q + 1
  end.

Definition fixed6 (m : positive) (e : Z) : bytes :=
  let scaled :=
    if 0 <=? e then Zpos m * 2 ^ e * 1000000
    else round_half_even (Zpos m * 1000000) (2 ^ (- e)) in
  dec (Z.to_N (scaled / 1000000)) ++ [x2e]
  ++ pad0 6 (dec (Z.to_N (scaled mod 1000000))).

Definition double_to_string (bits : N) : bytes :=
  let sign := if N.testbit bits 63 then [x2d] else [] in
  match sf_of_bits bits with
  | SpecFloat.S754_zero _ => sign ++ bs "0.000000"
  | SpecFloat.S754_infinity _ => sign ++ bs "inf"
  | SpecFloat.S754_nan => sign ++ bs "nan"
  | SpecFloat.S754_finite _ m e => sign ++ fixed6 m e
  end.
