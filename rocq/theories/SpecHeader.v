(** The header of a SAS7BDAT file, as a description of bytes. *)
From Verif Require Import Base Types Float DateTime Header SpecValues.
Local Open Scope N_scope.

(** The [len] bytes at [off] of the file. *)
Definition field (content : bytes) (off len : N) : bytes :=
  firstn (N.to_nat len) (skipn (N.to_nat off) content).

Definition byte_at (content : bytes) (off : N) : N :=
  match nth_error content (N.to_nat off) with
  | Some b => Byte.to_N b
  | None => 0
  end.

Definition has_magic (content : bytes) : Prop :=
  map Byte.to_N (field content 0 32) =
  [0; 0; 0; 0; 0; 0; 0; 0; 0; 0; 0; 0; 0xc2; 0xea; 0x81; 0x60;
   0xb3; 0x14; 0x11; 0xcf; 0xbd; 0x92; 0x08; 0x00; 0x09; 0xc7; 0x31; 0x8c;
   0x18; 0x1f; 0x10; 0x11].

(** Byte 32 is '3' in 64 bit files, byte 35 is '3' when the fields after the file
    type are moved by 4 bytes; byte 37 is 1 in little-endian files. *)
Definition is_64 (content : bytes) : bool := byte_at content 32 =? 0x33.
Definition file_format (content : bytes) : format :=
  if is_64 content then Bit64 else Bit32.
Definition file_endian (content : bytes) : endian :=
  if byte_at content 37 =? 1 then Little else Big.
Definition shift1 (content : bytes) : N :=
  if byte_at content 35 =? 0x33 then 4 else 0.
Definition shift2 (content : bytes) : N :=
  shift1 content + (if is_64 content then 4 else 0).

Definition header_length_field (content : bytes) : N :=
  value_of (file_endian content) (field content (196 + shift1 content) 4).

(** [r] is [l] without the leading white space and without the trailing white
    space and characters which are not printable ASCII. *)
Definition white (b : byte) : Prop :=
  9 <= Byte.to_N b <= 13 \/ Byte.to_N b = 32.
Definition printable (b : byte) : Prop := 32 <= Byte.to_N b <= 126.
Definition trimmed_text (l r : bytes) : Prop :=
  exists a t, l = a ++ r ++ t /\ Forall white a
    /\ Forall (fun b => white b \/ ~ printable b) t
    /\ (r = [] \/ (exists b r', r = b :: r' /\ ~ white b)
                  /\ (exists r' b, r = r' ++ [b] /\ printable b /\ ~ white b)).

(** A date of the header: 64 bits of a double, a number of seconds since 1960
    (see C50 for what the conversion does). *)
Definition date_of_bits (bits : N) (t : ptime) : Prop :=
  get_datetime_from_epoch (sf_of_bits bits) = Ok t.

Record header_of_file (content : bytes) (h : header) : Prop := {
  hof_format : h_format h = file_format content;
  hof_endian : h_endianness h = file_endian content;
  hof_platform :
    h_platform h = (if byte_at content 39 =? 0x31 then Unix
                    else if byte_at content 39 =? 0x32 then Windows
                    else PlatformUnknown);
  hof_encoding :
    exists b, Byte.to_N b = byte_at content 70
              /\ h_encoding h = Encodings.get_encoding b;
  hof_name : trimmed_text (field content 92 64) (h_dataset_name h);
  hof_type : trimmed_text (field content 156 8) (h_file_type h);
  hof_created :
    date_of_bits (value_of (file_endian content)
                    (field content (164 + shift1 content) 8)) (h_date_created h);
  hof_modified :
    date_of_bits (value_of (file_endian content)
                    (field content (172 + shift1 content) 8)) (h_date_modified h);
  hof_header_length : h_header_length h = header_length_field content;
  hof_page_length :
    h_page_length h
    = value_of (file_endian content) (field content (200 + shift1 content) 4);
  hof_page_count :
    h_page_count h
    = value_of (file_endian content) (field content (204 + shift1 content) 4);
  hof_release : trimmed_text (field content (216 + shift2 content) 8) (h_sas_release h);
  hof_server :
    trimmed_text (field content (224 + shift2 content) 16) (h_sas_server_type h);
  hof_os_type : trimmed_text (field content (240 + shift2 content) 16) (h_os_type h);
  hof_os_name :
    trimmed_text
      (field content
         ((if byte_at content (272 + shift2 content) =? 0 then 256 else 272)
          + shift2 content) 16)
      (h_os_name h)
}.
