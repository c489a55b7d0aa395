(** Model of sml/src/sml_number.c and the macros of
    sml/include/sml/sml_number.h. *)
From Verif Require Import Base Buf.

Section WithHost.
Context {H : Host}.

(** sml_number.c:26-34 *)
Definition sml_number_byte_swap (bytes : list Z) : list Z :=
  let len := length bytes in
  map (fun i => nth (len - (i + 1)) bytes 0) (seq 0 len).

(** sml_number.c:36-44 *)
Definition sml_number_endian : endian := host_endian.

(** sml_number.c:46-66.  [size] <= 8; malloc succeeds; [type] is unused in C. *)
Definition sml_number_init (number : Z) (size : nat) : mem :=
  let bytes := mem_of 8 number in
  match sml_number_endian with
  | BigEndian => firstn size (skipn (8 - size) bytes)
  | LittleEndian => firstn size bytes
  end.

(** sml_number.c:68-129 *)
Definition sml_number_parse (type : Z) (max_size : Z) : P (option mem) :=
  unless_skipped (
  e <- at_end ;;
  if (e : bool) then err_null else
  t <- sml_buf_get_next_type ;;
  if negb (t =? type) then err_null else
  l <- sml_buf_get_next_length ;;
  if (l <? 0) || (l >? max_size) then err_null else
  short <- (fun s => Ret ((buffer_len s <? cursor s + Z.to_nat l)%nat, s)) ;;
  if (short : bool) then err_null else
  e <- at_end ;;
  if (e : bool) then err_null else
  b <- sml_buf_get_current_byte ;;
  let negative_int := (type =? SML_TYPE_INTEGER) && negb (Z.land b 128 =? 0) in
  let missing_bytes := Z.to_nat (max_size - l) in
  data <- read_current (Z.to_nat l) ;;
  let np := repeat (if negative_int then 255 else 0) missing_bytes ++ data in
  let np := match sml_number_endian with
            | BigEndian => np
            | LittleEndian => sml_number_byte_swap np
            end in
  sml_buf_update_bytes_read l ;;;
  ret (Some np)).

(** sml_number.c:131-145.  The object at [np] must have at least [size] bytes,
    otherwise the memcpy reads outside it. *)
Definition sml_number_write (np : option mem) (type : Z) (size : Z) : P unit :=
  write_opt np (fun m =>
    sml_buf_set_type_and_length type size ;;;
    (if (length m <? Z.to_nat size)%nat then fail OobRead else ret tt) ;;;
    let data := firstn (Z.to_nat size) m in
    let data := match sml_number_endian with
                | BigEndian => data
                | LittleEndian => sml_number_byte_swap data
                end in
    write_current data ;;;
    sml_buf_update_bytes_read size).

(** sml_number.h: the typed wrappers. *)
Definition sml_u8_parse := sml_number_parse SML_TYPE_UNSIGNED 1.
Definition sml_u16_parse := sml_number_parse SML_TYPE_UNSIGNED 2.
Definition sml_u32_parse := sml_number_parse SML_TYPE_UNSIGNED 4.
Definition sml_u64_parse := sml_number_parse SML_TYPE_UNSIGNED 8.
Definition sml_i8_parse := sml_number_parse SML_TYPE_INTEGER 1.
Definition sml_i16_parse := sml_number_parse SML_TYPE_INTEGER 2.
Definition sml_i32_parse := sml_number_parse SML_TYPE_INTEGER 4.
Definition sml_i64_parse := sml_number_parse SML_TYPE_INTEGER 8.
Definition sml_u8_write n := sml_number_write n SML_TYPE_UNSIGNED 1.
Definition sml_u16_write n := sml_number_write n SML_TYPE_UNSIGNED 2.
Definition sml_u32_write n := sml_number_write n SML_TYPE_UNSIGNED 4.
Definition sml_u64_write n := sml_number_write n SML_TYPE_UNSIGNED 8.
Definition sml_i8_write n := sml_number_write n SML_TYPE_INTEGER 1.
Definition sml_i16_write n := sml_number_write n SML_TYPE_INTEGER 2.
Definition sml_i32_write n := sml_number_write n SML_TYPE_INTEGER 4.
Definition sml_i64_write n := sml_number_write n SML_TYPE_INTEGER 8.
Definition sml_u8_init n := sml_number_init n 1.
Definition sml_u16_init n := sml_number_init n 2.
Definition sml_u32_init n := sml_number_init n 4.
Definition sml_u64_init n := sml_number_init n 8.
Definition sml_i8_init n := sml_number_init n 1.
Definition sml_i16_init n := sml_number_init n 2.
Definition sml_i32_init n := sml_number_init n 4.
Definition sml_i64_init n := sml_number_init n 8.
End WithHost.
