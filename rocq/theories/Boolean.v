(** Model of sml/src/sml_boolean.c (constants: sml/include/sml/sml_boolean.h). *)
From Verif Require Import Base Buf.

Definition SML_BOOLEAN_TRUE := 255.   (* 0xFF *)
Definition SML_BOOLEAN_FALSE := 0.

(** typedef u8 sml_boolean *)
Definition sml_boolean : Type := Z.

(** sml_boolean.c:22-27 *)
Definition sml_boolean_init (b : Z) : sml_boolean := to_u8 b.

(** sml_boolean.c:29-56 *)
Definition sml_boolean_parse : P (option sml_boolean) :=
  unless_skipped (
  t <- sml_buf_get_next_type ;;
  if negb (t =? SML_TYPE_BOOLEAN) then err_null else
  l <- sml_buf_get_next_length ;;
  if negb (l =? 1) then err_null else
  e <- at_end ;;
  if (e : bool) then err_null else
  b <- sml_buf_get_current_byte ;;
  sml_buf_update_bytes_read 1 ;;;
  ret (Some (sml_boolean_init (if negb (b =? 0) then SML_BOOLEAN_TRUE else SML_BOOLEAN_FALSE)))).

(** sml_boolean.c:58-71 *)
Definition sml_boolean_write (boolean : option sml_boolean) : P unit :=
  write_opt boolean (fun b =>
    sml_buf_set_type_and_length SML_TYPE_BOOLEAN 1 ;;;
    store_current (if b =? SML_BOOLEAN_FALSE then SML_BOOLEAN_FALSE else SML_BOOLEAN_TRUE) ;;;
    inc_cursor).
