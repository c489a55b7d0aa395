(** Model of sml/src/sml_time.c. *)
From Verif Require Import Base Buf Number.

(** sml_time.h: tag (u8 pointer) and a union of two u32 pointers. *)
Record sml_time : Type := mkTime { tm_tag : option mem; tm_data : option mem }.
Definition SML_TIME_SEC_INDEX := 1.

Section WithHost.
Context {H : Host}.

(** sml_time.c:62-117: everything after the tag was read. *)
Definition sml_time_value (tag : option mem) : P (option sml_time) :=
  type <- sml_buf_get_next_type ;;
  if type =? SML_TYPE_UNSIGNED then
    d <-? sml_u32_parse ;; ret (Some (mkTime tag d))
  else if type =? SML_TYPE_LIST then
    sml_buf_get_next_length ;;;
    t1 <-? sml_u32_parse ;;
    t2 <-? sml_i16_parse ;;
    t3 <-? sml_i16_parse ;;
    ret (Some (mkTime tag None))
  else ret None.    (* line 110: NULL without raising the error flag *)

(** sml_time.c:30-118.  The diagnostics on stderr (line 98) are in ReportModel.v. *)
Definition sml_time_parse : P (option sml_time) :=
  unless_skipped (
  b <- sml_buf_get_current_byte ;;
  if b =? Z.lor SML_TYPE_UNSIGNED 5 then sml_time_value (Some [SML_TIME_SEC_INDEX])
  else expect_list 2 (field sml_u8_parse sml_time_value)).

(** sml_time.c:120-129 *)
Definition sml_time_write (t : option sml_time) : P unit :=
  write_opt t (fun t =>
    sml_buf_set_type_and_length SML_TYPE_LIST 2 ;;;
    sml_u8_write (tm_tag t) ;;;
    sml_u32_write (tm_data t)).

End WithHost.
