(** How long sml_file_parse takes: the parser of whole files once more, counting steps.

    One step for every look at the buffer, the cursor or the error flag and for every
    change of them; one for every byte that is copied, filled in, swapped, compared or
    put into a checksum.  Every iteration of every loop of the parser contains at least
    one of these.  Not counted: the work of malloc, realloc and free (the number of
    blocks is in HeapCost), fprintf, and straight-line code between two steps.

    The definitions have the text of those in the files named, with the counting
    operations in place of the plain ones; StepFacts shows that they do the same. *)
From Verif Require Import Base Buf Crc16 Number OctetString Boolean Value Time SList Tree Bodies Message File.

(** Code that reads from a buffer: the number of steps, and what it does. *)
Definition T (A : Type) : Type := sbuf -> nat * outcome (A * sbuf).
Definition t_ret {A} (x : A) : T A := fun s => (0%nat, Ret (x, s)).
Definition t_bind {A B} (p : T A) (k : A -> T B) : T B := fun s =>
  match p s with
  | (n, Ret (x, s')) => let '(n', o) := k x s' in ((n + n')%nat, o)
  | (n, Fault f) => (n, Fault f)
  | (n, NoFuel) => (n, NoFuel)
  end.
Definition t_fail {A} (f : fault) : T A := fun _ => (0%nat, Fault f).
Definition t_out_of_fuel {A} : T A := fun _ => (0%nat, NoFuel).
(** One step. *)
Definition t_step {A} (p : P A) : T A := fun s => (1%nat, p s).
(** [n] steps. *)
Definition t_spend (n : nat) : T unit := fun s => (n, Ret (tt, s)).
Notation "x <-- m ;; k" := (t_bind m (fun x => k)) (at level 62, m at next level, right associativity).
Notation "m ;;~ k" := (t_bind m (fun _ => k)) (at level 62, right associativity).

(** The operations of sml_shared.c:103-117 and the idioms of Buf that are one step. *)
Definition t_set_error : T unit := t_step set_error.
Definition t_has_errors : T bool := t_step sml_buf_has_errors.
Definition t_at_end : T bool := t_step at_end.
Definition t_get_current_byte : T Z := t_step sml_buf_get_current_byte.
Definition t_update_bytes_read (bytes : Z) : T unit := t_step (sml_buf_update_bytes_read bytes).
Definition t_int_op (exact : Z) : T Z := t_step (int_op exact).
Definition t_cursor_int (start : Z) : T Z := t_step (cursor_int start).
(** A copy of [n] bytes. *)
Definition t_read_current (n : nat) : T (list Z) := t_spend n ;;~ t_step (read_current n).
(** Message.buffer_slice only names the bytes; what is done to them is counted where it is done. *)
Definition t_buffer_slice (start len : Z) : T (list Z) := t_step (buffer_slice start len).
(** sml_file.c:73-78; the realloc is one step. *)
Definition t_file_add_message (msgs : list sml_message) (m : sml_message) : T (list sml_message) := t_step (sml_file_add_message msgs m).

(** *** Buf.v *)
(** "buf->error = 1; return NULL" *)
Definition t_err_null {A} : T (option A) := t_set_error ;;~ t_ret None.

(** sml_shared.c:105-111 *)
Definition t_get_next_type : T Z :=
  e <-- t_at_end ;;
  if (e : bool) then t_set_error ;;~ t_ret 256
  else b <-- t_get_current_byte ;; t_ret (Z.land b SML_TYPE_FIELD).

(** sml_shared.c:34-46, the for loop.  Result: (length, list) at loop exit.
    "length <<= 4" is undefined when length is negative or length*16 does not
    fit: the test [int_okb] of the exact result covers the second case, and the
    first can only follow it (length starts at 0 and or-ing bits 0..3 keeps the
    sign), so [ovf] is set before any negative length is shifted. *)
Fixpoint t_get_next_length_loop (fuel : nat) (length list : Z) : T (Z * Z) :=
  match fuel with
  | O => t_out_of_fuel
  | S fuel' =>
      e <-- t_at_end ;;
      if (e : bool) then t_ret (length, list) else
      byte <-- t_get_current_byte ;;
      length1 <-- t_int_op (length * 16) ;;
      let length2 := Z.lor length1 (Z.land byte SML_LENGTH_FIELD) in
      if negb (Z.land byte SML_ANOTHER_TL =? SML_ANOTHER_TL) then t_ret (length2, list)
      else
        t_update_bytes_read 1 ;;~
        list1 <-- (if negb (list =? 0) then t_int_op (list + -1) else t_ret list) ;;
        t_get_next_length_loop fuel' length2 list1
  end.

Definition t_with_fuel {A} (f : nat -> T A) : T A := fun s => f (fuel_of s) s.

(** sml_shared.c:23-55 *)
Definition t_get_next_length : T Z :=
  e <-- t_at_end ;;
  if (e : bool) then t_set_error ;;~ t_ret (-1) else
  byte <-- t_get_current_byte ;;
  let list := if Z.land byte SML_TYPE_FIELD =? SML_TYPE_LIST then 0 else -1 in
  ll <-- t_with_fuel (fun fuel => t_get_next_length_loop fuel 0 list) ;;
  e <-- t_at_end ;;
  if (e : bool) then t_set_error ;;~ t_ret (-1) else
  t_update_bytes_read 1 ;;~
  t_int_op (fst ll + snd ll).

(** sml_shared.c:145-163; the inner re-check of the bound (153-156) is kept. *)
Definition t_optional_is_skipped : T Z :=
  e <-- t_at_end ;;
  if (e : bool) then t_set_error ;;~ t_ret (-1) else
  b <-- t_get_current_byte ;;
  if b =? SML_OPTIONAL_SKIPPED then
    e <-- t_at_end ;;
    if (e : bool) then t_set_error ;;~ t_ret (-1) else
    t_update_bytes_read 1 ;;~ t_ret 1
  else t_ret 0.

(** "if (sml_buf_optional_is_skipped(buf)) return NULL;" followed by [k]. *)
Definition t_unless_skipped {A} (k : T (option A)) : T (option A) :=
  sk <-- t_optional_is_skipped ;;
  if negb (sk =? 0) then t_ret None else k.

(** Idioms of the record parsers.  [field p k]: "x = p(buf); if
    (sml_buf_has_errors(buf)) goto error;" then [k x]; the label "error" frees
    and returns NULL.  [expect_list n k]: "if (sml_buf_get_next_type(buf) !=
    SML_TYPE_LIST) {buf->error = 1; goto error;} if (sml_buf_get_next_length(buf)
    != n) {buf->error = 1; goto error;}" then [k]. *)
Definition t_field {A B} (p : T A) (k : A -> T (option B)) : T (option B) :=
  v <-- p ;;
  e <-- t_has_errors ;;
  if (e : bool) then t_ret None else k v.

Definition t_expect_list {B} (n : Z) (k : T (option B)) : T (option B) :=
  t <-- t_get_next_type ;;
  if negb (t =? SML_TYPE_LIST) then t_err_null else
  l <-- t_get_next_length ;;
  if negb (l =? n) then t_err_null else k.

(** A label "error: buf->error = 1; ... return NULL" at the end of a function
    whose only NULL results come through that label. *)
Definition t_error_label {A} (m : T (option A)) : T (option A) :=
  r <-- m ;;
  match r with
  | Some v => t_ret (Some v)
  | None => t_err_null
  end.

Notation "x <-~ p ;; k" := (t_field p (fun x => k)) (at level 62, p at next level, right associativity).

Section WithHost.
Context {H : Host}.

(** *** Number.v *)
(** sml_number.c:68-129 *)
Definition t_number_parse (type : Z) (max_size : Z) : T (option mem) :=
  t_unless_skipped (
  e <-- t_at_end ;;
  if (e : bool) then t_err_null else
  t <-- t_get_next_type ;;
  if negb (t =? type) then t_err_null else
  l <-- t_get_next_length ;;
  if (l <? 0) || (l >? max_size) then t_err_null else
  short <-- t_step (fun s => Ret ((buffer_len s <? cursor s + Z.to_nat l)%nat, s)) ;;
  if (short : bool) then t_err_null else
  e <-- t_at_end ;;
  if (e : bool) then t_err_null else
  b <-- t_get_current_byte ;;
  let negative_int := (type =? SML_TYPE_INTEGER) && negb (Z.land b 128 =? 0) in
  let missing_bytes := Z.to_nat (max_size - l) in
  data <-- t_read_current (Z.to_nat l) ;;
  t_spend (2 * Z.to_nat max_size) ;;~    (* the bytes filled in and swapped *)
  let np := repeat (if negative_int then 255 else 0) missing_bytes ++ data in
  let np := match sml_number_endian with
            | BigEndian => np
            | LittleEndian => sml_number_byte_swap np
            end in
  t_update_bytes_read l ;;~
  t_ret (Some np)).

(** sml_number.h: the typed wrappers. *)
Definition t_u8_parse := t_number_parse SML_TYPE_UNSIGNED 1.
Definition t_u16_parse := t_number_parse SML_TYPE_UNSIGNED 2.
Definition t_u32_parse := t_number_parse SML_TYPE_UNSIGNED 4.
Definition t_u64_parse := t_number_parse SML_TYPE_UNSIGNED 8.
Definition t_i8_parse := t_number_parse SML_TYPE_INTEGER 1.
Definition t_i16_parse := t_number_parse SML_TYPE_INTEGER 2.
Definition t_i64_parse := t_number_parse SML_TYPE_INTEGER 8.

(** *** OctetString.v *)
(** sml_octet_string.c:68-89.  In line 80 [l] is converted to size_t and
    compared with the (wrapping) difference. *)
Definition t_octet_string_parse : T (option octet_string) :=
  t_unless_skipped (
  t <-- t_get_next_type ;;
  if negb (t =? SML_TYPE_OCTET_STRING) then t_err_null else
  l <-- t_get_next_length ;;
  bad <-- t_step (fun s => Ret ((l <? 0) || (size_sub (buffer_len s) (cursor s) <=? to_size l), s)) ;;
  if (bad : bool) then t_err_null else
  str <-- t_read_current (Z.to_nat l) ;;
  t_update_bytes_read l ;;~
  t_ret (Some (sml_octet_string_init str l))).

(** *** Boolean.v *)
(** sml_boolean.c:29-56 *)
Definition t_boolean_parse : T (option sml_boolean) :=
  t_unless_skipped (
  t <-- t_get_next_type ;;
  if negb (t =? SML_TYPE_BOOLEAN) then t_err_null else
  l <-- t_get_next_length ;;
  if negb (l =? 1) then t_err_null else
  e <-- t_at_end ;;
  if (e : bool) then t_err_null else
  b <-- t_get_current_byte ;;
  t_update_bytes_read 1 ;;~
  t_ret (Some (sml_boolean_init (if negb (b =? 0) then SML_BOOLEAN_TRUE else SML_BOOLEAN_FALSE)))).

(** *** Value.v *)
(** sml_value.c:45-47, sml_status.c:42-44: smallest power of two that is not
    less than the length nibble - 1 (at most 14, so 16 at most). *)
Fixpoint t_max_loop (fuel : nat) (max limit : Z) : T Z :=
  match fuel with
  | O => t_out_of_fuel
  | S fuel' => t_spend 1 ;;~ if max <? limit then t_max_loop fuel' (max * 2) limit else t_ret max
  end.

Definition t_number_width (byte : Z) : T Z :=
  t_max_loop 5 1 (Z.land byte SML_LENGTH_FIELD - 1).

(** sml_value.c:23-62.  value->type is a u8. *)
Definition t_value_parse : T (option sml_value) :=
  t_unless_skipped (
  type <-- t_get_next_type ;;
  byte <-- t_get_current_byte ;;
  value <-- (if type =? SML_TYPE_OCTET_STRING then
              d <-- t_octet_string_parse ;; t_ret (mkValue (to_u8 type) (data_of_bytes d))
            else if type =? SML_TYPE_BOOLEAN then
              d <-- t_boolean_parse ;; t_ret (mkValue (to_u8 type) (data_of_bool d))
            else if (type =? SML_TYPE_UNSIGNED) || (type =? SML_TYPE_INTEGER) then
              max <-- t_number_width byte ;;
              d <-- t_number_parse type max ;;
              t_ret (mkValue (to_u8 (Z.lor (to_u8 type) max)) (data_of_num d))
            else
              t_set_error ;;~ t_ret (mkValue (to_u8 type) VNull)) ;;
  e <-- t_has_errors ;;
  if (e : bool) then t_ret None else t_ret (Some value)).

(** sml_status.c:28-59 *)
Definition t_status_parse : T (option sml_status) :=
  t_unless_skipped (
  type <-- t_get_next_type ;;
  byte <-- t_get_current_byte ;;
  status <-- (if type =? SML_TYPE_UNSIGNED then
               max <-- t_number_width byte ;;
               d <-- t_number_parse type max ;;
               t_ret (mkStatus (to_u8 (Z.lor (to_u8 type) max)) d)
             else
               t_set_error ;;~ t_ret (mkStatus (to_u8 type) None)) ;;
  e <-- t_has_errors ;;
  if (e : bool) then t_ret None else t_ret (Some status)).

(** *** Time.v *)
(** sml_time.c:62-117: everything after the tag was read. *)
Definition t_time_value (tag : option mem) : T (option sml_time) :=
  type <-- t_get_next_type ;;
  if type =? SML_TYPE_UNSIGNED then
    d <-~ t_u32_parse ;; t_ret (Some (mkTime tag d))
  else if type =? SML_TYPE_LIST then
    t_get_next_length ;;~
    t1 <-~ t_u32_parse ;;
    t2 <-~ t_i16_parse ;;
    t3 <-~ t_i16_parse ;;
    t_ret (Some (mkTime tag None))
  else t_ret None.    (* line 110: NULL without raising the error flag *)

(** sml_time.c:30-118.  The diagnostics on stderr (line 98) are in ReportModel.v. *)
Definition t_time_parse : T (option sml_time) :=
  t_unless_skipped (
  b <-- t_get_current_byte ;;
  if b =? Z.lor SML_TYPE_UNSIGNED 5 then t_time_value (Some [SML_TIME_SEC_INDEX])
  else t_expect_list 2 (t_field t_u8_parse t_time_value)).

(** *** SList.v *)
(** sml_list.c:45-51.  [n] = len - i.  [None]: "goto haserrors". *)
Fixpoint t_sequence_loop {A} (fuel : nat) (n : Z) (elem_parse : T (option A))
  : T (option (sml_sequence A)) :=
  if n <=? 0 then t_ret (Some []) else
  match fuel with
  | O => t_out_of_fuel
  | S fuel' =>
      p <-- elem_parse ;;
      e <-- t_has_errors ;;
      if (e : bool) then t_ret None else
      r <-- t_sequence_loop fuel' (n - 1) elem_parse ;;
      t_ret (match r with None => None | Some t => Some (p :: t) end)
  end.

(** sml_list.c:36-60.  elems_len is an int; it cannot overflow because len is. *)
Definition t_sequence_parse {A} (elem_parse : T (option A)) : T (option (sml_sequence A)) :=
  t_error_label (
  t <-- t_get_next_type ;;
  if negb (t =? SML_TYPE_LIST) then t_ret None else
  len <-- t_get_next_length ;;
  t_with_fuel (fun fuel => t_sequence_loop fuel len elem_parse)).

(** sml_list.c:249-257.  [w] is workarounds->old_dzg_dvs74.  The result is the
    entry and the new state of the workaround. *)
Definition t_apply_workaround (w : bool) (value_len_more : Z) (l : list_entry)
  : T (list_entry * bool) :=
  t_spend 24 ;;~    (* the bytes compared: 6, 6, 5, and the loops of lines 149-159: 5, 2 *)
  d <-- t_step (detect_buggy_dzg_dvs74 l) ;;
  if (d : bool) then t_ret (l, true)
  else
    match le_value l with
    | Some v =>
        if w && name_is (le_obj_name l) dzg_power_name &&
           ((value_len_more =? 1) || (value_len_more =? 2) || (value_len_more =? 3))
        then t_ret (mkEntry (le_obj_name l) (le_status l) (le_val_time l) (le_unit l)
                          (le_scaler l) (Some (force_unsigned v)) (le_value_signature l), w)
        else t_ret (l, w)
    | None => t_ret (l, w)
    end.

(** sml_list.c:172-267 *)
Definition t_list_entry_parse (w : bool) : T (option (list_entry * bool)) :=
  t_error_label (
  t_expect_list 7 (
  obj_name <-~ t_octet_string_parse ;;
  status <-~ t_status_parse ;;
  val_time <-~ t_time_parse ;;
  unit <-~ t_u8_parse ;;
  scaler <-~ t_i8_parse ;;
  e <-- t_at_end ;;
  if (e : bool) then t_ret None else
  value_tl <-- t_get_current_byte ;;
  let value_len_more := Z.land value_tl (Z.lor SML_ANOTHER_TL SML_LENGTH_FIELD) in
  value <-~ t_value_parse ;;
  value_signature <-~ t_octet_string_parse ;;
  r <-- t_apply_workaround w value_len_more
         (mkEntry obj_name status val_time unit scaler value value_signature) ;;
  t_ret (Some r))).

(** sml_list.c:285-291.  [None]: "goto error". *)
Fixpoint t_list_loop (fuel : nat) (elems : Z) (w : bool) : T (option sml_list) :=
  if elems <=? 0 then t_ret (Some []) else
  match fuel with
  | O => t_out_of_fuel
  | S fuel' =>
      r <-- t_list_entry_parse w ;;
      e <-- t_has_errors ;;
      if (e : bool) then t_ret None else
      match r with
      | None => t_fail NullDeref            (* line 289 dereferences the new entry *)
      | Some (l, w') =>
          t <-- t_list_loop fuel' (elems - 1) w' ;;
          t_ret (match t with None => None | Some t => Some (l :: t) end)
      end
  end.

(** sml_list.c:269-299 *)
Definition t_list_parse : T sml_list :=
  sk <-- t_optional_is_skipped ;;
  if negb (sk =? 0) then t_ret [] else
  t <-- t_get_next_type ;;
  if negb (t =? SML_TYPE_LIST) then t_set_error ;;~ t_ret [] else
  elems <-- t_get_next_length ;;
  r <-- t_with_fuel (fun fuel => t_list_loop fuel elems false) ;;
  match r with
  | Some l => t_ret l
  | None => t_set_error ;;~ t_ret []
  end.

(** *** Tree.v *)
(** A loop "for (elems = ...; elems > 0; elems--) { x = p(buf); if
    (sml_buf_has_errors(buf)) goto error; ... }".  [None]: "goto error". *)
Fixpoint t_elems_loop {A} (fuel : nat) (elems : Z) (p : T A) : T (option (list A)) :=
  if elems <=? 0 then t_ret (Some []) else
  match fuel with
  | O => t_out_of_fuel
  | S fuel' =>
      x <-- p ;;
      e <-- t_has_errors ;;
      if (e : bool) then t_ret None else
      t <-- t_elems_loop fuel' (elems - 1) p ;;
      t_ret (match t with None => None | Some t => Some (x :: t) end)
  end.

(** sml_tree.c:32-60 *)
Definition t_tree_path_parse : T (option sml_tree_path) :=
  t_unless_skipped (t_error_label (
  t <-- t_get_next_type ;;
  if negb (t =? SML_TYPE_LIST) then t_ret None else
  elems <-- t_get_next_length ;;
  r <-- t_with_fuel (fun fuel => t_elems_loop fuel elems t_octet_string_parse) ;;
  t_ret (match r with None => None | Some l => Some (somes l) end))).

(** sml_tree.c:353-453 *)
Definition t_tupel_entry_parse : T (option sml_tupel_entry) :=
  t_unless_skipped (
  t_expect_list 23 (
  server_id <-~ t_octet_string_parse ;;
  sec_index <-~ t_time_parse ;;
  status <-~ t_u64_parse ;;
  unit_pA <-~ t_u8_parse ;;
  scaler_pA <-~ t_i8_parse ;;
  value_pA <-~ t_i64_parse ;;
  unit_R1 <-~ t_u8_parse ;;
  scaler_R1 <-~ t_i8_parse ;;
  value_R1 <-~ t_i64_parse ;;
  unit_R4 <-~ t_u8_parse ;;
  scaler_R4 <-~ t_i8_parse ;;
  value_R4 <-~ t_i64_parse ;;
  signature_pA_R1_R4 <-~ t_octet_string_parse ;;
  unit_mA <-~ t_u8_parse ;;
  scaler_mA <-~ t_i8_parse ;;
  value_mA <-~ t_i64_parse ;;
  unit_R2 <-~ t_u8_parse ;;
  scaler_R2 <-~ t_i8_parse ;;
  value_R2 <-~ t_i64_parse ;;
  unit_R3 <-~ t_u8_parse ;;
  scaler_R3 <-~ t_i8_parse ;;
  value_R3 <-~ t_i64_parse ;;
  signature_mA_R2_R3 <-~ t_octet_string_parse ;;
  t_ret (Some (mkTupel server_id sec_index status
    unit_pA scaler_pA value_pA unit_R1 scaler_R1 value_R1 unit_R4 scaler_R4 value_R4
    signature_pA_R1_R4
    unit_mA scaler_mA value_mA unit_R2 scaler_R2 value_R2 unit_R3 scaler_R3 value_R3
    signature_mA_R2_R3)))).

(** sml_tree.c:544-588 *)
Definition t_period_entry_parse : T (option sml_period_entry) :=
  t_unless_skipped (
  t_expect_list 5 (
  obj_name <-~ t_octet_string_parse ;;
  unit <-~ t_u8_parse ;;
  scaler <-~ t_i8_parse ;;
  value <-~ t_value_parse ;;
  value_signature <-~ t_octet_string_parse ;;
  t_ret (Some (mkPeriod obj_name unit scaler value value_signature)))).

(** sml_tree.c:216-260.  A present value is returned even when parsing the data
    raised the error flag (line 255). *)
Definition t_proc_par_value_parse : T (option sml_proc_par_value) :=
  t_unless_skipped (
  t_expect_list 2 (
  tag <-~ t_u8_parse ;;
  match tag with
  | None => t_ret None            (* line 234: NULL tag, error flag not raised *)
  | Some m =>
      let t := mem_u m in
      if t =? SML_PROC_PAR_VALUE_TAG_VALUE then
        d <-- t_value_parse ;; t_ret (Some (mkPpv tag (from_opt PNull PValue d)))
      else if t =? SML_PROC_PAR_VALUE_TAG_PERIOD_ENTRY then
        d <-- t_period_entry_parse ;; t_ret (Some (mkPpv tag (from_opt PNull PPeriod d)))
      else if t =? SML_PROC_PAR_VALUE_TAG_TUPEL_ENTRY then
        d <-- t_tupel_entry_parse ;; t_ret (Some (mkPpv tag (from_opt PNull PTupel d)))
      else if t =? SML_PROC_PAR_VALUE_TAG_TIME then
        d <-- t_time_parse ;; t_ret (Some (mkPpv tag (from_opt PNull PTime d)))
      else t_err_null
  end)).

(** sml_tree.c:111-162.  [depth] is the fuel of the recursion.  A tree is
    returned with the error flag raised when the child list header cannot be
    read (line 136: optional_is_skipped answers -1). *)
Fixpoint t_tree_parse_rec (depth : nat) : T (option sml_tree) :=
  match depth with
  | O => t_out_of_fuel
  | S depth' =>
      t_unless_skipped (
      t_expect_list 3 (
      name <-~ t_octet_string_parse ;;
      value <-~ t_proc_par_value_parse ;;
      sk <-- t_optional_is_skipped ;;
      if negb (sk =? 0) then t_ret (Some (Tree name value []))
      else
        t <-- t_get_next_type ;;
        if negb (t =? SML_TYPE_LIST) then t_err_null else
        elems <-- t_get_next_length ;;
        r <-- t_with_fuel (fun fuel => t_elems_loop fuel elems (t_tree_parse_rec depth')) ;;
        match r with
        | None => t_ret None
        | Some l => t_ret (Some (Tree name value (somes l)))
        end))
  end.

Definition t_tree_parse : T (option sml_tree) := t_with_fuel t_tree_parse_rec.

(** *** Bodies.v *)
(** sml_open_request.c:35-81 *)
Definition t_open_request_parse : T (option sml_open_request) :=
  t_expect_list 7 (
  codepage <-~ t_octet_string_parse ;;
  client_id <-~ t_octet_string_parse ;;
  req_file_id <-~ t_octet_string_parse ;;
  server_id <-~ t_octet_string_parse ;;
  username <-~ t_octet_string_parse ;;
  password <-~ t_octet_string_parse ;;
  sml_version <-~ t_u8_parse ;;
  t_ret (Some (mkOpenReq codepage client_id req_file_id server_id username password sml_version))).

(** sml_open_response.c:34-75 *)
Definition t_open_response_parse : T (option sml_open_response) :=
  t_expect_list 6 (
  codepage <-~ t_octet_string_parse ;;
  client_id <-~ t_octet_string_parse ;;
  req_file_id <-~ t_octet_string_parse ;;
  server_id <-~ t_octet_string_parse ;;
  ref_time <-~ t_time_parse ;;
  sml_version <-~ t_u8_parse ;;
  t_ret (Some (mkOpenRes codepage client_id req_file_id server_id ref_time sml_version))).

(** sml_close_request.c:29-51 *)
Definition t_close_request_parse : T (option sml_close_request) :=
  t_expect_list 1 (
  global_signature <-~ t_octet_string_parse ;;
  t_ret (Some (mkCloseReq global_signature))).

(** sml_close_response.c:29-51 *)
Definition t_close_response_parse : T (option sml_close_response) :=
  t_expect_list 1 (
  global_signature <-~ t_octet_string_parse ;;
  t_ret (Some (mkCloseRes global_signature))).

(** sml_get_profile_pack_request.c:110-136: the object list.  [None]: "goto
    error".  When optional_is_skipped answers -1 the error flag is raised and
    the list is left empty (the flag is seen after line 138). *)
Definition t_object_list_parse : T (option (list (option octet_string))) :=
  sk <-- t_optional_is_skipped ;;
  if negb (sk =? 0) then t_ret (Some [])
  else
    t <-- t_get_next_type ;;
    if negb (t =? SML_TYPE_LIST) then t_err_null else
    len <-- t_get_next_length ;;
    t_with_fuel (fun fuel => t_elems_loop fuel len t_octet_string_parse).

(** sml_get_profile_pack_request.c:69-147 *)
Definition t_get_profile_pack_request_parse : T (option sml_get_profile_pack_request) :=
  t_expect_list 9 (
  server_id <-~ t_octet_string_parse ;;
  username <-~ t_octet_string_parse ;;
  password <-~ t_octet_string_parse ;;
  with_rawdata <-~ t_boolean_parse ;;
  begin_time <-~ t_time_parse ;;
  end_time <-~ t_time_parse ;;
  parameter_tree_path <-~ t_tree_path_parse ;;
  object_list <-- t_object_list_parse ;;
  match object_list with
  | None => t_ret None
  | Some object_list =>
      das_details <-~ t_tree_parse ;;
      t_ret (Some (mkPackReq server_id username password with_rawdata begin_time end_time
                           parameter_tree_path object_list das_details))
  end).

(** sml_get_profile_pack_response.c:261-289 *)
Definition t_prof_obj_header_entry_parse : T (option sml_prof_obj_header_entry) :=
  t_error_label (
  t_expect_list 3 (
  obj_name <-~ t_octet_string_parse ;;
  unit <-~ t_u8_parse ;;
  scaler <-~ t_i8_parse ;;
  t_ret (Some (mkHeader obj_name unit scaler)))).

(** sml_get_profile_pack_response.c:105-131 *)
Definition t_value_entry_parse : T (option sml_value_entry) :=
  t_error_label (
  t_expect_list 2 (
  value <-~ t_value_parse ;;
  value_signature <-~ t_octet_string_parse ;;
  t_ret (Some (mkValEntry value value_signature)))).

(** sml_get_profile_pack_response.c:38-70 *)
Definition t_prof_obj_period_entry_parse : T (option sml_prof_obj_period_entry) :=
  t_error_label (
  t_expect_list 4 (
  val_time <-~ t_time_parse ;;
  status <-~ t_u64_parse ;;
  value_list <-~ t_sequence_parse t_value_entry_parse ;;
  period_signature <-~ t_octet_string_parse ;;
  t_ret (Some (mkPerEntry val_time status value_list period_signature)))).

(** sml_get_profile_pack_response.c:169-222 *)
Definition t_get_profile_pack_response_parse : T (option sml_get_profile_pack_response) :=
  t_error_label (
  t_expect_list 8 (
  server_id <-~ t_octet_string_parse ;;
  act_time <-~ t_time_parse ;;
  reg_period <-~ t_u32_parse ;;
  parameter_tree_path <-~ t_tree_path_parse ;;
  header_list <-~ t_sequence_parse t_prof_obj_header_entry_parse ;;
  period_list <-~ t_sequence_parse t_prof_obj_period_entry_parse ;;
  rawdata <-~ t_octet_string_parse ;;
  profile_signature <-~ t_octet_string_parse ;;
  t_ret (Some (mkPackRes server_id act_time reg_period parameter_tree_path header_list
                       period_list rawdata profile_signature)))).

(** sml_get_profile_list_response.c:42-97 *)
Definition t_get_profile_list_response_parse : T (option sml_get_profile_list_response) :=
  t_error_label (
  t_expect_list 9 (
  server_id <-~ t_octet_string_parse ;;
  act_time <-~ t_time_parse ;;
  reg_period <-~ t_u32_parse ;;
  parameter_tree_path <-~ t_tree_path_parse ;;
  val_time <-~ t_time_parse ;;
  status <-~ t_u64_parse ;;
  period_list <-~ t_sequence_parse t_period_entry_parse ;;
  rawdata <-~ t_octet_string_parse ;;
  period_signature <-~ t_octet_string_parse ;;
  t_ret (Some (mkProfListRes server_id act_time reg_period parameter_tree_path val_time status
                           period_list rawdata period_signature)))).

(** sml_get_proc_parameter_request.c:35-73 *)
Definition t_get_proc_parameter_request_parse : T (option sml_get_proc_parameter_request) :=
  t_expect_list 5 (
  server_id <-~ t_octet_string_parse ;;
  username <-~ t_octet_string_parse ;;
  password <-~ t_octet_string_parse ;;
  parameter_tree_path <-~ t_tree_path_parse ;;
  attribute <-~ t_octet_string_parse ;;
  t_ret (Some (mkProcReq server_id username password parameter_tree_path attribute))).

(** sml_get_proc_parameter_response.c:31-61 *)
Definition t_get_proc_parameter_response_parse : T (option sml_get_proc_parameter_response) :=
  t_expect_list 3 (
  server_id <-~ t_octet_string_parse ;;
  parameter_tree_path <-~ t_tree_path_parse ;;
  parameter_tree <-~ t_tree_parse ;;
  t_ret (Some (mkProcRes server_id parameter_tree_path parameter_tree))).

(** sml_set_proc_parameter_request.c:33-71 *)
Definition t_set_proc_parameter_request_parse : T (option sml_set_proc_parameter_request) :=
  t_expect_list 5 (
  server_id <-~ t_octet_string_parse ;;
  username <-~ t_octet_string_parse ;;
  password <-~ t_octet_string_parse ;;
  parameter_tree_path <-~ t_tree_path_parse ;;
  parameter_tree <-~ t_tree_parse ;;
  t_ret (Some (mkSetProc server_id username password parameter_tree_path parameter_tree))).

(** sml_get_list_request.c:43-86 *)
Definition t_get_list_request_parse : T (option sml_get_list_request) :=
  t_expect_list 5 (
  client_id <-~ t_octet_string_parse ;;
  server_id <-~ t_octet_string_parse ;;
  username <-~ t_octet_string_parse ;;
  password <-~ t_octet_string_parse ;;
  list_name <-~ t_octet_string_parse ;;
  t_ret (Some (mkListReq client_id server_id username password list_name))).

(** sml_get_list_response.c:34-80 *)
Definition t_get_list_response_parse : T (option sml_get_list_response) :=
  t_expect_list 7 (
  client_id <-~ t_octet_string_parse ;;
  server_id <-~ t_octet_string_parse ;;
  list_name <-~ t_octet_string_parse ;;
  act_sensor_time <-~ t_time_parse ;;
  val_list <-~ t_list_parse ;;
  list_signature <-~ t_octet_string_parse ;;
  act_gateway_time <-~ t_time_parse ;;
  t_ret (Some (mkListRes client_id server_id list_name act_sensor_time val_list
                       list_signature act_gateway_time))).

(** sml_attention_response.c:32-66 *)
Definition t_attention_response_parse : T (option sml_attention_response) :=
  t_expect_list 4 (
  server_id <-~ t_octet_string_parse ;;
  attention_number <-~ t_octet_string_parse ;;
  attention_message <-~ t_octet_string_parse ;;
  attention_details <-~ t_tree_parse ;;
  t_ret (Some (mkAttention server_id attention_number attention_message attention_details))).

(** *** Message.v *)
(** sml_message.c:172-218, the switch of the parser.  An unknown tag consumes
    nothing and leaves data NULL. *)
Definition t_body_data_parse (tag : Z) : T body_data :=
  if tag =? SML_MESSAGE_OPEN_REQUEST then
    d <-- t_open_request_parse ;; t_ret (from_opt BNull BOpenReq d)
  else if tag =? SML_MESSAGE_OPEN_RESPONSE then
    d <-- t_open_response_parse ;; t_ret (from_opt BNull BOpenRes d)
  else if tag =? SML_MESSAGE_CLOSE_REQUEST then
    d <-- t_close_request_parse ;; t_ret (from_opt BNull BCloseReq d)
  else if tag =? SML_MESSAGE_CLOSE_RESPONSE then
    d <-- t_close_response_parse ;; t_ret (from_opt BNull BCloseRes d)
  else if tag =? SML_MESSAGE_GET_PROFILE_PACK_REQUEST then
    d <-- t_get_profile_pack_request_parse ;; t_ret (from_opt BNull BPackReq d)
  else if tag =? SML_MESSAGE_GET_PROFILE_PACK_RESPONSE then
    d <-- t_get_profile_pack_response_parse ;; t_ret (from_opt BNull BPackRes d)
  else if tag =? SML_MESSAGE_GET_PROFILE_LIST_REQUEST then
    d <-- t_get_profile_pack_request_parse ;; t_ret (from_opt BNull BPackReq d)
  else if tag =? SML_MESSAGE_GET_PROFILE_LIST_RESPONSE then
    d <-- t_get_profile_list_response_parse ;; t_ret (from_opt BNull BProfListRes d)
  else if tag =? SML_MESSAGE_GET_PROC_PARAMETER_REQUEST then
    d <-- t_get_proc_parameter_request_parse ;; t_ret (from_opt BNull BProcReq d)
  else if tag =? SML_MESSAGE_GET_PROC_PARAMETER_RESPONSE then
    d <-- t_get_proc_parameter_response_parse ;; t_ret (from_opt BNull BProcRes d)
  else if tag =? SML_MESSAGE_SET_PROC_PARAMETER_REQUEST then
    d <-- t_set_proc_parameter_request_parse ;; t_ret (from_opt BNull BSetProc d)
  else if tag =? SML_MESSAGE_GET_LIST_REQUEST then
    d <-- t_get_list_request_parse ;; t_ret (from_opt BNull BListReq d)
  else if tag =? SML_MESSAGE_GET_LIST_RESPONSE then
    d <-- t_get_list_response_parse ;; t_ret (from_opt BNull BListRes d)
  else if tag =? SML_MESSAGE_ATTENTION_RESPONSE then
    d <-- t_attention_response_parse ;; t_ret (from_opt BNull BAttention d)
  else t_ret BNull.

(** sml_message.c:149-225 *)
Definition t_message_body_parse : T (option sml_message_body) :=
  e <-- t_at_end ;;
  if (e : bool) then t_err_null else
  t_expect_list 2 (
  tag <-~ t_u32_parse ;;
  match tag with
  | None => t_ret None               (* line 169: NULL tag, error flag not raised *)
  | Some m => d <-- t_body_data_parse (mem_u m) ;; t_ret (Some (mkBody tag d))
  end).

(** sml_message.c:32-105 *)
Definition t_message_parse : T (option sml_message) :=
  msg_start <-- t_cursor_int 0 ;;
  t_expect_list 6 (
  transaction_id <-~ t_octet_string_parse ;;
  group_id <-~ t_u8_parse ;;
  abort_on_error <-~ t_u8_parse ;;
  message_body <-~ t_message_body_parse ;;
  len <-- t_cursor_int msg_start ;;
  few <-- t_step (fun s => Ret (size_sub (buffer_len s) (cursor s) <? 3, s)) ;;
  if (few : bool) then t_err_null else
  crc <-- t_u16_parse ;;
  e <-- t_has_errors ;;
  match (if (e : bool) then None else crc) with
  | None => t_err_null
  | Some c =>
      bs <-- t_buffer_slice msg_start len ;;
      t_spend (2 * length bs) ;;~    (* two checksums *)
      if negb (mem_u c =? sml_crc16_calculate bs) && negb (mem_u c =? sml_crc16kermit_calculate bs)
      then t_ret None
      else
        e <-- t_at_end ;;
        if (e : bool) then t_err_null else
        b <-- t_get_current_byte ;;
        (if b =? SML_MESSAGE_END then t_update_bytes_read 1 else t_ret tt) ;;~
        t_ret (Some (mkMsg transaction_id group_id abort_on_error message_body crc))
  end).

(** *** File.v *)
(** sml_file.c:41-58, the loop of the parser. *)
Fixpoint t_file_loop (fuel : nat) (msgs : list sml_message) : T (list sml_message) :=
  e <-- t_at_end ;;
  if (e : bool) then t_ret msgs else
  match fuel with
  | O => t_out_of_fuel
  | S fuel' =>
      b <-- t_get_current_byte ;;
      if b =? SML_MESSAGE_END then
        t_update_bytes_read 1 ;;~ t_file_loop fuel' msgs
      else
        msg <-- t_message_parse ;;
        e <-- t_has_errors ;;
        if (e : bool) then t_ret msgs else
        match msg with
        | Some m => msgs' <-- t_file_add_message msgs m ;; t_file_loop fuel' msgs'
        | None => t_file_loop fuel' msgs
        end
  end.

(** sml_file.c:30-61 *)
Definition t_file_parse (bytes : list Z) : nat * outcome sml_file :=
  match t_file_loop (S (length bytes)) [] (mkBuf bytes 0 false false) with
  | (n, Ret (msgs, s)) => (n, Ret (mkFile msgs s))
  | (n, Fault f) => (n, Fault f)
  | (n, NoFuel) => (n, NoFuel)
  end.
End WithHost.
