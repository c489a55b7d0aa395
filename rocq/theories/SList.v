(** Model of sml/src/sml_list.c. *)
From Verif Require Import Base Buf Number OctetString Boolean Value Time.

(** *** sml_sequence *)

(** sml_list.h: elems, elems_len (int), elem_free.  The elements are pointers;
    an element parser may return NULL without an error, so they are options. *)
Definition sml_sequence (A : Type) : Type := list (option A).

(** sml_list.c:45-51.  [n] = len - i.  [None]: "goto haserrors". *)
Fixpoint sequence_loop {A} (fuel : nat) (n : Z) (elem_parse : P (option A))
  : P (option (sml_sequence A)) :=
  if n <=? 0 then ret (Some []) else
  match fuel with
  | O => out_of_fuel
  | S fuel' =>
      p <- elem_parse ;;
      e <- sml_buf_has_errors ;;
      if (e : bool) then ret None else
      r <- sequence_loop fuel' (n - 1) elem_parse ;;
      ret (match r with None => None | Some t => Some (p :: t) end)
  end.

(** sml_list.c:36-60.  elems_len is an int; it cannot overflow because len is. *)
Definition sml_sequence_parse {A} (elem_parse : P (option A)) : P (option (sml_sequence A)) :=
  error_label (
  t <- sml_buf_get_next_type ;;
  if negb (t =? SML_TYPE_LIST) then ret None else
  len <- sml_buf_get_next_length ;;
  with_fuel (fun fuel => sequence_loop fuel len elem_parse)).

(** sml_list.c:71-74 *)
Fixpoint write_all {A} (elem_write : A -> P unit) (l : list A) : P unit :=
  match l with
  | [] => ret tt
  | x :: t => elem_write x ;;; write_all elem_write t
  end.

(** sml_list.c:62-75 *)
Definition sml_sequence_write {A} (elem_write : option A -> P unit)
  (seq : option (sml_sequence A)) : P unit :=
  write_opt seq (fun s =>
    sml_buf_set_type_and_length SML_TYPE_LIST (to_u32 (Z.of_nat (length s))) ;;;
    write_all elem_write s).

(** *** sml_list *)

(** sml_list.h, struct sml_list_entry without [next]; the linked list is a Coq
    list, the NULL list is []. *)
Record list_entry : Type := mkEntry {
  le_obj_name : option octet_string;
  le_status : option sml_status;
  le_val_time : option sml_time;
  le_unit : option mem;
  le_scaler : option mem;
  le_value : option sml_value;
  le_value_signature : option octet_string
}.
Definition sml_list : Type := list list_entry.

Section WithHost.
Context {H : Host}.

(** sml_list.c:119-126 and 173 *)
Definition dzg_serial_oid : list Z := [1; 0; 96; 1; 0; 255].
Definition dzg_serial_start : list Z := [10; 1; 68; 90; 71].
Definition broken_dvs74_ranges : list (Z * Z) := [(42000000, 48999999); (55000000, 58999999)].
Definition dzg_power_name : list Z := [1; 0; 16; 7; 0; 255].
Definition DZG_SERIAL_LENGTH := 10.

(** sml_list.c:149-152; serial is a uint64_t, five bytes do not overflow it. *)
Definition serial_of (val : list Z) : Z :=
  fold_left (fun serial b => Z.lor (Z.shiftl serial 8) b) (firstn 5 (skipn 5 val)) 0.

(** "l->obj_name && len == 6 && !memcmp(...)" *)
Definition name_is (o : option octet_string) (name : list Z) : bool :=
  match o with
  | None => false
  | Some s => (Z.of_nat (length s) =? Z.of_nat (length name)) && (memcmp s name =? 0)
  end.

(** sml_list.c:116-166 *)
Definition detect_buggy_dzg_dvs74 (l : list_entry) : P bool :=
  if negb (name_is (le_obj_name l) dzg_serial_oid) then ret false else
  match le_value l with
  | None => ret false
  | Some v =>
      if negb (v_type v =? SML_TYPE_OCTET_STRING) then ret false else
      d <- as_bytes (v_data v) ;;
      match d with
      | None => fail NullDeref
      | Some val =>
          if negb (Z.of_nat (length val) =? DZG_SERIAL_LENGTH) then ret false else
          if negb (memcmp (firstn 5 val) dzg_serial_start =? 0) then ret false else
          let serial := serial_of val in
          ret (existsb (fun r => (fst r <=? serial) && (serial <=? snd r)) broken_dvs74_ranges)
      end
  end.

(** sml_list.c:255-256, value->type is a u8. *)
Definition force_unsigned (v : sml_value) : sml_value :=
  mkValue (Z.lor (Z.ldiff (v_type v) SML_TYPE_FIELD) SML_TYPE_UNSIGNED) (v_data v).

(** sml_list.c:249-257.  [w] is workarounds->old_dzg_dvs74.  The result is the
    entry and the new state of the workaround. *)
Definition apply_workaround (w : bool) (value_len_more : Z) (l : list_entry)
  : P (list_entry * bool) :=
  d <- detect_buggy_dzg_dvs74 l ;;
  if (d : bool) then ret (l, true)
  else
    match le_value l with
    | Some v =>
        if w && name_is (le_obj_name l) dzg_power_name &&
           ((value_len_more =? 1) || (value_len_more =? 2) || (value_len_more =? 3))
        then ret (mkEntry (le_obj_name l) (le_status l) (le_val_time l) (le_unit l)
                          (le_scaler l) (Some (force_unsigned v)) (le_value_signature l), w)
        else ret (l, w)
    | None => ret (l, w)
    end.

(** sml_list.c:172-267 *)
Definition sml_list_entry_parse (w : bool) : P (option (list_entry * bool)) :=
  error_label (
  expect_list 7 (
  obj_name <-? sml_octet_string_parse ;;
  status <-? sml_status_parse ;;
  val_time <-? sml_time_parse ;;
  unit <-? sml_u8_parse ;;
  scaler <-? sml_i8_parse ;;
  e <- at_end ;;
  if (e : bool) then ret None else
  value_tl <- sml_buf_get_current_byte ;;
  let value_len_more := Z.land value_tl (Z.lor SML_ANOTHER_TL SML_LENGTH_FIELD) in
  value <-? sml_value_parse ;;
  value_signature <-? sml_octet_string_parse ;;
  r <- apply_workaround w value_len_more
         (mkEntry obj_name status val_time unit scaler value value_signature) ;;
  ret (Some r))).

(** sml_list.c:285-291.  [None]: "goto error". *)
Fixpoint list_loop (fuel : nat) (elems : Z) (w : bool) : P (option sml_list) :=
  if elems <=? 0 then ret (Some []) else
  match fuel with
  | O => out_of_fuel
  | S fuel' =>
      r <- sml_list_entry_parse w ;;
      e <- sml_buf_has_errors ;;
      if (e : bool) then ret None else
      match r with
      | None => fail NullDeref            (* line 289 dereferences the new entry *)
      | Some (l, w') =>
          t <- list_loop fuel' (elems - 1) w' ;;
          ret (match t with None => None | Some t => Some (l :: t) end)
      end
  end.

(** sml_list.c:269-299 *)
Definition sml_list_parse : P sml_list :=
  sk <- sml_buf_optional_is_skipped ;;
  if negb (sk =? 0) then ret [] else
  t <- sml_buf_get_next_type ;;
  if negb (t =? SML_TYPE_LIST) then set_error ;;; ret [] else
  elems <- sml_buf_get_next_length ;;
  r <- with_fuel (fun fuel => list_loop fuel elems false) ;;
  match r with
  | Some l => ret l
  | None => set_error ;;; ret []
  end.

(** sml_list.c:301-310 *)
Definition sml_list_entry_write (l : list_entry) : P unit :=
  sml_buf_set_type_and_length SML_TYPE_LIST 7 ;;;
  sml_octet_string_write (le_obj_name l) ;;;
  sml_status_write (le_status l) ;;;
  sml_time_write (le_val_time l) ;;;
  sml_u8_write (le_unit l) ;;;
  sml_i8_write (le_scaler l) ;;;
  sml_value_write (le_value l) ;;;
  sml_octet_string_write (le_value_signature l).

(** sml_list.c:312-332 *)
Definition sml_list_write (l : sml_list) : P unit :=
  match l with
  | [] => sml_buf_optional_write
  | _ =>
      sml_buf_set_type_and_length SML_TYPE_LIST (to_u32 (Z.of_nat (length l))) ;;;
      write_all sml_list_entry_write l
  end.

End WithHost.
