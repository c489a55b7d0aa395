(** Model of sml/src/sml_tree.c. *)
From Verif Require Import Base Buf Number OctetString Boolean Value Time SList.

(** A loop "for (elems = ...; elems > 0; elems--) { x = p(buf); if
    (sml_buf_has_errors(buf)) goto error; ... }".  [None]: "goto error". *)
Fixpoint elems_loop {A} (fuel : nat) (elems : Z) (p : P A) : P (option (list A)) :=
  if elems <=? 0 then ret (Some []) else
  match fuel with
  | O => out_of_fuel
  | S fuel' =>
      x <- p ;;
      e <- sml_buf_has_errors ;;
      if (e : bool) then ret None else
      t <- elems_loop fuel' (elems - 1) p ;;
      ret (match t with None => None | Some t => Some (x :: t) end)
  end.

(** "if (s) add(s)": the NULL results are not added. *)
Fixpoint somes {A} (l : list (option A)) : list A :=
  match l with
  | [] => []
  | Some x :: t => x :: somes t
  | None :: t => somes t
  end.

(** *** sml_tree_path *)

(** sml_tree.h: path_entries, path_entries_len.  Simplification: entries are
    never NULL (the parser does not add NULL entries). *)
Definition sml_tree_path : Type := list octet_string.

(** sml_tree.c:32-60 *)
Definition sml_tree_path_parse : P (option sml_tree_path) :=
  unless_skipped (error_label (
  t <- sml_buf_get_next_type ;;
  if negb (t =? SML_TYPE_LIST) then ret None else
  elems <- sml_buf_get_next_length ;;
  r <- with_fuel (fun fuel => elems_loop fuel elems sml_octet_string_parse) ;;
  ret (match r with None => None | Some l => Some (somes l) end))).

(** sml_tree.c:70-84; path_entries is NULL iff path_entries_len is 0. *)
Definition sml_tree_path_write (p : option sml_tree_path) : P unit :=
  write_opt p (fun p =>
    if Z.of_nat (length p) >? 0 then
      sml_buf_set_type_and_length SML_TYPE_LIST (to_u32 (Z.of_nat (length p))) ;;;
      write_all (fun s => sml_octet_string_write (Some s)) p
    else ret tt).

(** *** sml_tupel_entry *)

(** sml_tree.h, struct sml_tupel_entry: 23 fields. *)
Record sml_tupel_entry : Type := mkTupel {
  tu_server_id : option octet_string;
  tu_sec_index : option sml_time;
  tu_status : option mem;
  tu_unit_pA : option mem;
  tu_scaler_pA : option mem;
  tu_value_pA : option mem;
  tu_unit_R1 : option mem;
  tu_scaler_R1 : option mem;
  tu_value_R1 : option mem;
  tu_unit_R4 : option mem;
  tu_scaler_R4 : option mem;
  tu_value_R4 : option mem;
  tu_signature_pA_R1_R4 : option octet_string;
  tu_unit_mA : option mem;
  tu_scaler_mA : option mem;
  tu_value_mA : option mem;
  tu_unit_R2 : option mem;
  tu_scaler_R2 : option mem;
  tu_value_R2 : option mem;
  tu_unit_R3 : option mem;
  tu_scaler_R3 : option mem;
  tu_value_R3 : option mem;
  tu_signature_mA_R2_R3 : option octet_string
}.

(** sml_tree.h, struct sml_period_entry *)
Record sml_period_entry : Type := mkPeriod {
  pe_obj_name : option octet_string;
  pe_unit : option mem;
  pe_scaler : option mem;
  pe_value : option sml_value;
  pe_value_signature : option octet_string
}.

(** sml_tree.h, the union in sml_proc_par_value. *)
Inductive ppv_data : Type :=
| PNull
| PValue (v : sml_value)
| PPeriod (p : sml_period_entry)
| PTupel (t : sml_tupel_entry)
| PTime (t : sml_time).

Record sml_proc_par_value : Type := mkPpv { ppv_tag : option mem; ppv_dat : ppv_data }.

(** sml_tree.h, struct s_tree.  Simplification: children are never NULL (the
    parser does not add NULL children). *)
Inductive sml_tree : Type :=
| Tree (parameter_name : option octet_string)
       (parameter_value : option sml_proc_par_value)
       (child_list : list sml_tree).

Definition SML_PROC_PAR_VALUE_TAG_VALUE := 1.
Definition SML_PROC_PAR_VALUE_TAG_PERIOD_ENTRY := 2.
Definition SML_PROC_PAR_VALUE_TAG_TUPEL_ENTRY := 3.
Definition SML_PROC_PAR_VALUE_TAG_TIME := 4.

Definition omap {A B} (f : A -> B) (o : option A) : option B :=
  match o with None => None | Some x => Some (f x) end.
Definition from_opt {A B} (d : B) (f : A -> B) (o : option A) : B :=
  match o with None => d | Some x => f x end.

Section WithHost.
Context {H : Host}.

(** sml_tree.c:353-453 *)
Definition sml_tupel_entry_parse : P (option sml_tupel_entry) :=
  unless_skipped (
  expect_list 23 (
  server_id <-? sml_octet_string_parse ;;
  sec_index <-? sml_time_parse ;;
  status <-? sml_u64_parse ;;
  unit_pA <-? sml_u8_parse ;;
  scaler_pA <-? sml_i8_parse ;;
  value_pA <-? sml_i64_parse ;;
  unit_R1 <-? sml_u8_parse ;;
  scaler_R1 <-? sml_i8_parse ;;
  value_R1 <-? sml_i64_parse ;;
  unit_R4 <-? sml_u8_parse ;;
  scaler_R4 <-? sml_i8_parse ;;
  value_R4 <-? sml_i64_parse ;;
  signature_pA_R1_R4 <-? sml_octet_string_parse ;;
  unit_mA <-? sml_u8_parse ;;
  scaler_mA <-? sml_i8_parse ;;
  value_mA <-? sml_i64_parse ;;
  unit_R2 <-? sml_u8_parse ;;
  scaler_R2 <-? sml_i8_parse ;;
  value_R2 <-? sml_i64_parse ;;
  unit_R3 <-? sml_u8_parse ;;
  scaler_R3 <-? sml_i8_parse ;;
  value_R3 <-? sml_i64_parse ;;
  signature_mA_R2_R3 <-? sml_octet_string_parse ;;
  ret (Some (mkTupel server_id sec_index status
    unit_pA scaler_pA value_pA unit_R1 scaler_R1 value_R1 unit_R4 scaler_R4 value_R4
    signature_pA_R1_R4
    unit_mA scaler_mA value_mA unit_R2 scaler_R2 value_R2 unit_R3 scaler_R3 value_R3
    signature_mA_R2_R3)))).

(** sml_tree.c:455-494 *)
Definition sml_tupel_entry_write (tupel : option sml_tupel_entry) : P unit :=
  write_opt tupel (fun t =>
    sml_buf_set_type_and_length SML_TYPE_LIST 23 ;;;
    sml_octet_string_write (tu_server_id t) ;;;
    sml_time_write (tu_sec_index t) ;;;
    sml_u64_write (tu_status t) ;;;
    sml_u8_write (tu_unit_pA t) ;;;
    sml_i8_write (tu_scaler_pA t) ;;;
    sml_i64_write (tu_value_pA t) ;;;
    sml_u8_write (tu_unit_R1 t) ;;;
    sml_i8_write (tu_scaler_R1 t) ;;;
    sml_i64_write (tu_value_R1 t) ;;;
    sml_u8_write (tu_unit_R4 t) ;;;
    sml_i8_write (tu_scaler_R4 t) ;;;
    sml_i64_write (tu_value_R4 t) ;;;
    sml_octet_string_write (tu_signature_pA_R1_R4 t) ;;;
    sml_u8_write (tu_unit_mA t) ;;;
    sml_i8_write (tu_scaler_mA t) ;;;
    sml_i64_write (tu_value_mA t) ;;;
    sml_u8_write (tu_unit_R2 t) ;;;
    sml_i8_write (tu_scaler_R2 t) ;;;
    sml_i64_write (tu_value_R2 t) ;;;
    sml_u8_write (tu_unit_R3 t) ;;;
    sml_i8_write (tu_scaler_R3 t) ;;;
    sml_i64_write (tu_value_R3 t) ;;;
    sml_octet_string_write (tu_signature_mA_R2_R3 t)).

(** sml_tree.c:544-588 *)
Definition sml_period_entry_parse : P (option sml_period_entry) :=
  unless_skipped (
  expect_list 5 (
  obj_name <-? sml_octet_string_parse ;;
  unit <-? sml_u8_parse ;;
  scaler <-? sml_i8_parse ;;
  value <-? sml_value_parse ;;
  value_signature <-? sml_octet_string_parse ;;
  ret (Some (mkPeriod obj_name unit scaler value value_signature)))).

(** sml_tree.c:590-603 *)
Definition sml_period_entry_write (period : option sml_period_entry) : P unit :=
  write_opt period (fun p =>
    sml_buf_set_type_and_length SML_TYPE_LIST 5 ;;;
    sml_octet_string_write (pe_obj_name p) ;;;
    sml_u8_write (pe_unit p) ;;;
    sml_i8_write (pe_scaler p) ;;;
    sml_value_write (pe_value p) ;;;
    sml_octet_string_write (pe_value_signature p)).

(** *** sml_proc_par_value *)

(** sml_tree.c:216-260.  A present value is returned even when parsing the data
    raised the error flag (line 255). *)
Definition sml_proc_par_value_parse : P (option sml_proc_par_value) :=
  unless_skipped (
  expect_list 2 (
  tag <-? sml_u8_parse ;;
  match tag with
  | None => ret None            (* line 234: NULL tag, error flag not raised *)
  | Some m =>
      let t := mem_u m in
      if t =? SML_PROC_PAR_VALUE_TAG_VALUE then
        d <- sml_value_parse ;; ret (Some (mkPpv tag (from_opt PNull PValue d)))
      else if t =? SML_PROC_PAR_VALUE_TAG_PERIOD_ENTRY then
        d <- sml_period_entry_parse ;; ret (Some (mkPpv tag (from_opt PNull PPeriod d)))
      else if t =? SML_PROC_PAR_VALUE_TAG_TUPEL_ENTRY then
        d <- sml_tupel_entry_parse ;; ret (Some (mkPpv tag (from_opt PNull PTupel d)))
      else if t =? SML_PROC_PAR_VALUE_TAG_TIME then
        d <- sml_time_parse ;; ret (Some (mkPpv tag (from_opt PNull PTime d)))
      else err_null
  end)).

(** Reading the union through one member. *)
Definition ppv_as_value (d : ppv_data) : P (option sml_value) :=
  match d with PNull => ret None | PValue v => ret (Some v) | _ => fail TypeConfusion end.
Definition ppv_as_period (d : ppv_data) : P (option sml_period_entry) :=
  match d with PNull => ret None | PPeriod v => ret (Some v) | _ => fail TypeConfusion end.
Definition ppv_as_tupel (d : ppv_data) : P (option sml_tupel_entry) :=
  match d with PNull => ret None | PTupel v => ret (Some v) | _ => fail TypeConfusion end.
Definition ppv_as_time (d : ppv_data) : P (option sml_time) :=
  match d with PNull => ret None | PTime v => ret (Some v) | _ => fail TypeConfusion end.

(** sml_tree.c:262-287; line 271 dereferences the tag. *)
Definition sml_proc_par_value_write (value : option sml_proc_par_value) : P unit :=
  write_opt value (fun v =>
    sml_buf_set_type_and_length SML_TYPE_LIST 2 ;;;
    sml_u8_write (ppv_tag v) ;;;
    match ppv_tag v with
    | None => fail NullDeref
    | Some m =>
        let t := mem_u m in
        if t =? SML_PROC_PAR_VALUE_TAG_VALUE then
          d <- ppv_as_value (ppv_dat v) ;; sml_value_write d
        else if t =? SML_PROC_PAR_VALUE_TAG_PERIOD_ENTRY then
          d <- ppv_as_period (ppv_dat v) ;; sml_period_entry_write d
        else if t =? SML_PROC_PAR_VALUE_TAG_TUPEL_ENTRY then
          d <- ppv_as_tupel (ppv_dat v) ;; sml_tupel_entry_write d
        else if t =? SML_PROC_PAR_VALUE_TAG_TIME then
          d <- ppv_as_time (ppv_dat v) ;; sml_time_write d
        else ret tt
    end).

(** *** sml_tree *)

(** sml_tree.c:111-162.  [depth] is the fuel of the recursion.  A tree is
    returned with the error flag raised when the child list header cannot be
    read (line 136: optional_is_skipped answers -1). *)
Fixpoint sml_tree_parse_rec (depth : nat) : P (option sml_tree) :=
  match depth with
  | O => out_of_fuel
  | S depth' =>
      unless_skipped (
      expect_list 3 (
      name <-? sml_octet_string_parse ;;
      value <-? sml_proc_par_value_parse ;;
      sk <- sml_buf_optional_is_skipped ;;
      if negb (sk =? 0) then ret (Some (Tree name value []))
      else
        t <- sml_buf_get_next_type ;;
        if negb (t =? SML_TYPE_LIST) then err_null else
        elems <- sml_buf_get_next_length ;;
        r <- with_fuel (fun fuel => elems_loop fuel elems (sml_tree_parse_rec depth')) ;;
        match r with
        | None => ret None
        | Some l => ret (Some (Tree name value (somes l)))
        end))
  end.
Definition sml_tree_parse : P (option sml_tree) := with_fuel sml_tree_parse_rec.

(** sml_tree.c:185-206 *)
Fixpoint sml_tree_write_node (tree : sml_tree) : P unit :=
  match tree with
  | Tree name value children =>
      sml_buf_set_type_and_length SML_TYPE_LIST 3 ;;;
      sml_octet_string_write name ;;;
      sml_proc_par_value_write value ;;;
      (if Z.of_nat (length children) >? 0 then
         sml_buf_set_type_and_length SML_TYPE_LIST (to_u32 (Z.of_nat (length children))) ;;;
         (fix go l := match l with
                      | [] => ret tt
                      | c :: t => sml_tree_write_node c ;;; go t
                      end) children
       else sml_buf_optional_write)
  end.
Definition sml_tree_write (tree : option sml_tree) : P unit :=
  write_opt tree sml_tree_write_node.

End WithHost.
