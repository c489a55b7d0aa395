(** What sml_file_parse writes to stderr: the parser of whole files once more, with
    the lines it prints.

    Modelled: the lines of sml_message.c:87, sml_message.c:216, sml_message.c:341 (when
    a message is freed after an error), sml_file.c:52 and sml_time.c:98. *)
From Verif Require Import Base Buf Crc16 Number OctetString Boolean Value Time SList Tree Bodies Message File.

Inductive line : Type :=
| NotImplemented (type : Z)  (* sml_message.c:216, "libsml: error: message type %04X not yet implemented" *)
| Dropped                    (* sml_message.c:87, "libsml: sml_message_parse(): crc mismatch, dropping message" *)
| NotFreed (type : Z)        (* sml_message.c:341, "libsml: NYI: sml_message_body_free for message type %04X" *)
| Ignored (a b c : Z)        (* sml_time.c:98, "libsml: error: sml_time as list[3]: ignoring value[0]=%u value[1]=%d value[2]=%d" *)
| NotWhole.                  (* sml_file.c:52, "libsml: warning: could not read the whole file" *)

(** Code that reads from a buffer and prints: the lines, and what the code does
    otherwise.  If it crashes, the lines up to there have been printed. *)
Definition R (A : Type) : Type := sbuf -> list line * outcome (A * sbuf).
Definition quiet {A} (p : P A) : R A := fun s => ([], p s).
Definition say (l : line) : R unit := fun s => ([l], Ret (tt, s)).
Definition rbind {A B} (p : R A) (k : A -> R B) : R B := fun s =>
  match p s with
  | (l, Ret (x, s')) => let '(l', o) := k x s' in (l ++ l', o)
  | (l, Fault f) => (l, Fault f)
  | (l, NoFuel) => (l, NoFuel)
  end.
(** if (sml_buf_has_errors(buf)) goto error; after a field (Buf.field) *)
Definition rfield {A B} (p : R A) (k : A -> R (option B)) : R (option B) :=
  rbind p (fun x => rbind (quiet sml_buf_has_errors) (fun e => if (e : bool) then quiet (ret None) else k x)).
(** Buf.expect_list *)
Definition rexpect_list {B} (n : Z) (k : R (option B)) : R (option B) :=
  rbind (quiet sml_buf_get_next_type) (fun t =>
  if negb (t =? SML_TYPE_LIST) then quiet err_null else
  rbind (quiet sml_buf_get_next_length) (fun l =>
  if negb (l =? n) then quiet err_null else k)).

(** Buf.unless_skipped *)
Definition r_unless_skipped {A} (k : R (option A)) : R (option A) :=
  rbind (quiet sml_buf_optional_is_skipped) (fun sk => if negb (sk =? 0) then quiet (ret None) else k).
(** Buf.error_label *)
Definition r_error_label {A} (m : R (option A)) : R (option A) :=
  rbind m (fun r => match r with Some v => quiet (ret (Some v)) | None => quiet err_null end).
Definition r_with_fuel {A} (f : nat -> R A) : R A := fun s => f (fuel_of s) s.
Notation "x <-! p ;; k" := (rfield p (fun x => k)) (at level 62, p at next level, right associativity).
Notation "x <~? p ;; k" := (rfield (quiet p) (fun x => k)) (at level 62, p at next level, right associativity).

Section WithHost.
Context {H : Host}.

(** sml_time.c:62-117.  The values printed: u32 as %u, i16 as %d, 0 for NULL. *)
Definition shown_u (o : option mem) : Z := match o with Some m => mem_u m | None => 0 end.
Definition shown_i (o : option mem) : Z := match o with Some m => mem_i m | None => 0 end.
Definition r_time_value (tag : option mem) : R (option sml_time) :=
  rbind (quiet sml_buf_get_next_type) (fun type =>
  if type =? SML_TYPE_UNSIGNED then
    d <~? sml_u32_parse ;; quiet (ret (Some (mkTime tag d)))
  else if type =? SML_TYPE_LIST then
    rbind (quiet sml_buf_get_next_length) (fun _ =>
    t1 <~? sml_u32_parse ;;
    t2 <~? sml_i16_parse ;;
    t3 <~? sml_i16_parse ;;
    rbind (say (Ignored (shown_u t1) (shown_i t2) (shown_i t3))) (fun _ =>
    quiet (ret (Some (mkTime tag None)))))
  else quiet (ret None)).
(** sml_time.c:30-118 *)
Definition r_time_parse : R (option sml_time) :=
  r_unless_skipped (
  rbind (quiet sml_buf_get_current_byte) (fun b =>
  if b =? Z.lor SML_TYPE_UNSIGNED 5 then r_time_value (Some [SML_TIME_SEC_INDEX])
  else rexpect_list 2 (rfield (quiet sml_u8_parse) r_time_value))).

(** sml_list.c:45-51, 36-60 *)
Fixpoint r_sequence_loop {A} (fuel : nat) (n : Z) (elem_parse : R (option A)) : R (option (sml_sequence A)) :=
  if n <=? 0 then quiet (ret (Some [])) else
  match fuel with
  | O => quiet out_of_fuel
  | S fuel' =>
      rbind elem_parse (fun p =>
      rbind (quiet sml_buf_has_errors) (fun e =>
      if (e : bool) then quiet (ret None) else
      rbind (r_sequence_loop fuel' (n - 1) elem_parse) (fun r =>
      quiet (ret (match r with None => None | Some t => Some (p :: t) end)))))
  end.
Definition r_sequence_parse {A} (elem_parse : R (option A)) : R (option (sml_sequence A)) :=
  r_error_label (
  rbind (quiet sml_buf_get_next_type) (fun t =>
  if negb (t =? SML_TYPE_LIST) then quiet (ret None) else
  rbind (quiet sml_buf_get_next_length) (fun len =>
  r_with_fuel (fun fuel => r_sequence_loop fuel len elem_parse)))).

(** sml_list.c:172-267 *)
Definition r_list_entry_parse (w : bool) : R (option (list_entry * bool)) :=
  r_error_label (
  rexpect_list 7 (
  obj_name <~? sml_octet_string_parse ;;
  status <~? sml_status_parse ;;
  val_time <-! r_time_parse ;;
  unit <~? sml_u8_parse ;;
  scaler <~? sml_i8_parse ;;
  rbind (quiet at_end) (fun e =>
  if (e : bool) then quiet (ret None) else
  rbind (quiet sml_buf_get_current_byte) (fun value_tl =>
  let value_len_more := Z.land value_tl (Z.lor SML_ANOTHER_TL SML_LENGTH_FIELD) in
  value <~? sml_value_parse ;;
  value_signature <~? sml_octet_string_parse ;;
  rbind (quiet (apply_workaround w value_len_more
         (mkEntry obj_name status val_time unit scaler value value_signature))) (fun r =>
  quiet (ret (Some r))))))).
(** sml_list.c:285-291 *)
Fixpoint r_list_loop (fuel : nat) (elems : Z) (w : bool) : R (option sml_list) :=
  if elems <=? 0 then quiet (ret (Some [])) else
  match fuel with
  | O => quiet out_of_fuel
  | S fuel' =>
      rbind (r_list_entry_parse w) (fun r =>
      rbind (quiet sml_buf_has_errors) (fun e =>
      if (e : bool) then quiet (ret None) else
      match r with
      | None => quiet (fail NullDeref)
      | Some (l, w') =>
          rbind (r_list_loop fuel' (elems - 1) w') (fun t =>
          quiet (ret (match t with None => None | Some t => Some (l :: t) end)))
      end))
  end.
(** sml_list.c:269-299 *)
Definition r_list_parse : R sml_list :=
  rbind (quiet sml_buf_optional_is_skipped) (fun sk =>
  if negb (sk =? 0) then quiet (ret []) else
  rbind (quiet sml_buf_get_next_type) (fun t =>
  if negb (t =? SML_TYPE_LIST) then quiet (set_error ;;; ret []) else
  rbind (quiet sml_buf_get_next_length) (fun elems =>
  rbind (r_with_fuel (fun fuel => r_list_loop fuel elems false)) (fun r =>
  match r with
  | Some l => quiet (ret l)
  | None => quiet (set_error ;;; ret [])
  end)))).

(** Tree.elems_loop *)
Fixpoint r_elems_loop {A} (fuel : nat) (elems : Z) (p : R A) : R (option (list A)) :=
  if elems <=? 0 then quiet (ret (Some [])) else
  match fuel with
  | O => quiet out_of_fuel
  | S fuel' =>
      rbind p (fun x =>
      rbind (quiet sml_buf_has_errors) (fun e =>
      if (e : bool) then quiet (ret None) else
      rbind (r_elems_loop fuel' (elems - 1) p) (fun t =>
      quiet (ret (match t with None => None | Some t => Some (x :: t) end)))))
  end.
(** sml_tree.c:353-453 *)
Definition r_tupel_entry_parse : R (option sml_tupel_entry) :=
  r_unless_skipped (
  rexpect_list 23 (
  server_id <~? sml_octet_string_parse ;;
  sec_index <-! r_time_parse ;;
  status <~? sml_u64_parse ;;
  unit_pA <~? sml_u8_parse ;;
  scaler_pA <~? sml_i8_parse ;;
  value_pA <~? sml_i64_parse ;;
  unit_R1 <~? sml_u8_parse ;;
  scaler_R1 <~? sml_i8_parse ;;
  value_R1 <~? sml_i64_parse ;;
  unit_R4 <~? sml_u8_parse ;;
  scaler_R4 <~? sml_i8_parse ;;
  value_R4 <~? sml_i64_parse ;;
  signature_pA_R1_R4 <~? sml_octet_string_parse ;;
  unit_mA <~? sml_u8_parse ;;
  scaler_mA <~? sml_i8_parse ;;
  value_mA <~? sml_i64_parse ;;
  unit_R2 <~? sml_u8_parse ;;
  scaler_R2 <~? sml_i8_parse ;;
  value_R2 <~? sml_i64_parse ;;
  unit_R3 <~? sml_u8_parse ;;
  scaler_R3 <~? sml_i8_parse ;;
  value_R3 <~? sml_i64_parse ;;
  signature_mA_R2_R3 <~? sml_octet_string_parse ;;
  quiet (ret (Some (mkTupel server_id sec_index status
    unit_pA scaler_pA value_pA unit_R1 scaler_R1 value_R1 unit_R4 scaler_R4 value_R4
    signature_pA_R1_R4
    unit_mA scaler_mA value_mA unit_R2 scaler_R2 value_R2 unit_R3 scaler_R3 value_R3
    signature_mA_R2_R3))))).
(** sml_tree.c:216-260 *)
Definition r_proc_par_value_parse : R (option sml_proc_par_value) :=
  r_unless_skipped (
  rexpect_list 2 (
  tag <~? sml_u8_parse ;;
  match tag with
  | None => quiet (ret None)
  | Some m =>
      let t := mem_u m in
      if t =? SML_PROC_PAR_VALUE_TAG_VALUE then
        rbind (quiet sml_value_parse) (fun d => quiet (ret (Some (mkPpv tag (from_opt PNull PValue d)))))
      else if t =? SML_PROC_PAR_VALUE_TAG_PERIOD_ENTRY then
        rbind (quiet sml_period_entry_parse) (fun d => quiet (ret (Some (mkPpv tag (from_opt PNull PPeriod d)))))
      else if t =? SML_PROC_PAR_VALUE_TAG_TUPEL_ENTRY then
        rbind r_tupel_entry_parse (fun d => quiet (ret (Some (mkPpv tag (from_opt PNull PTupel d)))))
      else if t =? SML_PROC_PAR_VALUE_TAG_TIME then
        rbind r_time_parse (fun d => quiet (ret (Some (mkPpv tag (from_opt PNull PTime d)))))
      else quiet err_null
  end)).
(** sml_tree.c:111-162 *)
Fixpoint r_tree_parse_rec (depth : nat) : R (option sml_tree) :=
  match depth with
  | O => quiet out_of_fuel
  | S depth' =>
      r_unless_skipped (
      rexpect_list 3 (
      name <~? sml_octet_string_parse ;;
      value <-! r_proc_par_value_parse ;;
      rbind (quiet sml_buf_optional_is_skipped) (fun sk =>
      if negb (sk =? 0) then quiet (ret (Some (Tree name value [])))
      else
        rbind (quiet sml_buf_get_next_type) (fun t =>
        if negb (t =? SML_TYPE_LIST) then quiet err_null else
        rbind (quiet sml_buf_get_next_length) (fun elems =>
        rbind (r_with_fuel (fun fuel => r_elems_loop fuel elems (r_tree_parse_rec depth'))) (fun r =>
        match r with
        | None => quiet (ret None)
        | Some l => quiet (ret (Some (Tree name value (somes l))))
        end))))))
  end.
Definition r_tree_parse : R (option sml_tree) := r_with_fuel r_tree_parse_rec.

(** sml_open_response.c:34-75 *)
Definition r_open_response_parse : R (option sml_open_response) :=
  rexpect_list 6 (
  codepage <~? sml_octet_string_parse ;;
  client_id <~? sml_octet_string_parse ;;
  req_file_id <~? sml_octet_string_parse ;;
  server_id <~? sml_octet_string_parse ;;
  ref_time <-! r_time_parse ;;
  sml_version <~? sml_u8_parse ;;
  quiet (ret (Some (mkOpenRes codepage client_id req_file_id server_id ref_time sml_version)))).
(** sml_get_profile_pack_request.c:69-147 *)
Definition r_get_profile_pack_request_parse : R (option sml_get_profile_pack_request) :=
  rexpect_list 9 (
  server_id <~? sml_octet_string_parse ;;
  username <~? sml_octet_string_parse ;;
  password <~? sml_octet_string_parse ;;
  with_rawdata <~? sml_boolean_parse ;;
  begin_time <-! r_time_parse ;;
  end_time <-! r_time_parse ;;
  parameter_tree_path <~? sml_tree_path_parse ;;
  rbind (quiet object_list_parse) (fun object_list =>
  match object_list with
  | None => quiet (ret None)
  | Some object_list =>
      das_details <-! r_tree_parse ;;
      quiet (ret (Some (mkPackReq server_id username password with_rawdata begin_time end_time
                           parameter_tree_path object_list das_details)))
  end)).
(** sml_get_profile_pack_response.c:38-70 *)
Definition r_prof_obj_period_entry_parse : R (option sml_prof_obj_period_entry) :=
  r_error_label (
  rexpect_list 4 (
  val_time <-! r_time_parse ;;
  status <~? sml_u64_parse ;;
  value_list <~? sml_sequence_parse sml_value_entry_parse ;;
  period_signature <~? sml_octet_string_parse ;;
  quiet (ret (Some (mkPerEntry val_time status value_list period_signature))))).
(** sml_get_profile_pack_response.c:169-222 *)
Definition r_get_profile_pack_response_parse : R (option sml_get_profile_pack_response) :=
  r_error_label (
  rexpect_list 8 (
  server_id <~? sml_octet_string_parse ;;
  act_time <-! r_time_parse ;;
  reg_period <~? sml_u32_parse ;;
  parameter_tree_path <~? sml_tree_path_parse ;;
  header_list <~? sml_sequence_parse sml_prof_obj_header_entry_parse ;;
  period_list <-! r_sequence_parse r_prof_obj_period_entry_parse ;;
  rawdata <~? sml_octet_string_parse ;;
  profile_signature <~? sml_octet_string_parse ;;
  quiet (ret (Some (mkPackRes server_id act_time reg_period parameter_tree_path header_list
                       period_list rawdata profile_signature))))).
(** sml_get_profile_list_response.c:42-97 *)
Definition r_get_profile_list_response_parse : R (option sml_get_profile_list_response) :=
  r_error_label (
  rexpect_list 9 (
  server_id <~? sml_octet_string_parse ;;
  act_time <-! r_time_parse ;;
  reg_period <~? sml_u32_parse ;;
  parameter_tree_path <~? sml_tree_path_parse ;;
  val_time <-! r_time_parse ;;
  status <~? sml_u64_parse ;;
  period_list <~? sml_sequence_parse sml_period_entry_parse ;;
  rawdata <~? sml_octet_string_parse ;;
  period_signature <~? sml_octet_string_parse ;;
  quiet (ret (Some (mkProfListRes server_id act_time reg_period parameter_tree_path val_time status
                           period_list rawdata period_signature))))).
(** sml_get_proc_parameter_response.c:31-61 *)
Definition r_get_proc_parameter_response_parse : R (option sml_get_proc_parameter_response) :=
  rexpect_list 3 (
  server_id <~? sml_octet_string_parse ;;
  parameter_tree_path <~? sml_tree_path_parse ;;
  parameter_tree <-! r_tree_parse ;;
  quiet (ret (Some (mkProcRes server_id parameter_tree_path parameter_tree)))).
(** sml_set_proc_parameter_request.c:33-71 *)
Definition r_set_proc_parameter_request_parse : R (option sml_set_proc_parameter_request) :=
  rexpect_list 5 (
  server_id <~? sml_octet_string_parse ;;
  username <~? sml_octet_string_parse ;;
  password <~? sml_octet_string_parse ;;
  parameter_tree_path <~? sml_tree_path_parse ;;
  parameter_tree <-! r_tree_parse ;;
  quiet (ret (Some (mkSetProc server_id username password parameter_tree_path parameter_tree)))).
(** sml_get_list_response.c:34-80 *)
Definition r_get_list_response_parse : R (option sml_get_list_response) :=
  rexpect_list 7 (
  client_id <~? sml_octet_string_parse ;;
  server_id <~? sml_octet_string_parse ;;
  list_name <~? sml_octet_string_parse ;;
  act_sensor_time <-! r_time_parse ;;
  val_list <-! r_list_parse ;;
  list_signature <~? sml_octet_string_parse ;;
  act_gateway_time <-! r_time_parse ;;
  quiet (ret (Some (mkListRes client_id server_id list_name act_sensor_time val_list
                       list_signature act_gateway_time)))).
(** sml_attention_response.c:32-66 *)
Definition r_attention_response_parse : R (option sml_attention_response) :=
  rexpect_list 4 (
  server_id <~? sml_octet_string_parse ;;
  attention_number <~? sml_octet_string_parse ;;
  attention_message <~? sml_octet_string_parse ;;
  attention_details <-! r_tree_parse ;;
  quiet (ret (Some (mkAttention server_id attention_number attention_message attention_details)))).

(** sml_message.c:172-213: the cases of the switch of bodies which may have a time in
    them; the others print nothing. *)
Definition r_body_data_parse (tag : Z) : R body_data :=
  if tag =? SML_MESSAGE_OPEN_RESPONSE then
    rbind r_open_response_parse (fun d => quiet (ret (from_opt BNull BOpenRes d)))
  else if (tag =? SML_MESSAGE_GET_PROFILE_PACK_REQUEST) || (tag =? SML_MESSAGE_GET_PROFILE_LIST_REQUEST) then
    rbind r_get_profile_pack_request_parse (fun d => quiet (ret (from_opt BNull BPackReq d)))
  else if tag =? SML_MESSAGE_GET_PROFILE_PACK_RESPONSE then
    rbind r_get_profile_pack_response_parse (fun d => quiet (ret (from_opt BNull BPackRes d)))
  else if tag =? SML_MESSAGE_GET_PROFILE_LIST_RESPONSE then
    rbind r_get_profile_list_response_parse (fun d => quiet (ret (from_opt BNull BProfListRes d)))
  else if tag =? SML_MESSAGE_GET_PROC_PARAMETER_RESPONSE then
    rbind r_get_proc_parameter_response_parse (fun d => quiet (ret (from_opt BNull BProcRes d)))
  else if tag =? SML_MESSAGE_SET_PROC_PARAMETER_REQUEST then
    rbind r_set_proc_parameter_request_parse (fun d => quiet (ret (from_opt BNull BSetProc d)))
  else if tag =? SML_MESSAGE_GET_LIST_RESPONSE then
    rbind r_get_list_response_parse (fun d => quiet (ret (from_opt BNull BListRes d)))
  else if tag =? SML_MESSAGE_ATTENTION_RESPONSE then
    rbind r_attention_response_parse (fun d => quiet (ret (from_opt BNull BAttention d)))
  else quiet (body_data_parse tag).

(** sml_message.c:172-217: the cases of the switch *)
Definition implemented : list Z :=
  [SML_MESSAGE_OPEN_REQUEST; SML_MESSAGE_OPEN_RESPONSE; SML_MESSAGE_CLOSE_REQUEST; SML_MESSAGE_CLOSE_RESPONSE;
   SML_MESSAGE_GET_PROFILE_PACK_REQUEST; SML_MESSAGE_GET_PROFILE_PACK_RESPONSE; SML_MESSAGE_GET_PROFILE_LIST_REQUEST;
   SML_MESSAGE_GET_PROFILE_LIST_RESPONSE; SML_MESSAGE_GET_PROC_PARAMETER_REQUEST; SML_MESSAGE_GET_PROC_PARAMETER_RESPONSE;
   SML_MESSAGE_SET_PROC_PARAMETER_REQUEST; SML_MESSAGE_GET_LIST_REQUEST; SML_MESSAGE_GET_LIST_RESPONSE;
   SML_MESSAGE_ATTENTION_RESPONSE].

(** sml_message.c:149-225 *)
Definition r_message_body_parse : R (option sml_message_body) :=
  rbind (quiet at_end) (fun e =>
  if (e : bool) then quiet err_null else
  rexpect_list 2 (
  rfield (quiet sml_u32_parse) (fun tag =>
  match tag with
  | None => quiet (ret None)
  | Some m =>
      if existsb (Z.eqb (mem_u m)) implemented
      then rbind (r_body_data_parse (mem_u m)) (fun d => quiet (ret (Some (mkBody tag d))))
      else rbind (say (NotImplemented (mem_u m))) (fun _ => quiet (ret (Some (mkBody tag BNull))))
  end))).

(** sml_message.c:292-345, what is printed by it.  The tag of a body that was read is
    never NULL (sml_message.c:168). *)
Definition body_free_lines (b : option sml_message_body) : list line :=
  match b with
  | Some (mkBody (Some m) _) => if existsb (Z.eqb (mem_u m)) implemented then [] else [NotFreed (mem_u m)]
  | _ => []
  end.
Fixpoint say_all (l : list line) : R unit :=
  match l with
  | [] => quiet (ret tt)
  | x :: t => rbind (say x) (fun _ => say_all t)
  end.
(** sml_message.c:102-104: goto error, with the body read so far *)
Definition r_give_up (b : option sml_message_body) (p : P (option sml_message)) : R (option sml_message) :=
  rbind (say_all (body_free_lines b)) (fun _ => quiet p).

(** sml_message.c:32-105 *)
Definition r_message_parse : R (option sml_message) :=
  rbind (quiet (cursor_int 0)) (fun msg_start =>
  rexpect_list 6 (
  rfield (quiet sml_octet_string_parse) (fun transaction_id =>
  rfield (quiet sml_u8_parse) (fun group_id =>
  rfield (quiet sml_u8_parse) (fun abort_on_error =>
  rbind r_message_body_parse (fun message_body =>
  rbind (quiet sml_buf_has_errors) (fun e =>
  if (e : bool) then r_give_up message_body (ret None) else
  rbind (quiet (cursor_int msg_start)) (fun len =>
  rbind (quiet (fun s => Ret (size_sub (buffer_len s) (cursor s) <? 3, s))) (fun few =>
  if (few : bool) then r_give_up message_body err_null else
  rbind (quiet sml_u16_parse) (fun crc =>
  rbind (quiet sml_buf_has_errors) (fun e =>
  match (if (e : bool) then None else crc) with
  | None => r_give_up message_body err_null
  | Some c =>
      rbind (quiet (buffer_slice msg_start len)) (fun bs =>
      if negb (mem_u c =? sml_crc16_calculate bs) && negb (mem_u c =? sml_crc16kermit_calculate bs)
      then rbind (say Dropped) (fun _ => r_give_up message_body (ret None))
      else
        rbind (quiet at_end) (fun e =>
        if (e : bool) then r_give_up message_body err_null else
        rbind (quiet sml_buf_get_current_byte) (fun b =>
        rbind (quiet (if b =? SML_MESSAGE_END then sml_buf_update_bytes_read 1 else ret tt)) (fun _ =>
        quiet (ret (Some (mkMsg transaction_id group_id abort_on_error message_body crc)))))))
  end))))))))))).

(** sml_file.c:41-58 *)
Fixpoint r_file_loop (fuel : nat) (msgs : list sml_message) : R (list sml_message) :=
  rbind (quiet at_end) (fun e =>
  if (e : bool) then quiet (ret msgs) else
  match fuel with
  | O => quiet out_of_fuel
  | S fuel' =>
      rbind (quiet sml_buf_get_current_byte) (fun b =>
      if b =? SML_MESSAGE_END then
        rbind (quiet (sml_buf_update_bytes_read 1)) (fun _ => r_file_loop fuel' msgs)
      else
        rbind r_message_parse (fun msg =>
        rbind (quiet sml_buf_has_errors) (fun e =>
        if (e : bool) then rbind (say NotWhole) (fun _ => quiet (ret msgs)) else
        match msg with
        | Some m => rbind (quiet (sml_file_add_message msgs m)) (fun msgs' => r_file_loop fuel' msgs')
        | None => r_file_loop fuel' msgs
        end)))
  end).

(** sml_file.c:30-61 *)
Definition r_file_parse (bytes : list Z) : list line * outcome sml_file :=
  match r_file_loop (S (length bytes)) [] (mkBuf bytes 0 false false) with
  | (l, Ret (msgs, s)) => (l, Ret (mkFile msgs s))
  | (l, Fault f) => (l, Fault f)
  | (l, NoFuel) => (l, NoFuel)
  end.
End WithHost.
