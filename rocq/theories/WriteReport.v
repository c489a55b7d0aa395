(** What writing messages prints on stderr: the writers once more, with the lines of
    sml_message.c:286 and sml_tree.c:285.  Writers without a tree in them print nothing
    and are those of Bodies.v. *)
From Verif Require Import Base Buf Crc16 Number OctetString Boolean Value Time SList Tree Bodies Message File.

Inductive wline : Type :=
| WNotImplemented (type : Z)  (* sml_message.c:286, "libsml: error: message type %04X not yet implemented" *)
| WUnknownTag.                (* sml_tree.c:285, "libsml: error: unknown tag in sml_proc_par_value_write" *)

(** The lines (up to a crash), and what the code does otherwise. *)
Definition V (A : Type) : Type := sbuf -> list wline * outcome (A * sbuf).
Definition mute {A} (p : P A) : V A := fun s => ([], p s).
Definition tell (l : wline) : V unit := fun s => ([l], Ret (tt, s)).
Definition vbind {A B} (p : V A) (k : A -> V B) : V B := fun s =>
  match p s with
  | (l, Ret (x, s')) => let '(l', o) := k x s' in (l ++ l', o)
  | (l, Fault f) => (l, Fault f)
  | (l, NoFuel) => (l, NoFuel)
  end.
Notation "p ;;! k" := (vbind (mute p) (fun _ => k)) (at level 62, right associativity).

(** Bodies.deref *)
Definition v_deref {A} (p : option A) (k : A -> V unit) : V unit :=
  match p with None => mute (fail NullDeref) | Some v => k v end.

Section WithHost.
Context {H : Host}.

(** sml_tree.c:262-287 *)
Definition v_proc_par_value_write (value : option sml_proc_par_value) : V unit :=
  match value with
  | None => mute sml_buf_optional_write
  | Some v =>
      sml_buf_set_type_and_length SML_TYPE_LIST 2 ;;!
      sml_u8_write (ppv_tag v) ;;!
      match ppv_tag v with
      | None => mute (fail NullDeref)
      | Some m =>
          let t := mem_u m in
          if t =? SML_PROC_PAR_VALUE_TAG_VALUE then mute (d <- ppv_as_value (ppv_dat v) ;; sml_value_write d)
          else if t =? SML_PROC_PAR_VALUE_TAG_PERIOD_ENTRY then mute (d <- ppv_as_period (ppv_dat v) ;; sml_period_entry_write d)
          else if t =? SML_PROC_PAR_VALUE_TAG_TUPEL_ENTRY then mute (d <- ppv_as_tupel (ppv_dat v) ;; sml_tupel_entry_write d)
          else if t =? SML_PROC_PAR_VALUE_TAG_TIME then mute (d <- ppv_as_time (ppv_dat v) ;; sml_time_write d)
          else tell WUnknownTag
      end
  end.
(** sml_tree.c:185-206 *)
Fixpoint v_tree_write_node (tree : sml_tree) : V unit :=
  match tree with
  | Tree name value children =>
      sml_buf_set_type_and_length SML_TYPE_LIST 3 ;;!
      sml_octet_string_write name ;;!
      vbind (v_proc_par_value_write value) (fun _ =>
      if Z.of_nat (length children) >? 0 then
        sml_buf_set_type_and_length SML_TYPE_LIST (to_u32 (Z.of_nat (length children))) ;;!
        (fix go l := match l with
                     | [] => mute (ret tt)
                     | c :: t => vbind (v_tree_write_node c) (fun _ => go t)
                     end) children
      else mute sml_buf_optional_write)
  end.
Definition v_tree_write (tree : option sml_tree) : V unit :=
  match tree with None => mute sml_buf_optional_write | Some t => v_tree_write_node t end.

(** sml_get_profile_pack_request.c:41-67 *)
Definition v_get_profile_pack_request_write (m : option sml_get_profile_pack_request) : V unit :=
  sml_buf_set_type_and_length SML_TYPE_LIST 9 ;;!
  v_deref m (fun m =>
  sml_octet_string_write (gq_server_id m) ;;!
  sml_octet_string_write (gq_username m) ;;!
  sml_octet_string_write (gq_password m) ;;!
  sml_boolean_write (gq_with_rawdata m) ;;!
  sml_time_write (gq_begin_time m) ;;!
  sml_time_write (gq_end_time m) ;;!
  sml_tree_path_write (gq_parameter_tree_path m) ;;!
  object_list_write (gq_object_list m) ;;!
  v_tree_write (gq_das_details m)).
(** sml_get_proc_parameter_response.c:63-71 *)
Definition v_get_proc_parameter_response_write (m : option sml_get_proc_parameter_response) : V unit :=
  sml_buf_set_type_and_length SML_TYPE_LIST 3 ;;!
  v_deref m (fun m =>
  sml_octet_string_write (pr_server_id m) ;;!
  sml_tree_path_write (pr_parameter_tree_path m) ;;!
  v_tree_write (pr_parameter_tree m)).
(** sml_set_proc_parameter_request.c:73-82 *)
Definition v_set_proc_parameter_request_write (m : option sml_set_proc_parameter_request) : V unit :=
  sml_buf_set_type_and_length SML_TYPE_LIST 5 ;;!
  v_deref m (fun m =>
  sml_octet_string_write (sq_server_id m) ;;!
  sml_octet_string_write (sq_username m) ;;!
  sml_octet_string_write (sq_password m) ;;!
  sml_tree_path_write (sq_parameter_tree_path m) ;;!
  v_tree_write (sq_parameter_tree m)).
(** sml_attention_response.c:68-76 *)
Definition v_attention_response_write (m : option sml_attention_response) : V unit :=
  sml_buf_set_type_and_length SML_TYPE_LIST 4 ;;!
  v_deref m (fun m =>
  sml_octet_string_write (ar_server_id m) ;;!
  sml_octet_string_write (ar_attention_number m) ;;!
  sml_octet_string_write (ar_attention_message m) ;;!
  v_tree_write (ar_attention_details m)).

(** sml_message.c:237-289, the switch *)
Definition v_body_data_write (tag : Z) (data : body_data) : V unit :=
  if tag =? SML_MESSAGE_OPEN_REQUEST then mute (d <- as_open_req data ;; sml_open_request_write d)
  else if tag =? SML_MESSAGE_OPEN_RESPONSE then mute (d <- as_open_res data ;; sml_open_response_write d)
  else if tag =? SML_MESSAGE_CLOSE_REQUEST then mute (d <- as_close_req data ;; sml_close_request_write d)
  else if tag =? SML_MESSAGE_CLOSE_RESPONSE then mute (d <- as_close_res data ;; sml_close_response_write d)
  else if tag =? SML_MESSAGE_GET_PROFILE_PACK_REQUEST then vbind (mute (as_pack_req data)) v_get_profile_pack_request_write
  else if tag =? SML_MESSAGE_GET_PROFILE_PACK_RESPONSE then mute (d <- as_pack_res data ;; sml_get_profile_pack_response_write d)
  else if tag =? SML_MESSAGE_GET_PROFILE_LIST_REQUEST then vbind (mute (as_pack_req data)) v_get_profile_pack_request_write
  else if tag =? SML_MESSAGE_GET_PROFILE_LIST_RESPONSE then mute (d <- as_prof_list_res data ;; sml_get_profile_list_response_write d)
  else if tag =? SML_MESSAGE_GET_PROC_PARAMETER_REQUEST then mute (d <- as_proc_req data ;; sml_get_proc_parameter_request_write d)
  else if tag =? SML_MESSAGE_GET_PROC_PARAMETER_RESPONSE then vbind (mute (as_proc_res data)) v_get_proc_parameter_response_write
  else if tag =? SML_MESSAGE_SET_PROC_PARAMETER_REQUEST then vbind (mute (as_set_proc data)) v_set_proc_parameter_request_write
  else if tag =? SML_MESSAGE_GET_LIST_REQUEST then mute (d <- as_list_req data ;; sml_get_list_request_write d)
  else if tag =? SML_MESSAGE_GET_LIST_RESPONSE then mute (d <- as_list_res data ;; sml_get_list_response_write d)
  else if tag =? SML_MESSAGE_ATTENTION_RESPONSE then vbind (mute (as_attention data)) v_attention_response_write
  else tell (WNotImplemented tag).
(** sml_message.c:233-290 *)
Definition v_message_body_write (mb : option sml_message_body) : V unit :=
  sml_buf_set_type_and_length SML_TYPE_LIST 2 ;;!
  match mb with
  | None => mute (fail NullDeref)
  | Some b =>
      sml_u32_write (mb_tag b) ;;!
      match mb_tag b with
      | None => mute (fail NullDeref)
      | Some m => v_body_data_write (mem_u m) (mb_data b)
      end
  end.
(** sml_message.c:129-145 *)
Definition v_message_write (msg : sml_message) : V sml_message :=
  vbind (mute (cursor_int 0)) (fun msg_start =>
  sml_buf_set_type_and_length SML_TYPE_LIST 6 ;;!
  sml_octet_string_write (m_transaction_id msg) ;;!
  sml_u8_write (m_group_id msg) ;;!
  sml_u8_write (m_abort_on_error msg) ;;!
  vbind (v_message_body_write (m_message_body msg)) (fun _ =>
  mute (
  len <- cursor_int msg_start ;;
  bs <- buffer_slice msg_start len ;;
  let crc := Some (sml_u16_init (sml_crc16_calculate bs)) in
  sml_u16_write crc ;;;
  store_current 0 ;;;
  inc_cursor ;;;
  ret (mkMsg (m_transaction_id msg) (m_group_id msg) (m_abort_on_error msg)
             (m_message_body msg) crc)))).
(** sml_file.c:84-86 *)
Fixpoint v_write_messages (l : list sml_message) : V (list sml_message) :=
  match l with
  | [] => mute (ret [])
  | m :: t => vbind (v_message_write m) (fun m' => vbind (v_write_messages t) (fun t' => mute (ret (m' :: t'))))
  end.
(** sml_file.c:80-88 *)
Definition v_file_write (f : sml_file) : list wline * outcome sml_file :=
  match v_write_messages (f_messages f) (f_buf f) with
  | (l, Ret (ms, s)) => (l, Ret (mkFile ms s))
  | (l, Fault x) => (l, Fault x)
  | (l, NoFuel) => (l, NoFuel)
  end.
End WithHost.
