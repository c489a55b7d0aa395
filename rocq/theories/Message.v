(** Model of sml/src/sml_message.c. *)
From Verif Require Import Base Buf Crc16 Number OctetString Boolean Value Time SList Tree Bodies.

(** sml_message.h:44-58 *)
Definition SML_MESSAGE_OPEN_REQUEST := 256.
Definition SML_MESSAGE_OPEN_RESPONSE := 257.
Definition SML_MESSAGE_CLOSE_REQUEST := 512.
Definition SML_MESSAGE_CLOSE_RESPONSE := 513.
Definition SML_MESSAGE_GET_PROFILE_PACK_REQUEST := 768.
Definition SML_MESSAGE_GET_PROFILE_PACK_RESPONSE := 769.
Definition SML_MESSAGE_GET_PROFILE_LIST_REQUEST := 1024.
Definition SML_MESSAGE_GET_PROFILE_LIST_RESPONSE := 1025.
Definition SML_MESSAGE_GET_PROC_PARAMETER_REQUEST := 1280.
Definition SML_MESSAGE_GET_PROC_PARAMETER_RESPONSE := 1281.
Definition SML_MESSAGE_SET_PROC_PARAMETER_REQUEST := 1536.
Definition SML_MESSAGE_GET_LIST_REQUEST := 1792.
Definition SML_MESSAGE_GET_LIST_RESPONSE := 1793.
Definition SML_MESSAGE_ATTENTION_RESPONSE := 65281.

(** sml_message.h, struct sml_message_body: void *data with what it points to. *)
Inductive body_data : Type :=
| BNull
| BOpenReq (m : sml_open_request)
| BOpenRes (m : sml_open_response)
| BCloseReq (m : sml_close_request)
| BCloseRes (m : sml_close_response)
| BPackReq (m : sml_get_profile_pack_request)
| BPackRes (m : sml_get_profile_pack_response)
| BProfListRes (m : sml_get_profile_list_response)
| BProcReq (m : sml_get_proc_parameter_request)
| BProcRes (m : sml_get_proc_parameter_response)
| BSetProc (m : sml_set_proc_parameter_request)
| BListReq (m : sml_get_list_request)
| BListRes (m : sml_get_list_response)
| BAttention (m : sml_attention_response).

Record sml_message_body : Type := mkBody { mb_tag : option mem; mb_data : body_data }.

Record sml_message : Type := mkMsg {
  m_transaction_id : option octet_string;
  m_group_id : option mem;
  m_abort_on_error : option mem;
  m_message_body : option sml_message_body;
  m_crc : option mem }.

Section WithHost.
Context {H : Host}.

(** sml_message.c:172-218, the switch of the parser.  An unknown tag consumes
    nothing and leaves data NULL. *)
Definition body_data_parse (tag : Z) : P body_data :=
  if tag =? SML_MESSAGE_OPEN_REQUEST then
    d <- sml_open_request_parse ;; ret (from_opt BNull BOpenReq d)
  else if tag =? SML_MESSAGE_OPEN_RESPONSE then
    d <- sml_open_response_parse ;; ret (from_opt BNull BOpenRes d)
  else if tag =? SML_MESSAGE_CLOSE_REQUEST then
    d <- sml_close_request_parse ;; ret (from_opt BNull BCloseReq d)
  else if tag =? SML_MESSAGE_CLOSE_RESPONSE then
    d <- sml_close_response_parse ;; ret (from_opt BNull BCloseRes d)
  else if tag =? SML_MESSAGE_GET_PROFILE_PACK_REQUEST then
    d <- sml_get_profile_pack_request_parse ;; ret (from_opt BNull BPackReq d)
  else if tag =? SML_MESSAGE_GET_PROFILE_PACK_RESPONSE then
    d <- sml_get_profile_pack_response_parse ;; ret (from_opt BNull BPackRes d)
  else if tag =? SML_MESSAGE_GET_PROFILE_LIST_REQUEST then
    d <- sml_get_profile_pack_request_parse ;; ret (from_opt BNull BPackReq d)
  else if tag =? SML_MESSAGE_GET_PROFILE_LIST_RESPONSE then
    d <- sml_get_profile_list_response_parse ;; ret (from_opt BNull BProfListRes d)
  else if tag =? SML_MESSAGE_GET_PROC_PARAMETER_REQUEST then
    d <- sml_get_proc_parameter_request_parse ;; ret (from_opt BNull BProcReq d)
  else if tag =? SML_MESSAGE_GET_PROC_PARAMETER_RESPONSE then
    d <- sml_get_proc_parameter_response_parse ;; ret (from_opt BNull BProcRes d)
  else if tag =? SML_MESSAGE_SET_PROC_PARAMETER_REQUEST then
    d <- sml_set_proc_parameter_request_parse ;; ret (from_opt BNull BSetProc d)
  else if tag =? SML_MESSAGE_GET_LIST_REQUEST then
    d <- sml_get_list_request_parse ;; ret (from_opt BNull BListReq d)
  else if tag =? SML_MESSAGE_GET_LIST_RESPONSE then
    d <- sml_get_list_response_parse ;; ret (from_opt BNull BListRes d)
  else if tag =? SML_MESSAGE_ATTENTION_RESPONSE then
    d <- sml_attention_response_parse ;; ret (from_opt BNull BAttention d)
  else ret BNull.

(** sml_message.c:149-225 *)
Definition sml_message_body_parse : P (option sml_message_body) :=
  e <- at_end ;;
  if (e : bool) then err_null else
  expect_list 2 (
  tag <-? sml_u32_parse ;;
  match tag with
  | None => ret None               (* line 169: NULL tag, error flag not raised *)
  | Some m => d <- body_data_parse (mem_u m) ;; ret (Some (mkBody tag d))
  end).

(** void *data passed to a writer that expects one particular struct. *)
Definition as_open_req d := match d with BNull => ret None | BOpenReq m => ret (Some m) | _ => fail TypeConfusion end : P _.
Definition as_open_res d := match d with BNull => ret None | BOpenRes m => ret (Some m) | _ => fail TypeConfusion end : P _.
Definition as_close_req d := match d with BNull => ret None | BCloseReq m => ret (Some m) | _ => fail TypeConfusion end : P _.
Definition as_close_res d := match d with BNull => ret None | BCloseRes m => ret (Some m) | _ => fail TypeConfusion end : P _.
Definition as_pack_req d := match d with BNull => ret None | BPackReq m => ret (Some m) | _ => fail TypeConfusion end : P _.
Definition as_pack_res d := match d with BNull => ret None | BPackRes m => ret (Some m) | _ => fail TypeConfusion end : P _.
Definition as_prof_list_res d := match d with BNull => ret None | BProfListRes m => ret (Some m) | _ => fail TypeConfusion end : P _.
Definition as_proc_req d := match d with BNull => ret None | BProcReq m => ret (Some m) | _ => fail TypeConfusion end : P _.
Definition as_proc_res d := match d with BNull => ret None | BProcRes m => ret (Some m) | _ => fail TypeConfusion end : P _.
Definition as_set_proc d := match d with BNull => ret None | BSetProc m => ret (Some m) | _ => fail TypeConfusion end : P _.
Definition as_list_req d := match d with BNull => ret None | BListReq m => ret (Some m) | _ => fail TypeConfusion end : P _.
Definition as_list_res d := match d with BNull => ret None | BListRes m => ret (Some m) | _ => fail TypeConfusion end : P _.
Definition as_attention d := match d with BNull => ret None | BAttention m => ret (Some m) | _ => fail TypeConfusion end : P _.

(** sml_message.c:237-289, the switch of the writer. *)
Definition body_data_write (tag : Z) (data : body_data) : P unit :=
  if tag =? SML_MESSAGE_OPEN_REQUEST then
    d <- as_open_req data ;; sml_open_request_write d
  else if tag =? SML_MESSAGE_OPEN_RESPONSE then
    d <- as_open_res data ;; sml_open_response_write d
  else if tag =? SML_MESSAGE_CLOSE_REQUEST then
    d <- as_close_req data ;; sml_close_request_write d
  else if tag =? SML_MESSAGE_CLOSE_RESPONSE then
    d <- as_close_res data ;; sml_close_response_write d
  else if tag =? SML_MESSAGE_GET_PROFILE_PACK_REQUEST then
    d <- as_pack_req data ;; sml_get_profile_pack_request_write d
  else if tag =? SML_MESSAGE_GET_PROFILE_PACK_RESPONSE then
    d <- as_pack_res data ;; sml_get_profile_pack_response_write d
  else if tag =? SML_MESSAGE_GET_PROFILE_LIST_REQUEST then
    d <- as_pack_req data ;; sml_get_profile_pack_request_write d
  else if tag =? SML_MESSAGE_GET_PROFILE_LIST_RESPONSE then
    d <- as_prof_list_res data ;; sml_get_profile_list_response_write d
  else if tag =? SML_MESSAGE_GET_PROC_PARAMETER_REQUEST then
    d <- as_proc_req data ;; sml_get_proc_parameter_request_write d
  else if tag =? SML_MESSAGE_GET_PROC_PARAMETER_RESPONSE then
    d <- as_proc_res data ;; sml_get_proc_parameter_response_write d
  else if tag =? SML_MESSAGE_SET_PROC_PARAMETER_REQUEST then
    d <- as_set_proc data ;; sml_set_proc_parameter_request_write d
  else if tag =? SML_MESSAGE_GET_LIST_REQUEST then
    d <- as_list_req data ;; sml_get_list_request_write d
  else if tag =? SML_MESSAGE_GET_LIST_RESPONSE then
    d <- as_list_res data ;; sml_get_list_response_write d
  else if tag =? SML_MESSAGE_ATTENTION_RESPONSE then
    d <- as_attention data ;; sml_attention_response_write d
  else ret tt.

(** sml_message.c:227-231 *)
Definition sml_message_body_init (tag : Z) (data : body_data) : sml_message_body :=
  mkBody (Some (sml_u32_init tag)) data.

(** sml_message.c:233-290; message_body and its tag are dereferenced. *)
Definition sml_message_body_write (mb : option sml_message_body) : P unit :=
  sml_buf_set_type_and_length SML_TYPE_LIST 2 ;;;
  match mb with
  | None => fail NullDeref
  | Some b =>
      sml_u32_write (mb_tag b) ;;;
      match mb_tag b with
      | None => fail NullDeref
      | Some m => body_data_write (mem_u m) (mb_data b)
      end
  end.

(** "&(buf->buffer[start])" and [len] ints, as handed to the checksums. *)
Definition buffer_slice (start len : Z) : P (list Z) := fun s =>
  if start <? 0 then Fault WildPtr
  else if len <? 0 then Fault OobRead
  else if (Z.to_nat start + Z.to_nat len <=? buffer_len s)%nat
  then Ret (firstn (Z.to_nat len) (skipn (Z.to_nat start) (buffer s)), s)
  else Fault OobRead.

(** "int x = buf->cursor" (line 39, 130) and "int len = buf->cursor - start"
    (line 68; int converted to size_t, difference converted back): conversions
    that keep the low 32 bits. *)
Definition cursor_int (start : Z) : P Z := fun s =>
  Ret (wrap32 (Z.of_nat (cursor s) - start), s).

(** sml_message.c:32-105 *)
Definition sml_message_parse : P (option sml_message) :=
  msg_start <- cursor_int 0 ;;
  expect_list 6 (
  transaction_id <-? sml_octet_string_parse ;;
  group_id <-? sml_u8_parse ;;
  abort_on_error <-? sml_u8_parse ;;
  message_body <-? sml_message_body_parse ;;
  len <- cursor_int msg_start ;;
  few <- (fun s => Ret (size_sub (buffer_len s) (cursor s) <? 3, s)) ;;
  if (few : bool) then err_null else
  crc <- sml_u16_parse ;;
  e <- sml_buf_has_errors ;;
  match (if (e : bool) then None else crc) with
  | None => err_null
  | Some c =>
      bs <- buffer_slice msg_start len ;;
      if negb (mem_u c =? sml_crc16_calculate bs) && negb (mem_u c =? sml_crc16kermit_calculate bs)
      then ret None
      else
        e <- at_end ;;
        if (e : bool) then err_null else
        b <- sml_buf_get_current_byte ;;
        (if b =? SML_MESSAGE_END then sml_buf_update_bytes_read 1 else ret tt) ;;;
        ret (Some (mkMsg transaction_id group_id abort_on_error message_body crc))
  end).

(** sml_message.c:129-145.  The message gets a new crc; the result is the
    message as it is afterwards (the old crc block is not freed, see Heap). *)
Definition sml_message_write (msg : sml_message) : P sml_message :=
  msg_start <- cursor_int 0 ;;
  sml_buf_set_type_and_length SML_TYPE_LIST 6 ;;;
  sml_octet_string_write (m_transaction_id msg) ;;;
  sml_u8_write (m_group_id msg) ;;;
  sml_u8_write (m_abort_on_error msg) ;;;
  sml_message_body_write (m_message_body msg) ;;;
  len <- cursor_int msg_start ;;
  bs <- buffer_slice msg_start len ;;
  let crc := Some (sml_u16_init (sml_crc16_calculate bs)) in
  sml_u16_write crc ;;;
  store_current 0 ;;;
  inc_cursor ;;;
  ret (mkMsg (m_transaction_id msg) (m_group_id msg) (m_abort_on_error msg)
             (m_message_body msg) crc).

End WithHost.
