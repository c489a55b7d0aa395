(** Models of the message bodies: sml/src/sml_open_request.c,
    sml_open_response.c, sml_close_request.c, sml_close_response.c,
    sml_get_profile_pack_request.c (also used for GetProfileList.Req, see
    sml_get_profile_list_request.h), sml_get_profile_pack_response.c,
    sml_get_profile_list_response.c, sml_get_proc_parameter_request.c,
    sml_get_proc_parameter_response.c, sml_set_proc_parameter_request.c,
    sml_get_list_request.c, sml_get_list_response.c, sml_attention_response.c.

    [sml_signature_*] are macros for [sml_octet_string_*]
    (sml_octet_string.h:46-48), [sml_unit_*] for [sml_u8_*] (sml_number.h). *)
From Verif Require Import Base Buf Number OctetString Boolean Value Time SList Tree.

Record sml_open_request : Type := mkOpenReq {
  oq_codepage : option octet_string;
  oq_client_id : option octet_string;
  oq_req_file_id : option octet_string;
  oq_server_id : option octet_string;
  oq_username : option octet_string;
  oq_password : option octet_string;
  oq_sml_version : option mem }.

Record sml_open_response : Type := mkOpenRes {
  or_codepage : option octet_string;
  or_client_id : option octet_string;
  or_req_file_id : option octet_string;
  or_server_id : option octet_string;
  or_ref_time : option sml_time;
  or_sml_version : option mem }.

Record sml_close_request : Type := mkCloseReq { cq_global_signature : option octet_string }.
Record sml_close_response : Type := mkCloseRes { cr_global_signature : option octet_string }.

(** object_list: linked list, NULL is []; the entries may be NULL. *)
Record sml_get_profile_pack_request : Type := mkPackReq {
  gq_server_id : option octet_string;
  gq_username : option octet_string;
  gq_password : option octet_string;
  gq_with_rawdata : option sml_boolean;
  gq_begin_time : option sml_time;
  gq_end_time : option sml_time;
  gq_parameter_tree_path : option sml_tree_path;
  gq_object_list : list (option octet_string);
  gq_das_details : option sml_tree }.

Record sml_prof_obj_header_entry : Type := mkHeader {
  he_obj_name : option octet_string;
  he_unit : option mem;
  he_scaler : option mem }.

Record sml_value_entry : Type := mkValEntry {
  ve_value : option sml_value;
  ve_value_signature : option octet_string }.

Record sml_prof_obj_period_entry : Type := mkPerEntry {
  pp_val_time : option sml_time;
  pp_status : option mem;
  pp_value_list : option (sml_sequence sml_value_entry);
  pp_period_signature : option octet_string }.

Record sml_get_profile_pack_response : Type := mkPackRes {
  gr_server_id : option octet_string;
  gr_act_time : option sml_time;
  gr_reg_period : option mem;
  gr_parameter_tree_path : option sml_tree_path;
  gr_header_list : option (sml_sequence sml_prof_obj_header_entry);
  gr_period_list : option (sml_sequence sml_prof_obj_period_entry);
  gr_rawdata : option octet_string;
  gr_profile_signature : option octet_string }.

Record sml_get_profile_list_response : Type := mkProfListRes {
  gl_server_id : option octet_string;
  gl_act_time : option sml_time;
  gl_reg_period : option mem;
  gl_parameter_tree_path : option sml_tree_path;
  gl_val_time : option sml_time;
  gl_status : option mem;
  gl_period_list : option (sml_sequence sml_period_entry);
  gl_rawdata : option octet_string;
  gl_period_signature : option octet_string }.

Record sml_get_proc_parameter_request : Type := mkProcReq {
  pq_server_id : option octet_string;
  pq_username : option octet_string;
  pq_password : option octet_string;
  pq_parameter_tree_path : option sml_tree_path;
  pq_attribute : option octet_string }.

Record sml_get_proc_parameter_response : Type := mkProcRes {
  pr_server_id : option octet_string;
  pr_parameter_tree_path : option sml_tree_path;
  pr_parameter_tree : option sml_tree }.

Record sml_set_proc_parameter_request : Type := mkSetProc {
  sq_server_id : option octet_string;
  sq_username : option octet_string;
  sq_password : option octet_string;
  sq_parameter_tree_path : option sml_tree_path;
  sq_parameter_tree : option sml_tree }.

Record sml_get_list_request : Type := mkListReq {
  lq_client_id : option octet_string;
  lq_server_id : option octet_string;
  lq_username : option octet_string;
  lq_password : option octet_string;
  lq_list_name : option octet_string }.

Record sml_get_list_response : Type := mkListRes {
  lr_client_id : option octet_string;
  lr_server_id : option octet_string;
  lr_list_name : option octet_string;
  lr_act_sensor_time : option sml_time;
  lr_val_list : sml_list;
  lr_list_signature : option octet_string;
  lr_act_gateway_time : option sml_time }.

Record sml_attention_response : Type := mkAttention {
  ar_server_id : option octet_string;
  ar_attention_number : option octet_string;
  ar_attention_message : option octet_string;
  ar_attention_details : option sml_tree }.

(** A pointer handed to a writer that dereferences it without a check. *)
Definition deref {A} (p : option A) (k : A -> P unit) : P unit :=
  match p with None => fail NullDeref | Some v => k v end.

Section WithHost.
Context {H : Host}.

(** sml_open_request.c:35-81 *)
Definition sml_open_request_parse : P (option sml_open_request) :=
  expect_list 7 (
  codepage <-? sml_octet_string_parse ;;
  client_id <-? sml_octet_string_parse ;;
  req_file_id <-? sml_octet_string_parse ;;
  server_id <-? sml_octet_string_parse ;;
  username <-? sml_octet_string_parse ;;
  password <-? sml_octet_string_parse ;;
  sml_version <-? sml_u8_parse ;;
  ret (Some (mkOpenReq codepage client_id req_file_id server_id username password sml_version))).

(** sml_open_request.c:83-93.  The list header is written before the message is
    dereferenced for the first time; as both lead to a fault the order only
    matters for which fault is reported. *)
Definition sml_open_request_write (m : option sml_open_request) : P unit :=
  sml_buf_set_type_and_length SML_TYPE_LIST 7 ;;;
  deref m (fun m =>
  sml_octet_string_write (oq_codepage m) ;;;
  sml_octet_string_write (oq_client_id m) ;;;
  sml_octet_string_write (oq_req_file_id m) ;;;
  sml_octet_string_write (oq_server_id m) ;;;
  sml_octet_string_write (oq_username m) ;;;
  sml_octet_string_write (oq_password m) ;;;
  sml_u8_write (oq_sml_version m)).

(** sml_open_response.c:34-75 *)
Definition sml_open_response_parse : P (option sml_open_response) :=
  expect_list 6 (
  codepage <-? sml_octet_string_parse ;;
  client_id <-? sml_octet_string_parse ;;
  req_file_id <-? sml_octet_string_parse ;;
  server_id <-? sml_octet_string_parse ;;
  ref_time <-? sml_time_parse ;;
  sml_version <-? sml_u8_parse ;;
  ret (Some (mkOpenRes codepage client_id req_file_id server_id ref_time sml_version))).

(** sml_open_response.c:77-86 *)
Definition sml_open_response_write (m : option sml_open_response) : P unit :=
  sml_buf_set_type_and_length SML_TYPE_LIST 6 ;;;
  deref m (fun m =>
  sml_octet_string_write (or_codepage m) ;;;
  sml_octet_string_write (or_client_id m) ;;;
  sml_octet_string_write (or_req_file_id m) ;;;
  sml_octet_string_write (or_server_id m) ;;;
  sml_time_write (or_ref_time m) ;;;
  sml_u8_write (or_sml_version m)).

(** sml_close_request.c:29-51 *)
Definition sml_close_request_parse : P (option sml_close_request) :=
  expect_list 1 (
  global_signature <-? sml_octet_string_parse ;;
  ret (Some (mkCloseReq global_signature))).

(** sml_close_request.c:53-56 *)
Definition sml_close_request_write (m : option sml_close_request) : P unit :=
  sml_buf_set_type_and_length SML_TYPE_LIST 1 ;;;
  deref m (fun m => sml_octet_string_write (cq_global_signature m)).

(** sml_close_response.c:29-51 *)
Definition sml_close_response_parse : P (option sml_close_response) :=
  expect_list 1 (
  global_signature <-? sml_octet_string_parse ;;
  ret (Some (mkCloseRes global_signature))).

(** sml_close_response.c:53-56 *)
Definition sml_close_response_write (m : option sml_close_response) : P unit :=
  sml_buf_set_type_and_length SML_TYPE_LIST 1 ;;;
  deref m (fun m => sml_octet_string_write (cr_global_signature m)).

(** sml_get_profile_pack_request.c:110-136: the object list.  [None]: "goto
    error".  When optional_is_skipped answers -1 the error flag is raised and
    the list is left empty (the flag is seen after line 138). *)
Definition object_list_parse : P (option (list (option octet_string))) :=
  sk <- sml_buf_optional_is_skipped ;;
  if negb (sk =? 0) then ret (Some [])
  else
    t <- sml_buf_get_next_type ;;
    if negb (t =? SML_TYPE_LIST) then err_null else
    len <- sml_buf_get_next_length ;;
    with_fuel (fun fuel => elems_loop fuel len sml_octet_string_parse).

(** sml_get_profile_pack_request.c:69-147 *)
Definition sml_get_profile_pack_request_parse : P (option sml_get_profile_pack_request) :=
  expect_list 9 (
  server_id <-? sml_octet_string_parse ;;
  username <-? sml_octet_string_parse ;;
  password <-? sml_octet_string_parse ;;
  with_rawdata <-? sml_boolean_parse ;;
  begin_time <-? sml_time_parse ;;
  end_time <-? sml_time_parse ;;
  parameter_tree_path <-? sml_tree_path_parse ;;
  object_list <- object_list_parse ;;
  match object_list with
  | None => ret None
  | Some object_list =>
      das_details <-? sml_tree_parse ;;
      ret (Some (mkPackReq server_id username password with_rawdata begin_time end_time
                           parameter_tree_path object_list das_details))
  end).

(** sml_get_profile_pack_request.c:52-64.  The loop of lines 59-61 stops at the
    last element ("l->next"), which is therefore not written. *)
Definition object_list_write (l : list (option octet_string)) : P unit :=
  match l with
  | [] => sml_buf_optional_write
  | _ =>
      sml_buf_set_type_and_length SML_TYPE_LIST (to_u32 (Z.of_nat (length l))) ;;;
      write_all sml_octet_string_write (removelast l)
  end.

(** sml_get_profile_pack_request.c:41-67 *)
Definition sml_get_profile_pack_request_write (m : option sml_get_profile_pack_request) : P unit :=
  sml_buf_set_type_and_length SML_TYPE_LIST 9 ;;;
  deref m (fun m =>
  sml_octet_string_write (gq_server_id m) ;;;
  sml_octet_string_write (gq_username m) ;;;
  sml_octet_string_write (gq_password m) ;;;
  sml_boolean_write (gq_with_rawdata m) ;;;
  sml_time_write (gq_begin_time m) ;;;
  sml_time_write (gq_end_time m) ;;;
  sml_tree_path_write (gq_parameter_tree_path m) ;;;
  object_list_write (gq_object_list m) ;;;
  sml_tree_write (gq_das_details m)).

(** sml_get_profile_pack_response.c:261-289 *)
Definition sml_prof_obj_header_entry_parse : P (option sml_prof_obj_header_entry) :=
  error_label (
  expect_list 3 (
  obj_name <-? sml_octet_string_parse ;;
  unit <-? sml_u8_parse ;;
  scaler <-? sml_i8_parse ;;
  ret (Some (mkHeader obj_name unit scaler)))).

(** sml_get_profile_pack_response.c:85-93 *)
Definition sml_prof_obj_header_entry_write (p : option sml_prof_obj_header_entry) : P unit :=
  sml_buf_set_type_and_length SML_TYPE_LIST 3 ;;;
  deref p (fun e =>
  sml_octet_string_write (he_obj_name e) ;;;
  sml_u8_write (he_unit e) ;;;
  sml_i8_write (he_scaler e)).

(** sml_get_profile_pack_response.c:105-131 *)
Definition sml_value_entry_parse : P (option sml_value_entry) :=
  error_label (
  expect_list 2 (
  value <-? sml_value_parse ;;
  value_signature <-? sml_octet_string_parse ;;
  ret (Some (mkValEntry value value_signature)))).

(** sml_get_profile_pack_response.c:133-139 *)
Definition sml_value_entry_write (p : option sml_value_entry) : P unit :=
  sml_buf_set_type_and_length SML_TYPE_LIST 2 ;;;
  deref p (fun e =>
  sml_value_write (ve_value e) ;;;
  sml_octet_string_write (ve_value_signature e)).

(** sml_get_profile_pack_response.c:38-70 *)
Definition sml_prof_obj_period_entry_parse : P (option sml_prof_obj_period_entry) :=
  error_label (
  expect_list 4 (
  val_time <-? sml_time_parse ;;
  status <-? sml_u64_parse ;;
  value_list <-? sml_sequence_parse sml_value_entry_parse ;;
  period_signature <-? sml_octet_string_parse ;;
  ret (Some (mkPerEntry val_time status value_list period_signature)))).

(** sml_get_profile_pack_response.c:95-103 *)
Definition sml_prof_obj_period_entry_write (p : option sml_prof_obj_period_entry) : P unit :=
  sml_buf_set_type_and_length SML_TYPE_LIST 4 ;;;
  deref p (fun e =>
  sml_time_write (pp_val_time e) ;;;
  sml_u64_write (pp_status e) ;;;
  sml_sequence_write sml_value_entry_write (pp_value_list e) ;;;
  sml_octet_string_write (pp_period_signature e)).

(** sml_get_profile_pack_response.c:169-222 *)
Definition sml_get_profile_pack_response_parse : P (option sml_get_profile_pack_response) :=
  error_label (
  expect_list 8 (
  server_id <-? sml_octet_string_parse ;;
  act_time <-? sml_time_parse ;;
  reg_period <-? sml_u32_parse ;;
  parameter_tree_path <-? sml_tree_path_parse ;;
  header_list <-? sml_sequence_parse sml_prof_obj_header_entry_parse ;;
  period_list <-? sml_sequence_parse sml_prof_obj_period_entry_parse ;;
  rawdata <-? sml_octet_string_parse ;;
  profile_signature <-? sml_octet_string_parse ;;
  ret (Some (mkPackRes server_id act_time reg_period parameter_tree_path header_list
                       period_list rawdata profile_signature)))).

(** sml_get_profile_pack_response.c:224-235 *)
Definition sml_get_profile_pack_response_write (m : option sml_get_profile_pack_response) : P unit :=
  sml_buf_set_type_and_length SML_TYPE_LIST 8 ;;;
  deref m (fun m =>
  sml_octet_string_write (gr_server_id m) ;;;
  sml_time_write (gr_act_time m) ;;;
  sml_u32_write (gr_reg_period m) ;;;
  sml_tree_path_write (gr_parameter_tree_path m) ;;;
  sml_sequence_write sml_prof_obj_header_entry_write (gr_header_list m) ;;;
  sml_sequence_write sml_prof_obj_period_entry_write (gr_period_list m) ;;;
  sml_octet_string_write (gr_rawdata m) ;;;
  sml_octet_string_write (gr_profile_signature m)).

(** sml_get_profile_list_response.c:42-97 *)
Definition sml_get_profile_list_response_parse : P (option sml_get_profile_list_response) :=
  error_label (
  expect_list 9 (
  server_id <-? sml_octet_string_parse ;;
  act_time <-? sml_time_parse ;;
  reg_period <-? sml_u32_parse ;;
  parameter_tree_path <-? sml_tree_path_parse ;;
  val_time <-? sml_time_parse ;;
  status <-? sml_u64_parse ;;
  period_list <-? sml_sequence_parse sml_period_entry_parse ;;
  rawdata <-? sml_octet_string_parse ;;
  period_signature <-? sml_octet_string_parse ;;
  ret (Some (mkProfListRes server_id act_time reg_period parameter_tree_path val_time status
                           period_list rawdata period_signature)))).

(** sml_get_profile_list_response.c:101-113 *)
Definition sml_get_profile_list_response_write (m : option sml_get_profile_list_response) : P unit :=
  sml_buf_set_type_and_length SML_TYPE_LIST 9 ;;;
  deref m (fun m =>
  sml_octet_string_write (gl_server_id m) ;;;
  sml_time_write (gl_act_time m) ;;;
  sml_u32_write (gl_reg_period m) ;;;
  sml_tree_path_write (gl_parameter_tree_path m) ;;;
  sml_time_write (gl_val_time m) ;;;
  sml_u64_write (gl_status m) ;;;
  sml_sequence_write sml_period_entry_write (gl_period_list m) ;;;
  sml_octet_string_write (gl_rawdata m) ;;;
  sml_octet_string_write (gl_period_signature m)).

(** sml_get_proc_parameter_request.c:35-73 *)
Definition sml_get_proc_parameter_request_parse : P (option sml_get_proc_parameter_request) :=
  expect_list 5 (
  server_id <-? sml_octet_string_parse ;;
  username <-? sml_octet_string_parse ;;
  password <-? sml_octet_string_parse ;;
  parameter_tree_path <-? sml_tree_path_parse ;;
  attribute <-? sml_octet_string_parse ;;
  ret (Some (mkProcReq server_id username password parameter_tree_path attribute))).

(** sml_get_proc_parameter_request.c:75-83 *)
Definition sml_get_proc_parameter_request_write (m : option sml_get_proc_parameter_request) : P unit :=
  sml_buf_set_type_and_length SML_TYPE_LIST 5 ;;;
  deref m (fun m =>
  sml_octet_string_write (pq_server_id m) ;;;
  sml_octet_string_write (pq_username m) ;;;
  sml_octet_string_write (pq_password m) ;;;
  sml_tree_path_write (pq_parameter_tree_path m) ;;;
  sml_octet_string_write (pq_attribute m)).

(** sml_get_proc_parameter_response.c:31-61 *)
Definition sml_get_proc_parameter_response_parse : P (option sml_get_proc_parameter_response) :=
  expect_list 3 (
  server_id <-? sml_octet_string_parse ;;
  parameter_tree_path <-? sml_tree_path_parse ;;
  parameter_tree <-? sml_tree_parse ;;
  ret (Some (mkProcRes server_id parameter_tree_path parameter_tree))).

(** sml_get_proc_parameter_response.c:63-68 *)
Definition sml_get_proc_parameter_response_write (m : option sml_get_proc_parameter_response) : P unit :=
  sml_buf_set_type_and_length SML_TYPE_LIST 3 ;;;
  deref m (fun m =>
  sml_octet_string_write (pr_server_id m) ;;;
  sml_tree_path_write (pr_parameter_tree_path m) ;;;
  sml_tree_write (pr_parameter_tree m)).

(** sml_set_proc_parameter_request.c:33-71 *)
Definition sml_set_proc_parameter_request_parse : P (option sml_set_proc_parameter_request) :=
  expect_list 5 (
  server_id <-? sml_octet_string_parse ;;
  username <-? sml_octet_string_parse ;;
  password <-? sml_octet_string_parse ;;
  parameter_tree_path <-? sml_tree_path_parse ;;
  parameter_tree <-? sml_tree_parse ;;
  ret (Some (mkSetProc server_id username password parameter_tree_path parameter_tree))).

(** sml_set_proc_parameter_request.c:73-80 *)
Definition sml_set_proc_parameter_request_write (m : option sml_set_proc_parameter_request) : P unit :=
  sml_buf_set_type_and_length SML_TYPE_LIST 5 ;;;
  deref m (fun m =>
  sml_octet_string_write (sq_server_id m) ;;;
  sml_octet_string_write (sq_username m) ;;;
  sml_octet_string_write (sq_password m) ;;;
  sml_tree_path_write (sq_parameter_tree_path m) ;;;
  sml_tree_write (sq_parameter_tree m)).

(** sml_get_list_request.c:43-86 *)
Definition sml_get_list_request_parse : P (option sml_get_list_request) :=
  expect_list 5 (
  client_id <-? sml_octet_string_parse ;;
  server_id <-? sml_octet_string_parse ;;
  username <-? sml_octet_string_parse ;;
  password <-? sml_octet_string_parse ;;
  list_name <-? sml_octet_string_parse ;;
  ret (Some (mkListReq client_id server_id username password list_name))).

(** sml_get_list_request.c:33-41 *)
Definition sml_get_list_request_write (m : option sml_get_list_request) : P unit :=
  sml_buf_set_type_and_length SML_TYPE_LIST 5 ;;;
  deref m (fun m =>
  sml_octet_string_write (lq_client_id m) ;;;
  sml_octet_string_write (lq_server_id m) ;;;
  sml_octet_string_write (lq_username m) ;;;
  sml_octet_string_write (lq_password m) ;;;
  sml_octet_string_write (lq_list_name m)).

(** sml_get_list_response.c:34-80 *)
Definition sml_get_list_response_parse : P (option sml_get_list_response) :=
  expect_list 7 (
  client_id <-? sml_octet_string_parse ;;
  server_id <-? sml_octet_string_parse ;;
  list_name <-? sml_octet_string_parse ;;
  act_sensor_time <-? sml_time_parse ;;
  val_list <-? sml_list_parse ;;
  list_signature <-? sml_octet_string_parse ;;
  act_gateway_time <-? sml_time_parse ;;
  ret (Some (mkListRes client_id server_id list_name act_sensor_time val_list
                       list_signature act_gateway_time))).

(** sml_get_list_response.c:82-92 *)
Definition sml_get_list_response_write (m : option sml_get_list_response) : P unit :=
  sml_buf_set_type_and_length SML_TYPE_LIST 7 ;;;
  deref m (fun m =>
  sml_octet_string_write (lr_client_id m) ;;;
  sml_octet_string_write (lr_server_id m) ;;;
  sml_octet_string_write (lr_list_name m) ;;;
  sml_time_write (lr_act_sensor_time m) ;;;
  sml_list_write (lr_val_list m) ;;;
  sml_octet_string_write (lr_list_signature m) ;;;
  sml_time_write (lr_act_gateway_time m)).

(** sml_attention_response.c:32-66 *)
Definition sml_attention_response_parse : P (option sml_attention_response) :=
  expect_list 4 (
  server_id <-? sml_octet_string_parse ;;
  attention_number <-? sml_octet_string_parse ;;
  attention_message <-? sml_octet_string_parse ;;
  attention_details <-? sml_tree_parse ;;
  ret (Some (mkAttention server_id attention_number attention_message attention_details))).

(** sml_attention_response.c:68-75 *)
Definition sml_attention_response_write (m : option sml_attention_response) : P unit :=
  sml_buf_set_type_and_length SML_TYPE_LIST 4 ;;;
  deref m (fun m =>
  sml_octet_string_write (ar_server_id m) ;;;
  sml_octet_string_write (ar_attention_number m) ;;;
  sml_octet_string_write (ar_attention_message m) ;;;
  sml_tree_write (ar_attention_details m)).

End WithHost.
