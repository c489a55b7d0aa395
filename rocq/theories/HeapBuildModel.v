(** The functions with which a program builds messages (init and add), and
    sml_transport_write, with pointers.  Then, from them, a program that builds a
    given message. *)
From stdpp Require Import gmap.
From Verif Require Import Base Buf Crc16 Number OctetString Boolean Value Time SList Tree Bodies
  Message File Transport HeapBase HeapModel HeapWriteModel.

Section WithHost.
Context {HO : Host} {AL : Allocator} {ME : Memory}.

(** ** Functions of /repo *)

(** sml_boolean.c:22-27 *)
Definition h_boolean_init (b : Z) : H slot := malloc (Bytes [b]).
(** sml_value.c:85-90 *)
Definition h_value_init : H slot := malloc (Struct [Int SML_TYPE_OCTET_STRING; Nul]).
(** sml_status.c:21-26 *)
Definition h_status_init : H slot := malloc (Struct [Int SML_TYPE_UNSIGNED; Nul]).
(** sml_time.c:24-28 *)
Definition h_time_init : H slot := malloc (Struct (repeat Nul 2)).

(** sml_list.c:29-34.  The member elem_free is not kept in memory; the free
    functions know the element type. *)
Definition h_sequence_init : H slot := malloc (Struct [Nul; Int 0]).
(** sml_list.c:92-96 *)
Definition h_sequence_add (seq new_entry : slot) : H unit := append seq 0 new_entry.
(** sml_list.c:100-111 *)
Definition h_list_init : H slot := malloc (Struct (repeat Nul 8)).
(** sml_list.c:113 *)
Definition h_list_add (list new_entry : slot) : H unit := store list 7 new_entry.

(** sml_tree.c:25-30 *)
Definition h_tree_path_init : H slot := malloc (Struct [Nul; Int 0]).
(** sml_tree.c:62-68 *)
Definition h_tree_path_add_path_entry (tree_path entry : slot) : H unit := append tree_path 0 entry.
(** sml_tree.c:103-109; members 0 = parameter_name, 1 = parameter_value, 2 = child_list, 3 = child_list_len *)
Definition h_tree_init : H slot := malloc (Struct [Nul; Nul; Nul; Int 0]).
(** sml_tree.c:164-169 *)
Definition h_tree_add_tree (base_tree tree : slot) : H unit := append base_tree 2 tree.
(** sml_tree.c:210-214 *)
Definition h_proc_par_value_init : H slot := malloc (Struct (repeat Nul 2)).
(** sml_tree.c:324-351 *)
Definition h_tupel_entry_init : H slot := malloc (Struct (repeat Nul 23)).
(** sml_tree.c:536-542 *)
Definition h_period_entry_init : H slot := malloc (Struct (repeat Nul 5)).

(** sml_open_request.c:23-33 *)
Definition h_open_request_init : H slot := malloc (Struct (repeat Nul 7)).
(** sml_open_response.c:22-32 *)
Definition h_open_response_init : H slot := malloc (Struct (repeat Nul 6)).
(** sml_close_request.c:22-27 *)
Definition h_close_request_init : H slot := malloc (Struct (repeat Nul 1)).
(** sml_close_response.c:22-27 *)
Definition h_close_response_init : H slot := malloc (Struct (repeat Nul 1)).
(** sml_get_profile_pack_request.c:25-39 *)
Definition h_get_profile_pack_request_init : H slot := malloc (Struct (repeat Nul 9)).
(** sml_get_profile_pack_response.c:154-167 *)
Definition h_get_profile_pack_response_init : H slot := malloc (Struct (repeat Nul 8)).
(** sml_get_profile_pack_response.c:254-259 *)
Definition h_prof_obj_header_entry_init : H slot := malloc (Struct (repeat Nul 3)).
(** sml_get_profile_pack_response.c:305-311 *)
Definition h_prof_obj_period_entry_init : H slot := malloc (Struct (repeat Nul 4)).
(** sml_get_profile_pack_response.c:327-332 *)
Definition h_value_entry_init : H slot := malloc (Struct (repeat Nul 2)).
(** sml_get_profile_list_response.c:23-36 *)
Definition h_get_profile_list_response_init : H slot := malloc (Struct (repeat Nul 9)).
(** sml_get_proc_parameter_request.c:23-33 *)
Definition h_get_proc_parameter_request_init : H slot := malloc (Struct (repeat Nul 5)).
(** sml_get_proc_parameter_response.c:22-29 *)
Definition h_get_proc_parameter_response_init : H slot := malloc (Struct (repeat Nul 3)).
(** sml_set_proc_parameter_request.c:21-31 *)
Definition h_set_proc_parameter_request_init : H slot := malloc (Struct (repeat Nul 5)).
(** sml_get_list_request.c:22-31 *)
Definition h_get_list_request_init : H slot := malloc (Struct (repeat Nul 5)).
(** sml_get_list_response.c:21-32 *)
Definition h_get_list_response_init : H slot := malloc (Struct (repeat Nul 7)).
(** sml_attention_response.c:22-30 *)
Definition h_attention_response_init : H slot := malloc (Struct (repeat Nul 4)).

(** sml_octet_string.c:102-123, built without libuuid; [random] are the 16 bytes
    read from the system's source of random numbers.  (With libuuid the bytes
    come from uuid_generate; then [random] are those bytes, which already have
    these bits.) *)
Definition uuid_of (random : list Z) : list Z :=
  let set i f l := match nth_error l i with Some x => firstn i l ++ f x :: skipn (S i) l | None => l end in
  set 8%nat (fun x => Z.lor (Z.land x 63) 128) (set 6%nat (fun x => Z.lor (Z.land x 15) 64) random).
Definition h_octet_string_generate_uuid (random : list Z) : H slot :=
  h_octet_string_init (uuid_of random) 16.

(** sml_message.c:107-116 *)
Definition h_message_init (random : list Z) : H slot :=
  msg <- malloc (Struct (repeat Nul 5)) ;;
  uuid <- h_octet_string_generate_uuid random ;;
  store msg 0 uuid ;;;
  ret msg.
(** sml_message.c:227-231 *)
Definition h_message_body_init (tag : Z) (data : slot) : H slot :=
  t <- h_number_init tag 4 ;;
  malloc (Struct [t; data]).

(** sml_file.c:63-71; SML_FILE_BUFFER_LENGTH is 512.  [hbuf] becomes the buffer
    of the file. *)
Definition h_file_init_run : H slot :=
  file <- malloc (Struct [Nul; Int 0; Nul]) ;;
  buf <- h_buffer_init (repeat 0 512) ;;
  store file 2 buf ;;;
  ret file.
Definition h_file_init : H slot := fun st =>
  h_file_init_run (mkH (sml_buffer_init 512) (hmem st) (hconf st) (hpeak st)).

(** sml_transport.c:131-156, up to the write() call (see [transport_frame]) *)
Definition h_transport_frame (file : slot) : H unit :=
  lift (fun s => Ret (tt, set_cursor 0 s)) ;;;
  lift (write_current start_seq) ;;;
  lift (sml_buf_update_bytes_read 8) ;;;
  h_file_write file ;;;
  padding <- lift (fun s => Ret (if (cursor s mod 4 =? 0)%nat then O else (4 - cursor s mod 4)%nat, s)) ;;
  lift (if (padding =? 0)%nat then ret tt
   else write_current (repeat 0 padding) ;;; sml_buf_update_bytes_read (Z.of_nat padding)) ;;;
  lift (write_current end_seq) ;;;
  lift (sml_buf_update_bytes_read 5) ;;;
  lift (store_current (Z.of_nat padding)) ;;; lift inc_cursor ;;;
  c <- lift (cursor_int 0) ;;
  bs <- lift (buffer_slice 0 c) ;;
  let crc := sml_crc16_calculate bs in
  lift (store_current (Z.shiftr (Z.land crc 65280) 8)) ;;; lift inc_cursor ;;;
  lift (store_current (Z.land crc 255)) ;;; lift inc_cursor.
(** sml_transport.c:127-164: return value and bytes handed to write() *)
Definition h_transport_write (wr : nat -> Z) (file : slot) : H (Z * list Z) :=
  h_transport_frame file ;;;
  fun st =>
    let s := hbuf st in
    let w := wr (cursor s) in
    Ret (if to_size w =? Z.of_nat (cursor s) then wrap32 w else 0, firstn (cursor s) (buffer s), st).

(** ** A program that uses them (not part of /repo)

    For every record: call the init function, then assign the members one after
    the other; lists and arrays grow by calls of the add functions. *)

Fixpoint set_members (p : slot) (i : nat) (bs : list (H slot)) : H unit :=
  match bs with
  | [] => ret tt
  | b :: bs' => x <- b ;; store p i x ;;; set_members p (S i) bs'
  end.
Definition build (init : H slot) (bs : list (H slot)) : H slot :=
  p <- init ;; set_members p 0 bs ;;; ret p.
(** optional members stay NULL *)
Definition b_opt {A} (b : A -> H slot) (o : option A) : H slot :=
  match o with Some v => b v | None => ret Nul end.
Fixpoint add_all (add : slot -> H unit) (bs : list (H slot)) : H unit :=
  match bs with
  | [] => ret tt
  | b :: bs' => x <- b ;; add x ;;; add_all add bs'
  end.

(** sml_u8_init, ..., sml_i64_init are sml_number_init; for numbers of more than
    eight bytes (which the parser makes, C14, and sml_number_init does not support)
    the program calls malloc itself. *)
Definition b_num (m : mem) : H slot :=
  if (length m <=? 8)%nat then h_number_init (mem_u m) (length m) else malloc (Bytes m).
Definition b_str (s : octet_string) : H slot := h_octet_string_init s (Z.of_nat (length s)).
Definition b_bool (b : sml_boolean) : H slot := h_boolean_init b.
Definition b_value (v : sml_value) : H slot :=
  p <- h_value_init ;;
  store p 0 (Int (v_type v)) ;;;
  d <- match v_data v with VNull => ret Nul | VBytes s => b_str s | VBool b => b_bool b | VNum m => b_num m end ;;
  store p 1 d ;;;
  ret p.
Definition b_status (v : sml_status) : H slot :=
  p <- h_status_init ;;
  store p 0 (Int (st_type v)) ;;;
  d <- b_opt b_num (st_data v) ;;
  store p 1 d ;;;
  ret p.
Definition b_time (t : sml_time) : H slot := build h_time_init [b_opt b_num (tm_tag t); b_opt b_num (tm_data t)].
Definition b_seq {A} (b : A -> H slot) (l : list (option A)) : H slot :=
  seq <- h_sequence_init ;; add_all (h_sequence_add seq) (map (b_opt b) l) ;;; ret seq.

Definition b_entry (e : list_entry) : H slot := build h_list_init [
  b_opt b_str (le_obj_name e); b_opt b_status (le_status e); b_opt b_time (le_val_time e);
  b_opt b_num (le_unit e); b_opt b_num (le_scaler e); b_opt b_value (SList.le_value e);
  b_opt b_str (le_value_signature e)].
(** each entry is added to the one before it *)
Fixpoint b_entries (last : slot) (l : sml_list) : H unit :=
  match l with
  | [] => ret tt
  | e :: t => x <- b_entry e ;; h_list_add last x ;;; b_entries x t
  end.
Definition b_list (l : sml_list) : H slot :=
  match l with
  | [] => ret Nul
  | e :: t => x <- b_entry e ;; b_entries x t ;;; ret x
  end.

Definition b_tree_path (l : sml_tree_path) : H slot :=
  p <- h_tree_path_init ;; add_all (h_tree_path_add_path_entry p) (map b_str l) ;;; ret p.
Definition b_tupel (t : sml_tupel_entry) : H slot := build h_tupel_entry_init [
  b_opt b_str (tu_server_id t); b_opt b_time (tu_sec_index t); b_opt b_num (tu_status t);
  b_opt b_num (tu_unit_pA t); b_opt b_num (tu_scaler_pA t); b_opt b_num (tu_value_pA t);
  b_opt b_num (tu_unit_R1 t); b_opt b_num (tu_scaler_R1 t); b_opt b_num (tu_value_R1 t);
  b_opt b_num (tu_unit_R4 t); b_opt b_num (tu_scaler_R4 t); b_opt b_num (tu_value_R4 t);
  b_opt b_str (tu_signature_pA_R1_R4 t);
  b_opt b_num (tu_unit_mA t); b_opt b_num (tu_scaler_mA t); b_opt b_num (tu_value_mA t);
  b_opt b_num (tu_unit_R2 t); b_opt b_num (tu_scaler_R2 t); b_opt b_num (tu_value_R2 t);
  b_opt b_num (tu_unit_R3 t); b_opt b_num (tu_scaler_R3 t); b_opt b_num (tu_value_R3 t);
  b_opt b_str (tu_signature_mA_R2_R3 t)].
Definition b_period (v : sml_period_entry) : H slot := build h_period_entry_init [
  b_opt b_str (pe_obj_name v); b_opt b_num (pe_unit v); b_opt b_num (pe_scaler v);
  b_opt b_value (pe_value v); b_opt b_str (pe_value_signature v)].
Definition b_ppv (v : sml_proc_par_value) : H slot := build h_proc_par_value_init [
  b_opt b_num (ppv_tag v);
  match ppv_dat v with
  | PNull => ret Nul | PValue v => b_value v | PPeriod v => b_period v | PTupel v => b_tupel v | PTime v => b_time v
  end].
Fixpoint b_tree (t : sml_tree) : H slot :=
  match t with
  | Tree name value children =>
      p <- build h_tree_init [b_opt b_str name; b_opt b_ppv value] ;;
      add_all (h_tree_add_tree p) (map b_tree children) ;;;
      ret p
  end.

(** The list of requested objects has no functions; the program allocates its
    entries (sml_get_profile_pack_request.h:37-42), the last one first. *)
Fixpoint b_objs (l : list (option octet_string)) : H slot :=
  match l with
  | [] => ret Nul
  | o :: t => n <- b_objs t ;; x <- b_opt b_str o ;; malloc (Struct [x; n])
  end.
Definition b_open_req (m : sml_open_request) : H slot := build h_open_request_init [
  b_opt b_str (oq_codepage m); b_opt b_str (oq_client_id m); b_opt b_str (oq_req_file_id m);
  b_opt b_str (oq_server_id m); b_opt b_str (oq_username m); b_opt b_str (oq_password m);
  b_opt b_num (oq_sml_version m)].
Definition b_open_res (m : sml_open_response) : H slot := build h_open_response_init [
  b_opt b_str (or_codepage m); b_opt b_str (or_client_id m); b_opt b_str (or_req_file_id m);
  b_opt b_str (or_server_id m); b_opt b_time (or_ref_time m); b_opt b_num (or_sml_version m)].
Definition b_close_req (m : sml_close_request) : H slot := build h_close_request_init [
  b_opt b_str (cq_global_signature m)].
Definition b_close_res (m : sml_close_response) : H slot := build h_close_response_init [
  b_opt b_str (cr_global_signature m)].
Definition b_pack_req (m : sml_get_profile_pack_request) : H slot := build h_get_profile_pack_request_init [
  b_opt b_str (gq_server_id m); b_opt b_str (gq_username m); b_opt b_str (gq_password m);
  b_opt b_bool (gq_with_rawdata m); b_opt b_time (gq_begin_time m); b_opt b_time (gq_end_time m);
  b_opt b_tree_path (gq_parameter_tree_path m); b_objs (gq_object_list m); b_opt b_tree (gq_das_details m)].
Definition b_header (m : sml_prof_obj_header_entry) : H slot := build h_prof_obj_header_entry_init [
  b_opt b_str (he_obj_name m); b_opt b_num (he_unit m); b_opt b_num (he_scaler m)].
Definition b_value_entry (m : sml_value_entry) : H slot := build h_value_entry_init [
  b_opt b_value (ve_value m); b_opt b_str (ve_value_signature m)].
Definition b_per_entry (m : sml_prof_obj_period_entry) : H slot := build h_prof_obj_period_entry_init [
  b_opt b_time (pp_val_time m); b_opt b_num (pp_status m); b_opt (b_seq b_value_entry) (pp_value_list m);
  b_opt b_str (pp_period_signature m)].
Definition b_pack_res (m : sml_get_profile_pack_response) : H slot := build h_get_profile_pack_response_init [
  b_opt b_str (gr_server_id m); b_opt b_time (gr_act_time m); b_opt b_num (gr_reg_period m);
  b_opt b_tree_path (gr_parameter_tree_path m); b_opt (b_seq b_header) (gr_header_list m);
  b_opt (b_seq b_per_entry) (gr_period_list m); b_opt b_str (gr_rawdata m); b_opt b_str (gr_profile_signature m)].
Definition b_prof_list_res (m : sml_get_profile_list_response) : H slot := build h_get_profile_list_response_init [
  b_opt b_str (gl_server_id m); b_opt b_time (gl_act_time m); b_opt b_num (gl_reg_period m);
  b_opt b_tree_path (gl_parameter_tree_path m); b_opt b_time (gl_val_time m); b_opt b_num (gl_status m);
  b_opt (b_seq b_period) (gl_period_list m); b_opt b_str (gl_rawdata m); b_opt b_str (gl_period_signature m)].
Definition b_proc_req (m : sml_get_proc_parameter_request) : H slot := build h_get_proc_parameter_request_init [
  b_opt b_str (pq_server_id m); b_opt b_str (pq_username m); b_opt b_str (pq_password m);
  b_opt b_tree_path (pq_parameter_tree_path m); b_opt b_str (pq_attribute m)].
Definition b_proc_res (m : sml_get_proc_parameter_response) : H slot := build h_get_proc_parameter_response_init [
  b_opt b_str (pr_server_id m); b_opt b_tree_path (pr_parameter_tree_path m); b_opt b_tree (pr_parameter_tree m)].
Definition b_set_proc (m : sml_set_proc_parameter_request) : H slot := build h_set_proc_parameter_request_init [
  b_opt b_str (sq_server_id m); b_opt b_str (sq_username m); b_opt b_str (sq_password m);
  b_opt b_tree_path (sq_parameter_tree_path m); b_opt b_tree (sq_parameter_tree m)].
Definition b_list_req (m : sml_get_list_request) : H slot := build h_get_list_request_init [
  b_opt b_str (lq_client_id m); b_opt b_str (lq_server_id m); b_opt b_str (lq_list_name m);
  b_opt b_str (lq_username m); b_opt b_str (lq_password m)].
Definition b_list_res (m : sml_get_list_response) : H slot := build h_get_list_response_init [
  b_opt b_str (lr_client_id m); b_opt b_str (lr_server_id m); b_opt b_str (lr_list_name m);
  b_opt b_time (lr_act_sensor_time m); b_list (lr_val_list m); b_opt b_str (lr_list_signature m);
  b_opt b_time (lr_act_gateway_time m)].
Definition b_attention (m : sml_attention_response) : H slot := build h_attention_response_init [
  b_opt b_str (ar_server_id m); b_opt b_str (ar_attention_number m); b_opt b_str (ar_attention_message m);
  b_opt b_tree (ar_attention_details m)].

Definition b_body_data (d : body_data) : H slot :=
  match d with
  | BNull => ret Nul
  | BOpenReq m => b_open_req m
  | BOpenRes m => b_open_res m
  | BCloseReq m => b_close_req m
  | BCloseRes m => b_close_res m
  | BPackReq m => b_pack_req m
  | BPackRes m => b_pack_res m
  | BProfListRes m => b_prof_list_res m
  | BProcReq m => b_proc_req m
  | BProcRes m => b_proc_res m
  | BSetProc m => b_set_proc m
  | BListReq m => b_list_req m
  | BListRes m => b_list_res m
  | BAttention m => b_attention m
  end.
Definition b_body (b : sml_message_body) : H slot :=
  data <- b_body_data (mb_data b) ;;
  h_message_body_init (match mb_tag b with Some t => mem_u t | None => 0 end) data.
(** The message comes with a random transaction id.  If another one is wanted, it
    is freed and replaced. *)
Definition b_msg (random : list Z) (m : sml_message) : H slot :=
  p <- h_message_init random ;;
  (if decide (m_transaction_id m = Some (uuid_of random)) then ret tt
   else old <- load p 0 ;; h_octet_string_free old ;;; x <- b_opt b_str (m_transaction_id m) ;; store p 0 x) ;;;
  set_members p 1 [b_opt b_num (m_group_id m); b_opt b_num (m_abort_on_error m); b_opt b_body (m_message_body m)] ;;;
  ret p.
(** [random i] are the random bytes for the i-th message *)
Fixpoint b_msgs (random : nat -> list Z) (i : nat) (l : list sml_message) : list (H slot) :=
  match l with [] => [] | m :: t => b_msg (random i) m :: b_msgs random (S i) t end.
Definition b_file (random : nat -> list Z) (l : list sml_message) : H slot :=
  file <- h_file_init ;;
  add_all (h_file_add_message file) (b_msgs random 0 l) ;;;
  ret file.

End WithHost.
