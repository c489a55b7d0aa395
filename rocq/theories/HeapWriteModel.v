(** The writing functions with pointers.  They read the structures in the heap and
    write to the buffer; the only one that changes the heap is sml_message_write. *)
From stdpp Require Import gmap.
From Verif Require Import Base Buf Crc16 Number OctetString Boolean Value Time SList Tree Bodies Message File
  HeapBase HeapModel.

Section WithHost.
Context {HO : Host} {AL : Allocator} {ME : Memory}.

(** "if (p == 0) { sml_buf_optional_write(buf); return; }" followed by [k] *)
Definition hwrite_opt (p : slot) (k : H unit) : H unit :=
  match p with Nul => lift sml_buf_optional_write | _ => k end.
(** "write(p->member, buf)" *)
Definition hw (p : slot) (i : nat) (w : slot -> H unit) : H unit := x <- load p i ;; w x.
(** the first [n] bytes at [p]; nothing is read if [n] is 0 *)
Definition load_first (p : slot) (n : Z) : H (list Z) :=
  if n =? 0 then ret [] else
  bs <- load_bytes p ;;
  if (length bs <? Z.to_nat n)%nat then fail OobRead else ret (firstn (Z.to_nat n) bs).

(** sml_number.c:131-145 *)
Definition h_number_write (type size : Z) (np : slot) : H unit :=
  hwrite_opt np (
  lift (sml_buf_set_type_and_length type size) ;;;
  data <- load_first np size ;;
  let data := match sml_number_endian with
              | BigEndian => data
              | LittleEndian => sml_number_byte_swap data
              end in
  lift (write_current data) ;;;
  lift (sml_buf_update_bytes_read size)).
(** sml_number.h: the typed wrappers *)
Definition h_u8_write := h_number_write SML_TYPE_UNSIGNED 1.
Definition h_u16_write := h_number_write SML_TYPE_UNSIGNED 2.
Definition h_u32_write := h_number_write SML_TYPE_UNSIGNED 4.
Definition h_u64_write := h_number_write SML_TYPE_UNSIGNED 8.
Definition h_i8_write := h_number_write SML_TYPE_INTEGER 1.
Definition h_i64_write := h_number_write SML_TYPE_INTEGER 8.

(** sml_octet_string.c:91-100 *)
Definition h_octet_string_write (str : slot) : H unit :=
  hwrite_opt str (
  len <- load_int str 1 ;;
  lift (sml_buf_set_type_and_length SML_TYPE_OCTET_STRING (to_u32 len)) ;;;
  d <- load str 0 ;;
  bs <- load_first d len ;;
  lift (write_current bs) ;;;
  lift (sml_buf_update_bytes_read len)).

(** sml_boolean.c:58-71 *)
Definition h_boolean_write (boolean : slot) : H unit :=
  hwrite_opt boolean (
  lift (sml_buf_set_type_and_length SML_TYPE_BOOLEAN 1) ;;;
  bs <- load_first boolean 1 ;;
  lift (store_current (if nth 0 bs 0 =? SML_BOOLEAN_FALSE then SML_BOOLEAN_FALSE else SML_BOOLEAN_TRUE)) ;;;
  lift inc_cursor).

(** sml_value.c:64-83 *)
Definition h_value_write (value : slot) : H unit :=
  hwrite_opt value (
  type <- load_int value 0 ;;
  let ty := Z.land type SML_TYPE_FIELD in
  if ty =? SML_TYPE_OCTET_STRING then hw value 1 h_octet_string_write
  else if ty =? SML_TYPE_BOOLEAN then hw value 1 h_boolean_write
  else if (ty =? SML_TYPE_UNSIGNED) || (ty =? SML_TYPE_INTEGER) then
    hw value 1 (h_number_write ty (Z.land type SML_LENGTH_FIELD))
  else ret tt).

(** sml_status.c:61-68 *)
Definition h_status_write (status : slot) : H unit :=
  hwrite_opt status (
  type <- load_int status 0 ;;
  hw status 1 (h_number_write (Z.land type SML_TYPE_FIELD) (Z.land type SML_LENGTH_FIELD))).

(** sml_time.c:120-129 *)
Definition h_time_write (t : slot) : H unit :=
  hwrite_opt t (
  lift (sml_buf_set_type_and_length SML_TYPE_LIST 2) ;;;
  hw t 0 h_u8_write ;;;
  hw t 1 h_u32_write).

(** sml_list.c:62-75 *)
Definition h_sequence_write (elem_write : slot -> H unit) (seq : slot) : H unit :=
  hwrite_opt seq (
  len <- load_int seq 1 ;;
  lift (sml_buf_set_type_and_length SML_TYPE_LIST (to_u32 len)) ;;;
  elems <- load seq 0 ;;
  for_each (Z.to_nat len) 0 elems elem_write).

(** sml_list.c:301-310 *)
Definition h_list_entry_write (list : slot) : H unit :=
  lift (sml_buf_set_type_and_length SML_TYPE_LIST 7) ;;;
  hw list 0 h_octet_string_write ;;;
  hw list 1 h_status_write ;;;
  hw list 2 h_time_write ;;;
  hw list 3 h_u8_write ;;;
  hw list 4 h_i8_write ;;;
  hw list 5 h_value_write ;;;
  hw list 6 h_octet_string_write.

(** sml_list.c:318-323 *)
Fixpoint h_list_length_loop (fuel : nat) (i : slot) (len : Z) : H Z :=
  match fuel with
  | O => out_of_fuel
  | S fuel' => match i with Nul => ret len | _ => n <- load i 7 ;; h_list_length_loop fuel' n (len + 1) end
  end.
(** sml_list.c:327-331 *)
Fixpoint h_list_write_loop (fuel : nat) (i : slot) : H unit :=
  match fuel with
  | O => out_of_fuel
  | S fuel' => if_ptr i (h_list_entry_write i ;;; n <- load i 7 ;; h_list_write_loop fuel' n)
  end.
(** sml_list.c:312-332 *)
Definition h_list_write (list : slot) : H unit :=
  hwrite_opt list (
  len <- with_heap_fuel (fun fuel => h_list_length_loop fuel list 0) ;;
  lift (sml_buf_set_type_and_length SML_TYPE_LIST (to_u32 len)) ;;;
  with_heap_fuel (fun fuel => h_list_write_loop fuel list)).

(** sml_tree.c:70-84 *)
Definition h_tree_path_write (tree_path : slot) : H unit :=
  hwrite_opt tree_path (
  entries <- load tree_path 0 ;;
  len <- load_int tree_path 1 ;;
  if_ptr entries (
    if len >? 0 then
      lift (sml_buf_set_type_and_length SML_TYPE_LIST (to_u32 len)) ;;;
      for_each (Z.to_nat len) 0 entries h_octet_string_write
    else ret tt)).

(** sml_tree.c:455-494; members as in h_tupel_entry_free *)
Definition h_tupel_entry_write (tupel : slot) : H unit :=
  hwrite_opt tupel (
  lift (sml_buf_set_type_and_length SML_TYPE_LIST 23) ;;;
  hw tupel 0 h_octet_string_write ;;;
  hw tupel 1 h_time_write ;;;
  hw tupel 2 h_u64_write ;;;
  hw tupel 3 h_u8_write ;;;
  hw tupel 4 h_i8_write ;;;
  hw tupel 5 h_i64_write ;;;
  hw tupel 6 h_u8_write ;;;
  hw tupel 7 h_i8_write ;;;
  hw tupel 8 h_i64_write ;;;
  hw tupel 9 h_u8_write ;;;
  hw tupel 10 h_i8_write ;;;
  hw tupel 11 h_i64_write ;;;
  hw tupel 12 h_octet_string_write ;;;
  hw tupel 13 h_u8_write ;;;
  hw tupel 14 h_i8_write ;;;
  hw tupel 15 h_i64_write ;;;
  hw tupel 16 h_u8_write ;;;
  hw tupel 17 h_i8_write ;;;
  hw tupel 18 h_i64_write ;;;
  hw tupel 19 h_u8_write ;;;
  hw tupel 20 h_i8_write ;;;
  hw tupel 21 h_i64_write ;;;
  hw tupel 22 h_octet_string_write).

(** sml_tree.c:590-603 *)
Definition h_period_entry_write (period : slot) : H unit :=
  hwrite_opt period (
  lift (sml_buf_set_type_and_length SML_TYPE_LIST 5) ;;;
  hw period 0 h_octet_string_write ;;;
  hw period 1 h_u8_write ;;;
  hw period 2 h_i8_write ;;;
  hw period 3 h_value_write ;;;
  hw period 4 h_octet_string_write).

(** sml_tree.c:262-287 *)
Definition h_proc_par_value_write (value : slot) : H unit :=
  hwrite_opt value (
  lift (sml_buf_set_type_and_length SML_TYPE_LIST 2) ;;;
  hw value 0 h_u8_write ;;;
  tag <- load value 0 ;;
  m <- load_bytes tag ;;
  let t := mem_u m in
  if t =? SML_PROC_PAR_VALUE_TAG_VALUE then hw value 1 h_value_write
  else if t =? SML_PROC_PAR_VALUE_TAG_PERIOD_ENTRY then hw value 1 h_period_entry_write
  else if t =? SML_PROC_PAR_VALUE_TAG_TUPEL_ENTRY then hw value 1 h_tupel_entry_write
  else if t =? SML_PROC_PAR_VALUE_TAG_TIME then hw value 1 h_time_write
  else ret tt).

(** sml_tree.c:185-206; members 0 = parameter_name, 1 = parameter_value, 2 =
    child_list, 3 = child_list_len *)
Fixpoint h_tree_write_rec (depth : nat) (tree : slot) : H unit :=
  match depth with
  | O => out_of_fuel
  | S depth' =>
      hwrite_opt tree (
      lift (sml_buf_set_type_and_length SML_TYPE_LIST 3) ;;;
      hw tree 0 h_octet_string_write ;;;
      hw tree 1 h_proc_par_value_write ;;;
      children <- load tree 2 ;;
      len <- load_int tree 3 ;;
      match children with
      | Nul => lift sml_buf_optional_write
      | _ =>
          if len >? 0 then
            lift (sml_buf_set_type_and_length SML_TYPE_LIST (to_u32 len)) ;;;
            for_each (Z.to_nat len) 0 children (h_tree_write_rec depth')
          else lift sml_buf_optional_write
      end)
  end.
Definition h_tree_write (tree : slot) : H unit := with_heap_fuel (fun fuel => h_tree_write_rec fuel tree).

(** *** Message bodies; members as in the free functions of HeapModel *)

(** sml_open_request.c:83-93 *)
Definition h_open_request_write (p : slot) : H unit :=
  lift (sml_buf_set_type_and_length SML_TYPE_LIST 7) ;;;
  hw p 0 h_octet_string_write ;;;
  hw p 1 h_octet_string_write ;;;
  hw p 2 h_octet_string_write ;;;
  hw p 3 h_octet_string_write ;;;
  hw p 4 h_octet_string_write ;;;
  hw p 5 h_octet_string_write ;;;
  hw p 6 h_u8_write.

(** sml_open_response.c:77-86 *)
Definition h_open_response_write (p : slot) : H unit :=
  lift (sml_buf_set_type_and_length SML_TYPE_LIST 6) ;;;
  hw p 0 h_octet_string_write ;;;
  hw p 1 h_octet_string_write ;;;
  hw p 2 h_octet_string_write ;;;
  hw p 3 h_octet_string_write ;;;
  hw p 4 h_time_write ;;;
  hw p 5 h_u8_write.

(** sml_close_request.c:53-56 *)
Definition h_close_request_write (p : slot) : H unit :=
  lift (sml_buf_set_type_and_length SML_TYPE_LIST 1) ;;;
  hw p 0 h_octet_string_write.

(** sml_close_response.c:53-56 *)
Definition h_close_response_write (p : slot) : H unit :=
  lift (sml_buf_set_type_and_length SML_TYPE_LIST 1) ;;;
  hw p 0 h_octet_string_write.

(** sml_get_profile_pack_request.c:53-56: members 0 = object_list_entry, 1 = next *)
Fixpoint h_object_list_length_loop (fuel : nat) (l : slot) (len : Z) : H Z :=
  match fuel with
  | O => out_of_fuel
  | S fuel' =>
      n <- load l 1 ;;
      match n with Nul => ret len | _ => h_object_list_length_loop fuel' n (len + 1) end
  end.
(** sml_get_profile_pack_request.c:59-61 *)
Fixpoint h_object_list_write_loop (fuel : nat) (l : slot) : H unit :=
  match fuel with
  | O => out_of_fuel
  | S fuel' =>
      n <- load l 1 ;;
      match n with
      | Nul => ret tt
      | _ => hw l 0 h_octet_string_write ;;; h_object_list_write_loop fuel' n
      end
  end.
(** sml_get_profile_pack_request.c:52-64 *)
Definition h_object_list_write (l : slot) : H unit :=
  hwrite_opt l (
  len <- with_heap_fuel (fun fuel => h_object_list_length_loop fuel l 1) ;;
  lift (sml_buf_set_type_and_length SML_TYPE_LIST (to_u32 len)) ;;;
  with_heap_fuel (fun fuel => h_object_list_write_loop fuel l)).

(** sml_get_profile_pack_request.c:41-67 *)
Definition h_get_profile_pack_request_write (p : slot) : H unit :=
  lift (sml_buf_set_type_and_length SML_TYPE_LIST 9) ;;;
  hw p 0 h_octet_string_write ;;;
  hw p 1 h_octet_string_write ;;;
  hw p 2 h_octet_string_write ;;;
  hw p 3 h_boolean_write ;;;
  hw p 4 h_time_write ;;;
  hw p 5 h_time_write ;;;
  hw p 6 h_tree_path_write ;;;
  hw p 7 h_object_list_write ;;;
  hw p 8 h_tree_write.

(** sml_get_profile_pack_response.c:85-93 *)
Definition h_prof_obj_header_entry_write (p : slot) : H unit :=
  lift (sml_buf_set_type_and_length SML_TYPE_LIST 3) ;;;
  hw p 0 h_octet_string_write ;;;
  hw p 1 h_u8_write ;;;
  hw p 2 h_i8_write.

(** sml_get_profile_pack_response.c:133-139 *)
Definition h_value_entry_write (p : slot) : H unit :=
  lift (sml_buf_set_type_and_length SML_TYPE_LIST 2) ;;;
  hw p 0 h_value_write ;;;
  hw p 1 h_octet_string_write.

(** sml_get_profile_pack_response.c:95-103 *)
Definition h_prof_obj_period_entry_write (p : slot) : H unit :=
  lift (sml_buf_set_type_and_length SML_TYPE_LIST 4) ;;;
  hw p 0 h_time_write ;;;
  hw p 1 h_u64_write ;;;
  hw p 2 (h_sequence_write h_value_entry_write) ;;;
  hw p 3 h_octet_string_write.

(** sml_get_profile_pack_response.c:224-235 *)
Definition h_get_profile_pack_response_write (p : slot) : H unit :=
  lift (sml_buf_set_type_and_length SML_TYPE_LIST 8) ;;;
  hw p 0 h_octet_string_write ;;;
  hw p 1 h_time_write ;;;
  hw p 2 h_u32_write ;;;
  hw p 3 h_tree_path_write ;;;
  hw p 4 (h_sequence_write h_prof_obj_header_entry_write) ;;;
  hw p 5 (h_sequence_write h_prof_obj_period_entry_write) ;;;
  hw p 6 h_octet_string_write ;;;
  hw p 7 h_octet_string_write.

(** sml_get_profile_list_response.c:101-113 *)
Definition h_get_profile_list_response_write (p : slot) : H unit :=
  lift (sml_buf_set_type_and_length SML_TYPE_LIST 9) ;;;
  hw p 0 h_octet_string_write ;;;
  hw p 1 h_time_write ;;;
  hw p 2 h_u32_write ;;;
  hw p 3 h_tree_path_write ;;;
  hw p 4 h_time_write ;;;
  hw p 5 h_u64_write ;;;
  hw p 6 (h_sequence_write h_period_entry_write) ;;;
  hw p 7 h_octet_string_write ;;;
  hw p 8 h_octet_string_write.

(** sml_get_proc_parameter_request.c:75-83 *)
Definition h_get_proc_parameter_request_write (p : slot) : H unit :=
  lift (sml_buf_set_type_and_length SML_TYPE_LIST 5) ;;;
  hw p 0 h_octet_string_write ;;;
  hw p 1 h_octet_string_write ;;;
  hw p 2 h_octet_string_write ;;;
  hw p 3 h_tree_path_write ;;;
  hw p 4 h_octet_string_write.

(** sml_get_proc_parameter_response.c:63-68 *)
Definition h_get_proc_parameter_response_write (p : slot) : H unit :=
  lift (sml_buf_set_type_and_length SML_TYPE_LIST 3) ;;;
  hw p 0 h_octet_string_write ;;;
  hw p 1 h_tree_path_write ;;;
  hw p 2 h_tree_write.

(** sml_set_proc_parameter_request.c:73-80 *)
Definition h_set_proc_parameter_request_write (p : slot) : H unit :=
  lift (sml_buf_set_type_and_length SML_TYPE_LIST 5) ;;;
  hw p 0 h_octet_string_write ;;;
  hw p 1 h_octet_string_write ;;;
  hw p 2 h_octet_string_write ;;;
  hw p 3 h_tree_path_write ;;;
  hw p 4 h_tree_write.

(** sml_get_list_request.c:33-41; list_name is member 2 *)
Definition h_get_list_request_write (p : slot) : H unit :=
  lift (sml_buf_set_type_and_length SML_TYPE_LIST 5) ;;;
  hw p 0 h_octet_string_write ;;;
  hw p 1 h_octet_string_write ;;;
  hw p 3 h_octet_string_write ;;;
  hw p 4 h_octet_string_write ;;;
  hw p 2 h_octet_string_write.

(** sml_get_list_response.c:82-92 *)
Definition h_get_list_response_write (p : slot) : H unit :=
  lift (sml_buf_set_type_and_length SML_TYPE_LIST 7) ;;;
  hw p 0 h_octet_string_write ;;;
  hw p 1 h_octet_string_write ;;;
  hw p 2 h_octet_string_write ;;;
  hw p 3 h_time_write ;;;
  hw p 4 h_list_write ;;;
  hw p 5 h_octet_string_write ;;;
  hw p 6 h_time_write.

(** sml_attention_response.c:68-75 *)
Definition h_attention_response_write (p : slot) : H unit :=
  lift (sml_buf_set_type_and_length SML_TYPE_LIST 4) ;;;
  hw p 0 h_octet_string_write ;;;
  hw p 1 h_octet_string_write ;;;
  hw p 2 h_octet_string_write ;;;
  hw p 3 h_tree_write.

(** sml_message.c:237-289 *)
Definition h_body_data_write (tag : Z) (data : slot) : H unit :=
  if tag =? SML_MESSAGE_OPEN_REQUEST then h_open_request_write data
  else if tag =? SML_MESSAGE_OPEN_RESPONSE then h_open_response_write data
  else if tag =? SML_MESSAGE_CLOSE_REQUEST then h_close_request_write data
  else if tag =? SML_MESSAGE_CLOSE_RESPONSE then h_close_response_write data
  else if tag =? SML_MESSAGE_GET_PROFILE_PACK_REQUEST then h_get_profile_pack_request_write data
  else if tag =? SML_MESSAGE_GET_PROFILE_PACK_RESPONSE then h_get_profile_pack_response_write data
  else if tag =? SML_MESSAGE_GET_PROFILE_LIST_REQUEST then h_get_profile_pack_request_write data
  else if tag =? SML_MESSAGE_GET_PROFILE_LIST_RESPONSE then h_get_profile_list_response_write data
  else if tag =? SML_MESSAGE_GET_PROC_PARAMETER_REQUEST then h_get_proc_parameter_request_write data
  else if tag =? SML_MESSAGE_GET_PROC_PARAMETER_RESPONSE then h_get_proc_parameter_response_write data
  else if tag =? SML_MESSAGE_SET_PROC_PARAMETER_REQUEST then h_set_proc_parameter_request_write data
  else if tag =? SML_MESSAGE_GET_LIST_REQUEST then h_get_list_request_write data
  else if tag =? SML_MESSAGE_GET_LIST_RESPONSE then h_get_list_response_write data
  else if tag =? SML_MESSAGE_ATTENTION_RESPONSE then h_attention_response_write data
  else ret tt.

(** sml_message.c:233-290; members 0 = tag, 1 = data *)
Definition h_message_body_write (message_body : slot) : H unit :=
  lift (sml_buf_set_type_and_length SML_TYPE_LIST 2) ;;;
  hw message_body 0 h_u32_write ;;;
  tag <- load message_body 0 ;;
  m <- load_bytes tag ;;
  hw message_body 1 (h_body_data_write (mem_u m)).

(** sml_message.c:129-145: the pointer to the old crc is overwritten *)
Definition h_message_write (msg : slot) : H unit :=
  msg_start <- lift (cursor_int 0) ;;
  lift (sml_buf_set_type_and_length SML_TYPE_LIST 6) ;;;
  hw msg 0 h_octet_string_write ;;;
  hw msg 1 h_u8_write ;;;
  hw msg 2 h_u8_write ;;;
  hw msg 3 h_message_body_write ;;;
  len <- lift (cursor_int msg_start) ;;
  bs <- lift (buffer_slice msg_start len) ;;
  crc <- h_number_init (sml_crc16_calculate bs) 2 ;;
  store msg 4 crc ;;;
  hw msg 4 h_u16_write ;;;
  lift (store_current 0) ;;;
  lift inc_cursor.

(** sml_file.c:80-88.  The buffer is that of the file. *)
Definition h_file_write (file : slot) : H unit :=
  messages <- load file 0 ;;
  if_ptr messages (
    n <- load_int file 1 ;;
    if n >? 0 then for_each (Z.to_nat n) 0 messages h_message_write else ret tt).

End WithHost.
