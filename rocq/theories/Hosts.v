(** Two hosts with different byte order: what one of them has in memory where
    the other has a given message.  Only integer objects differ, their bytes are
    in reverse order. *)
From Verif Require Import Base Buf Crc16 Number OctetString Boolean Value Time SList Tree Bodies Message File.

(** *** The same objects on the other host *)
Definition flip_data (d : value_data) : value_data :=
  match d with VNum m => VNum (rev m) | d => d end.
Definition flip_value (v : sml_value) : sml_value := mkValue (v_type v) (flip_data (v_data v)).
Definition flip_status (v : sml_status) : sml_status := mkStatus (st_type v) (omap (@rev Z) (st_data v)).
Definition flip_time (t : sml_time) : sml_time := mkTime (omap (@rev Z) (tm_tag t)) (omap (@rev Z) (tm_data t)).
Definition flip_entry (l : list_entry) : list_entry :=
  mkEntry (le_obj_name l) (omap flip_status (le_status l)) (omap flip_time (le_val_time l)) (omap (@rev Z) (le_unit l))
    (omap (@rev Z) (le_scaler l)) (omap flip_value (le_value l)) (le_value_signature l).
Definition flip_tupel (t : sml_tupel_entry) : sml_tupel_entry :=
  mkTupel (tu_server_id t) (omap flip_time (tu_sec_index t)) (omap (@rev Z) (tu_status t))
    (omap (@rev Z) (tu_unit_pA t)) (omap (@rev Z) (tu_scaler_pA t)) (omap (@rev Z) (tu_value_pA t))
    (omap (@rev Z) (tu_unit_R1 t)) (omap (@rev Z) (tu_scaler_R1 t)) (omap (@rev Z) (tu_value_R1 t))
    (omap (@rev Z) (tu_unit_R4 t)) (omap (@rev Z) (tu_scaler_R4 t)) (omap (@rev Z) (tu_value_R4 t))
    (tu_signature_pA_R1_R4 t)
    (omap (@rev Z) (tu_unit_mA t)) (omap (@rev Z) (tu_scaler_mA t)) (omap (@rev Z) (tu_value_mA t))
    (omap (@rev Z) (tu_unit_R2 t)) (omap (@rev Z) (tu_scaler_R2 t)) (omap (@rev Z) (tu_value_R2 t))
    (omap (@rev Z) (tu_unit_R3 t)) (omap (@rev Z) (tu_scaler_R3 t)) (omap (@rev Z) (tu_value_R3 t))
    (tu_signature_mA_R2_R3 t).
Definition flip_period (p : sml_period_entry) : sml_period_entry :=
  mkPeriod (pe_obj_name p) (omap (@rev Z) (pe_unit p)) (omap (@rev Z) (pe_scaler p)) (omap flip_value (pe_value p)) (pe_value_signature p).
Definition flip_ppv_data (d : ppv_data) : ppv_data :=
  match d with
  | PNull => PNull
  | PValue v => PValue (flip_value v)
  | PPeriod p => PPeriod (flip_period p)
  | PTupel t => PTupel (flip_tupel t)
  | PTime t => PTime (flip_time t)
  end.
Definition flip_ppv (v : sml_proc_par_value) : sml_proc_par_value :=
  mkPpv (omap (@rev Z) (ppv_tag v)) (flip_ppv_data (ppv_dat v)).
Fixpoint flip_tree (t : sml_tree) : sml_tree :=
  match t with Tree n v c => Tree n (omap flip_ppv v) (map flip_tree c) end.
Definition flip_open_req (m : sml_open_request) : sml_open_request :=
  mkOpenReq (oq_codepage m) (oq_client_id m) (oq_req_file_id m) (oq_server_id m) (oq_username m) (oq_password m) (omap (@rev Z) (oq_sml_version m)).
Definition flip_open_res (m : sml_open_response) : sml_open_response :=
  mkOpenRes (or_codepage m) (or_client_id m) (or_req_file_id m) (or_server_id m) (omap flip_time (or_ref_time m)) (omap (@rev Z) (or_sml_version m)).
Definition flip_pack_req (m : sml_get_profile_pack_request) : sml_get_profile_pack_request :=
  mkPackReq (gq_server_id m) (gq_username m) (gq_password m) (gq_with_rawdata m) (omap flip_time (gq_begin_time m)) (omap flip_time (gq_end_time m))
    (gq_parameter_tree_path m) (gq_object_list m) (omap flip_tree (gq_das_details m)).
Definition flip_header (e : sml_prof_obj_header_entry) : sml_prof_obj_header_entry :=
  mkHeader (he_obj_name e) (omap (@rev Z) (he_unit e)) (omap (@rev Z) (he_scaler e)).
Definition flip_val_entry (e : sml_value_entry) : sml_value_entry :=
  mkValEntry (omap flip_value (ve_value e)) (ve_value_signature e).
Definition flip_per_entry (e : sml_prof_obj_period_entry) : sml_prof_obj_period_entry :=
  mkPerEntry (omap flip_time (pp_val_time e)) (omap (@rev Z) (pp_status e)) (omap (map (omap flip_val_entry)) (pp_value_list e)) (pp_period_signature e).
Definition flip_pack_res (m : sml_get_profile_pack_response) : sml_get_profile_pack_response :=
  mkPackRes (gr_server_id m) (omap flip_time (gr_act_time m)) (omap (@rev Z) (gr_reg_period m)) (gr_parameter_tree_path m)
    (omap (map (omap flip_header)) (gr_header_list m)) (omap (map (omap flip_per_entry)) (gr_period_list m)) (gr_rawdata m) (gr_profile_signature m).
Definition flip_prof_list_res (m : sml_get_profile_list_response) : sml_get_profile_list_response :=
  mkProfListRes (gl_server_id m) (omap flip_time (gl_act_time m)) (omap (@rev Z) (gl_reg_period m)) (gl_parameter_tree_path m) (omap flip_time (gl_val_time m))
    (omap (@rev Z) (gl_status m)) (omap (map (omap flip_period)) (gl_period_list m)) (gl_rawdata m) (gl_period_signature m).
Definition flip_proc_res (m : sml_get_proc_parameter_response) : sml_get_proc_parameter_response :=
  mkProcRes (pr_server_id m) (pr_parameter_tree_path m) (omap flip_tree (pr_parameter_tree m)).
Definition flip_set_proc (m : sml_set_proc_parameter_request) : sml_set_proc_parameter_request :=
  mkSetProc (sq_server_id m) (sq_username m) (sq_password m) (sq_parameter_tree_path m) (omap flip_tree (sq_parameter_tree m)).
Definition flip_list_res (m : sml_get_list_response) : sml_get_list_response :=
  mkListRes (lr_client_id m) (lr_server_id m) (lr_list_name m) (omap flip_time (lr_act_sensor_time m)) (map flip_entry (lr_val_list m))
    (lr_list_signature m) (omap flip_time (lr_act_gateway_time m)).
Definition flip_attention (m : sml_attention_response) : sml_attention_response :=
  mkAttention (ar_server_id m) (ar_attention_number m) (ar_attention_message m) (omap flip_tree (ar_attention_details m)).
Definition flip_body_data (d : body_data) : body_data :=
  match d with
  | BOpenReq m => BOpenReq (flip_open_req m)
  | BOpenRes m => BOpenRes (flip_open_res m)
  | BPackReq m => BPackReq (flip_pack_req m)
  | BPackRes m => BPackRes (flip_pack_res m)
  | BProfListRes m => BProfListRes (flip_prof_list_res m)
  | BProcRes m => BProcRes (flip_proc_res m)
  | BSetProc m => BSetProc (flip_set_proc m)
  | BListRes m => BListRes (flip_list_res m)
  | BAttention m => BAttention (flip_attention m)
  | BNull => BNull
  | BCloseReq m => BCloseReq m
  | BCloseRes m => BCloseRes m
  | BProcReq m => BProcReq m
  | BListReq m => BListReq m
  end.
Definition flip_body (b : sml_message_body) : sml_message_body := mkBody (omap (@rev Z) (mb_tag b)) (flip_body_data (mb_data b)).
Definition flip_message (m : sml_message) : sml_message :=
  mkMsg (m_transaction_id m) (omap (@rev Z) (m_group_id m)) (omap (@rev Z) (m_abort_on_error m)) (omap flip_body (m_message_body m)) (omap (@rev Z) (m_crc m)).
Definition flip_file (f : sml_file) : sml_file := mkFile (map flip_message (f_messages f)) (f_buf f).
Definition on_outcome {A B} (f : A -> B) (o : outcome A) : outcome B :=
  match o with Ret a => Ret (f a) | Fault x => Fault x | NoFuel => NoFuel end.

(** The host with the other byte order. *)
Definition other (H : endian) : endian := match H with BigEndian => LittleEndian | LittleEndian => BigEndian end.
