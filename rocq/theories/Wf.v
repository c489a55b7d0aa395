(** What the objects built by the parser look like (sizes of numbers, contents
    of unions).  Used in specifications. *)
From Verif Require Import Base Buf Number OctetString Boolean Value Time SList Tree Bodies Message File.

Definition opt {A} (Q : A -> Prop) (o : option A) : Prop :=
  match o with None => True | Some x => Q x end.

(** an integer object of n bytes *)
Definition wf_num (n : nat) (m : mem) : Prop := length m = n /\ bytes_ok m.
Definition wf_oct (s : octet_string) : Prop := bytes_ok s /\ Z.of_nat (length s) < 2147483648.
Definition wf_bool (b : sml_boolean) : Prop := b = 0 \/ b = 255.
Definition width_ok (w : nat) : Prop := w = 1%nat \/ w = 2%nat \/ w = 4%nat \/ w = 8%nat.

(** A value as sml_value_parse returns it; the last two alternatives are the
    16 byte numbers of property C14. *)
Inductive wf_value : sml_value -> Prop :=
| wfv_bytes s : wf_oct s -> wf_value (mkValue 0 (VBytes s))
| wfv_bool b : wf_bool b -> wf_value (mkValue 64 (VBool b))
| wfv_int w m : width_ok w -> wf_num w m -> wf_value (mkValue (80 + Z.of_nat w) (VNum m))
| wfv_uns w m : width_ok w -> wf_num w m -> wf_value (mkValue (96 + Z.of_nat w) (VNum m))
| wfv_int16 m : wf_num 16 m -> wf_value (mkValue 80 (VNum m))
| wfv_uns16 m : wf_num 16 m -> wf_value (mkValue 112 (VNum m)).

Inductive wf_status : sml_status -> Prop :=
| wfs_num w m : width_ok w -> wf_num w m -> wf_status (mkStatus (96 + Z.of_nat w) (Some m))
| wfs_16 m : wf_num 16 m -> wf_status (mkStatus 112 (Some m)).

Definition wf_time (t : sml_time) : Prop := opt (wf_num 1) (tm_tag t) /\ opt (wf_num 4) (tm_data t).

(** A value in a list entry: as parsed, or changed by the DZG workaround. *)
Definition wf_entry_value (v : sml_value) : Prop :=
  wf_value v \/ exists v0, wf_value v0 /\ v = force_unsigned v0.

Record wf_entry (l : list_entry) : Prop := {
  wfe_name : opt wf_oct (le_obj_name l);
  wfe_status : opt wf_status (le_status l);
  wfe_time : opt wf_time (le_val_time l);
  wfe_unit : opt (wf_num 1) (le_unit l);
  wfe_scaler : opt (wf_num 1) (le_scaler l);
  wfe_value : opt wf_entry_value (le_value l);
  wfe_sig : opt wf_oct (le_value_signature l) }.

Definition wf_path (p : sml_tree_path) : Prop := Forall wf_oct p.

Record wf_tupel (t : sml_tupel_entry) : Prop := {
  wft_1 : opt wf_oct (tu_server_id t);
  wft_2 : opt wf_time (tu_sec_index t);
  wft_3 : opt (wf_num 8) (tu_status t);
  wft_4 : opt (wf_num 1) (tu_unit_pA t);
  wft_5 : opt (wf_num 1) (tu_scaler_pA t);
  wft_6 : opt (wf_num 8) (tu_value_pA t);
  wft_7 : opt (wf_num 1) (tu_unit_R1 t);
  wft_8 : opt (wf_num 1) (tu_scaler_R1 t);
  wft_9 : opt (wf_num 8) (tu_value_R1 t);
  wft_10 : opt (wf_num 1) (tu_unit_R4 t);
  wft_11 : opt (wf_num 1) (tu_scaler_R4 t);
  wft_12 : opt (wf_num 8) (tu_value_R4 t);
  wft_13 : opt wf_oct (tu_signature_pA_R1_R4 t);
  wft_14 : opt (wf_num 1) (tu_unit_mA t);
  wft_15 : opt (wf_num 1) (tu_scaler_mA t);
  wft_16 : opt (wf_num 8) (tu_value_mA t);
  wft_17 : opt (wf_num 1) (tu_unit_R2 t);
  wft_18 : opt (wf_num 1) (tu_scaler_R2 t);
  wft_19 : opt (wf_num 8) (tu_value_R2 t);
  wft_20 : opt (wf_num 1) (tu_unit_R3 t);
  wft_21 : opt (wf_num 1) (tu_scaler_R3 t);
  wft_22 : opt (wf_num 8) (tu_value_R3 t);
  wft_23 : opt wf_oct (tu_signature_mA_R2_R3 t) }.

Record wf_period (p : sml_period_entry) : Prop := {
  wfp_name : opt wf_oct (pe_obj_name p);
  wfp_unit : opt (wf_num 1) (pe_unit p);
  wfp_scaler : opt (wf_num 1) (pe_scaler p);
  wfp_value : opt wf_value (pe_value p);
  wfp_sig : opt wf_oct (pe_value_signature p) }.

Section WithHost.
Context {H : Host}.

(** The tag says which member of the union is used. *)
Definition wf_ppv (v : sml_proc_par_value) : Prop :=
  exists t, ppv_tag v = Some t /\ wf_num 1 t /\
  match mem_u t with
  | 1 => exists o, ppv_dat v = from_opt PNull PValue o /\ opt wf_value o
  | 2 => exists o, ppv_dat v = from_opt PNull PPeriod o /\ opt wf_period o
  | 3 => exists o, ppv_dat v = from_opt PNull PTupel o /\ opt wf_tupel o
  | 4 => exists o, ppv_dat v = from_opt PNull PTime o /\ opt wf_time o
  | _ => False
  end.

Inductive wf_tree : sml_tree -> Prop :=
| wf_Tree name value children :
    opt wf_oct name -> opt wf_ppv value -> Forall wf_tree children ->
    wf_tree (Tree name value children).

Definition wf_seq {A} (Q : A -> Prop) (l : sml_sequence A) : Prop := Forall (opt Q) l.

Record wf_open_req (m : sml_open_request) : Prop := {
  wfoq_1 : opt wf_oct (oq_codepage m);
  wfoq_2 : opt wf_oct (oq_client_id m);
  wfoq_3 : opt wf_oct (oq_req_file_id m);
  wfoq_4 : opt wf_oct (oq_server_id m);
  wfoq_5 : opt wf_oct (oq_username m);
  wfoq_6 : opt wf_oct (oq_password m);
  wfoq_7 : opt (wf_num 1) (oq_sml_version m) }.
Record wf_open_res (m : sml_open_response) : Prop := {
  wfor_1 : opt wf_oct (or_codepage m);
  wfor_2 : opt wf_oct (or_client_id m);
  wfor_3 : opt wf_oct (or_req_file_id m);
  wfor_4 : opt wf_oct (or_server_id m);
  wfor_5 : opt wf_time (or_ref_time m);
  wfor_6 : opt (wf_num 1) (or_sml_version m) }.
Definition wf_close_req (m : sml_close_request) : Prop := opt wf_oct (cq_global_signature m).
Definition wf_close_res (m : sml_close_response) : Prop := opt wf_oct (cr_global_signature m).
Record wf_pack_req (m : sml_get_profile_pack_request) : Prop := {
  wfgq_1 : opt wf_oct (gq_server_id m);
  wfgq_2 : opt wf_oct (gq_username m);
  wfgq_3 : opt wf_oct (gq_password m);
  wfgq_4 : opt wf_bool (gq_with_rawdata m);
  wfgq_5 : opt wf_time (gq_begin_time m);
  wfgq_6 : opt wf_time (gq_end_time m);
  wfgq_7 : opt wf_path (gq_parameter_tree_path m);
  wfgq_8 : Forall (opt wf_oct) (gq_object_list m);
  wfgq_9 : opt wf_tree (gq_das_details m) }.
Record wf_header (e : sml_prof_obj_header_entry) : Prop := {
  wfhe_1 : opt wf_oct (he_obj_name e);
  wfhe_2 : opt (wf_num 1) (he_unit e);
  wfhe_3 : opt (wf_num 1) (he_scaler e) }.
Record wf_value_entry (e : sml_value_entry) : Prop := {
  wfve_1 : opt wf_value (ve_value e);
  wfve_2 : opt wf_oct (ve_value_signature e) }.
Record wf_per_entry (e : sml_prof_obj_period_entry) : Prop := {
  wfpp_1 : opt wf_time (pp_val_time e);
  wfpp_2 : opt (wf_num 8) (pp_status e);
  wfpp_3 : exists l, pp_value_list e = Some (map Some l) /\ Forall wf_value_entry l;
  wfpp_4 : opt wf_oct (pp_period_signature e) }.
Record wf_pack_res (m : sml_get_profile_pack_response) : Prop := {
  wfgr_1 : opt wf_oct (gr_server_id m);
  wfgr_2 : opt wf_time (gr_act_time m);
  wfgr_3 : opt (wf_num 4) (gr_reg_period m);
  wfgr_4 : opt wf_path (gr_parameter_tree_path m);
  wfgr_5 : exists l, gr_header_list m = Some (map Some l) /\ Forall wf_header l;
  wfgr_6 : exists l, gr_period_list m = Some (map Some l) /\ Forall wf_per_entry l;
  wfgr_7 : opt wf_oct (gr_rawdata m);
  wfgr_8 : opt wf_oct (gr_profile_signature m) }.
Record wf_prof_list_res (m : sml_get_profile_list_response) : Prop := {
  wfgl_1 : opt wf_oct (gl_server_id m);
  wfgl_2 : opt wf_time (gl_act_time m);
  wfgl_3 : opt (wf_num 4) (gl_reg_period m);
  wfgl_4 : opt wf_path (gl_parameter_tree_path m);
  wfgl_5 : opt wf_time (gl_val_time m);
  wfgl_6 : opt (wf_num 8) (gl_status m);
  wfgl_7 : exists l, gl_period_list m = Some l /\ wf_seq wf_period l;
  wfgl_8 : opt wf_oct (gl_rawdata m);
  wfgl_9 : opt wf_oct (gl_period_signature m) }.
Record wf_proc_req (m : sml_get_proc_parameter_request) : Prop := {
  wfpq_1 : opt wf_oct (pq_server_id m);
  wfpq_2 : opt wf_oct (pq_username m);
  wfpq_3 : opt wf_oct (pq_password m);
  wfpq_4 : opt wf_path (pq_parameter_tree_path m);
  wfpq_5 : opt wf_oct (pq_attribute m) }.
Record wf_proc_res (m : sml_get_proc_parameter_response) : Prop := {
  wfpr_1 : opt wf_oct (pr_server_id m);
  wfpr_2 : opt wf_path (pr_parameter_tree_path m);
  wfpr_3 : opt wf_tree (pr_parameter_tree m) }.
Record wf_set_proc (m : sml_set_proc_parameter_request) : Prop := {
  wfsq_1 : opt wf_oct (sq_server_id m);
  wfsq_2 : opt wf_oct (sq_username m);
  wfsq_3 : opt wf_oct (sq_password m);
  wfsq_4 : opt wf_path (sq_parameter_tree_path m);
  wfsq_5 : opt wf_tree (sq_parameter_tree m) }.
Record wf_list_req (m : sml_get_list_request) : Prop := {
  wflq_1 : opt wf_oct (lq_client_id m);
  wflq_2 : opt wf_oct (lq_server_id m);
  wflq_3 : opt wf_oct (lq_username m);
  wflq_4 : opt wf_oct (lq_password m);
  wflq_5 : opt wf_oct (lq_list_name m) }.
Record wf_list_res (m : sml_get_list_response) : Prop := {
  wflr_1 : opt wf_oct (lr_client_id m);
  wflr_2 : opt wf_oct (lr_server_id m);
  wflr_3 : opt wf_oct (lr_list_name m);
  wflr_4 : opt wf_time (lr_act_sensor_time m);
  wflr_5 : Forall wf_entry (lr_val_list m);
  wflr_6 : opt wf_oct (lr_list_signature m);
  wflr_7 : opt wf_time (lr_act_gateway_time m) }.
Record wf_attention (m : sml_attention_response) : Prop := {
  wfar_1 : opt wf_oct (ar_server_id m);
  wfar_2 : opt wf_oct (ar_attention_number m);
  wfar_3 : opt wf_oct (ar_attention_message m);
  wfar_4 : opt wf_tree (ar_attention_details m) }.

(** The tag of a body says what data points to; with an unknown tag data is
    NULL. *)
Definition wf_body_data (tag : Z) (d : body_data) : Prop :=
  match d with
  | BNull => ~ In tag [256; 257; 512; 513; 768; 769; 1024; 1025; 1280; 1281; 1536; 1792; 1793; 65281]
  | BOpenReq m => tag = 256 /\ wf_open_req m
  | BOpenRes m => tag = 257 /\ wf_open_res m
  | BCloseReq m => tag = 512 /\ wf_close_req m
  | BCloseRes m => tag = 513 /\ wf_close_res m
  | BPackReq m => (tag = 768 \/ tag = 1024) /\ wf_pack_req m
  | BPackRes m => tag = 769 /\ wf_pack_res m
  | BProfListRes m => tag = 1025 /\ wf_prof_list_res m
  | BProcReq m => tag = 1280 /\ wf_proc_req m
  | BProcRes m => tag = 1281 /\ wf_proc_res m
  | BSetProc m => tag = 1536 /\ wf_set_proc m
  | BListReq m => tag = 1792 /\ wf_list_req m
  | BListRes m => tag = 1793 /\ wf_list_res m
  | BAttention m => tag = 65281 /\ wf_attention m
  end.

Definition wf_body (b : sml_message_body) : Prop :=
  exists t, mb_tag b = Some t /\ wf_num 4 t /\ wf_body_data (mem_u t) (mb_data b).

Record wf_message (m : sml_message) : Prop := {
  wfm_tid : opt wf_oct (m_transaction_id m);
  wfm_group : opt (wf_num 1) (m_group_id m);
  wfm_abort : opt (wf_num 1) (m_abort_on_error m);
  wfm_body : opt wf_body (m_message_body m);
  wfm_crc : exists c, m_crc m = Some c /\ wf_num 2 c }.

End WithHost.
