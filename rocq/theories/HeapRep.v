(** Which memory holds which value: for every type of the value level (the
    Coq types that the parsers return) the blocks that represent it. *)
From stdpp Require Import gmap.
From iris.proofmode Require Import tactics.
From Verif Require Import Base Buf Number OctetString Boolean Value Time SList Tree Bodies Message File
  HeapBase HeapLogic.

(** the NULL pointer, without memory *)
Definition rep_nul : slot -> hprop := fun p => ⟨p = Nul⟩%I.
Definition rep_opt {A} (R : A -> slot -> hprop) (o : option A) : slot -> hprop :=
  match o with None => rep_nul | Some v => R v end.

(** members, one predicate each *)
Definition fields (Rs : list (slot -> hprop)) (ss : list slot) : hprop :=
  ([∗ list] R;x ∈ Rs;ss, (R : slot -> hprop) x)%I.
(** a struct with these members, followed by the members [rest] *)
Definition cell (rest : list slot) (Rs : list (slot -> hprop)) (p : slot) : hprop :=
  (∃ ss, p ↦ Struct (ss ++ rest) ∗ fields Rs ss)%I.
(** an array with these elements; NULL if there are none *)
Definition array (Rs : list (slot -> hprop)) (p : slot) : hprop :=
  match Rs with [] => rep_nul p | _ => cell [] Rs p end.

Definition rep_num (m : mem) (p : slot) : hprop := (p ↦ Bytes m)%I.
Definition rep_bool (b : sml_boolean) (p : slot) : hprop := (p ↦ Bytes [b])%I.
Definition rep_str (s : octet_string) (p : slot) : hprop :=
  match s with
  | [] => (p ↦ Struct [Nul; Int 0])%I
  | _ => (∃ d, p ↦ Struct [d; Int (Z.of_nat (length s))] ∗ d ↦ Bytes s)%I
  end.

(** The data of a value of type [ty].  A string whose value does not have the
    type of strings (after the DZG workaround, which makes it an unsigned) has
    lost its text. *)
Definition rep_vdata (ty : Z) (d : value_data) (p : slot) : hprop :=
  match d with
  | VNull => rep_nul p
  | VBytes s => if ty =? SML_TYPE_OCTET_STRING then rep_str s p
                else (⟨Z.land ty SML_TYPE_FIELD <> SML_TYPE_OCTET_STRING⟩ ∗ ∃ a, p ↦ Struct [a; Int (Z.of_nat (length s))])%I
  | VBool b => (⟨ty <> SML_TYPE_OCTET_STRING⟩ ∗ rep_bool b p)%I
  | VNum m => (⟨ty <> SML_TYPE_OCTET_STRING⟩ ∗ rep_num m p)%I
  end.
Definition rep_value (v : sml_value) (p : slot) : hprop :=
  (∃ d, p ↦ Struct [Int (v_type v); d] ∗ rep_vdata (v_type v) (v_data v) d)%I.
Definition rep_status (v : sml_status) (p : slot) : hprop :=
  (∃ d, p ↦ Struct [Int (st_type v); d] ∗ rep_opt rep_num (st_data v) d)%I.
Definition rep_time (t : sml_time) : slot -> hprop :=
  cell [] [rep_opt rep_num (tm_tag t); rep_opt rep_num (tm_data t)].

Definition rep_seq {A} (R : A -> slot -> hprop) (l : list (option A)) (p : slot) : hprop :=
  (∃ arr, p ↦ Struct [arr; Int (Z.of_nat (length l))] ∗ array (map (rep_opt R) l) arr)%I.

Definition entry_fields (e : list_entry) : list (slot -> hprop) :=
  [rep_opt rep_str (le_obj_name e); rep_opt rep_status (le_status e); rep_opt rep_time (le_val_time e);
   rep_opt rep_num (le_unit e); rep_opt rep_num (le_scaler e); rep_opt rep_value (SList.le_value e);
   rep_opt rep_str (le_value_signature e)].
(** the entries from [p] up to (not including) [q] *)
Fixpoint rep_seg (l : sml_list) (p q : slot) : hprop :=
  match l with
  | [] => ⟨p = q⟩%I
  | e :: t => (∃ n, cell [n] (entry_fields e) p ∗ rep_seg t n q)%I
  end.
Definition rep_list (l : sml_list) (p : slot) : hprop := rep_seg l p Nul.

Definition rep_tree_path (l : sml_tree_path) (p : slot) : hprop :=
  (∃ arr, p ↦ Struct [arr; Int (Z.of_nat (length l))] ∗ array (map rep_str l) arr)%I.

Definition rep_tupel (t : sml_tupel_entry) : slot -> hprop := cell [] [
  rep_opt rep_str (tu_server_id t); rep_opt rep_time (tu_sec_index t); rep_opt rep_num (tu_status t);
  rep_opt rep_num (tu_unit_pA t); rep_opt rep_num (tu_scaler_pA t); rep_opt rep_num (tu_value_pA t);
  rep_opt rep_num (tu_unit_R1 t); rep_opt rep_num (tu_scaler_R1 t); rep_opt rep_num (tu_value_R1 t);
  rep_opt rep_num (tu_unit_R4 t); rep_opt rep_num (tu_scaler_R4 t); rep_opt rep_num (tu_value_R4 t);
  rep_opt rep_str (tu_signature_pA_R1_R4 t);
  rep_opt rep_num (tu_unit_mA t); rep_opt rep_num (tu_scaler_mA t); rep_opt rep_num (tu_value_mA t);
  rep_opt rep_num (tu_unit_R2 t); rep_opt rep_num (tu_scaler_R2 t); rep_opt rep_num (tu_value_R2 t);
  rep_opt rep_num (tu_unit_R3 t); rep_opt rep_num (tu_scaler_R3 t); rep_opt rep_num (tu_value_R3 t);
  rep_opt rep_str (tu_signature_mA_R2_R3 t)].
Definition rep_period (v : sml_period_entry) : slot -> hprop := cell [] [
  rep_opt rep_str (pe_obj_name v); rep_opt rep_num (pe_unit v); rep_opt rep_num (pe_scaler v);
  rep_opt rep_value (pe_value v); rep_opt rep_str (pe_value_signature v)].

Section WithHost.
Context {HO : Host}.

Definition rep_ppv_data (d : ppv_data) : slot -> hprop :=
  match d with
  | PNull => rep_nul
  | PValue v => rep_value v
  | PPeriod v => rep_period v
  | PTupel v => rep_tupel v
  | PTime v => rep_time v
  end.
(** the tag says what the data is *)
Definition ppv_matches (v : sml_proc_par_value) : Prop :=
  match ppv_dat v, ppv_tag v with
  | PNull, _ => True
  | _, None => False
  | PValue _, Some m => mem_u m = SML_PROC_PAR_VALUE_TAG_VALUE
  | PPeriod _, Some m => mem_u m = SML_PROC_PAR_VALUE_TAG_PERIOD_ENTRY
  | PTupel _, Some m => mem_u m = SML_PROC_PAR_VALUE_TAG_TUPEL_ENTRY
  | PTime _, Some m => mem_u m = SML_PROC_PAR_VALUE_TAG_TIME
  end.
Definition rep_ppv (v : sml_proc_par_value) (p : slot) : hprop :=
  (⟨ppv_matches v⟩ ∗ cell [] [rep_opt rep_num (ppv_tag v); rep_ppv_data (ppv_dat v)] p)%I.

Fixpoint rep_tree (t : sml_tree) (p : slot) : hprop :=
  match t with
  | Tree name value children =>
      (∃ arr, cell [arr; Int (Z.of_nat (length children))]
                   [rep_opt rep_str name; rep_opt rep_ppv value] p
              ∗ array (map rep_tree children) arr)%I
  end.

(** the list of requested objects of a profile request *)
Fixpoint rep_objs (l : list (option octet_string)) (p q : slot) : hprop :=
  match l with
  | [] => ⟨p = q⟩%I
  | e :: t => (∃ n, cell [n] [rep_opt rep_str e] p ∗ rep_objs t n q)%I
  end.

Definition rep_open_req (m : sml_open_request) : slot -> hprop := cell [] [
  rep_opt rep_str (oq_codepage m); rep_opt rep_str (oq_client_id m); rep_opt rep_str (oq_req_file_id m);
  rep_opt rep_str (oq_server_id m); rep_opt rep_str (oq_username m); rep_opt rep_str (oq_password m);
  rep_opt rep_num (oq_sml_version m)].
Definition rep_open_res (m : sml_open_response) : slot -> hprop := cell [] [
  rep_opt rep_str (or_codepage m);
  rep_opt rep_str (or_client_id m);
  rep_opt rep_str (or_req_file_id m);
  rep_opt rep_str (or_server_id m);
  rep_opt rep_time (or_ref_time m);
  rep_opt rep_num (or_sml_version m)].
Definition rep_close_req (m : sml_close_request) : slot -> hprop := cell [] [
  rep_opt rep_str (cq_global_signature m)].
Definition rep_close_res (m : sml_close_response) : slot -> hprop := cell [] [
  rep_opt rep_str (cr_global_signature m)].
Definition rep_pack_req (m : sml_get_profile_pack_request) : slot -> hprop := cell [] [
  rep_opt rep_str (gq_server_id m);
  rep_opt rep_str (gq_username m);
  rep_opt rep_str (gq_password m);
  rep_opt rep_bool (gq_with_rawdata m);
  rep_opt rep_time (gq_begin_time m);
  rep_opt rep_time (gq_end_time m);
  rep_opt rep_tree_path (gq_parameter_tree_path m);
  (fun x => rep_objs (gq_object_list m) x Nul);
  rep_opt rep_tree (gq_das_details m)].
Definition rep_header (m : sml_prof_obj_header_entry) : slot -> hprop := cell [] [
  rep_opt rep_str (he_obj_name m);
  rep_opt rep_num (he_unit m);
  rep_opt rep_num (he_scaler m)].
Definition rep_value_entry (m : sml_value_entry) : slot -> hprop := cell [] [
  rep_opt rep_value (ve_value m);
  rep_opt rep_str (ve_value_signature m)].
Definition rep_per_entry (m : sml_prof_obj_period_entry) : slot -> hprop := cell [] [
  rep_opt rep_time (pp_val_time m);
  rep_opt rep_num (pp_status m);
  rep_opt (rep_seq rep_value_entry) (pp_value_list m);
  rep_opt rep_str (pp_period_signature m)].
Definition rep_pack_res (m : sml_get_profile_pack_response) : slot -> hprop := cell [] [
  rep_opt rep_str (gr_server_id m);
  rep_opt rep_time (gr_act_time m);
  rep_opt rep_num (gr_reg_period m);
  rep_opt rep_tree_path (gr_parameter_tree_path m);
  rep_opt (rep_seq rep_header) (gr_header_list m);
  rep_opt (rep_seq rep_per_entry) (gr_period_list m);
  rep_opt rep_str (gr_rawdata m);
  rep_opt rep_str (gr_profile_signature m)].
Definition rep_prof_list_res (m : sml_get_profile_list_response) : slot -> hprop := cell [] [
  rep_opt rep_str (gl_server_id m);
  rep_opt rep_time (gl_act_time m);
  rep_opt rep_num (gl_reg_period m);
  rep_opt rep_tree_path (gl_parameter_tree_path m);
  rep_opt rep_time (gl_val_time m);
  rep_opt rep_num (gl_status m);
  rep_opt (rep_seq rep_period) (gl_period_list m);
  rep_opt rep_str (gl_rawdata m);
  rep_opt rep_str (gl_period_signature m)].
Definition rep_proc_req (m : sml_get_proc_parameter_request) : slot -> hprop := cell [] [
  rep_opt rep_str (pq_server_id m);
  rep_opt rep_str (pq_username m);
  rep_opt rep_str (pq_password m);
  rep_opt rep_tree_path (pq_parameter_tree_path m);
  rep_opt rep_str (pq_attribute m)].
Definition rep_proc_res (m : sml_get_proc_parameter_response) : slot -> hprop := cell [] [
  rep_opt rep_str (pr_server_id m);
  rep_opt rep_tree_path (pr_parameter_tree_path m);
  rep_opt rep_tree (pr_parameter_tree m)].
Definition rep_set_proc (m : sml_set_proc_parameter_request) : slot -> hprop := cell [] [
  rep_opt rep_str (sq_server_id m);
  rep_opt rep_str (sq_username m);
  rep_opt rep_str (sq_password m);
  rep_opt rep_tree_path (sq_parameter_tree_path m);
  rep_opt rep_tree (sq_parameter_tree m)].
Definition rep_list_req (m : sml_get_list_request) : slot -> hprop := cell [] [
  rep_opt rep_str (lq_client_id m);
  rep_opt rep_str (lq_server_id m);
  rep_opt rep_str (lq_list_name m);
  rep_opt rep_str (lq_username m);
  rep_opt rep_str (lq_password m)].
Definition rep_list_res (m : sml_get_list_response) : slot -> hprop := cell [] [
  rep_opt rep_str (lr_client_id m);
  rep_opt rep_str (lr_server_id m);
  rep_opt rep_str (lr_list_name m);
  rep_opt rep_time (lr_act_sensor_time m);
  rep_list (lr_val_list m);
  rep_opt rep_str (lr_list_signature m);
  rep_opt rep_time (lr_act_gateway_time m)].
Definition rep_attention (m : sml_attention_response) : slot -> hprop := cell [] [
  rep_opt rep_str (ar_server_id m);
  rep_opt rep_str (ar_attention_number m);
  rep_opt rep_str (ar_attention_message m);
  rep_opt rep_tree (ar_attention_details m)].

Definition rep_body_data (d : body_data) : slot -> hprop :=
  match d with
  | BNull => rep_nul
  | BOpenReq m => rep_open_req m
  | BOpenRes m => rep_open_res m
  | BCloseReq m => rep_close_req m
  | BCloseRes m => rep_close_res m
  | BPackReq m => rep_pack_req m
  | BPackRes m => rep_pack_res m
  | BProfListRes m => rep_prof_list_res m
  | BProcReq m => rep_proc_req m
  | BProcRes m => rep_proc_res m
  | BSetProc m => rep_set_proc m
  | BListReq m => rep_list_req m
  | BListRes m => rep_list_res m
  | BAttention m => rep_attention m
  end.
(** the tag says what the data is *)
Definition tag_of (d : body_data) (t : Z) : Prop :=
  match d with
  | BNull => True
  | BOpenReq _ => t = SML_MESSAGE_OPEN_REQUEST
  | BOpenRes _ => t = SML_MESSAGE_OPEN_RESPONSE
  | BCloseReq _ => t = SML_MESSAGE_CLOSE_REQUEST
  | BCloseRes _ => t = SML_MESSAGE_CLOSE_RESPONSE
  | BPackReq _ => t = SML_MESSAGE_GET_PROFILE_PACK_REQUEST \/ t = SML_MESSAGE_GET_PROFILE_LIST_REQUEST
  | BPackRes _ => t = SML_MESSAGE_GET_PROFILE_PACK_RESPONSE
  | BProfListRes _ => t = SML_MESSAGE_GET_PROFILE_LIST_RESPONSE
  | BProcReq _ => t = SML_MESSAGE_GET_PROC_PARAMETER_REQUEST
  | BProcRes _ => t = SML_MESSAGE_GET_PROC_PARAMETER_RESPONSE
  | BSetProc _ => t = SML_MESSAGE_SET_PROC_PARAMETER_REQUEST
  | BListReq _ => t = SML_MESSAGE_GET_LIST_REQUEST
  | BListRes _ => t = SML_MESSAGE_GET_LIST_RESPONSE
  | BAttention _ => t = SML_MESSAGE_ATTENTION_RESPONSE
  end.
Definition rep_body (b : sml_message_body) (p : slot) : hprop :=
  (∃ t, ⟨mb_tag b = Some t /\ tag_of (mb_data b) (mem_u t)⟩ ∗
        cell [] [rep_num t; rep_body_data (mb_data b)] p)%I.
Definition rep_msg (m : sml_message) : slot -> hprop := cell [] [
  rep_opt rep_str (m_transaction_id m); rep_opt rep_num (m_group_id m);
  rep_opt rep_num (m_abort_on_error m); rep_opt rep_body (m_message_body m); rep_opt rep_num (m_crc m)].

(** a buffer made from [bytes], and a file *)
Definition rep_buffer (bytes : list Z) (p : slot) : hprop := (∃ d, p ↦ Struct [d] ∗ d ↦ Bytes bytes)%I.
Definition rep_file (msgs : list sml_message) (bytes : list Z) (p : slot) : hprop :=
  (∃ arr b, p ↦ Struct [arr; Int (Z.of_nat (length msgs)); b]
            ∗ array (map rep_msg msgs) arr ∗ rep_buffer bytes b)%I.
End WithHost.
