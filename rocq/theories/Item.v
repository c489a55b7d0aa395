(** The SML message layout as a tree of items, and the bytes of such a tree.
    This is the specification the writers are compared with. *)
From Verif Require Import Base Buf Crc16 Number OctetString Boolean Value Time SList Tree Bodies Message File
  Lib Wf Spec TL Inv Reads TLWrite NumFacts PropsString.

(** One element of a message.  [IWrong] stands for bytes the library writes in
    the place of an element but that do not encode that element. *)
Inductive item : Type :=
| IOmitted                              (* an optional element that is absent *)
| IVoid                                 (* the body of a message with an unknown tag *)
| IWrong (bytes : list Z)
| IOctets (bytes : list Z)
| IBool (b : bool)
| INum (type : Z) (bytes : list Z)      (* the bytes in transmission order *)
| IList (count : Z) (items : list item).

(** The bytes of an item. *)
Fixpoint enc (i : item) : list Z :=
  match i with
  | IOmitted => [1]
  | IVoid => []
  | IWrong bs => bs
  | IOctets bs => tl_text 0 (Z.of_nat (length bs)) ++ bs
  | IBool b => [66; if b then 255 else 0]
  | INum type bs => [type + 1 + Z.of_nat (length bs)] ++ bs
  | IList n l => tl_text 112 n ++ flat_map enc l
  end.

(** Every element of the tree. *)
Fixpoint every (Q : item -> Prop) (i : item) : Prop :=
  Q i /\ match i with
         | IList _ l => (fix go l := match l with [] => True | x :: t => every Q x /\ go t end) l
         | _ => True
         end.
(** All lengths can be written at all; with [any] they need one length byte. *)
Definition size_ok (any : bool) (i : item) : Prop :=
  match i with
  | IOctets bs => Z.of_nat (length bs) < 2 ^ 28 - 1 /\ (any = true -> (length bs <= 14)%nat)
  | IList n _ => n < 2 ^ 28 /\ (any = true -> n <= 15)
  | _ => True
  end.
(** The element can be recognised again by a reader: nothing written wrongly
    (C14, C26, C29), no empty octet string, none of the lengths of C16, and list
    counts as C17 needs them. *)
Definition readable (i : item) : Prop :=
  match i with
  | IWrong _ => False
  | IOctets bs => bs <> [] /\ Z.of_nat (length bs) < 2 ^ 28 - 1 /\ ~ lost_length (Z.of_nat (length bs))
  | IList n l => n = Z.of_nat (length l) /\ n <= 15
  | _ => True
  end.

Section WithHost.
Context {H : Host}.

Definition oct_item (o : option octet_string) : item :=
  match o with None => IOmitted | Some s => IOctets s end.
Definition num_item (type : Z) (o : option mem) : item :=
  match o with None => IOmitted | Some m => INum type (host_order m) end.
Definition bool_item (o : option sml_boolean) : item :=
  match o with None => IOmitted | Some b => IBool (negb (b =? 0)) end.

(** The value of a number type must have data. *)
Definition number_bytes (type : Z) (m : mem) : item :=
  match m with [] => IWrong [type + 1] | _ => INum type (host_order m) end.
Definition value_item (o : option sml_value) : item :=
  match o with
  | None => IOmitted
  | Some v =>
      let ty := Z.land (v_type v) 112 in
      let size := Z.to_nat (Z.land (v_type v) 15) in
      if ty =? 0 then match v_data v with VBytes s => IOctets s | _ => IWrong [1] end
      else if ty =? 64 then match v_data v with VBool b => IBool (negb (b =? 0)) | _ => IWrong [1] end
      else if (ty =? 96) || (ty =? 80) then
        match v_data v with
        | VNum m => number_bytes ty (firstn size m)
        | VNull => IWrong [1]
        | _ => IWrong [ty + 1]
        end
      else IWrong []
  end.
Definition status_item (o : option sml_status) : item :=
  match o with
  | None => IOmitted
  | Some s =>
      if s.(st_type) =? 112 then IWrong [112]
      else match st_data s with
           | None => IWrong [1]
           | Some m => number_bytes (Z.land (st_type s) 112) (firstn (Z.to_nat (Z.land (st_type s) 15)) m)
           end
  end.
(** The choice of a time is not optional. *)
Definition time_item (o : option sml_time) : item :=
  match o with
  | None => IOmitted
  | Some t => IList 2 [num_item 96 (tm_tag t);
                       match tm_data t with None => IWrong [1] | Some m => INum 96 (host_order m) end]
  end.
Definition list_of {A} (f : A -> item) (l : list A) : item := IList (Z.of_nat (length l)) (map f l).

Definition entry_item (e : list_entry) : item :=
  IList 7 [oct_item (le_obj_name e); status_item (le_status e); time_item (le_val_time e); num_item 96 (le_unit e);
           num_item 80 (le_scaler e); value_item (le_value e); oct_item (le_value_signature e)].
Definition entries_item (l : sml_list) : item :=
  match l with [] => IOmitted | _ => list_of entry_item l end.
Definition seq_item {A} (f : option A -> item) (o : option (sml_sequence A)) : item :=
  match o with None => IOmitted | Some l => list_of f l end.
Definition path_item (o : option sml_tree_path) : item :=
  match o with None => IOmitted | Some [] => IWrong [] | Some l => list_of IOctets l end.
Definition tupel_item (o : option sml_tupel_entry) : item :=
  match o with
  | None => IOmitted
  | Some t => IList 23 [
      oct_item (tu_server_id t); time_item (tu_sec_index t); num_item 96 (tu_status t);
      num_item 96 (tu_unit_pA t); num_item 80 (tu_scaler_pA t); num_item 80 (tu_value_pA t);
      num_item 96 (tu_unit_R1 t); num_item 80 (tu_scaler_R1 t); num_item 80 (tu_value_R1 t);
      num_item 96 (tu_unit_R4 t); num_item 80 (tu_scaler_R4 t); num_item 80 (tu_value_R4 t);
      oct_item (tu_signature_pA_R1_R4 t);
      num_item 96 (tu_unit_mA t); num_item 80 (tu_scaler_mA t); num_item 80 (tu_value_mA t);
      num_item 96 (tu_unit_R2 t); num_item 80 (tu_scaler_R2 t); num_item 80 (tu_value_R2 t);
      num_item 96 (tu_unit_R3 t); num_item 80 (tu_scaler_R3 t); num_item 80 (tu_value_R3 t);
      oct_item (tu_signature_mA_R2_R3 t)]
  end.
Definition period_item (o : option sml_period_entry) : item :=
  match o with
  | None => IOmitted
  | Some p => IList 5 [oct_item (pe_obj_name p); num_item 96 (pe_unit p); num_item 80 (pe_scaler p);
                       value_item (pe_value p); oct_item (pe_value_signature p)]
  end.
Definition ppv_item (o : option sml_proc_par_value) : item :=
  match o with
  | None => IOmitted
  | Some v => IList 2 [num_item 96 (ppv_tag v);
      match ppv_dat v with
      | PNull => IOmitted
      | PValue x => value_item (Some x)
      | PPeriod x => period_item (Some x)
      | PTupel x => tupel_item (Some x)
      | PTime x => time_item (Some x)
      end]
  end.
Fixpoint node_item (t : sml_tree) : item :=
  match t with
  | Tree name value children =>
      IList 3 [oct_item name; ppv_item value;
               match children with [] => IOmitted | _ => IList (Z.of_nat (length children)) (map node_item children) end]
  end.
Definition tree_item (o : option sml_tree) : item :=
  match o with None => IOmitted | Some t => node_item t end.

(** The object list of GetProfilePack.Req: the header counts one element more
    than are written (C26). *)
Definition objects_item (l : list (option octet_string)) : item :=
  match l with [] => IOmitted | _ => IList (Z.of_nat (length l)) (map oct_item (removelast l)) end.
Definition header_item (o : option sml_prof_obj_header_entry) : item :=
  match o with
  | None => IOmitted
  | Some e => IList 3 [oct_item (he_obj_name e); num_item 96 (he_unit e); num_item 80 (he_scaler e)]
  end.
Definition val_entry_item (o : option sml_value_entry) : item :=
  match o with
  | None => IOmitted
  | Some e => IList 2 [value_item (ve_value e); oct_item (ve_value_signature e)]
  end.
Definition per_entry_item (o : option sml_prof_obj_period_entry) : item :=
  match o with
  | None => IOmitted
  | Some e => IList 4 [time_item (pp_val_time e); num_item 96 (pp_status e);
                       seq_item val_entry_item (pp_value_list e); oct_item (pp_period_signature e)]
  end.

Definition body_data_item (d : body_data) : item :=
  match d with
  | BNull => IVoid
  | BOpenReq m => IList 7 [oct_item (oq_codepage m); oct_item (oq_client_id m); oct_item (oq_req_file_id m);
      oct_item (oq_server_id m); oct_item (oq_username m); oct_item (oq_password m); num_item 96 (oq_sml_version m)]
  | BOpenRes m => IList 6 [oct_item (or_codepage m); oct_item (or_client_id m); oct_item (or_req_file_id m);
      oct_item (or_server_id m); time_item (or_ref_time m); num_item 96 (or_sml_version m)]
  | BCloseReq m => IList 1 [oct_item (cq_global_signature m)]
  | BCloseRes m => IList 1 [oct_item (cr_global_signature m)]
  | BPackReq m => IList 9 [oct_item (gq_server_id m); oct_item (gq_username m); oct_item (gq_password m);
      bool_item (gq_with_rawdata m); time_item (gq_begin_time m); time_item (gq_end_time m);
      path_item (gq_parameter_tree_path m); objects_item (gq_object_list m); tree_item (gq_das_details m)]
  | BPackRes m => IList 8 [oct_item (gr_server_id m); time_item (gr_act_time m); num_item 96 (gr_reg_period m);
      path_item (gr_parameter_tree_path m); seq_item header_item (gr_header_list m);
      seq_item per_entry_item (gr_period_list m); oct_item (gr_rawdata m); oct_item (gr_profile_signature m)]
  | BProfListRes m => IList 9 [oct_item (gl_server_id m); time_item (gl_act_time m); num_item 96 (gl_reg_period m);
      path_item (gl_parameter_tree_path m); time_item (gl_val_time m); num_item 96 (gl_status m);
      seq_item period_item (gl_period_list m); oct_item (gl_rawdata m); oct_item (gl_period_signature m)]
  | BProcReq m => IList 5 [oct_item (pq_server_id m); oct_item (pq_username m); oct_item (pq_password m);
      path_item (pq_parameter_tree_path m); oct_item (pq_attribute m)]
  | BProcRes m => IList 3 [oct_item (pr_server_id m); path_item (pr_parameter_tree_path m); tree_item (pr_parameter_tree m)]
  | BSetProc m => IList 5 [oct_item (sq_server_id m); oct_item (sq_username m); oct_item (sq_password m);
      path_item (sq_parameter_tree_path m); tree_item (sq_parameter_tree m)]
  | BListReq m => IList 5 [oct_item (lq_client_id m); oct_item (lq_server_id m); oct_item (lq_username m);
      oct_item (lq_password m); oct_item (lq_list_name m)]
  | BListRes m => IList 7 [oct_item (lr_client_id m); oct_item (lr_server_id m); oct_item (lr_list_name m);
      time_item (lr_act_sensor_time m); entries_item (lr_val_list m); oct_item (lr_list_signature m);
      time_item (lr_act_gateway_time m)]
  | BAttention m => IList 4 [oct_item (ar_server_id m); oct_item (ar_attention_number m);
      oct_item (ar_attention_message m); tree_item (ar_attention_details m)]
  end.
Definition body_item (o : option sml_message_body) : item :=
  match o with
  | None => IOmitted
  | Some b => IList 2 [num_item 96 (mb_tag b); body_data_item (mb_data b)]
  end.
(** The part of a message the checksum covers: four of its six elements. *)
Definition message_items (m : sml_message) : list item :=
  [oct_item (m_transaction_id m); num_item 96 (m_group_id m); num_item 96 (m_abort_on_error m); body_item (m_message_body m)].
Definition checked_bytes (m : sml_message) : list Z := [118] ++ flat_map enc (message_items m).

End WithHost.
