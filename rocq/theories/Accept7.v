(** The bodies of messages. *)
From Verif Require Import Base Buf Crc16 Number OctetString Boolean Value Time SList Tree Bodies
  Message File Lib Wf Safe Safe2 Safe3 Ctx Ctx2 Ctx3 Scan Spec TL Inv Reads NumFacts Dzg Exact Grammar Accept Accept2 Accept3 Accept4 Accept5 Accept6.

Lemma acc_present_fld {A B} (p : P (option A)) (k : A -> P (option B)) (W1 : lang A) (C : B -> Prop) (f : B -> A) ws :
  (forall a, mon (k a)) -> acc p (required W1) -> (forall a, acc (k a) (rec (fun m => C m /\ f m = a) ws)) ->
  acc (o <- p ;; match o with None => ret None | Some a => k a end) (rec C (fun m => W1 (f m) :: ws m)).
Proof.
  intros Mk Hp Hk. eapply acc_ext; [apply acc_bind with (W2 := fun o => match o with None => fun r bs t => r = None /\ bs = [] | Some a => rec (fun m => C m /\ f m = a) ws end);
    [intros [a|]; [apply Mk|apply mon_ret]|exact Hp|intros [a|]; [apply Hk|apply acc_ret]]|]. intros r bs t _ _. split.
  - intros ([a|] & b1 & b2 & -> & X1 & X2); [|destruct X1]. destruct X2 as (m & -> & (Cm & <-) & X2). exists m. split; [auto|]. split; [auto|]. exists b1, b2. auto.
  - intros (m & -> & Cm & b1 & b2 & -> & X1 & X2). exists (Some (f m)), b1, b2. split; [auto|]. split; [auto|]. exists m. auto.
Qed.
Lemma acc_objects : acc object_list_parse (required object_list).
Proof.
  unfold object_list_parse. eapply acc_ext.
  - apply acc_bind with (W2 := fun sk : Z => if negb (sk =? 0) then fun r bs t => r = Some [] /\ bs = []
      else fun r bs t => exists tl b n, bs = tl ++ b /\ header 112 n tl /\ tl_nibbles tl < 2147483648 /\ exists l, r = Some l /\ length l = Z.to_nat n /\ fields (map (optional octets) l) b t);
      [mon|apply acc_skip|].
    intros sk. destruct (negb (sk =? 0)); [apply acc_ret|].
    apply (acc_header 112 _ (fun n r b t => exists l, r = Some l /\ length l = Z.to_nat n /\ fields (map (optional octets) l) b t)); [mon| |mon|apply acc_null].
    intros n. apply acc_items; [mon|exact acc_octets|apply optional_ne, octets_ne].
  - intros r bs t _ HL. split.
    + intros (sk & b1 & b2 & -> & [(-> & ->)|(-> & -> & _)] & X); cbn [Z.eqb negb] in X.
      * destruct X as (-> & ->). left. auto.
      * destruct X as (tl & b & n & -> & Hh & TN & l & -> & HX & X). right. cbn [app] in *. apply items_structure; [exact (optional_ne _ octets_ne)|exact HL|]. exists tl, b, n. auto.
    + intros X. destruct r as [r|]; [|destruct X]. destruct X as [(-> & ->)|X].
      * exists 1, [1], []. cbn. auto.
      * apply items_structure in X; [|exact (optional_ne _ octets_ne)|exact HL]. destruct X as (tl & b & n & -> & Hh & TN & HX & X). exists 0, [], (tl ++ b). split; [auto|].
        destruct (starts_header _ _ b t Hh) as (c0 & u & E0 & Hc). split; [right; eauto 8|]. cbn [Z.eqb negb]. exists tl, b, n. eauto 8.
Qed.
Lemma structure_lang_ne {A} (ws : A -> list (list Z -> list Z -> Prop)) : nonempty (required (fun m => structure (ws m))).
Proof. intros [v|] bs t X; [now apply structure_ne in X|destruct X]. Qed.

Ltac acc_prim ::= lazymatch goal with
  | |- acc sml_octet_string_parse _ => exact acc_octets
  | |- acc sml_boolean_parse _ => exact acc_boolean
  | |- acc (@sml_u8_parse _) _ => exact acc_u8
  | |- acc (@sml_u16_parse _) _ => exact acc_u16
  | |- acc (@sml_u32_parse _) _ => exact acc_u32
  | |- acc (@sml_u64_parse _) _ => exact acc_u64
  | |- acc (@sml_i8_parse _) _ => exact acc_i8
  | |- acc (@sml_i16_parse _) _ => exact acc_i16
  | |- acc (@sml_i64_parse _) _ => exact acc_i64
  | |- acc (@sml_value_parse _) _ => exact acc_value
  | |- acc (@sml_status_parse _) _ => exact acc_status
  | |- acc (@sml_time_parse _) _ => exact acc_time
  | |- acc sml_tree_path_parse _ => exact acc_path
  | |- acc (@sml_tree_parse _) _ => exact acc_tree
  | |- acc (@sml_list_parse _) _ => exact acc_list
  | |- acc (sml_sequence_parse _) _ => eassumption
  end.
Section WithHost.
Context {H : Host}.
Lemma acc_header_entry : acc sml_prof_obj_header_entry_parse (required (header_entry true)).
Proof. unfold sml_prof_obj_header_entry_parse. apply acc_label_required. acc_struct. Qed.
Lemma acc_value_entry : acc sml_value_entry_parse (required (value_entry true)).
Proof. unfold sml_value_entry_parse. apply acc_label_required. acc_struct. Qed.
Lemma acc_value_entries : acc (sml_sequence_parse sml_value_entry_parse) (list_of (value_entry true)).
Proof. apply acc_sequence; [mon|exact acc_value_entry|exact (structure_lang_ne _)]. Qed.
Lemma acc_period_entry : acc sml_prof_obj_period_entry_parse (required (period_of_objects true)).
Proof. pose proof acc_value_entries. unfold sml_prof_obj_period_entry_parse. apply acc_label_required. acc_struct. Qed.
Lemma acc_header_entries : acc (sml_sequence_parse sml_prof_obj_header_entry_parse) (list_of (header_entry true)).
Proof. apply acc_sequence; [mon|exact acc_header_entry|exact (structure_lang_ne _)]. Qed.
Lemma acc_period_entries : acc (sml_sequence_parse sml_prof_obj_period_entry_parse) (list_of (period_of_objects true)).
Proof. apply acc_sequence; [mon|exact acc_period_entry|exact (structure_lang_ne _)]. Qed.
Lemma acc_periods : acc (sml_sequence_parse sml_period_entry_parse) (required (sequence_of (optional (period true)))).
Proof. apply acc_sequence; [mon|exact acc_period|]. apply optional_ne. intros v bs t. apply structure_ne. Qed.

Lemma acc_open_req : acc sml_open_request_parse (required (open_request true)).
Proof. unfold sml_open_request_parse. acc_struct. Qed.
Lemma acc_open_res : acc sml_open_response_parse (required (open_response true)).
Proof. unfold sml_open_response_parse. acc_struct. Qed.
Lemma acc_close_req : acc sml_close_request_parse (required close_request).
Proof. unfold sml_close_request_parse. acc_struct. Qed.
Lemma acc_close_res : acc sml_close_response_parse (required close_response).
Proof. unfold sml_close_response_parse. acc_struct. Qed.
Lemma acc_profile_req : acc sml_get_profile_pack_request_parse (required (profile_request true)).
Proof.
  unfold sml_get_profile_pack_request_parse. apply (acc_structure _ _ _); [mon| |lia|reflexivity]; acc_fields.
  refine (acc_present_fld _ _ _ _ _ _ _ _ _); [mon|exact acc_objects|intro]. acc_fields. acc_last.
Qed.
Lemma acc_pack_res : acc sml_get_profile_pack_response_parse (required (profile_pack_response true)).
Proof. pose proof acc_header_entries. pose proof acc_period_entries. unfold sml_get_profile_pack_response_parse. apply acc_label_required. acc_struct. Qed.
Lemma acc_list_res_prof : acc sml_get_profile_list_response_parse (required (profile_list_response true)).
Proof. pose proof acc_periods. unfold sml_get_profile_list_response_parse. apply acc_label_required. acc_struct. Qed.
Lemma acc_proc_req : acc sml_get_proc_parameter_request_parse (required proc_parameter_request).
Proof. unfold sml_get_proc_parameter_request_parse. acc_struct. Qed.
Lemma acc_proc_res : acc sml_get_proc_parameter_response_parse (required (proc_parameter_response true)).
Proof. unfold sml_get_proc_parameter_response_parse. acc_struct. Qed.
Lemma acc_set_proc : acc sml_set_proc_parameter_request_parse (required (set_proc_parameter_request true)).
Proof. unfold sml_set_proc_parameter_request_parse. acc_struct. Qed.
Lemma acc_list_req : acc sml_get_list_request_parse (required list_request).
Proof. unfold sml_get_list_request_parse. acc_struct. Qed.
Lemma acc_list_res : acc sml_get_list_response_parse (required (list_response true)).
Proof. unfold sml_get_list_response_parse. acc_struct. Qed.
Lemma acc_attention : acc sml_attention_response_parse (required (attention true)).
Proof. unfold sml_attention_response_parse. acc_struct. Qed.
End WithHost.
