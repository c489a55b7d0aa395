(** The parsers read back what the writers wrote: bodies and messages. *)
From Verif Require Import Base Buf Crc16 Number OctetString Boolean Value Time SList Tree Bodies Message File
  Lib Wf Ctx Ctx2 Ctx3 Spec TL Inv CrcProof Reads Write TLWrite TLRound NumFacts PropsString Item Enc Dzg Round Round2.

Section WithHost.
Context {H : Host}.

(** The list is not one that the DZG workaround changes: no entry for the active
    power stands behind the serial number of an affected meter with a value of at
    most two bytes that is not unsigned. *)
Definition dzg_stable (l : sml_list) : Prop := forall l1 e l2 v, l = l1 ++ e :: l2 ->
  Exists affected l1 -> le_obj_name e = Some power_name -> le_value e = Some v ->
  (length (enc (value_item (Some v))) <= 3)%nat -> Z.land (v_type v) 112 = 96.
Lemma force_same v : Z.land (v_type v) 112 = 96 -> force_unsigned v = v.
Proof.
  intros HV. unfold force_unsigned, SML_TYPE_FIELD, SML_TYPE_UNSIGNED. destruct v as [t d]; cbn [v_type v_data] in *. f_equal.
  rewrite <- HV. apply Z.bits_inj'. intros n Hn. rewrite Z.lor_spec, Z.ldiff_spec, Z.land_spec. now destruct (Z.testbit t n), (Z.testbit 112 n).
Qed.
Lemma stable_run l : forall pre w, dzg_stable (pre ++ l) -> (w = true -> Exists affected pre) -> dzg_run w l = l.
Proof.
  induction l as [|e l IH]; intros pre w HS Hw; [reflexivity|]. cbn [dzg_run]. cbv zeta.
  assert (EW : fst (worked w (short_value e) e) = e /\ (snd (worked w (short_value e) e) = true -> Exists affected (pre ++ [e]))).
  { unfold worked. destruct (affectedb e) eqn:EA.
    - split; [reflexivity|]. intros _. apply Exists_app. right. constructor. now apply affectedb_iff.
    - assert (HP : w = true -> Exists affected (pre ++ [e])) by (intros E; apply Exists_app; left; auto).
      destruct (w && is_power e && short_value e) eqn:E; cbn [fst snd]; [|split; [reflexivity|exact HP]]. split; [|exact HP].
      apply andb_true_iff in E. destruct E as [E E3]. apply andb_true_iff in E. destruct E as [E1 E2]. unfold is_power in E2.
      destruct (le_obj_name e) as [n|] eqn:EN; [|discriminate]. apply list_eqb_eq in E2. subst n.
      unfold short_value in E3. apply Nat.leb_le in E3. unfold forced. destruct (le_value e) as [v|] eqn:EV.
      + rewrite force_same; [destruct e; cbn in *; subst; reflexivity|].
        apply (HS pre e l v); auto.
      + destruct e; cbn in *; subst; reflexivity. }
  destruct EW as [-> HX]. f_equal. apply (IH (pre ++ [e])); [now rewrite <- app_assoc|exact HX].
Qed.
Definition body_stable (d : body_data) : Prop := match d with BListRes m => dzg_stable (lr_val_list m) | _ => True end.

Ltac rd HR := apply every_list in HR; destruct HR as [_ HR];
  repeat (apply Forall_cons_iff in HR; let h := fresh "R" in destruct HR as [h HR]).
Ltac fl lem := eapply reads_fl; [apply lem; assumption|].
Ltac fin := apply reads_done.
Ltac st := apply reads_struct; [lia|].

Lemma reads_open_req m : wf_open_req m -> every readable (body_data_item (BOpenReq m)) -> reads sml_open_request_parse (enc (body_data_item (BOpenReq m))) (Some m).
Proof. destruct m as [f1 f2 f3 f4 f5 f6 f7]. intros [W1 W2 W3 W4 W5 W6 W7] HR. cbn [body_data_item oq_codepage oq_client_id oq_req_file_id oq_server_id oq_username oq_password oq_sml_version] in *. rd HR. st. do 6 fl reads_oct. fl reads_u8. fin. Qed.
Lemma reads_open_res m : wf_open_res m -> every readable (body_data_item (BOpenRes m)) -> reads sml_open_response_parse (enc (body_data_item (BOpenRes m))) (Some m).
Proof. destruct m as [f1 f2 f3 f4 f5 f6]. intros [W1 W2 W3 W4 W5 W6] HR. cbn [body_data_item or_codepage or_client_id or_req_file_id or_server_id or_ref_time or_sml_version] in *. rd HR. st. do 4 fl reads_oct. fl reads_time. fl reads_u8. fin. Qed.
Lemma reads_close_req m : wf_close_req m -> every readable (body_data_item (BCloseReq m)) -> reads sml_close_request_parse (enc (body_data_item (BCloseReq m))) (Some m).
Proof. destruct m as [f1]. intros W1 HR. cbn [body_data_item cq_global_signature] in *. rd HR. st. fl reads_oct. fin. Qed.
Lemma reads_close_res m : wf_close_res m -> every readable (body_data_item (BCloseRes m)) -> reads sml_close_response_parse (enc (body_data_item (BCloseRes m))) (Some m).
Proof. destruct m as [f1]. intros W1 HR. cbn [body_data_item cr_global_signature] in *. rd HR. st. fl reads_oct. fin. Qed.
Lemma objects_none l : every readable (objects_item l) -> l = [].
Proof.
  intros HR. destruct l as [|x l]; [reflexivity|]. exfalso. apply every_here in HR. destruct HR as [HR _]. rewrite map_length in HR.
  assert (HL : (length (x :: l) = length (removelast (x :: l)) + 1)%nat).
  { rewrite (app_removelast_last None (l := x :: l)) at 1 by discriminate. now rewrite app_length. }
  lia.
Qed.
Lemma reads_pack_req m : wf_pack_req m -> every readable (body_data_item (BPackReq m)) -> reads sml_get_profile_pack_request_parse (enc (body_data_item (BPackReq m))) (Some m).
Proof.
  destruct m as [a b c d e f g l t]. intros [W1 W2 W3 W4 W5 W6 W7 W8 W9] HR. cbn [body_data_item gq_server_id gq_username gq_password gq_with_rawdata gq_begin_time gq_end_time gq_parameter_tree_path gq_object_list gq_das_details] in *. rd HR. st.
  do 3 fl reads_oct. fl reads_bool. do 2 fl reads_time. fl reads_path. apply objects_none in R6. subst l.
  rewrite flat_cons. cbn [objects_item]. apply (reads_bind _ _ _ _ (Some [])).
  - apply (reads_then _ _ _ 1); [|reflexivity]. intros s u Rs _ _ _. cbn [enc] in Rs. now apply skip_fwd with (t := u).
  - cbv beta iota. fl reads_tree. fin.
Qed.
Lemma reads_header o : (exists e, o = Some e /\ wf_header e) -> every readable (header_item o) -> reads sml_prof_obj_header_entry_parse (enc (header_item o)) o.
Proof. intros ([a b c] & -> & [W1 W2 W3]) HR. cbn [header_item he_obj_name he_unit he_scaler] in *. rd HR. apply reads_label. st. fl reads_oct. fl reads_u8. fl reads_i8. fin. Qed.
Lemma reads_val_entry o : (exists e, o = Some e /\ wf_value_entry e) -> every readable (val_entry_item o) -> reads sml_value_entry_parse (enc (val_entry_item o)) o.
Proof. intros ([a b] & -> & [W1 W2]) HR. cbn [val_entry_item ve_value ve_value_signature] in *. rd HR. apply reads_label. st. fl reads_value'. fl reads_oct. fin. Qed.
Lemma reads_some_seq {A} (p : P (option A)) (f : option A -> item) (W : A -> Prop) o : 
  (forall e, f (Some e) <> IVoid) -> (forall o, (exists e, o = Some e /\ W e) -> every readable (f o) -> reads p (enc (f o)) o) ->
  (exists l, o = Some (map Some l) /\ Forall W l) -> every readable (seq_item f o) -> reads (sml_sequence_parse p) (enc (seq_item f o)) o.
Proof.
  intros HV HP (l & -> & HW) HR. apply reads_sequence; [exact HR|]. rewrite Forall_forall in *. intros x Hx. apply in_map_iff in Hx. destruct Hx as (e & <- & He).
  split; [apply HV|]. intros HE. apply HP; eauto.
Qed.
Lemma reads_headers o : (exists l, o = Some (map Some l) /\ Forall wf_header l) -> every readable (seq_item header_item o) ->
  reads (sml_sequence_parse sml_prof_obj_header_entry_parse) (enc (seq_item header_item o)) o.
Proof. apply reads_some_seq; [discriminate|apply reads_header]. Qed.
Lemma reads_val_entries o : (exists l, o = Some (map Some l) /\ Forall wf_value_entry l) -> every readable (seq_item val_entry_item o) ->
  reads (sml_sequence_parse sml_value_entry_parse) (enc (seq_item val_entry_item o)) o.
Proof. apply reads_some_seq; [discriminate|apply reads_val_entry]. Qed.
Lemma reads_per_entry o : (exists e, o = Some e /\ wf_per_entry e) -> every readable (per_entry_item o) -> reads sml_prof_obj_period_entry_parse (enc (per_entry_item o)) o.
Proof. intros ([a b c d] & -> & [W1 W2 W3 W4]) HR. cbn [per_entry_item pp_val_time pp_status pp_value_list pp_period_signature] in *. rd HR. apply reads_label. st. fl reads_time. fl reads_u64. fl reads_val_entries. fl reads_oct. fin. Qed.
Lemma reads_per_entries o : (exists l, o = Some (map Some l) /\ Forall wf_per_entry l) -> every readable (seq_item per_entry_item o) ->
  reads (sml_sequence_parse sml_prof_obj_period_entry_parse) (enc (seq_item per_entry_item o)) o.
Proof. apply reads_some_seq; [discriminate|apply reads_per_entry]. Qed.
Lemma reads_periods o : (exists l, o = Some l /\ wf_seq wf_period l) -> every readable (seq_item period_item o) ->
  reads (sml_sequence_parse sml_period_entry_parse) (enc (seq_item period_item o)) o.
Proof.
  intros (l & -> & HW) HR. apply reads_sequence; [exact HR|]. unfold wf_seq in HW. rewrite Forall_forall in *. intros x Hx.
  split; [destruct x; discriminate|]. intros HE. apply reads_period; auto.
Qed.
Lemma reads_pack_res m : wf_pack_res m -> every readable (body_data_item (BPackRes m)) -> reads sml_get_profile_pack_response_parse (enc (body_data_item (BPackRes m))) (Some m).
Proof.
  destruct m as [f1 f2 f3 f4 f5 f6 f7 f8]. intros [W1 W2 W3 W4 W5 W6 W7 W8] HR. cbn [body_data_item gr_server_id gr_act_time gr_reg_period gr_parameter_tree_path gr_header_list gr_period_list gr_rawdata gr_profile_signature] in *. rd HR. apply reads_label. st.
  fl reads_oct. fl reads_time. fl reads_u32. fl reads_path. fl reads_headers. fl reads_per_entries. do 2 fl reads_oct. fin.
Qed.
Lemma reads_prof_list_res m : wf_prof_list_res m -> every readable (body_data_item (BProfListRes m)) -> reads sml_get_profile_list_response_parse (enc (body_data_item (BProfListRes m))) (Some m).
Proof.
  destruct m as [f1 f2 f3 f4 f5 f6 f7 f8 f9]. intros [W1 W2 W3 W4 W5 W6 W7 W8 W9] HR. cbn [body_data_item gl_server_id gl_act_time gl_reg_period gl_parameter_tree_path gl_val_time gl_status gl_period_list gl_rawdata gl_period_signature] in *. rd HR. apply reads_label. st.
  fl reads_oct. fl reads_time. fl reads_u32. fl reads_path. fl reads_time. fl reads_u64. fl reads_periods. do 2 fl reads_oct. fin.
Qed.
Lemma reads_proc_req m : wf_proc_req m -> every readable (body_data_item (BProcReq m)) -> reads sml_get_proc_parameter_request_parse (enc (body_data_item (BProcReq m))) (Some m).
Proof. destruct m as [f1 f2 f3 f4 f5]. intros [W1 W2 W3 W4 W5] HR. cbn [body_data_item pq_server_id pq_username pq_password pq_parameter_tree_path pq_attribute] in *. rd HR. st. do 3 fl reads_oct. fl reads_path. fl reads_oct. fin. Qed.
Lemma reads_proc_res m : wf_proc_res m -> every readable (body_data_item (BProcRes m)) -> reads sml_get_proc_parameter_response_parse (enc (body_data_item (BProcRes m))) (Some m).
Proof. destruct m as [f1 f2 f3]. intros [W1 W2 W3] HR. cbn [body_data_item pr_server_id pr_parameter_tree_path pr_parameter_tree] in *. rd HR. st. fl reads_oct. fl reads_path. fl reads_tree. fin. Qed.
Lemma reads_set_proc m : wf_set_proc m -> every readable (body_data_item (BSetProc m)) -> reads sml_set_proc_parameter_request_parse (enc (body_data_item (BSetProc m))) (Some m).
Proof. destruct m as [f1 f2 f3 f4 f5]. intros [W1 W2 W3 W4 W5] HR. cbn [body_data_item sq_server_id sq_username sq_password sq_parameter_tree_path sq_parameter_tree] in *. rd HR. st. do 3 fl reads_oct. fl reads_path. fl reads_tree. fin. Qed.
Lemma reads_list_req m : wf_list_req m -> every readable (body_data_item (BListReq m)) -> reads sml_get_list_request_parse (enc (body_data_item (BListReq m))) (Some m).
Proof. destruct m as [f1 f2 f3 f4 f5]. intros [W1 W2 W3 W4 W5] HR. cbn [body_data_item lq_client_id lq_server_id lq_username lq_password lq_list_name] in *. rd HR. st. do 5 fl reads_oct. fin. Qed.
(** The list response comes back as the workaround leaves it. *)
Definition list_res_run (m : sml_get_list_response) : sml_get_list_response :=
  mkListRes (lr_client_id m) (lr_server_id m) (lr_list_name m) (lr_act_sensor_time m) (dzg_run false (lr_val_list m)) (lr_list_signature m) (lr_act_gateway_time m).
Lemma reads_list_res m : wf_list_res m -> every readable (body_data_item (BListRes m)) -> reads sml_get_list_response_parse (enc (body_data_item (BListRes m))) (Some (list_res_run m)).
Proof.
  destruct m as [f1 f2 f3 f4 f5 f6 f7]. intros [W1 W2 W3 W4 W5 W6 W7] HR. unfold list_res_run. cbn [body_data_item lr_client_id lr_server_id lr_list_name lr_act_sensor_time lr_val_list lr_list_signature lr_act_gateway_time] in *. rd HR. st.
  do 3 fl reads_oct. fl reads_time. fl reads_entries. fl reads_oct. fl reads_time. fin.
Qed.
Lemma reads_attention m : wf_attention m -> every readable (body_data_item (BAttention m)) -> reads sml_attention_response_parse (enc (body_data_item (BAttention m))) (Some m).
Proof. destruct m as [f1 f2 f3 f4]. intros [W1 W2 W3 W4] HR. cbn [body_data_item ar_server_id ar_attention_number ar_attention_message ar_attention_details] in *. rd HR. st. do 3 fl reads_oct. fl reads_tree. fin. Qed.

Definition body_run (d : body_data) : body_data := match d with BListRes m => BListRes (list_res_run m) | _ => d end.
Lemma body_run_stable d : body_stable d -> body_run d = d.
Proof.
  destruct d; try reflexivity. intros HS. cbn [body_run]. f_equal. unfold list_res_run. cbn [body_stable] in HS.
  rewrite (stable_run (lr_val_list m) [] false HS) by discriminate. now destruct m.
Qed.
Lemma reads_body_data tag d : wf_body_data tag d -> every readable (body_data_item d) -> reads (body_data_parse tag) (enc (body_data_item d)) (body_run d).
Proof.
  assert (HB : forall {X} (p : P (option X)) g (o : X) bs, reads p bs (Some o) -> reads (bind p (fun d => ret (from_opt BNull g d))) bs (g o)).
  { intros X p g o bs Hp. apply (reads_then _ _ _ _ _ Hp). reflexivity. }
  destruct d; intros HW HR; cbn [wf_body_data body_run] in *.
  - cbn [In] in HW. unfold body_data_parse. 
    repeat match goal with |- context [tag =? ?c] => destruct (Z.eqb_spec tag c) as [HE|_]; [exfalso; apply HW; unfold SML_MESSAGE_OPEN_REQUEST,
      SML_MESSAGE_OPEN_RESPONSE, SML_MESSAGE_CLOSE_REQUEST, SML_MESSAGE_CLOSE_RESPONSE, SML_MESSAGE_GET_PROFILE_PACK_REQUEST, SML_MESSAGE_GET_PROFILE_PACK_RESPONSE,
      SML_MESSAGE_GET_PROFILE_LIST_REQUEST, SML_MESSAGE_GET_PROFILE_LIST_RESPONSE, SML_MESSAGE_GET_PROC_PARAMETER_REQUEST, SML_MESSAGE_GET_PROC_PARAMETER_RESPONSE,
      SML_MESSAGE_SET_PROC_PARAMETER_REQUEST, SML_MESSAGE_GET_LIST_REQUEST, SML_MESSAGE_GET_LIST_RESPONSE, SML_MESSAGE_ATTENTION_RESPONSE in HE; lia|] end.
    apply reads_ret.
  - destruct HW as [-> HW]. apply HB. now apply reads_open_req.
  - destruct HW as [-> HW]. apply (HB _ _ BOpenRes). now apply reads_open_res.
  - destruct HW as [-> HW]. apply (HB _ _ BCloseReq). now apply reads_close_req.
  - destruct HW as [-> HW]. apply (HB _ _ BCloseRes). now apply reads_close_res.
  - destruct HW as [[-> | ->] HW]; apply (HB _ _ BPackReq); now apply reads_pack_req.
  - destruct HW as [-> HW]. apply (HB _ _ BPackRes). now apply reads_pack_res.
  - destruct HW as [-> HW]. apply (HB _ _ BProfListRes). now apply reads_prof_list_res.
  - destruct HW as [-> HW]. apply (HB _ _ BProcReq). now apply reads_proc_req.
  - destruct HW as [-> HW]. apply (HB _ _ BProcRes). now apply reads_proc_res.
  - destruct HW as [-> HW]. apply (HB _ _ BSetProc). now apply reads_set_proc.
  - destruct HW as [-> HW]. apply (HB _ _ BListReq). now apply reads_list_req.
  - destruct HW as [-> HW]. apply (HB _ _ BListRes). now apply reads_list_res.
  - destruct HW as [-> HW]. apply (HB _ _ BAttention). now apply reads_attention.
Qed.
Lemma reads_body b : wf_body b -> every readable (body_item (Some b)) ->
  reads sml_message_body_parse (enc (body_item (Some b))) (Some (mkBody (mb_tag b) (body_run (mb_data b)))).
Proof.
  destruct b as [tag d]. intros (t & E & Ht & HW) HR. cbn [body_item mb_tag mb_data] in *. subst tag. 
  assert (HP : reads (expect_list 2 (field sml_u32_parse (fun tag => match tag with
      | None => ret None | Some m => bind (body_data_parse (mem_u m)) (fun d => ret (Some (mkBody tag d))) end)))
      (enc (IList 2 [num_item 96 (Some t); body_data_item d])) (Some (mkBody (Some t) (body_run d)))).
  { rd HR. st. eapply reads_fl; [now apply reads_u32|]. rewrite flat_one. apply (reads_then _ _ _ _ _ (reads_body_data _ _ HW R0)). reflexivity. }
  intros s u R Hu He Sm. unfold sml_message_body_parse. unfold bind at 1.
  assert (HN : exists x l, enc (IList 2 [num_item 96 (Some t); body_data_item d]) = x :: l) by (rewrite enc_list, count_text by lia; eexists; eexists; reflexivity).
  destruct HN as (x & l & EX). assert (R' : rest s = x :: l ++ u) by (rewrite R, EX; reflexivity). rewrite (at_end_cons _ _ _ R'). exact (HP s u R Hu He Sm).
Qed.

(** *** the message *)
Definition message_run (m : sml_message) : sml_message :=
  mkMsg (m_transaction_id m) (m_group_id m) (m_abort_on_error m)
    (match m_message_body m with None => None | Some b => Some (mkBody (mb_tag b) (body_run (mb_data b))) end) (m_crc m).
Lemma crc_range bs : 0 <= sml_crc16_calculate bs < 65536.
Proof.
  unfold sml_crc16_calculate. set (f := Z.lxor _ _). cbv zeta.
  assert (E1 : Z.land f 255 = Z.land (Z.land f 65535) 255) by (now rewrite <- Z.land_assoc).
  assert (E2 : Z.land f 65280 = Z.land (Z.land f 65535) 65280) by (now rewrite <- Z.land_assoc).
  rewrite E1, E2. change 65535 with (Z.ones 16). rewrite Z.land_ones by lia. change (2 ^ 16) with 65536.
  pose proof (Z.mod_pos_bound f 65536 ltac:(lia)) as HB. rewrite swap_code by exact HB. unfold swap16.
  pose proof (Z.mod_pos_bound (f mod 65536) 256 ltac:(lia)).
  assert (0 <= f mod 65536 / 256 < 256) by (split; [apply Z.div_pos; lia|apply Z.div_lt_upper_bound; lia]). lia.
Qed.
Lemma field_step {A B} (p : P A) (k : A -> P (option B)) bs v s u : reads p bs v -> rest s = bs ++ u -> u <> [] -> error s = false -> small s ->
  field p k s = k v (at_ s (length bs) false).
Proof.
  intros Hp R Hu He Sm. unfold field. unfold bind at 1. rewrite (Hp s u) by auto. unfold bind, sml_buf_has_errors. now rewrite at_error, He.
Qed.
Lemma message_fwd_gen tid gid ab bb body s t : every readable (oct_item tid) -> opt (wf_num 1) gid -> opt (wf_num 1) ab ->
  reads sml_message_body_parse bb body ->
  let cb := [112 + 6] ++ enc (oct_item tid) ++ enc (num_item 96 gid) ++ enc (num_item 96 ab) ++ bb in
  rest s = (cb ++ seal cb) ++ t -> error s = false -> small s ->
  sml_message_parse s = Ret (Some (mkMsg tid gid ab body (Some (sml_u16_init (sml_crc16_calculate cb)))), at_ s (length (cb ++ seal cb)) false).
Proof.
  intros HO W2 W3 HB cb R He Sm. assert (EC : cb = [112 + 6] ++ enc (oct_item tid) ++ enc (num_item 96 gid) ++ enc (num_item 96 ab) ++ bb) by reflexivity.
  clearbody cb. set (c := sml_crc16_calculate cb) in *.
  assert (SL : length (seal cb) = 4%nat) by apply seal_length.
  assert (LC : (1 <= length cb)%nat) by (rewrite EC; cbn [app length]; lia).
  pose proof (rest_length s) as RL. rewrite R in RL. rewrite !app_length, SL in RL.
  assert (HS : Z.of_nat (buffer_len s) < 2147483648) by exact Sm.
  set (u := seal cb ++ t) in *. assert (Ru : u <> []) by (unfold u, seal; discriminate). rewrite <- app_assoc in R. fold u in R.
  assert (R' := R). rewrite EC, <- !app_assoc in R'.
  unfold sml_message_parse. unfold bind at 1. unfold cursor_int at 1. rewrite Z.sub_0_r, wrap32_small by lia.
  unfold expect_list. destruct (list_header 6 ltac:(lia)) as (TF & TT & TN & TL).
  unfold bind at 1. rewrite (type_fwd _ _ _ R' TF), TT. change (112 =? SML_TYPE_LIST) with true. cbn [negb].
  unfold bind at 1. rewrite (length_fwd _ _ _ Sm R' TF) by lia. rewrite TL, Z.eqb_refl. cbn [negb].
  apply (at_app _ _ _ false) in R'.
  rewrite (field_step _ _ _ _ _ _ (reads_oct tid ltac:(assumption)) R') by auto using app_nonnil. apply (at_app _ _ _ false) in R'.
  rewrite (field_step _ _ _ _ _ _ (reads_u8 gid ltac:(assumption)) R') by auto using app_nonnil. apply (at_app _ _ _ false) in R'.
  rewrite (field_step _ _ _ _ _ _ (reads_u8 ab ltac:(assumption)) R') by auto using app_nonnil. apply (at_app _ _ _ false) in R'.
  rewrite (field_step _ _ _ _ _ _ HB R') by auto using app_nonnil. apply (at_app _ _ _ false) in R'.
  rewrite !at_at in *. cbn [orb] in *.
  match type of R' with rest (at_ s ?n false) = _ => assert (EN : n = length cb) by (rewrite EC, !app_length; lia); rewrite EN in * end.
  unfold bind at 1. unfold cursor_int at 1. change (cursor (at_ s (length cb) false)) with (cursor s + length cb)%nat.
  replace (Z.of_nat (cursor s + length cb) - Z.of_nat (cursor s)) with (Z.of_nat (length cb)) by lia. rewrite wrap32_small by lia.
  unfold bind at 1. change (buffer_len (at_ s (length cb) false)) with (buffer_len s).
  change (cursor (at_ s (length cb) false)) with (cursor s + length cb)%nat.
  rewrite size_sub_ok by lia. destruct (Z.ltb_spec (Z.of_nat (buffer_len s) - Z.of_nat (cursor s + length cb)) 3); [lia|].
  assert (HC : reads sml_u16_parse ([99] ++ big_endian 2 c) (Some (sml_u16_init c))).
  { pose proof (reads_u16 (Some (sml_u16_init c))) as HX. cbn [opt num_item enc] in HX.
    unfold sml_u16_init in *. rewrite init_host in * by lia. rewrite host_twice, big_length in HX. apply HX.
    split; [rewrite host_length; apply big_length|apply host_ok, big_ok]. }
  assert (Rz : rest (at_ s (length cb) false) = ([99] ++ big_endian 2 c) ++ [0] ++ t).
  { rewrite R'. unfold u, seal. fold c. now rewrite <- !app_assoc. }
  unfold bind at 1. rewrite (HC _ _ Rz) by (auto; discriminate).
  apply (at_app _ _ _ false) in Rz. rewrite at_at in *. cbn [orb] in *. replace (length ([99] ++ big_endian 2 c)) with 3%nat in * by (rewrite app_length, big_length; reflexivity).
  unfold bind at 1, sml_buf_has_errors. rewrite at_error, He.
  unfold bind at 1. unfold buffer_slice. destruct (Z.ltb_spec (Z.of_nat (cursor s)) 0); [lia|]. destruct (Z.ltb_spec (Z.of_nat (length cb)) 0); [lia|].
  rewrite !Nat2Z.id. change (buffer_len (at_ s (length cb + 3) false)) with (buffer_len s). change (buffer (at_ s (length cb + 3) false)) with (buffer s).
  destruct (Nat.leb_spec (cursor s + length cb) (buffer_len s)); [|lia].
  fold (rest s). rewrite R, firstn_app, firstn_all, Nat.sub_diag. cbn [firstn]. rewrite app_nil_r. fold c.
  replace (mem_u (sml_u16_init c)) with c.
  2:{ unfold sml_u16_init. rewrite init_host, mem_u_host, big_value by lia. change (256 ^ Z.of_nat 2) with 65536. symmetry. apply Z.mod_small. apply crc_range. }
  rewrite Z.eqb_refl. cbn [negb andb].
  unfold bind at 1. rewrite (at_end_cons _ _ _ Rz). unfold bind at 1. rewrite (current_cons _ _ _ Rz). change (0 =? SML_MESSAGE_END) with true. cbv iota.
  unfold bind at 1. rewrite (update_eq 1). unfold ret. f_equal. f_equal.
  rewrite app_length, SL. unfold at_, set_ovf, set_cursor. destruct s; cbn. f_equal. lia.
Qed.
Lemma message_fwd m s t : writable m -> Forall (every readable) (message_items m) ->
  rest s = message_bytes m ++ t -> error s = false -> small s ->
  sml_message_parse s = Ret (Some (message_run (sealed m)), at_ s (length (message_bytes m)) false).
Proof.
  intros HW HR R He Sm. destruct m as [tid gid ab body crc]. destruct HW as [W1 W2 W3 W4]. unfold message_items in HR.
  cbn [m_transaction_id m_group_id m_abort_on_error m_message_body m_crc] in *.
  repeat (apply Forall_cons_iff in HR; let h := fresh "R" in destruct HR as [h HR]).
  destruct W4 as (b & -> & Wb). unfold message_bytes in *. set (cb := checked_bytes _) in *.
  unfold message_run, sealed. cbn [m_transaction_id m_group_id m_abort_on_error m_message_body m_crc].
  assert (EC : cb = [112 + 6] ++ enc (oct_item tid) ++ enc (num_item 96 gid) ++ enc (num_item 96 ab) ++ enc (body_item (Some b))).
  { unfold cb, checked_bytes, message_items. cbn [m_transaction_id m_group_id m_abort_on_error m_message_body]. rewrite !flat_cons. cbn [flat_map]. now rewrite app_nil_r. }
  fold cb. clearbody cb. rewrite EC in *. apply message_fwd_gen with (t := t); auto. now apply reads_body.
Qed.
Definition message_stable (m : sml_message) : Prop := match m_message_body m with None => True | Some b => body_stable (mb_data b) end.
Lemma message_run_stable m : message_stable m -> message_run m = m.
Proof.
  unfold message_stable, message_run. destruct m as [a b c [[t d]|] e]; cbn [m_transaction_id m_group_id m_abort_on_error m_message_body m_crc mb_tag mb_data]; intros HS; [|reflexivity].
  now rewrite body_run_stable.
Qed.
End WithHost.
