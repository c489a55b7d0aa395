(** The writers and the example program on hosts with different byte order. *)
From Verif Require Import Base Buf Crc16 Number OctetString Boolean Value Time SList Tree Bodies Message File Transport Server ServerMain
  Lib Wf Enc Hosts HostsSim.

Definition eqp {A} (p q : P A) : Prop := forall s, p s = q s.
Lemma eqp_refl {A} (p : P A) : eqp p p. Proof. intros s. reflexivity. Qed.
Lemma eqp_seq {A B} (p p' : P A) (q q' : P B) : eqp p p' -> eqp q q' -> eqp (p ;;; q) (p' ;;; q').
Proof. intros E1 E2 s. unfold bind. rewrite E1. destruct (p' s) as [[a s']| |]; auto. Qed.
Lemma eqp_same {A B} (p : P A) (q q' : P B) : eqp q q' -> eqp (p ;;; q) (p ;;; q').
Proof. apply eqp_seq, eqp_refl. Qed.
Lemma eqp_all {A B} (w : A -> P unit) (w' : B -> P unit) (f : A -> B) l : Forall (fun a => eqp (w a) (w' (f a))) l -> eqp (write_all w l) (write_all w' (map f l)).
Proof. induction 1; cbn [write_all map]; [apply eqp_refl|]. now apply eqp_seq. Qed.

Section TwoHosts.
Variable H : Host.
Lemma num_write t n m : opt (wf_num n) m -> eqp (@sml_number_write H m t (Z.of_nat n)) (@sml_number_write (other H) (omap (@rev Z) m) t (Z.of_nat n)).
Proof.
  destruct m as [m|]; [|intros _; apply eqp_refl]. intros [HL _]. unfold sml_number_write. cbn [omap write_opt]. apply eqp_same.
  rewrite rev_length, Nat2Z.id. apply eqp_same. unfold sml_number_endian, host_endian. rewrite !firstn_all2 by (rewrite ?rev_length; lia). destruct H; cbn [other]; rewrite swap_rev, ?rev_involutive; apply eqp_refl.
Qed.
Lemma u8_write m : opt (wf_num 1) m -> eqp (@sml_u8_write H m) (@sml_u8_write (other H) (omap (@rev Z) m)).
Proof. apply (num_write _ 1). Qed.
Lemma i8_write m : opt (wf_num 1) m -> eqp (@sml_i8_write H m) (@sml_i8_write (other H) (omap (@rev Z) m)).
Proof. apply (num_write _ 1). Qed.
Lemma u16_write m : opt (wf_num 2) m -> eqp (@sml_u16_write H m) (@sml_u16_write (other H) (omap (@rev Z) m)).
Proof. apply (num_write _ 2). Qed.
Lemma u32_write m : opt (wf_num 4) m -> eqp (@sml_u32_write H m) (@sml_u32_write (other H) (omap (@rev Z) m)).
Proof. apply (num_write _ 4). Qed.
Lemma u64_write m : opt (wf_num 8) m -> eqp (@sml_u64_write H m) (@sml_u64_write (other H) (omap (@rev Z) m)).
Proof. apply (num_write _ 8). Qed.
Lemma i64_write m : opt (wf_num 8) m -> eqp (@sml_i64_write H m) (@sml_i64_write (other H) (omap (@rev Z) m)).
Proof. apply (num_write _ 8). Qed.
(** a number of size 0 is written as its header only *)
Lemma num_write0 t m : eqp (@sml_number_write H (Some m) t 0) (@sml_number_write (other H) (Some (rev m)) t 0).
Proof. unfold sml_number_write. cbn [write_opt]. unfold sml_number_endian, host_endian. destruct H; apply eqp_refl. Qed.

Lemma status_write o : opt wf_status o -> eqp (@sml_status_write H o) (@sml_status_write (other H) (omap flip_status o)).
Proof.
  destruct o as [v|]; [|intros _; apply eqp_refl]. cbn [opt omap]. unfold sml_status_write. cbn [write_opt].
  intros [w m HW HM|m HM]; cbn [flip_status st_type st_data omap].
  - destruct HW as [->|[->|[->| ->]]]; [apply (num_write _ 1)|apply (num_write _ 2)|apply (num_write _ 4)|apply (num_write _ 8)]; exact HM.
  - apply num_write0.
Qed.
Lemma value_write o : opt wf_entry_value o -> eqp (@sml_value_write H o) (@sml_value_write (other H) (omap flip_value o)).
Proof.
  destruct o as [v|]; [|intros _; apply eqp_refl]. cbn [opt omap]. unfold sml_value_write. cbn [write_opt].
  assert (HN : forall t n m, opt (wf_num n) (Some m) -> eqp (d <- as_num_sized (VNum m) (Z.of_nat n) ;; @sml_number_write H d t (Z.of_nat n))
                 (d <- as_num_sized (VNum (rev m)) (Z.of_nat n) ;; @sml_number_write (other H) d t (Z.of_nat n))) by (intros t n m HM s; exact (num_write t n (Some m) HM s)).
  assert (H0 : forall t m, eqp (d <- as_num_sized (VNum m) 0 ;; @sml_number_write H d t 0)
                 (d <- as_num_sized (VNum (rev m)) 0 ;; @sml_number_write (other H) d t 0)) by (intros t m s; exact (num_write0 t m s)).
  intros [HV|(v0 & HV & ->)]; destruct HV as [b Hb|b Hb|w m HW HM|w m HW HM|m HM|m HM];
    unfold force_unsigned, flip_value; cbn [v_type v_data flip_data]; try (apply eqp_refl);
    try (destruct HW as [->|[->|[->| ->]]]; [apply (HN _ 1%nat)|apply (HN _ 2%nat)|apply (HN _ 4%nat)|apply (HN _ 8%nat)]; exact HM);
    try apply H0.
Qed.
Lemma value_write' o : opt wf_value o -> eqp (@sml_value_write H o) (@sml_value_write (other H) (omap flip_value o)).
Proof. intros HV. apply value_write. destruct o; [left; exact HV|exact I]. Qed.
Lemma time_write o : opt wf_time o -> eqp (@sml_time_write H o) (@sml_time_write (other H) (omap flip_time o)).
Proof.
  destruct o as [[t d]|]; [|intros _; apply eqp_refl]. intros [H1 H2]. cbn [tm_tag tm_data] in *. unfold sml_time_write. cbn [write_opt omap flip_time tm_tag tm_data].
  apply eqp_same, eqp_seq; [now apply u8_write|now apply u32_write].
Qed.
Hint Resolve u8_write i8_write u16_write u32_write u64_write i64_write status_write value_write value_write' time_write : eqp.
Ltac eqps := repeat first [apply eqp_same | apply eqp_seq; [solve [auto with eqp]|] | solve [auto with eqp] | apply eqp_refl].
Lemma entry_write e : wf_entry e -> eqp (@sml_list_entry_write H e) (@sml_list_entry_write (other H) (flip_entry e)).
Proof. intros []. unfold sml_list_entry_write. cbn [flip_entry le_obj_name le_status le_val_time le_unit le_scaler le_value le_value_signature]. eqps. Qed.
Lemma list_write l : Forall wf_entry l -> eqp (@sml_list_write H l) (@sml_list_write (other H) (map flip_entry l)).
Proof.
  intros HF. unfold sml_list_write. destruct l as [|e l]; [apply eqp_refl|]. cbn [map]. change (flip_entry e :: map flip_entry l) with (map flip_entry (e :: l)).
  rewrite map_length. apply eqp_same. apply eqp_all. eapply Forall_impl; [|exact HF]. apply entry_write.
Qed.
Lemma tupel_write o : opt wf_tupel o -> eqp (@sml_tupel_entry_write H o) (@sml_tupel_entry_write (other H) (omap flip_tupel o)).
Proof.
  destruct o as [t|]; [|intros _; apply eqp_refl]. intros []. unfold sml_tupel_entry_write. cbn [write_opt omap]. unfold flip_tupel.
  cbn [tu_server_id tu_sec_index tu_status tu_unit_pA tu_scaler_pA tu_value_pA tu_unit_R1 tu_scaler_R1 tu_value_R1 tu_unit_R4 tu_scaler_R4 tu_value_R4 tu_signature_pA_R1_R4
       tu_unit_mA tu_scaler_mA tu_value_mA tu_unit_R2 tu_scaler_R2 tu_value_R2 tu_unit_R3 tu_scaler_R3 tu_value_R3 tu_signature_mA_R2_R3]. eqps.
Qed.
Lemma period_write o : opt wf_period o -> eqp (@sml_period_entry_write H o) (@sml_period_entry_write (other H) (omap flip_period o)).
Proof. destruct o as [t|]; [|intros _; apply eqp_refl]. intros []. unfold sml_period_entry_write. cbn [write_opt omap flip_period pe_obj_name pe_unit pe_scaler pe_value pe_value_signature]. eqps. Qed.
Hint Resolve list_write tupel_write period_write : eqp.
Lemma ppv_write o : opt (@wf_ppv H) o -> eqp (@sml_proc_par_value_write H o) (@sml_proc_par_value_write (other H) (omap flip_ppv o)).
Proof.
  destruct o as [[t d]|]; [|intros _; apply eqp_refl]. intros (m & Et & HM & HD). cbn [ppv_tag ppv_dat] in *. subst t. unfold sml_proc_par_value_write.
  cbn [write_opt omap flip_ppv ppv_tag ppv_dat]. apply eqp_same, eqp_seq; [now apply (u8_write (Some m))|]. rewrite flip_u.
  set (t := @mem_u H m) in *. clearbody t. revert HD.
  assert (HT : match t with 1 | 2 | 3 | 4 => True | _ => False end -> t = 1 \/ t = 2 \/ t = 3 \/ t = 4).
  { clear. destruct t as [|p|p]; try contradiction. do 3 (destruct p as [p|p|]; try contradiction; auto). }
  intros HD. destruct HT as [->|[->|[->| ->]]]; [|destruct HD as (o & -> & HO); intros s..].
  { destruct t as [|p|p]; try contradiction. do 3 (destruct p as [p|p|]; try contradiction; auto). }
  - destruct o as [x|]; [exact (value_write' (Some x) HO s)|exact (value_write' None HO s)].
  - destruct o as [x|]; [exact (period_write (Some x) HO s)|exact (period_write None HO s)].
  - destruct o as [x|]; [exact (tupel_write (Some x) HO s)|exact (tupel_write None HO s)].
  - destruct o as [x|]; [exact (time_write (Some x) HO s)|exact (time_write None HO s)].
Qed.
Lemma tree_write_node t : @wf_tree H t -> eqp (@sml_tree_write_node H t) (@sml_tree_write_node (other H) (flip_tree t)).
Proof.
  revert t. fix IH 2. intros t [n v c HN HV HC]. cbn [sml_tree_write_node flip_tree]. apply eqp_same, eqp_same, eqp_seq; [now apply ppv_write|].
  rewrite map_length. destruct (_ >? 0); [|apply eqp_refl]. apply eqp_same.
  induction HC as [|x l HX HL IHl]; [apply eqp_refl|]. cbn [map]. apply eqp_seq; [now apply IH|exact IHl].
Qed.
Lemma tree_write o : opt (@wf_tree H) o -> eqp (@sml_tree_write H o) (@sml_tree_write (other H) (omap flip_tree o)).
Proof. destruct o as [t|]; [|intros _; apply eqp_refl]. apply tree_write_node. Qed.
Hint Resolve tree_write : eqp.
Lemma seq_write {A} (Q : A -> Prop) (f : A -> A) w w' l : (forall o, Q o -> eqp (w (Some o)) (w' (Some (f o)))) -> Forall Q l ->
  eqp (sml_sequence_write w (Some (map Some l))) (sml_sequence_write w' (omap (map (omap f)) (Some (map Some l)))).
Proof.
  intros HW HF. unfold sml_sequence_write. cbn [write_opt omap]. rewrite !map_length. apply eqp_same. rewrite map_map.
  assert (E : forall v, write_all v (map (fun x => omap f (Some x)) l) = write_all v (map (omap f) (map Some l))) by (intros v; now rewrite map_map).
  rewrite E. apply eqp_all. rewrite Forall_map. eapply Forall_impl; [|exact HF]. intros a Ha. cbn [omap]. auto.
Qed.
Lemma seq_write' {A} (Q : A -> Prop) (f : A -> A) w w' l : (forall o, opt Q o -> eqp (w o) (w' (omap f o))) -> Forall (opt Q) l ->
  eqp (sml_sequence_write w (Some l)) (sml_sequence_write w' (omap (map (omap f)) (Some l))).
Proof.
  intros HW HF. unfold sml_sequence_write. cbn [write_opt omap]. rewrite !map_length. apply eqp_same. apply eqp_all. eapply Forall_impl; [|exact HF]. exact HW.
Qed.
Lemma header_write e : wf_header e -> eqp (@sml_prof_obj_header_entry_write H (Some e)) (@sml_prof_obj_header_entry_write (other H) (Some (flip_header e))).
Proof. intros []. unfold sml_prof_obj_header_entry_write. cbn [deref flip_header he_obj_name he_unit he_scaler]. eqps. Qed.
Lemma val_entry_write e : wf_value_entry e -> eqp (@sml_value_entry_write H (Some e)) (@sml_value_entry_write (other H) (Some (flip_val_entry e))).
Proof. intros []. unfold sml_value_entry_write. cbn [deref flip_val_entry ve_value ve_value_signature]. eqps. Qed.
Lemma per_entry_write e : wf_per_entry e -> eqp (@sml_prof_obj_period_entry_write H (Some e)) (@sml_prof_obj_period_entry_write (other H) (Some (flip_per_entry e))).
Proof.
  intros [H1 H2 (l & EL & HL) H4]. unfold sml_prof_obj_period_entry_write. cbn [deref flip_per_entry pp_val_time pp_status pp_value_list pp_period_signature].
  apply eqp_same, eqp_seq; [auto with eqp|]. apply eqp_seq; [auto with eqp|]. apply eqp_seq; [|apply eqp_refl]. rewrite EL. eapply seq_write; [|exact HL]. apply val_entry_write.
Qed.
Lemma body_write tag d : @wf_body_data H tag d -> eqp (@body_data_write H tag d) (@body_data_write (other H) tag (flip_body_data d)).
Proof.
  assert (HT : forall w : body_data, (~ In tag [256; 257; 512; 513; 768; 769; 1024; 1025; 1280; 1281; 1536; 1792; 1793; 65281]) -> eqp (@body_data_write H tag w) (ret tt) /\ eqp (@body_data_write (other H) tag w) (ret tt)).
  { intros w HN. unfold body_data_write. assert (E : forall k, In k [256; 257; 512; 513; 768; 769; 1024; 1025; 1280; 1281; 1536; 1792; 1793; 65281] -> (tag =? k) = false) by (intros k Hk; apply Z.eqb_neq; intros ->; contradiction).
    unfold SML_MESSAGE_OPEN_REQUEST, SML_MESSAGE_OPEN_RESPONSE, SML_MESSAGE_CLOSE_REQUEST, SML_MESSAGE_CLOSE_RESPONSE, SML_MESSAGE_GET_PROFILE_PACK_REQUEST,
      SML_MESSAGE_GET_PROFILE_PACK_RESPONSE, SML_MESSAGE_GET_PROFILE_LIST_REQUEST, SML_MESSAGE_GET_PROFILE_LIST_RESPONSE, SML_MESSAGE_GET_PROC_PARAMETER_REQUEST,
      SML_MESSAGE_GET_PROC_PARAMETER_RESPONSE, SML_MESSAGE_SET_PROC_PARAMETER_REQUEST, SML_MESSAGE_GET_LIST_REQUEST, SML_MESSAGE_GET_LIST_RESPONSE, SML_MESSAGE_ATTENTION_RESPONSE.
    rewrite !E by (cbn [In]; tauto). split; apply eqp_refl. }
  destruct d as [|m|m|m|m|m|m|m|m|m|m|m|m|m]; cbn [wf_body_data flip_body_data].
  - intros HN s. destruct (HT BNull HN) as [E1 E2]. now rewrite E1, E2.
  - intros [-> []]. change (eqp (@sml_open_request_write H (Some m)) (@sml_open_request_write (other H) (Some (flip_open_req m)))).
    unfold sml_open_request_write. cbn [deref flip_open_req oq_codepage oq_client_id oq_req_file_id oq_server_id oq_username oq_password oq_sml_version]. eqps.
  - intros [-> []]. change (eqp (@sml_open_response_write H (Some m)) (@sml_open_response_write (other H) (Some (flip_open_res m)))).
    unfold sml_open_response_write. cbn [deref flip_open_res or_codepage or_client_id or_req_file_id or_server_id or_ref_time or_sml_version]. eqps.
  - intros [-> _]. apply eqp_refl.
  - intros [-> _]. apply eqp_refl.
  - intros [HX []]. enough (E : eqp (@sml_get_profile_pack_request_write H (Some m)) (@sml_get_profile_pack_request_write (other H) (Some (flip_pack_req m)))) by (destruct HX as [->| ->]; exact E).
    unfold sml_get_profile_pack_request_write. cbn [deref flip_pack_req gq_server_id gq_username gq_password gq_with_rawdata gq_begin_time gq_end_time gq_parameter_tree_path gq_object_list gq_das_details]. eqps.
  - intros [-> [H1 H2 H3 H4 (l5 & E5 & H5) (l6 & E6 & H6) H7 H8]]. change (eqp (@sml_get_profile_pack_response_write H (Some m)) (@sml_get_profile_pack_response_write (other H) (Some (flip_pack_res m)))).
    unfold sml_get_profile_pack_response_write. cbn [deref flip_pack_res gr_server_id gr_act_time gr_reg_period gr_parameter_tree_path gr_header_list gr_period_list gr_rawdata gr_profile_signature].
    apply eqp_same, eqp_same. apply eqp_seq; [auto with eqp|]. apply eqp_seq; [auto with eqp|]. apply eqp_same. rewrite E5, E6.
    apply eqp_seq; [eapply seq_write; [|exact H5]; apply header_write|]. apply eqp_seq; [eapply seq_write; [|exact H6]; apply per_entry_write|]. apply eqp_refl.
  - intros [-> [H1 H2 H3 H4 H5 H6 (l7 & E7 & H7) H8 H9]]. change (eqp (@sml_get_profile_list_response_write H (Some m)) (@sml_get_profile_list_response_write (other H) (Some (flip_prof_list_res m)))).
    unfold sml_get_profile_list_response_write. cbn [deref flip_prof_list_res gl_server_id gl_act_time gl_reg_period gl_parameter_tree_path gl_val_time gl_status gl_period_list gl_rawdata gl_period_signature].
    apply eqp_same, eqp_same. apply eqp_seq; [auto with eqp|]. apply eqp_seq; [auto with eqp|]. apply eqp_same. apply eqp_seq; [auto with eqp|]. apply eqp_seq; [auto with eqp|]. rewrite E7.
    apply eqp_seq; [eapply seq_write'; [|exact H7]; apply period_write|]. apply eqp_refl.
  - intros [-> _]. apply eqp_refl.
  - intros [-> []]. change (eqp (@sml_get_proc_parameter_response_write H (Some m)) (@sml_get_proc_parameter_response_write (other H) (Some (flip_proc_res m)))).
    unfold sml_get_proc_parameter_response_write. cbn [deref flip_proc_res pr_server_id pr_parameter_tree_path pr_parameter_tree]. eqps.
  - intros [-> []]. change (eqp (@sml_set_proc_parameter_request_write H (Some m)) (@sml_set_proc_parameter_request_write (other H) (Some (flip_set_proc m)))).
    unfold sml_set_proc_parameter_request_write. cbn [deref flip_set_proc sq_server_id sq_username sq_password sq_parameter_tree_path sq_parameter_tree]. eqps.
  - intros [-> _]. apply eqp_refl.
  - intros [-> []]. change (eqp (@sml_get_list_response_write H (Some m)) (@sml_get_list_response_write (other H) (Some (flip_list_res m)))).
    unfold sml_get_list_response_write. cbn [deref flip_list_res lr_client_id lr_server_id lr_list_name lr_act_sensor_time lr_val_list lr_list_signature lr_act_gateway_time]. eqps.
  - intros [-> []]. change (eqp (@sml_attention_response_write H (Some m)) (@sml_attention_response_write (other H) (Some (flip_attention m)))).
    unfold sml_attention_response_write. cbn [deref flip_attention ar_server_id ar_attention_number ar_attention_message ar_attention_details]. eqps.
Qed.

(** *** Numbers that are built *)
Lemma mem_of_flip n z : @mem_of (other H) n z = rev (@mem_of H n z).
Proof. unfold mem_of, host_endian. destruct H; cbn [other]; now rewrite ?rev_involutive. Qed.
Lemma le_bytes_length n : forall z, length (le_bytes n z) = n.
Proof. induction n; intros; cbn [le_bytes length]; auto. Qed.
Lemma init_flip z n : (n <= 8)%nat -> @sml_number_init (other H) z n = rev (@sml_number_init H z n).
Proof.
  intros HN. unfold sml_number_init. rewrite mem_of_flip. pose proof (le_bytes_length 8 z) as HL. unfold sml_number_endian, mem_of, host_endian.
  set (l := le_bytes 8 z) in *. clearbody l. destruct H; cbn [other].
  - rewrite rev_involutive, skipn_rev, HL. replace (8 - (8 - n))%nat with n by lia. rewrite (firstn_all2 (rev (firstn n l))) by (rewrite rev_length, firstn_length; lia).
    now rewrite rev_involutive.
  - rewrite skipn_rev, HL. replace (8 - (8 - n))%nat with n by lia. rewrite firstn_all2; [reflexivity|]. rewrite rev_length, firstn_length. lia.
Qed.
Lemma init_wf z : wf_num 2 (@sml_u16_init H z).
Proof.
  unfold sml_u16_init, sml_number_init, sml_number_endian, mem_of, host_endian. destruct H; (split; [reflexivity|]); cbn [le_bytes firstn rev app Nat.sub skipn];
  (constructor; [|constructor; [|constructor]]); unfold byte_ok; apply Z.mod_pos_bound; lia.
Qed.

Lemma message_write m : @writable H m -> sim flip_message (@sml_message_write H m) (@sml_message_write (other H) (flip_message m)).
Proof.
  intros [W1 W2 W3 (b & Eb & (t & Et & HT & HD))]. unfold sml_message_write. cbn [flip_message m_transaction_id m_group_id m_abort_on_error m_message_body].
  apply sim_same. intros st. apply sim_same. intros _. apply sim_same. intros _.
  assert (HS : forall (p q : P unit) (k k' : P sml_message), eqp p q -> sim flip_message k k' -> sim flip_message (p ;;; k) (q ;;; k')).
  { intros p q k k' E HK. apply (sim_bind idf); [|intros []; exact HK]. intros s. rewrite <- E. now destruct (p s) as [[[] s']| |]. }
  apply HS; [now apply u8_write|]. apply HS; [now apply u8_write|]. apply HS.
  - rewrite Eb. cbn [omap]. unfold sml_message_body_write. apply eqp_same. destruct b as [bt bd]. cbn [mb_tag mb_data flip_body] in *. subst bt. cbn [omap].
    apply eqp_seq; [now apply (u32_write (Some t))|]. rewrite flip_u. now apply body_write.
  - apply sim_same. intros n. apply sim_same. intros bs. assert (E : @sml_u16_init (other H) (sml_crc16_calculate bs) = rev (@sml_u16_init H (sml_crc16_calculate bs))) by (apply init_flip; lia).
    rewrite E. apply HS; [apply (u16_write (Some (@sml_u16_init H (sml_crc16_calculate bs)))); cbn [opt]; apply init_wf|].
    apply sim_same. intros _. apply sim_same. intros _. now apply sim_ret.
Qed.
Lemma messages_write l : Forall (@writable H) l -> sim (map flip_message) (@write_messages H l) (@write_messages (other H) (map flip_message l)).
Proof.
  induction 1 as [|m l HM HL IH]; cbn [write_messages map]; [now apply sim_ret|]. apply (sim_bind flip_message); [now apply message_write|]. intros m'.
  apply (sim_bind (map flip_message)); [exact IH|]. intros t'. now apply sim_ret.
Qed.
Lemma frame_write l : Forall (@writable H) l -> sim (map flip_message) (@transport_frame H l) (@transport_frame (other H) (map flip_message l)).
Proof.
  intros HL. unfold transport_frame. do 3 (apply sim_same; intros _). apply (sim_bind (map flip_message)); [now apply messages_write|]. intros ms.
  repeat (apply sim_same; intros ?). now apply sim_ret.
Qed.
Lemma transport_write_flip wr f : Forall (@writable H) (f_messages f) ->
  @sml_transport_write (other H) wr (flip_file f) = on_outcome (fun x => (fst x, flip_file (snd x))) (@sml_transport_write H wr f).
Proof.
  intros HL. unfold sml_transport_write. cbn [flip_file f_messages f_buf]. rewrite (frame_write _ HL (f_buf f)).
  destruct (transport_frame _ _) as [[ms s]| |]; reflexivity.
Qed.
Lemma file_write_flip f : Forall (@writable H) (f_messages f) ->
  @sml_file_write (other H) (flip_file f) = on_outcome flip_file (@sml_file_write H f).
Proof.
  intros HL. unfold sml_file_write. cbn [flip_file f_messages f_buf]. rewrite (messages_write _ HL (f_buf f)). destruct (write_messages _ _) as [[ms s]| |]; reflexivity.
Qed.

(** *** Conversion to double, printing *)
Lemma to_double_flip o : opt wf_entry_value o -> @sml_value_to_double (other H) (omap flip_value o) = @sml_value_to_double H o.
Proof.
  destruct o as [v|]; [|reflexivity]. cbn [opt omap].
  assert (HN : forall sg w m, wf_num w m -> @num_to_double (other H) sg (VNum (rev m)) w = @num_to_double H sg (VNum m) w).
  { intros sg w m [HL _]. unfold num_to_double, deref_num. rewrite rev_length, !firstn_all2 by (rewrite ?rev_length; lia). destruct (_ <? _)%nat; [reflexivity|]. now rewrite flip_u, flip_i. }
  intros [HV|(v0 & HV & ->)]; destruct HV as [b Hb|b Hb|w m HW HM|w m HW HM|m HM|m HM];
    unfold force_unsigned, flip_value; cbn [v_type v_data flip_data]; try reflexivity;
    destruct HW as [->|[->|[->| ->]]]; match goal with |- @sml_value_to_double _ (Some (mkValue ?t _)) = _ => let t' := eval vm_compute in t in change t with t' end; cbn [sml_value_to_double v_type v_data Z.eqb Pos.eqb]; apply HN; exact HM.
Qed.
Lemma strhex_flip v mixed : @sml_value_to_strhex (Some (flip_value v)) mixed = @sml_value_to_strhex (Some v) mixed.
Proof. unfold sml_value_to_strhex, flip_value. cbn [v_data]. now destruct (v_data v). Qed.
Lemma entry_flip e : wf_entry e -> @receive_entry (other H) (flip_entry e) = @receive_entry H e.
Proof.
  intros [_ _ _ _ _ HV _]. destruct e as [n st tm u sc v sg]. cbn [le_value] in HV. pose proof (to_double_flip v HV) as HD. unfold receive_entry, flip_entry. cbn [le_value le_obj_name le_scaler le_unit] in *.
  destruct v as [v|]; [|reflexivity]. cbn [omap] in *. rewrite strhex_flip, HD. cbn [flip_value v_type v_data].
  destruct (Z.eqb (v_type v) SML_TYPE_OCTET_STRING); [reflexivity|]. destruct (Z.eqb (v_type v) SML_TYPE_BOOLEAN); [now destruct (v_data v)|].
  destruct sc as [sc|], u as [u|]; cbn [omap]; rewrite ?flip_i, ?flip_u; reflexivity.
Qed.
Lemma entries_flip l : Forall wf_entry l -> @receive_entries (other H) (map flip_entry l) = @receive_entries H l.
Proof. induction 1 as [|e l HE HL IH]; [reflexivity|]. cbn [map receive_entries]. now rewrite entry_flip, IH. Qed.
Lemma tag_flip m : @print_tag (other H) (flip_message m) = @print_tag H m.
Proof. destruct m as [i g a [[[t|] d]|] c]; unfold print_tag; cbn [flip_message m_message_body omap flip_body mb_tag]; rewrite ?flip_u; reflexivity. Qed.
Lemma tags_flip l : @print_tags (other H) (map flip_message l) = @print_tags H l.
Proof. induction l as [|m l IH]; [reflexivity|]. cbn [map print_tags]. now rewrite tag_flip, IH. Qed.
Lemma message_flip m : @wf_message H m -> @receive_message (other H) (flip_message m) = @receive_message H m.
Proof.
  intros [_ _ _ HB _]. unfold receive_message. rewrite tag_flip. destruct (print_tag m) as [t| |]; try reflexivity. cbn [obind]. destruct (Z.eqb t _); [|reflexivity].
  destruct m as [i g a [[bt d]|] c]; cbn [flip_message m_message_body omap flip_body] in *; [|reflexivity]. destruct HB as (tt' & Et & HT & HD). cbn [mb_data] in HD.
  destruct d; cbn [flip_body_data]; try reflexivity. apply entries_flip. now destruct HD as [_ []].
Qed.
Lemma messages_flip l : Forall (@wf_message H) l -> @receive_messages (other H) (map flip_message l) = @receive_messages H l.
Proof. induction 1 as [|m l HM HL IH]; [reflexivity|]. cbn [map receive_messages]. now rewrite message_flip, IH. Qed.
Lemma first_flip l : Forall (@wf_message H) l -> @receive_first (other H) (map flip_message l) = @receive_first H l.
Proof. induction 1 as [|m l HM HL IH]; [reflexivity|]. cbn [map receive_first]. now rewrite message_flip, tag_flip, IH. Qed.
End TwoHosts.
