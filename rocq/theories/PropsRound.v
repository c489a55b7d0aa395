(** Properties C25, C32 - C34 and C36: writing and reading back messages and files. *)
From Verif Require Import Base Buf Crc16 Number OctetString Boolean Value Time SList Tree Bodies Message File
  Lib Wf Safe Safe2 Safe3 Ctx Spec TL Inv MinSize Reads Write TLWrite TLRound NumFacts PropsString Item Enc Dzg Round Round2 Round3.

(** ** Specification *)
Section WithHost.
Context {H : Host}.
(** A message a user may expect to survive: its fields have the C types (numbers
    of the right width, union members as their tags say), the body is there,
    every element is [readable] (Item.v: nothing from C14, C26, C27, C29, C30; no
    empty octet string and none of the lengths of C16; lists of at most 15
    elements, C17 and C28), and its value list is not one the DZG workaround
    changes (C45). *)
Definition round_trippable (m : sml_message) : Prop :=
  writable m /\ Forall (every readable) (message_items m) /\ message_stable m.

Lemma readable_size i : every readable i -> every (size_ok false) i.
Proof.
  revert i. fix IH 1. intros [| |bs|bs|b|ty bs|n l]; cbn [every]; intros [HR HL]; split; auto; cbn [readable size_ok] in *.
  - split; [tauto|discriminate].
  - destruct HR as [HR1 HR2]. split; [change (2 ^ 28) with 268435456; lia|discriminate].
  - clear HR. induction l as [|x l IHl]; [exact I|]. destruct HL as [HX HL]. split; [apply IH; exact HX|apply IHl; exact HL].
Qed.
Lemma readable_sizes l : Forall (every readable) l -> Forall (every (size_ok false)) l.
Proof. apply Forall_impl. intros i. apply readable_size. Qed.
Lemma sealed_stable m : message_stable m -> message_run (sealed m) = sealed m.
Proof. intros HS. apply message_run_stable. exact HS. Qed.

(** *** files *)
Lemma message_hd m : exists t, message_bytes m = 118 :: t.
Proof. unfold message_bytes, checked_bytes. eexists. reflexivity. Qed.
Lemma file_loop_zeros k : forall fuel msgs s, (k < fuel)%nat -> rest s = repeat 0 k ->
  file_loop fuel msgs s = Ret (msgs, set_cursor (cursor s + k) s).
Proof.
  induction k as [|k IH]; intros fuel msgs s Hf R; destruct fuel as [|fuel]; try lia; cbn [file_loop].
  - unfold bind. rewrite (at_end_nil _ R). unfold ret. rewrite Nat.add_0_r. now destruct s.
  - cbn [repeat] in R. unfold bind at 1. rewrite (at_end_cons _ _ _ R). unfold bind at 1. rewrite (current_cons _ _ _ R).
    change (0 =? SML_MESSAGE_END) with true. cbv iota. unfold bind at 1. rewrite (update_eq 1).
    rewrite IH by (try lia; rewrite rest_set_cursor, R; reflexivity). unfold set_cursor. cbn [cursor buffer error ovf]. do 3 f_equal. lia.
Qed.
Lemma file_loop_messages l : forall fuel msgs s k, Forall round_trippable l -> (length (flat_map message_bytes l) + k < fuel)%nat ->
  rest s = flat_map message_bytes l ++ repeat 0 k -> error s = false -> small s -> Z.of_nat (length msgs + length l) <= 32767 ->
  exists s', file_loop fuel msgs s = Ret (msgs ++ map sealed l, s') /\ error s' = false /\ buffer s' = buffer s /\ cursor s' = (cursor s + length (flat_map message_bytes l) + k)%nat.
Proof.
  induction l as [|m l IH]; intros fuel msgs s k HR Hf R He Sm HC.
  - cbn [flat_map app length map] in *. rewrite file_loop_zeros with (k := k) by auto. rewrite app_nil_r. eexists. split; [reflexivity|]. repeat split; auto. cbn [cursor set_cursor]. lia.
  - apply Forall_cons_iff in HR. destruct HR as [(W & Rd & St) HR]. cbn [flat_map map] in *. rewrite app_length in *. rewrite <- app_assoc in R.
    destruct fuel as [|fuel]; [lia|]. cbn [file_loop]. destruct (message_hd m) as (t & EM).
    assert (R0 : rest s = 118 :: t ++ flat_map message_bytes l ++ repeat 0 k) by (rewrite R, EM; reflexivity).
    unfold bind at 1. rewrite (at_end_cons _ _ _ R0). unfold bind at 1. rewrite (current_cons _ _ _ R0). change (118 =? SML_MESSAGE_END) with false. cbv iota.
    unfold bind at 1. rewrite (message_fwd m s _ W Rd R He Sm). rewrite sealed_stable by exact St.
    unfold bind at 1, sml_buf_has_errors. rewrite at_error, He. cbv iota.
    unfold bind at 1, sml_file_add_message. cbn [length] in HC. destruct (Z.leb_spec (Z.of_nat (length msgs) + 1) 32767); [|lia]. unfold ret at 1.
    assert (HL : (1 <= length (message_bytes m))%nat) by (rewrite EM; cbn [length]; lia).
    destruct (IH fuel (msgs ++ [sealed m]) (at_ s (length (message_bytes m)) false) k) as (s' & E & Er & Eb & Ec); auto.
    + lia.
    + now apply at_app.
    + rewrite app_length. cbn [length]. lia.
    + exists s'. rewrite E, <- app_assoc. split; [reflexivity|]. split; [exact Er|]. split; [rewrite Eb; reflexivity|].
      rewrite Ec. cbn [cursor at_ set_ovf set_cursor]. lia.
Qed.
End WithHost.

(** ** C25 *)
(** Anywhere in a buffer, in front of and behind anything, if the memory the
    message takes was zero. *)
Theorem C25_message_round_trip (H : Host) m pre n post o :
  round_trippable m -> n = length (message_bytes m) -> bytes_ok (pre ++ post) -> Z.of_nat (length pre + n + length post) < 2147483648 ->
  exists m' s1 s2, sml_message_write m (mkBuf (pre ++ repeat 0 n ++ post) (length pre) false o) = Ret (m', s1) /\
    m_transaction_id m' = m_transaction_id m /\ m_group_id m' = m_group_id m /\ m_abort_on_error m' = m_abort_on_error m /\
    m_message_body m' = m_message_body m /\
    sml_message_parse (set_cursor (length pre) s1) = Ret (Some m', s2) /\ error s2 = false /\ cursor s2 = cursor s1.
Proof.
  intros (W & Rd & St) -> HB HL.
  pose proof (mwrites_message false m W (readable_sizes _ Rd)) as HM.
  assert (HB' : bytes_ok (pre ++ repeat 0 (length (message_bytes m)) ++ post)).
  { unfold bytes_ok in *. rewrite !Forall_app in *. split; [tauto|]. split; [|tauto]. apply Forall_forall. intros x Hx. apply repeat_spec in Hx. unfold byte_ok. lia. }
  destruct (proj1 (HM pre (repeat 0 (length (message_bytes m))) post false o HB' ltac:(rewrite !app_length, repeat_length; lia)) (repeat_length _ _))
    as (out & v & o' & E & Lo & Bo & Z). destruct Z as [-> ->]; [now right|].
  eexists (sealed m), _, _. split; [exact E|]. do 4 (split; [reflexivity|]).
  split; [|].
  - rewrite (message_fwd m _ post W Rd); [now rewrite sealed_stable by exact St| |reflexivity|].
    + unfold rest, set_cursor. cbn [buffer cursor]. rewrite skipn_app, skipn_all, Nat.sub_diag. reflexivity.
    + unfold small, buffer_len, set_cursor. cbn [buffer]. rewrite !app_length. lia.
  - split; reflexivity.
Qed.
Print Assumptions C25_message_round_trip.
(** In a fresh buffer of the library. *)
Theorem C25_fresh_buffer (H : Host) m n : round_trippable m -> (length (message_bytes m) <= n)%nat -> Z.of_nat n < 2147483648 ->
  exists m' s1 s2, sml_message_write m (sml_buffer_init n) = Ret (m', s1) /\ m_message_body m' = m_message_body m /\
    sml_message_parse (set_cursor 0 s1) = Ret (Some m', s2) /\ error s2 = false /\ cursor s2 = cursor s1.
Proof.
  intros HR Hn Hs. destruct (C25_message_round_trip H m [] _ (repeat 0 (n - length (message_bytes m))) false HR eq_refl) as (m' & s1 & s2 & E & _ & _ & _ & EB & E2).
  - cbn [app]. apply Forall_forall. intros x Hx. apply repeat_spec in Hx. unfold byte_ok. lia.
  - rewrite repeat_length. cbn [length]. lia.
  - exists m', s1, s2. split; [|split; [exact EB|exact E2]]. rewrite <- E. unfold sml_buffer_init. cbn [app length]. rewrite <- repeat_app. do 3 f_equal. lia.
Qed.
Print Assumptions C25_fresh_buffer.

(** ** C32 *)
(** The file is written into zeroed memory; the parser gets the bytes up to the
    cursor, or also some of the zeros that follow. *)
Theorem C32_file_round_trip (H : Host) l n k : Forall round_trippable l -> (length l <= Z.to_nat 32767)%nat ->
  (length (flat_map message_bytes l) + k <= n)%nat -> Z.of_nat n < 2147483648 ->
  exists f f', sml_file_write (mkFile l (sml_buffer_init n)) = Ret f /\
    map m_message_body (f_messages f) = map m_message_body l /\
    map m_transaction_id (f_messages f) = map m_transaction_id l /\
    sml_file_parse (firstn (cursor (f_buf f) + k) (buffer (f_buf f))) = Ret f' /\
    f_messages f' = f_messages f /\ error (f_buf f') = false.
Proof.
  intros HR HC Hn Hs. set (bs := flat_map message_bytes l) in *.
  assert (HW : Forall writable l) by (eapply Forall_impl; [|exact HR]; intros m Hm; apply Hm).
  assert (HS : Forall (fun m => Forall (every (size_ok false)) (message_items m)) l) by (eapply Forall_impl; [|exact HR]; intros m Hm; apply readable_sizes, Hm).
  assert (HB : bytes_ok ([] ++ repeat 0 (length bs) ++ repeat 0 (n - length bs))).
  { cbn [app]. rewrite <- repeat_app. apply Forall_forall. intros x Hx. apply repeat_spec in Hx. unfold byte_ok. lia. }
  destruct (proj1 (mwrites_messages false l HW HS [] (repeat 0 (length bs)) (repeat 0 (n - length bs)) false false HB ltac:(rewrite !app_length, !repeat_length; cbn [length]; lia)) (repeat_length _ _))
    as (out & v & o' & E & Lo & Bo & Z). fold bs in E, Z. destruct Z as [-> ->]; [now right|].
  assert (E0 : write_messages l (sml_buffer_init n) = Ret (map sealed l, mkBuf ([] ++ bs ++ repeat 0 (n - length bs)) (length (@nil Z) + length bs) false o')).
  { rewrite <- E. unfold sml_buffer_init. cbn [app length]. rewrite <- repeat_app. do 3 f_equal. lia. }
  eexists. unfold sml_file_write. cbn [f_messages f_buf]. rewrite E0.
  cbn [app length Nat.add cursor buffer f_buf].
  assert (EF : firstn (length bs + k) (bs ++ repeat 0 (n - length bs)) = bs ++ repeat 0 k).
  { rewrite firstn_app. rewrite firstn_all2 by lia. replace (length bs + k - length bs)%nat with k by lia.
    f_equal. replace (n - length bs)%nat with (k + (n - length bs - k))%nat by lia. rewrite repeat_app, firstn_app, repeat_length, Nat.sub_diag, firstn_O, app_nil_r.
    apply firstn_all2. rewrite repeat_length. lia. }
  destruct (file_loop_messages l (S (length (bs ++ repeat 0 k))) [] (mkBuf (bs ++ repeat 0 k) 0 false false) k HR) as (s' & E1 & Er & Eb & Ec).
  - rewrite app_length, repeat_length. fold bs. lia.
  - reflexivity.
  - reflexivity.
  - unfold small, buffer_len. cbn [buffer]. rewrite app_length, repeat_length. lia.
  - cbn [length]. lia.
  - eexists. split; [reflexivity|]. cbn [f_messages f_buf cursor buffer]. rewrite EF. unfold sml_file_parse. rewrite E1. cbn [app].
    rewrite !map_map. split; [now apply map_ext|]. split; [now apply map_ext|]. split; [reflexivity|]. split; [reflexivity|exact Er].
Qed.
Print Assumptions C32_file_round_trip.

(** ** C33 *)
Definition survivor (H : Host) (m : sml_message) : Prop :=
  m_message_body m <> None /\ Forall (every readable) (message_items m) /\ message_stable m.
Theorem C33_parsed_messages_are_normal_forms (H : Host) bytes f m n : bytes_ok bytes -> sml_file_parse bytes = Ret f -> In m (f_messages f) ->
  survivor H m -> (length (message_bytes m) <= n)%nat -> Z.of_nat n < 2147483648 ->
  exists m' s1 s2, sml_message_write m (sml_buffer_init n) = Ret (m', s1) /\
    m_transaction_id m' = m_transaction_id m /\ m_group_id m' = m_group_id m /\ m_abort_on_error m' = m_abort_on_error m /\
    m_message_body m' = m_message_body m /\
    sml_message_parse (set_cursor 0 s1) = Ret (Some m', s2) /\ error s2 = false /\ cursor s2 = cursor s1.
Proof.
  intros Hb E Hm (HN & Rd & St) Hn Hs.
  assert (HW : wf_message m).
  { pose proof (file_parse_safe 7 bytes min_size_7 Hb) as HP. rewrite E in HP. destruct HP as (_ & _ & _ & HF & _).
    rewrite Forall_forall in HF. eapply parsed_in_wf. apply (HF m Hm). }
  destruct HW as [W1 W2 W3 W4 W5]. destruct (m_message_body m) as [b|] eqn:EB; [|congruence].
  assert (HR : round_trippable m) by (split; [constructor; eauto|split; assumption]).
  destruct (C25_message_round_trip H m [] _ (repeat 0 (n - length (message_bytes m))) false HR eq_refl) as (m' & s1 & s2 & E1 & E2 & E3 & E4 & E5 & E6).
  - cbn [app]. apply Forall_forall. intros x Hx. apply repeat_spec in Hx. unfold byte_ok. lia.
  - rewrite repeat_length. cbn [length]. lia.
  - exists m', s1, s2. split; [|rewrite <- EB; auto]. rewrite <- E1. unfold sml_buffer_init. cbn [app length]. rewrite <- repeat_app. do 3 f_equal. lia.
Qed.
Print Assumptions C33_parsed_messages_are_normal_forms.

(** ** C34 *)
(** All that is asked of the messages is that their lengths are below 2^28 (any
    = false), and for arbitrary old memory that every length fits one byte. *)
Definition sized (H : Host) (any : bool) (l : list sml_message) : Prop :=
  Forall writable l /\ Forall (fun m => Forall (every (size_ok any)) (message_items m)) l.
Theorem C34_file_write_exact (H : Host) any l pre old post e o :
  sized H any l -> bytes_ok (pre ++ old ++ post) -> Z.of_nat (length (pre ++ old ++ post)) < 2147483648 ->
  let bs := flat_map message_bytes l in
  let f := mkFile l (mkBuf (pre ++ old ++ post) (length pre) e o) in
  (length old = length bs -> exists out f', sml_file_write f = Ret f' /\
     buffer (f_buf f') = pre ++ out ++ post /\ cursor (f_buf f') = (length pre + length bs)%nat /\ error (f_buf f') = e /\
     length out = length bs /\ (any = true \/ old = repeat 0 (length bs) -> out = bs)) /\
  ((length (old ++ post) < length bs)%nat -> sml_file_write f = Fault OobWrite).
Proof.
  intros [HW HS] HB HL bs f. destruct (mwrites_messages any l HW HS pre old post e o HB HL) as [M1 M2]. split.
  - intros Hl. destruct (M1 Hl) as (out & v & o' & E & Lo & Bo & Z). exists out. eexists. unfold sml_file_write, f. cbn [f_messages f_buf]. rewrite E.
    split; [reflexivity|]. repeat (split; [reflexivity|]). split; [exact Lo|]. intros HZ. apply Z, HZ.
  - intros Hl. unfold sml_file_write, f. cbn [f_messages f_buf]. now rewrite M2.
Qed.
Print Assumptions C34_file_write_exact.
Theorem C34_message_write_exact (H : Host) any m pre old post e o :
  sized H any [m] -> bytes_ok (pre ++ old ++ post) -> Z.of_nat (length (pre ++ old ++ post)) < 2147483648 ->
  let bs := message_bytes m in
  let s := mkBuf (pre ++ old ++ post) (length pre) e o in
  (length old = length bs -> exists out m' s', sml_message_write m s = Ret (m', s') /\
     buffer s' = pre ++ out ++ post /\ cursor s' = (length pre + length bs)%nat /\ error s' = e /\
     length out = length bs /\ (any = true \/ old = repeat 0 (length bs) -> out = bs)) /\
  ((length (old ++ post) < length bs)%nat -> sml_message_write m s = Fault OobWrite).
Proof.
  intros [HW HS] HB HL bs s. apply Forall_cons_iff in HW, HS. destruct (mwrites_message any m (proj1 HW) (proj1 HS) pre old post e o HB HL) as [M1 M2]. split.
  - intros Hl. destruct (M1 Hl) as (out & v & o' & E & Lo & Bo & Z). eexists out, _, _. unfold s. rewrite E.
    split; [reflexivity|]. repeat (split; [reflexivity|]). split; [exact Lo|]. intros HZ. apply Z, HZ.
  - exact M2.
Qed.
Print Assumptions C34_message_write_exact.

(** ** C36 *)
(** Where every length fits in one byte the old contents of the memory do not
    matter at all ([any] = true of C34).  They matter otherwise: the same
    message written over the same buffer content 0xff leaves different bytes,
    which the parser rejects. *)
Theorem C36_one_byte_lengths_independent (H : Host) l pre old old' post e o :
  sized H true l -> bytes_ok (pre ++ old ++ post) -> bytes_ok old' -> length old' = length old ->
  Z.of_nat (length (pre ++ old ++ post)) < 2147483648 -> length old = length (flat_map message_bytes l) ->
  exists f f', sml_file_write (mkFile l (mkBuf (pre ++ old ++ post) (length pre) e o)) = Ret f /\
    sml_file_write (mkFile l (mkBuf (pre ++ old' ++ post) (length pre) e o)) = Ret f' /\
    f_messages f = f_messages f' /\ buffer (f_buf f) = buffer (f_buf f') /\ cursor (f_buf f) = cursor (f_buf f').
Proof.
  intros [HW HS] HB HB' HO HL Ho.
  assert (HB2 : bytes_ok (pre ++ old' ++ post)) by (unfold bytes_ok in *; rewrite !Forall_app in *; tauto).
  assert (HL2 : Z.of_nat (length (pre ++ old' ++ post)) < 2147483648) by (rewrite !app_length in *; lia).
  destruct (proj1 (mwrites_messages true l HW HS pre old post e o HB HL) Ho) as (out & v & o1 & E1 & _ & _ & Z1).
  destruct (proj1 (mwrites_messages true l HW HS pre old' post e o HB2 HL2) ltac:(congruence)) as (out2 & v2 & o2 & E2 & _ & _ & Z2).
  destruct (Z1 (or_introl eq_refl)) as [-> ->]. destruct (Z2 (or_introl eq_refl)) as [-> ->].
  unfold sml_file_write. cbn [f_messages f_buf]. rewrite E1, E2. eexists _, _. repeat split; reflexivity.
Qed.
Print Assumptions C36_one_byte_lengths_independent.

(** *** Concrete messages *)
Definition u8 (z : Z) : mem := [z].
Definition sample_list (H : Host) : sml_message :=
  mkMsg (Some [0; 56; 0; 0; 63; 182]) (Some (u8 0)) (Some (u8 0))
   (Some (mkBody (Some (sml_u32_init 1793)) (BListRes (mkListRes None (Some [10; 1; 69; 77; 72]) None
      (Some (mkTime (Some (u8 1)) (Some (sml_u32_init 305419896))))
      [ mkEntry (Some [1; 0; 96; 50; 1; 1]) None None None None (Some (mkValue 0 (VBytes [69; 77; 72]))) None;
        mkEntry (Some [1; 0; 1; 8; 0; 255]) (Some (mkStatus 97 (Some [130]))) (Some (mkTime (Some (u8 2)) (Some (sml_u32_init 7))))
          (Some (u8 30)) (Some (u8 255)) (Some (mkValue 88 (VNum [1; 2; 3; 4; 5; 6; 7; 8]))) (Some (repeat 7 20)) ;
        mkEntry (Some [1; 0; 16; 7; 0; 255]) None None (Some (u8 27)) (Some (u8 254)) (Some (mkValue 82 (VNum [255; 16]))) None ]
      None None)))) None.
Definition sample_tree (H : Host) : sml_message :=
  mkMsg None None (Some (u8 255))
   (Some (mkBody (Some (sml_u32_init 1536)) (BSetProc (mkSetProc (Some [1]) (Some [72; 105]) None (Some [[1; 2]; [3]])
     (Some (Tree (Some [129; 129]) (Some (mkPpv (Some (u8 1)) (PValue (mkValue 64 (VBool 255)))))
       [Tree (Some (repeat 48 50)) (Some (mkPpv (Some (u8 4)) (PTime (mkTime None (Some (sml_u32_init 9)))))) [Tree None None []];
        Tree None (Some (mkPpv (Some (u8 2)) (PPeriod (mkPeriod (Some [5]) (Some (u8 30)) None (Some (mkValue 97 (VNum [3]))) None)))) []])))))) None.
Ltac pj := cbn [opt v_type v_data st_type st_data tm_tag tm_data le_obj_name le_status le_val_time le_unit le_scaler le_value le_value_signature tu_server_id tu_sec_index tu_status tu_unit_pA tu_scaler_pA tu_value_pA tu_unit_R1 tu_scaler_R1 tu_value_R1 tu_unit_R4 tu_scaler_R4 tu_value_R4 tu_signature_pA_R1_R4 tu_unit_mA tu_scaler_mA tu_value_mA tu_unit_R2 tu_scaler_R2 tu_value_R2 tu_unit_R3 tu_scaler_R3 tu_value_R3 tu_signature_mA_R2_R3 pe_obj_name pe_unit pe_scaler pe_value pe_value_signature ppv_tag ppv_dat oq_codepage oq_client_id oq_req_file_id oq_server_id oq_username oq_password oq_sml_version or_codepage or_client_id or_req_file_id or_server_id or_ref_time or_sml_version cq_global_signature cr_global_signature gq_server_id gq_username gq_password gq_with_rawdata gq_begin_time gq_end_time gq_parameter_tree_path gq_object_list gq_das_details he_obj_name he_unit he_scaler ve_value ve_value_signature pp_val_time pp_status pp_value_list pp_period_signature gr_server_id gr_act_time gr_reg_period gr_parameter_tree_path gr_header_list gr_period_list gr_rawdata gr_profile_signature gl_server_id gl_act_time gl_reg_period gl_parameter_tree_path gl_val_time gl_status gl_period_list gl_rawdata gl_period_signature pq_server_id pq_username pq_password pq_parameter_tree_path pq_attribute pr_server_id pr_parameter_tree_path pr_parameter_tree sq_server_id sq_username sq_password sq_parameter_tree_path sq_parameter_tree lq_client_id lq_server_id lq_username lq_password lq_list_name lr_client_id lr_server_id lr_list_name lr_act_sensor_time lr_val_list lr_list_signature lr_act_gateway_time ar_server_id ar_attention_number ar_attention_message ar_attention_details mb_tag mb_data m_transaction_id m_group_id m_abort_on_error m_message_body m_crc].
Ltac isbytes := match goal with |- bytes_ok ?m => let m2 := eval vm_compute in m in change (bytes_ok m2) end; unfold bytes_ok; repeat (apply Forall_cons; [unfold byte_ok; lia|]); apply Forall_nil.
Ltac wfs := pj; match goal with
  | |- True => exact I
  | |- wf_oct _ => split; [isbytes|reflexivity]
  | |- wf_num _ _ => split; [reflexivity|isbytes]
  | |- wf_time _ => split; wfs
  | |- wf_path _ => repeat (apply Forall_cons; [wfs|]); apply Forall_nil
  | |- Forall _ _ => repeat (apply Forall_cons; [wfs|]); apply Forall_nil
  | |- wf_entry_value _ => left; wfs
  | |- wf_value (mkValue 0 _) => apply wfv_bytes; wfs
  | |- wf_value (mkValue 64 _) => apply wfv_bool; unfold wf_bool; lia
  | |- wf_value (mkValue ?t (VNum ?m)) => first [apply (wfv_int (length m)); [unfold width_ok; cbn; lia|wfs] | apply (wfv_uns (length m)); [unfold width_ok; cbn; lia|wfs]]
  | |- wf_status (mkStatus _ (Some ?m)) => apply (wfs_num (length m)); [unfold width_ok; cbn; lia|wfs]
  | |- wf_tree _ => apply wf_Tree; wfs
  | |- wf_ppv _ => eexists; split; [reflexivity|]; split; [wfs|]; cbn [mem_u u8 le_value nth Z.add Z.mul Z.of_nat ppv_dat]; eexists (Some _); split; [reflexivity|wfs]
  | |- wf_seq _ _ => unfold wf_seq; wfs
  | |- wf_entry _ => constructor; wfs
  | |- wf_close_req _ => unfold wf_close_req; wfs
  | |- wf_list_res _ => constructor; wfs
  | |- wf_set_proc _ => constructor; wfs
  | |- wf_period _ => constructor; wfs
  | |- wf_tupel _ => constructor; wfs
  | |- wf_bool _ => unfold wf_bool; lia
  | |- wf_pack_req _ => constructor; wfs
  | |- ?g => idtac g; fail
  end.
(** Deciding the conditions. *)
Definition lostb (n : Z) : bool :=
  (n =? 254) || (4093 <=? n) && (n <=? 4094) || (65532 <=? n) && (n <=? 65534) || (1048571 <=? n) && (n <=? 1048574) ||
  (16777210 <=? n) && (n <=? 16777214) || (268435449 <=? n) && (n <=? 268435454).
Definition readableb (i : item) : bool :=
  match i with
  | IWrong _ => false
  | IOctets bs => match bs with [] => false | _ => (Z.of_nat (length bs) <? 268435455) && negb (lostb (Z.of_nat (length bs))) end
  | IList n l => (n =? Z.of_nat (length l)) && (n <=? 15)
  | _ => true
  end.
Fixpoint everyb (Q : item -> bool) (i : item) : bool :=
  Q i && match i with IList _ l => forallb (everyb Q) l | _ => true end.
Lemma readableb_sound i : readableb i = true -> readable i.
Proof.
  destruct i as [| |bs|bs|b|ty bs|n l]; cbn [readableb readable]; try discriminate; auto.
  - destruct bs as [|b bs]; [discriminate|]. unfold lostb, lost_length. intros HB. split; [discriminate|]. change (2 ^ 28) with 268435456. lia.
  - intros HB. lia.
Qed.
Lemma everyb_sound : forall i, everyb readableb i = true -> every readable i.
Proof.
  fix IH 1. intros [| |bs|bs|b|ty bs|n l]; cbn [everyb every]; intros HB; apply andb_true_iff in HB; destruct HB as [HB HL];
    (split; [apply readableb_sound; exact HB|try exact I]).
  clear HB. induction l as [|x l IHl]; [exact I|]. cbn [forallb] in HL. apply andb_true_iff in HL. destruct HL as [HX HL].
  split; [apply IH; exact HX|apply IHl; exact HL].
Qed.
Lemma all_readable l : forallb (everyb readableb) l = true -> Forall (every readable) l.
Proof. intros HB. apply Forall_forall. intros x Hx. apply everyb_sound. rewrite forallb_forall in HB. auto. Qed.
Lemma unaffected_stable {H : Host} l : forallb (fun e => negb (affectedb e)) l = true -> dzg_stable l.
Proof.
  intros HB l1 e l2 v -> HA. exfalso. rewrite forallb_app in HB. apply andb_true_iff in HB. destruct HB as [HB _].
  apply Exists_exists in HA. destruct HA as (x & Hx & HA). rewrite forallb_forall in HB. specialize (HB x Hx).
  apply affectedb_iff in HA. rewrite HA in HB. discriminate.
Qed.
Ltac sample := split; [constructor; [wfs..|]; eexists; split; [reflexivity|]; eexists; split; [reflexivity|]; split; [wfs|]; cbn [wf_body_data mb_data];
    split; [reflexivity|]; wfs | split; [apply all_readable; vm_compute; reflexivity|]].
Example sample_list_ok : round_trippable (H := LittleEndian) (sample_list LittleEndian).
Proof. unfold sample_list. sample. apply unaffected_stable. reflexivity. Qed.
Example sample_tree_ok : round_trippable (H := BigEndian) (sample_tree BigEndian).
Proof. unfold sample_tree. sample. exact I. Qed.
(** Both in one file: the hypotheses of C25, C32 and C34 are met, and this is what happens. *)
Example round_trip_file : let H : Host := LittleEndian in
  match sml_file_write (mkFile [sample_list H; sample_list H] (sml_buffer_init 600)) with
  | Ret f => match sml_file_parse (firstn (cursor (f_buf f)) (buffer (f_buf f))) with
             | Ret f' => f_messages f' = f_messages f /\ length (f_messages f') = 2%nat /\ cursor (f_buf f') = 260%nat
             | _ => False end
  | _ => False end.
Proof. vm_compute. split; [reflexivity|split; [reflexivity|]]. reflexivity. Qed.
Example sample_sized : sized LittleEndian false [sample_list LittleEndian].
Proof. split; (constructor; [|constructor]); [apply sample_list_ok|apply readable_sizes, sample_list_ok]. Qed.
Definition sample_short (H : Host) : sml_message :=
  mkMsg (Some [1; 2]) (Some (u8 0)) None (Some (mkBody (Some (sml_u32_init 512)) (BCloseReq (mkCloseReq (Some [9]))))) None.
Example sample_short_sized : sized BigEndian true [sample_short BigEndian].
Proof.
  unfold sample_short. split; (constructor; [|constructor]).
  - constructor; [wfs..|]. eexists. split; [reflexivity|]. eexists. split; [reflexivity|]. split; [wfs|]. cbn [wf_body_data mb_data].
    split; [reflexivity|]. unfold wf_close_req. wfs.
  - change (2 ^ 28) with 268435456. repeat (apply Forall_cons; [repeat (split; cbn [size_ok]); try exact I; cbn [length]; lia|]). apply Forall_nil.
Qed.
(** A parsed file whose message survives: the good message of the repository's test. *)
Example parsed_survives : let H : Host := LittleEndian in
  let bytes := [118; 7; 0; 56; 0; 0; 63; 182; 98; 0; 98; 0; 114; 99; 1; 1; 118; 1; 1; 7; 0; 56; 0; 66; 21; 61; 11; 6; 69; 77; 72; 1; 2; 113; 83; 59; 205; 1; 1; 99; 130; 8; 0] in
  exists f, sml_file_parse bytes = Ret f /\ length (f_messages f) = 1%nat /\ Forall (survivor H) (f_messages f).
Proof.
  cbv zeta. eexists. split; [vm_compute; reflexivity|]. split; [reflexivity|]. cbn [f_messages]. constructor; [|constructor].
  split; [discriminate|]. split; [|exact I]. apply all_readable. vm_compute. reflexivity.
Qed.
(** A close request with a signature of 20 bytes over memory full of 0xff: the
    bytes left behind are not the message, and the parser returns none. *)
Theorem C36_old_contents_matter_refuted : let H : Host := LittleEndian in exists m, round_trippable m /\
  exists f f', sml_file_write (mkFile [m] (mkBuf (repeat 255 100) 0 false false)) = Ret f /\
    sml_file_write (mkFile [m] (mkBuf (repeat 0 100) 0 false false)) = Ret f' /\
    cursor (f_buf f) = cursor (f_buf f') /\
    firstn (cursor (f_buf f)) (buffer (f_buf f)) <> firstn (cursor (f_buf f')) (buffer (f_buf f')) /\
    (exists g, sml_file_parse (firstn (cursor (f_buf f)) (buffer (f_buf f))) = Ret g /\ f_messages g = []) /\
    (exists g, sml_file_parse (firstn (cursor (f_buf f')) (buffer (f_buf f'))) = Ret g /\ length (f_messages g) = 1%nat).
Proof.
  intros H. exists (mkMsg (Some [1]) None None (Some (mkBody (Some (sml_u32_init 512)) (BCloseReq (mkCloseReq (Some (repeat 7 20)))))) None).
  split.
  - subst H. sample. exact I.
  - subst H. eexists _, _. split; [vm_compute; reflexivity|]. split; [vm_compute; reflexivity|]. split; [reflexivity|]. split; [vm_compute; discriminate|].
    split; (eexists; split; [vm_compute; reflexivity|]; reflexivity).
Qed.
Print Assumptions C36_old_contents_matter_refuted.
