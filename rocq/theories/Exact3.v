(** The converse of Round.v - Round3.v, continued: bodies and messages. *)
From Verif Require Import Base Buf Crc16 Number OctetString Boolean Value Time SList Tree Bodies Message File
  Lib Wf Safe Safe2 Safe3 Ctx Spec TL Inv MinSize Reads Write TLWrite TLRound NumFacts PropsString Item Enc Dzg Round Round2 Round3 Exact Exact2.

(** a body is followed by the checksum field *)
Definition at99 (t : list Z) : Prop := exists u, t = 99 :: u.
Lemma at99_ne t : at99 t -> ne t. Proof. intros (u & ->). discriminate. Qed.
Lemma at99_not1 t : at99 t -> not1 t. Proof. intros (u & ->). exists 99, u. split; [reflexivity|discriminate]. Qed.

Lemma runs_nil_inv {A} (p : P A) s s1 : runs p [] s s1 -> s = s1.
Proof. inversion 1. reflexivity. Qed.

Section WithHost.
Context {H : Host}.

Ltac fields E Er := repeat (apply field_inv in E; [|exact Er]; let v := fresh "v" in let s' := fresh "s" in let E1 := fresh "E" in let Er1 := fresh "Er" in destruct E as (v & s' & E1 & Er1 & E)).
Ltac ctx := first [assumption | apply oct_fol; unfold ne in *; repeat apply nn_app; assumption | unfold ne in *; repeat apply nn_app; first [assumption | discriminate]].
Ltac g L := match goal with
  | R : rest ?s = enc ?i ++ ?t, He : error ?s = false, Sm : small ?s, E : _ ?s = Ret (_, ?s1), Er : error ?s1 = false |- _ =>
    let HC := fresh in let HR := fresh "HR" in let R' := fresh "R" in let Sm' := fresh "Sm" in
    match type of L with exact_on ?C _ _ _ => assert (HC : C t) by ctx end;
    destruct (go _ _ _ _ _ _ _ L R HC He Sm E Er) as (HR & R' & Sm'); clear R E HC He Sm
  end.
Ltac splice R := cbn [flat_map] in R; rewrite ?app_nil_r, <- ?app_assoc in R.
Ltac all_readable := apply every_list; (split; [split; [reflexivity|lia]|]); repeat (apply Forall_cons; [assumption|]); apply Forall_nil.
Ltac sizes HS := apply every_list in HS; destruct HS as [_ HS]; repeat (apply Forall_cons_iff in HS; let h := fresh "S" in destruct HS as [h HS]).
Ltac into n R Sm He E := let s0 := fresh "s" in let R1 := fresh "R" in let Sm1 := fresh "Sm" in let He1 := fresh "He" in let E1 := fresh "E" in
  destruct (expect_step n _ _ _ _ _ _ ltac:(lia) R Sm He E) as (s0 & E1 & R1 & Sm1 & He1); clear E R Sm He; rename E1 into E, R1 into R, Sm1 into Sm, He1 into He; splice R.
Ltac label E Er := let x := fresh "x" in let Ex := fresh "Ex" in let E0 := fresh "E" in destruct (label_inv _ _ _ _ E Er) as (x & Ex & E0); injection Ex as <-; clear E; rename E0 into E.
Ltac done_ := split; [all_readable|auto].

(** *** entries of sequences *)
Lemma ex_header e : wf_header e -> every (size_ok false) (header_item (Some e)) -> exact_on ne sml_prof_obj_header_entry_parse (header_item (Some e)) (Some e).
Proof.
  destruct e as [f1 f2 f3]. intros [W1 W2 W3] HS s t s1 R Ht He Sm E Er. cbn [header_item he_obj_name he_unit he_scaler] in *. sizes HS.
  unfold sml_prof_obj_header_entry_parse in E. label E Er. into 3 R Sm He E. fields E Er. inversion E. clear E. subst.
  g (ex_oct _ S). g (ex_u8 _ W2). g (ex_i8 _ W3). done_.
Qed.
Lemma ex_val_entry e : wf_value_entry e -> every (size_ok false) (val_entry_item (Some e)) -> exact_on ne sml_value_entry_parse (val_entry_item (Some e)) (Some e).
Proof.
  destruct e as [f1 f2]. intros [W1 W2] HS s t s1 R Ht He Sm E Er. cbn [val_entry_item ve_value ve_value_signature] in *. sizes HS.
  unfold sml_value_entry_parse in E. label E Er. into 2 R Sm He E. fields E Er. inversion E. clear E. subst.
  g (ex_value _ W1 S). g (ex_oct _ S0). done_.
Qed.
Lemma ex_some_seq {A} (p : P (option A)) (f : option A -> item) (W : A -> Prop) o :
  (forall e, W e -> every (size_ok false) (f (Some e)) -> exact_on ne p (f (Some e)) (Some e)) ->
  (exists l, o = Some (map Some l) /\ Forall W l) -> every (size_ok false) (seq_item f o) -> exact_on ne (sml_sequence_parse p) (seq_item f o) o.
Proof.
  intros HP (l & -> & HW) HS. apply ex_seq; [exact HS|]. rewrite Forall_map. rewrite Forall_forall in *. intros x Hx HX. apply HP; auto.
Qed.
Definition ex_headers := fun o => ex_some_seq _ header_item wf_header o ex_header.
Definition ex_val_entries := fun o => ex_some_seq _ val_entry_item wf_value_entry o ex_val_entry.
Lemma ex_per_entry e : wf_per_entry e -> every (size_ok false) (per_entry_item (Some e)) -> exact_on ne sml_prof_obj_period_entry_parse (per_entry_item (Some e)) (Some e).
Proof.
  destruct e as [f1 f2 f3 f4]. intros [W1 W2 W3 W4] HS s t s1 R Ht He Sm E Er. cbn [per_entry_item pp_val_time pp_status pp_value_list pp_period_signature] in *. sizes HS.
  unfold sml_prof_obj_period_entry_parse in E. label E Er. into 4 R Sm He E. fields E Er. inversion E. clear E. subst.
  g (ex_time _ W1). g (ex_u64 _ W2). g (ex_val_entries _ W3 S1). g (ex_oct _ S2). done_.
Qed.
Definition ex_per_entries := fun o => ex_some_seq _ per_entry_item wf_per_entry o ex_per_entry.
Lemma ex_periods o : (exists l, o = Some l /\ wf_seq wf_period l) -> every (size_ok false) (seq_item period_item o) -> exact_on ne (sml_sequence_parse sml_period_entry_parse) (seq_item period_item o) o.
Proof.
  intros (l & -> & HW) HS. apply ex_seq; [exact HS|]. unfold wf_seq in HW. rewrite Forall_forall in *. intros x Hx HX. apply ex_period; auto.
Qed.

(** *** bodies without a path *)
Notation exact_body p c m := (exact_on at99 p (body_data_item (c m)) (Some m)).
Ltac body W HS R Ct He Sm E Er := intros W HS s t s1 R Ct He Sm E Er; pose proof (at99_ne _ Ct) as Ht; pose proof (at99_not1 _ Ct) as Cn.
Lemma ex_open_req m : wf_open_req m -> every (size_ok false) (body_data_item (BOpenReq m)) -> exact_body sml_open_request_parse BOpenReq m.
Proof.
  destruct m as [f1 f2 f3 f4 f5 f6 f7]. body W HS R Ct He Sm E Er. destruct W as [W1 W2 W3 W4 W5 W6 W7]. cbn [body_data_item oq_codepage oq_client_id oq_req_file_id oq_server_id oq_username oq_password oq_sml_version] in *. sizes HS.
  into 7 R Sm He E. fields E Er. inversion E. clear E. subst. g (ex_oct _ S). g (ex_oct _ S0). g (ex_oct _ S1). g (ex_oct _ S2). g (ex_oct _ S3). g (ex_oct _ S4). g (ex_u8 _ W7). done_.
Qed.
Lemma ex_open_res m : wf_open_res m -> every (size_ok false) (body_data_item (BOpenRes m)) -> exact_body sml_open_response_parse BOpenRes m.
Proof.
  destruct m as [f1 f2 f3 f4 f5 f6]. body W HS R Ct He Sm E Er. destruct W as [W1 W2 W3 W4 W5 W6]. cbn [body_data_item or_codepage or_client_id or_req_file_id or_server_id or_ref_time or_sml_version] in *. sizes HS.
  into 6 R Sm He E. fields E Er. inversion E. clear E. subst. g (ex_oct _ S). g (ex_oct _ S0). g (ex_oct _ S1). g (ex_oct _ S2). g (ex_time _ W5). g (ex_u8 _ W6). done_.
Qed.
Lemma ex_close_req m : wf_close_req m -> every (size_ok false) (body_data_item (BCloseReq m)) -> exact_body sml_close_request_parse BCloseReq m.
Proof.
  destruct m as [f1]. body W HS R Ct He Sm E Er. cbn [body_data_item cq_global_signature] in *. sizes HS.
  into 1 R Sm He E. fields E Er. inversion E. clear E. subst. g (ex_oct _ S). done_.
Qed.
Lemma ex_close_res m : wf_close_res m -> every (size_ok false) (body_data_item (BCloseRes m)) -> exact_body sml_close_response_parse BCloseRes m.
Proof.
  destruct m as [f1]. body W HS R Ct He Sm E Er. cbn [body_data_item cr_global_signature] in *. sizes HS.
  into 1 R Sm He E. fields E Er. inversion E. clear E. subst. g (ex_oct _ S). done_.
Qed.
Lemma ex_list_req m : wf_list_req m -> every (size_ok false) (body_data_item (BListReq m)) -> exact_body sml_get_list_request_parse BListReq m.
Proof.
  destruct m as [f1 f2 f3 f4 f5]. body W HS R Ct He Sm E Er. cbn [body_data_item lq_client_id lq_server_id lq_username lq_password lq_list_name] in *. sizes HS.
  into 5 R Sm He E. fields E Er. inversion E. clear E. subst. g (ex_oct _ S). g (ex_oct _ S0). g (ex_oct _ S1). g (ex_oct _ S2). g (ex_oct _ S3). done_.
Qed.
Lemma list_res_back m s t s1 : wf_list_res m -> every (size_ok false) (body_data_item (BListRes m)) -> rest s = enc (body_data_item (BListRes m)) ++ t -> ne t -> error s = false -> small s ->
  sml_get_list_response_parse s = Ret (Some m, s1) -> error s1 = false ->
  every readable (body_data_item (BListRes m)) /\ dzg_run false (lr_val_list m) = lr_val_list m /\ rest s1 = t /\ small s1.
Proof.
  destruct m as [f1 f2 f3 f4 f5 f6 f7]. intros [W1 W2 W3 W4 W5 W6 W7] HS R Ht He Sm E Er. cbn [body_data_item lr_client_id lr_server_id lr_list_name lr_act_sensor_time lr_val_list lr_list_signature lr_act_gateway_time] in *. sizes HS.
  into 7 R Sm He E. fields E Er. inversion E. clear E. subst. g (ex_oct _ S). g (ex_oct _ S0). g (ex_oct _ S1). g (ex_time _ W4).
  match goal with R : rest ?s = enc (entries_item _) ++ ?u, E : sml_list_parse ?s = _, Er : error ?s' = false, He : error ?s = false, Sm : small ?s |- _ =>
    destruct (entries_back f5 s u _ W5 S3 R ltac:(ctx) He Sm E ltac:(assumption)) as (HRL & HZ & RL & SmL); clear R E end.
  g (ex_oct _ S4). g (ex_time _ W7). done_.
Qed.
Lemma ex_attention m : wf_attention m -> every (size_ok false) (body_data_item (BAttention m)) -> exact_body sml_attention_response_parse BAttention m.
Proof.
  destruct m as [f1 f2 f3 f4]. body W HS R Ct He Sm E Er. destruct W as [W1 W2 W3 W4]. cbn [body_data_item ar_server_id ar_attention_number ar_attention_message ar_attention_details] in *. sizes HS.
  into 4 R Sm He E. fields E Er. inversion E. clear E. subst. g (ex_oct _ S). g (ex_oct _ S0). g (ex_oct _ S1). g (ex_tree _ W4 S2). done_.
Qed.
(** *** bodies with a path *)
Lemma tree_99 s u r s1 : rest s = 99 :: u -> sml_tree_parse s = Ret (r, s1) -> error s1 = true.
Proof.
  intros R E. unfold sml_tree_parse, with_fuel in E. destruct (fuel_of s); [discriminate|]. cbn [sml_tree_parse_rec] in E. rewrite (unless_noskip _ _ _ _ R) in E by discriminate.
  eapply expect_not; [exact R| |exact E]. discriminate.
Qed.
Lemma octet_99 s u r s1 : rest s = 99 :: u -> sml_octet_string_parse s = Ret (r, s1) -> error s1 = true.
Proof. intros R E. eapply octet_not; [exact R| |exact E]. discriminate. Qed.
Lemma swallowed_inv t s1 : swallowed t s1 -> exists r l s, dull (r :: l) /\ rest s = t /\ small s /\ error s = false /\ runs sml_octet_string_parse (r :: l) s s1.
Proof. intros ([|r l] & s & HL & HX); [congruence|]. eauto. Qed.
(** an omitted element, or a string that looks like it, and the end of the body *)
Lemma swallow_end b u t s1 : (b = 1 \/ b / 16 mod 8 * 16 <> 0) -> at99 t -> swallowed (b :: u ++ t) s1 -> u = [] -> rest s1 = t.
Proof.
  intros Hb (v & ->) HS ->. destruct (swallowed_inv _ _ HS) as (r & l & s & HD & R & Sm & He & HR).
  destruct (dull_one _ _ _ _ _ _ Hb R Sm HR HD) as (_ & s2 & R2 & Sm2 & He2 & HR2 & HD2). destruct l as [|r2 l].
  - inversion HR2; subst. exact R2.
  - exfalso. eapply dull_99; eauto.
Qed.
Lemma swallow_oct o t s1 : every (size_ok false) (oct_item o) -> at99 t -> swallowed (enc (oct_item o) ++ t) s1 -> rest s1 = t.
Proof.
  intros HO Ct HS. pose proof (at99_ne _ Ct) as Ht. destruct (swallowed_inv _ _ HS) as (r & l & s & HD & R & Sm & He & HR).
  destruct (dull_oct o t r l s s1 HO R Ht Sm He HR HD) as (_ & s2 & R2 & Sm2 & He2 & HR2 & HD2). destruct l as [|r2 l].
  - inversion HR2; subst. reflexivity.
  - exfalso. destruct Ct as (v & ->). eapply dull_99; eauto.
Qed.
Lemma swallow_tree o t s1 : at99 t -> swallowed (enc (tree_item o) ++ t) s1 -> rest s1 = t.
Proof.
  intros Ct HS. destruct o as [c|].
  - exfalso. destruct (swallowed_inv _ _ HS) as (r & l & s & HD & R & Sm & He & HR). destruct c as [a b c]. cbn [tree_item] in R. rewrite node_eq in R. eapply dull_list; eauto.
  - apply (swallow_end 1 [] t s1); auto.
Qed.
Lemma oct_head o t : exists b u, enc (oct_item o) ++ t = b :: u /\ b / 16 mod 8 * 16 = 0.
Proof.
  destruct o as [v|]; cbn [oct_item enc]; [|exists 1, t; auto]. assert (HT : In 0 tl_types) by (unfold tl_types; cbn [In]; tauto).
  rewrite <- app_assoc. destruct (app_cons_eq (tl_text 0 (Z.of_nat (length v))) (v ++ t) (text_nonnil _ _ HT)) as (b & l' & EB & EA). rewrite EA.
  exists b, (l' ++ v ++ t). split; [reflexivity|]. pose proof (text_type 0 (Z.of_nat (length v)) HT) as TT. rewrite EB in TT. exact TT.
Qed.
Ltac path S := match goal with
  | R : rest ?s = enc (path_item ?p) ++ ?t, He : error ?s = false, Sm : small ?s, E : sml_tree_path_parse ?s = Ret (_, ?s1), Er : error ?s1 = false |- _ =>
    let HC := fresh in let HR := fresh "HR" in let R' := fresh "R" in let Sm' := fresh "Sm" in let HW := fresh "HW" in let EP := fresh "EP" in let RP := fresh "RP" in let HP := fresh "HP" in
    assert (HC : ne t) by ctx;
    destruct (path_back p s t s1 S R HC He Sm E Er) as [(HR & R' & Sm')|[HW|(EP & RP & HP)]]; [clear R E HC He Sm| |]
  end.
Lemma ex_proc_req m : wf_proc_req m -> every (size_ok false) (body_data_item (BProcReq m)) -> exact_body sml_get_proc_parameter_request_parse BProcReq m.
Proof.
  destruct m as [f1 f2 f3 f4 f5]. body W HS R Ct He Sm E Er. destruct W as [W1 W2 W3 W4 W5]. cbn [body_data_item pq_server_id pq_username pq_password pq_parameter_tree_path pq_attribute] in *. sizes HS.
  into 5 R Sm He E. fields E Er. inversion E. clear E. subst. g (ex_oct _ S). g (ex_oct _ S0). g (ex_oct _ S1). path S2.
  - g (ex_oct _ S3). done_.
  - exfalso. apply swallow_oct in HW; [|assumption|assumption]. destruct Ct as (u & ->). match goal with E : sml_octet_string_parse _ = Ret (_, s1) |- _ => pose proof (octet_99 _ _ _ _ HW E) end. congruence.
  - exfalso. destruct HP as (b & u & k & sx & l & ET & Hb & HB & _). destruct (oct_head f5 t) as (b' & u' & EO & HB'). congruence.
Qed.
(** a tree read as the elements of a path *)
Lemma tree_as_path c t s k s2 l s1 : every (size_ok false) (node_item c) -> at99 t -> rest s = enc (node_item c) ++ t -> small s -> error s = false ->
  sml_buf_get_next_length s = Ret (k, s2) -> runs sml_octet_string_parse l s2 s1 -> (0 <= k -> Z.of_nat (length l) = k) -> somes l = [] -> rest s1 = t.
Proof.
  intros HS Ct R Sm He EL HR HL HD. destruct c as [nm vl ch]. rewrite node_eq in *. sizes HS. pose proof (at99_ne _ Ct) as Ht. rewrite enc_list, <- app_assoc in R.
  destruct (header_go 3 s _ ltac:(change (2 ^ 28) with 268435456; lia) R He Sm) as (b & u & k' & sx & RB & Hb & HB & ET & EL' & R2 & He2 & Sm2 & K0 & K1 & K2).
  rewrite EL in EL'. injection EL' as <- <-. assert (k = 3) by (apply K1; lia). subst k. specialize (HL ltac:(lia)).
  destruct l as [|r1 [|r2 [|r3 [|]]]]; cbn [length] in HL; try lia. splice R2.
  assert (HD1 : dull [r1; r2; r3]) by (left; exact HD).
  match type of R2 with _ = _ ++ ?u => destruct (dull_oct nm u r1 [r2; r3] s2 s1 S R2 ltac:(ctx) Sm2 He2 HR HD1) as (_ & sa & Ra & Sma & Hea & HRa & HDa) end.
  destruct vl as [v|]; [exfalso; eapply dull_list; [exact Ra|exact Sma|exact HRa|exact HDa]|]. cbn [ppv_item enc app] in Ra.
  destruct (dull_one 1 _ _ _ _ _ (or_introl eq_refl) Ra Sma HRa HDa) as (_ & sb & Rb & Smb & Heb & HRb & HDb).
  destruct ch as [|c ch]; [|exfalso; eapply dull_list; [exact Rb|exact Smb|exact HRb|exact HDb]]. cbn [kids_item enc app] in Rb.
  destruct (dull_one 1 _ _ _ _ _ (or_introl eq_refl) Rb Smb HRb HDb) as (_ & sc & Rc & Smc & Hec & HRc & HDc). inversion HRc; subst. reflexivity.
Qed.
Lemma ex_proc_res m : wf_proc_res m -> every (size_ok false) (body_data_item (BProcRes m)) -> exact_body sml_get_proc_parameter_response_parse BProcRes m.
Proof.
  destruct m as [f1 f2 f3]. body W HS R Ct He Sm E Er. destruct W as [W1 W2 W3]. cbn [body_data_item pr_server_id pr_parameter_tree_path pr_parameter_tree] in *. sizes HS.
  into 3 R Sm He E. fields E Er. inversion E. clear E. subst. g (ex_oct _ S). 
  assert (HB : ne (enc (tree_item f3) ++ t)) by ctx. path S0.
  - g (ex_tree _ W3 S1). done_.
  - exfalso. apply swallow_tree in HW; [|assumption]. destruct Ct as (u & ->). match goal with E : sml_tree_parse _ = Ret (_, s1) |- _ => pose proof (tree_99 _ _ _ _ HW E) end. congruence.
  - exfalso. destruct HP as (b & u & k & sx & l & ET & Hb & HB' & EL & HR' & HL & HD). destruct f3 as [c|].
    + match goal with Q : small s2, He : error s2 = false |- _ => pose proof (tree_as_path c t s2 k sx l s3 S1 Ct RP Q He EL HR' HL HD) as RT end.
      destruct Ct as (w & ->). match goal with E : sml_tree_parse _ = Ret (_, s1) |- _ => pose proof (tree_99 _ _ _ _ RT E) end. congruence.
    + cbn [tree_item enc app] in ET. congruence.
Qed.
Lemma ex_set_proc m : wf_set_proc m -> every (size_ok false) (body_data_item (BSetProc m)) -> exact_body sml_set_proc_parameter_request_parse BSetProc m.
Proof.
  destruct m as [f1 f2 f3 f4 f5]. body W HS R Ct He Sm E Er. destruct W as [W1 W2 W3 W4 W5]. cbn [body_data_item sq_server_id sq_username sq_password sq_parameter_tree_path sq_parameter_tree] in *. sizes HS.
  into 5 R Sm He E. fields E Er. inversion E. clear E. subst. g (ex_oct _ S). g (ex_oct _ S0). g (ex_oct _ S1). path S2.
  - g (ex_tree _ W5 S3). done_.
  - exfalso. apply swallow_tree in HW; [|assumption]. destruct Ct as (u & ->). match goal with E : sml_tree_parse _ = Ret (_, s1) |- _ => pose proof (tree_99 _ _ _ _ HW E) end. congruence.
  - exfalso. destruct HP as (b & u & k & sx & l & ET & Hb & HB' & EL & HR' & HL & HD). destruct f5 as [c|].
    + match goal with Q : small s4, He : error s4 = false |- _ => pose proof (tree_as_path c t s4 k sx l s5 S3 Ct RP Q He EL HR' HL HD) as RT end.
      destruct Ct as (w & ->). match goal with E : sml_tree_parse _ = Ret (_, s1) |- _ => pose proof (tree_99 _ _ _ _ RT E) end. congruence.
    + cbn [tree_item enc app] in ET. congruence.
Qed.
(** the number of elements a list header announces is the length of a sequence *)
Lemma seq_count {A} (p : P (option A)) n items s t l s1 : 0 <= n < 2 ^ 28 -> rest s = enc (IList n items) ++ t -> error s = false -> small s ->
  sml_sequence_parse p s = Ret (Some l, s1) -> error s1 = false ->
  exists s2, runs p l s2 s1 /\ rest s2 = flat_map enc items ++ t /\ small s2 /\ error s2 = false /\ (n <= 15 -> Z.of_nat (length l) = n).
Proof.
  intros Hn R He Sm E Er. rewrite enc_list, <- app_assoc in R. destruct (header_go n s _ Hn R He Sm) as (b & u & k & s2 & RB & Hb & HB & ET & EL & R2 & He2 & Sm2 & K0 & K1 & K2).
  unfold sml_sequence_parse in E. destruct (label_inv _ _ _ _ E Er) as (x & Ex & E0). injection Ex as <-. clear E.
  unfold bind at 1 in E0. rewrite ET in E0. change (112 =? SML_TYPE_LIST) with true in E0. cbn [negb] in E0. unfold bind at 1 in E0. rewrite EL in E0.
  unfold with_fuel in E0. destruct (seq_runs _ _ _ _ _ _ K0 E0) as [HR HL]. exists s2. repeat split; auto. intros Hn'. rewrite HL. now apply K1.
Qed.
Lemma seq_none {A} (p : P (option A)) s s1 : sml_sequence_parse p s = Ret (None, s1) -> error s1 = true.
Proof. intros E. destruct (error s1) eqn:Er; [reflexivity|]. destruct (label_inv _ _ _ _ E Er) as (x & Ex & _). discriminate. Qed.
Lemma seq_not {A} (p : P (option A)) s b u r s1 : rest s = b :: u -> b / 16 mod 8 * 16 <> 112 -> sml_sequence_parse p s = Ret (r, s1) -> error s1 = true.
Proof.
  intros R Hb E. destruct (error s1) eqn:Er; [reflexivity|]. destruct (label_inv _ _ _ _ E Er) as (x & Ex & E0). unfold bind at 1 in E0. rewrite (next_type_eq _ _ _ R) in E0.
  destruct (Z.eqb_spec (b / 16 mod 8 * 16) SML_TYPE_LIST) as [HE|_]; [contradiction|]. discriminate.
Qed.
Lemma ex_pack_res m : wf_pack_res m -> every (size_ok false) (body_data_item (BPackRes m)) -> exact_body sml_get_profile_pack_response_parse BPackRes m.
Proof.
  destruct m as [f1 f2 f3 f4 f5 f6 f7 f8]. body W HS R Ct He Sm E Er. destruct W as [W1 W2 W3 W4 W5 W6 W7 W8].
  cbn [body_data_item gr_server_id gr_act_time gr_reg_period gr_parameter_tree_path gr_header_list gr_period_list gr_rawdata gr_profile_signature] in *. sizes HS.
  unfold sml_get_profile_pack_response_parse in E. label E Er. into 8 R Sm He E. fields E Er. inversion E. clear E. subst.
  g (ex_oct _ S). g (ex_time _ W2). g (ex_u32 _ W3). path S2.
  - g (ex_headers _ W5 S3). g (ex_per_entries _ W6 S4). g (ex_oct _ S5). g (ex_oct _ S6). done_.
  - exfalso. destruct (swallowed_inv _ _ HW) as (r & l & sx & HD & Rx & Smx & Hex & HRx). destruct W5 as (l5 & -> & _). cbn [seq_item] in Rx. eapply dull_list; eauto.
  - exfalso. destruct HP as (b & u & k & sx & l & ET & Hb & HB & EL & HRl & HL & HD). destruct W5 as (l5 & -> & W5). destruct W6 as (l6 & -> & W6). cbn [seq_item] in *. unfold list_of in *.
    rewrite enc_list, <- app_assoc in RP. pose proof S3 as S3'. apply every_here in S3'. destruct S3' as [HC5 _]. pose proof S4 as S4'. apply every_here in S4'. destruct S4' as [HC6 _].
    match goal with Q : small s4, He : error s4 = false |- _ => destruct (header_go _ s4 _ (conj (Nat2Z.is_nonneg _) HC5) RP He Q) as (b' & u' & k' & sy & RB & Hb' & HB' & ET' & EL' & R2 & He2 & Sm2 & K0 & K1 & K2) end.
    rewrite EL in EL'. injection EL' as <- <-. specialize (HL K0). destruct l as [|r l].
    + cbn [length] in HL. apply runs_nil_inv in HRl. subst sx.
      match goal with E : sml_sequence_parse sml_prof_obj_header_entry_parse _ = _ |- _ => rename E into EH end.
      match goal with E : sml_sequence_parse sml_prof_obj_period_entry_parse _ = _ |- _ => rename E into EP' end.
      destruct l5 as [|e5 l5].
      * cbn [map flat_map app] in R2. assert (HE : error s6 = false) by assumption.
        destruct (seq_count _ _ _ _ _ _ _ (conj (Nat2Z.is_nonneg _) HC6) R2 He2 Sm2 EH HE) as (sz & HRz & Rz & Smz & Hez & HN). apply runs_nil_inv in HRz. subst sz.
        destruct l6 as [|e6 l6].
        -- cbn [map flat_map app] in Rz. match type of Rz with _ = _ ++ ?t => destruct (oct_head f7 t) as (bo & uo & EO & HBo) end. rewrite EO in Rz.
           pose proof (seq_not _ _ _ _ _ _ Rz ltac:(rewrite HBo; discriminate) EP'). congruence.
        -- cbn [map flat_map] in Rz. rewrite <- app_assoc in Rz. cbn [per_entry_item] in Rz. assert (HE' : error s7 = false) by assumption.
           destruct (seq_count _ 4 _ _ _ _ _ ltac:(change (2 ^ 28) with 268435456; lia) Rz Hez Smz EP' HE') as (sw & _ & _ & _ & _ & HN').
           cbn [map length] in HN, HN'. lia.
      * cbn [map flat_map] in R2. rewrite <- app_assoc in R2. cbn [header_item] in R2. assert (HE : error s6 = false) by assumption.
        destruct (seq_count _ 3 _ _ _ _ _ ltac:(change (2 ^ 28) with 268435456; lia) R2 He2 Sm2 EH HE) as (sw & _ & _ & _ & _ & HN').
        cbn [map length] in HN', K1, HL. lia.
    + assert (HDl : dull (r :: l)) by (left; exact HD). destruct l5 as [|e5 l5].
      * exfalso. cbn [map length] in K1, HL. lia.
      * cbn [map flat_map] in R2. rewrite <- app_assoc in R2. cbn [header_item] in R2. eapply dull_list; eauto.
Qed.

(** a time where none was written *)
Lemma time_not s b u r s1 : rest s = b :: u -> b <> 1 -> b / 16 mod 8 * 16 <> 112 -> b <> 101 -> sml_time_parse s = Ret (r, s1) -> error s1 = true.
Proof.
  intros R Hb HT Hn E. unfold sml_time_parse in E. rewrite (unless_noskip _ _ _ _ R Hb) in E. unfold bind at 1 in E. rewrite (current_cons _ _ _ R) in E.
  change (Z.lor SML_TYPE_UNSIGNED 5) with 101 in E. destruct (Z.eqb_spec b 101); [contradiction|]. eapply expect_not; eauto.
Qed.
Lemma time_value_none tag s b u s1 : rest s = b :: u -> sml_time_value tag s = Ret (None, s1) -> error s1 = false -> s1 = s /\ b / 16 mod 8 * 16 <> 112.
Proof.
  intros R E Er. unfold sml_time_value in E. unfold bind at 1 in E. rewrite (next_type_eq _ _ _ R) in E.
  destruct (_ =? SML_TYPE_UNSIGNED); [fields E Er; discriminate|]. destruct (Z.eqb_spec (b / 16 mod 8 * 16) SML_TYPE_LIST) as [HE|HE].
  - apply bind_inv in E. destruct E as (k & s2 & _ & E). fields E Er. discriminate.
  - injection E as <-. split; [reflexivity|exact HE].
Qed.
Lemma num_not ty w s b u r s1 : rest s = b :: u -> b <> 1 -> b / 16 mod 8 * 16 <> ty -> sml_number_parse ty w s = Ret (r, s1) -> error s1 = true.
Proof.
  intros R Hb HT E. unfold sml_number_parse in E. rewrite (unless_noskip _ _ _ _ R Hb) in E. unfold bind at 1 in E. rewrite (at_end_cons _ _ _ R) in E.
  unfold bind at 1 in E. rewrite (next_type_eq _ _ _ R) in E. destruct (Z.eqb_spec (b / 16 mod 8 * 16) ty); [contradiction|]. cbn [negb] in E. now apply err_null_inv in E.
Qed.
Lemma num_1 ty w s u : rest s = 1 :: u -> sml_number_parse ty w s = Ret (None, at_ s 1 false).
Proof. intros R. unfold sml_number_parse. now rewrite (unless_skip _ _ _ R). Qed.
Lemma time_1 s u : rest s = 1 :: u -> sml_time_parse s = Ret (None, at_ s 1 false).
Proof. intros R. unfold sml_time_parse. now rewrite (unless_skip _ _ _ R). Qed.
Lemma rest_1 s u : rest s = 1 :: u -> rest (at_ s 1 false) = u.
Proof. intros R. exact (at_app s [1] u false R). Qed.
Lemma u64_head m t : wf_num 8 m -> exists u, enc (num_item 96 (Some m)) ++ t = 105 :: u.
Proof. intros [HL _]. cbn [num_item enc app]. rewrite host_length, HL. eauto. Qed.
(** a list of optional period entries read as a time *)
Lemma periods_as_time l s t s1 : Z.of_nat (length l) < 2 ^ 28 -> rest s = enc (list_of period_item l) ++ t -> error s = false -> small s ->
  sml_time_parse s = Ret (None, s1) -> error s1 = false ->
  exists l', l = None :: None :: l' /\ rest s1 = 1 :: flat_map enc (map period_item l') ++ t /\ (l' = [] \/ 13 < Z.of_nat (length l')) /\ small s1.
Proof.
  intros HC R He Sm E Er. unfold list_of in R. rewrite enc_list, <- app_assoc in R.
  destruct (header_go _ s _ (conj (Nat2Z.is_nonneg _) HC) R He Sm) as (b & u & k & sx & RB & Hb & HB & ET & EL & R2 & He2 & Sm2 & K0 & K1 & K2).
  unfold sml_time_parse in E. rewrite (unless_noskip _ _ _ _ RB Hb) in E. unfold bind at 1 in E. rewrite (current_cons _ _ _ RB) in E.
  change (Z.lor SML_TYPE_UNSIGNED 5) with 101 in E. destruct (Z.eqb_spec b 101) as [Eb|_]; [rewrite Eb in HB; discriminate|].
  unfold expect_list in E. unfold bind at 1 in E. rewrite ET in E. change (112 =? SML_TYPE_LIST) with true in E. cbn [negb] in E. unfold bind at 1 in E. rewrite EL in E.
  destruct (Z.eqb_spec k 2) as [->|_]; [|apply err_null_inv in E; congruence]. cbn [negb] in E. fields E Er.
  destruct l as [|x l]; [cbn [length] in K1; lia|]. cbn [map flat_map] in R2. rewrite <- app_assoc in R2.
  destruct x as [x|].
  { exfalso. cbn [period_item] in R2. match type of R2 with _ = enc (IList 5 ?i) ++ ?t => destruct (any_list_head 5 i t) as (b' & u' & EB & Hb' & HB') end. rewrite EB in R2.
    pose proof (num_not 96 1 _ _ _ _ _ R2 Hb' ltac:(rewrite HB'; discriminate) E0). congruence. }
  cbn [period_item enc app] in R2. unfold sml_u8_parse in E0. rewrite (num_1 _ _ _ _ R2) in E0. injection E0 as <- <-. apply rest_1 in R2.
  destruct l as [|y l]; [cbn [length] in K1; lia|]. cbn [map flat_map] in R2. rewrite <- app_assoc in R2. destruct y as [y|].
  { exfalso. cbn [period_item] in R2. match type of R2 with _ = enc (IList 5 ?i) ++ ?t => destruct (any_list_head 5 i t) as (b' & u' & EB & Hb' & HB') end. rewrite EB in R2.
    destruct (time_value_none _ _ _ _ _ R2 E Er) as [_ HX]. contradiction. }
  cbn [period_item enc app] in R2. destruct (time_value_none _ _ _ _ _ R2 E Er) as [-> _]. exists l. split; [reflexivity|]. split; [exact R2|].
  split; [|now apply at_small]. cbn [length] in K1, K2. destruct l; [left; reflexivity|right]. cbn [length] in *. lia.
Qed.
Lemma ex_prof_list_res m : wf_prof_list_res m -> every (size_ok false) (body_data_item (BProfListRes m)) -> exact_body sml_get_profile_list_response_parse BProfListRes m.
Proof.
  destruct m as [f1 f2 f3 f4 f5 f6 f7 f8 f9]. body W HS R Ct He Sm E Er. destruct W as [W1 W2 W3 W4 W5 W6 W7 W8 W9].
  cbn [body_data_item gl_server_id gl_act_time gl_reg_period gl_parameter_tree_path gl_val_time gl_status gl_period_list gl_rawdata gl_period_signature] in *. sizes HS.
  unfold sml_get_profile_list_response_parse in E. label E Er. into 9 R Sm He E. fields E Er. inversion E. clear E. subst.
  g (ex_oct _ S). g (ex_time _ W2). g (ex_u32 _ W3). path S2.
  - g (ex_time _ W5). g (ex_u64 _ W6). g (ex_periods _ W7 S5). g (ex_oct _ S6). g (ex_oct _ S7). done_.
  - exfalso. destruct (swallowed_inv _ _ HW) as (r & l & sx & HD & Rx & Smx & Hex & HRx). destruct W7 as (l7 & -> & W7). cbn [seq_item] in *.
    match goal with E : sml_time_parse s5 = _ |- _ => rename E into ETm end. match goal with E : sml_u64_parse s6 = _ |- _ => rename E into EU end.
    match goal with E : sml_sequence_parse _ s7 = _ |- _ => rename E into EQ end. assert (Ez6 : error s6 = false) by assumption. assert (Ez7 : error s7 = false) by assumption. assert (Ez8 : error s8 = false) by assumption.
    destruct f5 as [tm|]; [cbn [time_item] in Rx; eapply dull_list; eauto|]. cbn [time_item enc app] in Rx.
    destruct (dull_one 1 _ _ _ _ _ (or_introl eq_refl) Rx Smx HRx HD) as (_ & sa & Ra & Sma & Hea & HRa & HDa). clear HRx HD Rx. destruct l as [|r2 l].
    + apply runs_nil_inv in HRa. subst sa. destruct f6 as [m|].
      * match type of Ra with _ = _ ++ ?t => destruct (u64_head m t W6) as (u & EU') end. rewrite EU' in Ra.
        pose proof (time_not _ _ _ _ _ Ra ltac:(discriminate) ltac:(discriminate) ltac:(discriminate) ETm). congruence.
      * cbn [num_item enc app] in Ra. rewrite (time_1 _ _ Ra) in ETm. injection ETm as <-. apply rest_1 in Ra. unfold list_of in Ra.
        match type of Ra with _ = enc (IList ?n ?i) ++ ?t => destruct (any_list_head n i t) as (b' & u' & EB & Hb' & HB') end. rewrite EB in Ra.
        pose proof (num_not 96 8 _ _ _ _ _ Ra Hb' ltac:(rewrite HB'; discriminate) EU). congruence.
    + destruct f6 as [m|].
      * match type of Ra with _ = _ ++ ?t => destruct (u64_head m t W6) as (u & EU') end. rewrite EU' in Ra.
        destruct (dull_one 105 _ _ _ _ _ ltac:(right; discriminate) Ra Sma HRa HDa) as [HX _]. discriminate.
      * cbn [num_item enc app] in Ra. destruct (dull_one 1 _ _ _ _ _ (or_introl eq_refl) Ra Sma HRa HDa) as (_ & sb & Rb & Smb & Heb & HRb & HDb).
        destruct l as [|r3 l]; [|eapply dull_list; eauto]. apply runs_nil_inv in HRb. subst sb.
        pose proof S5 as S5'. apply every_here in S5'. destruct S5' as [HC _].
        destruct (periods_as_time l7 s5 _ s6 HC Rb Heb Smb ETm Ez6) as (l' & -> & R6 & HL' & Sm6).
        unfold sml_u64_parse in EU. rewrite (num_1 _ _ _ _ R6) in EU. injection EU as <-. apply rest_1 in R6.
        destruct l' as [|z l'].
        -- cbn [map flat_map app] in R6. match type of R6 with _ = _ ++ ?t => destruct (oct_head f8 t) as (bo & uo & EO & HBo) end. rewrite EO in R6.
           pose proof (seq_not _ _ _ _ _ _ R6 ltac:(rewrite HBo; discriminate) EQ). congruence.
        -- cbn [map flat_map] in R6. rewrite <- app_assoc in R6. destruct z as [z|].
           ++ cbn [period_item] in R6. 
              destruct (seq_count _ 5 _ _ _ _ _ ltac:(change (2 ^ 28) with 268435456; lia) R6 ltac:(assumption) (at_small _ _ _ Sm6) EQ Ez8) as (sw & _ & _ & _ & _ & HN'). cbn [length] in HN', HL'. destruct HL' as [HL'|HL']; [discriminate|lia].
           ++ cbn [period_item enc app] in R6. pose proof (seq_not _ _ _ _ _ _ R6 ltac:(discriminate) EQ). congruence.
  - exfalso. destruct HP as (b & u & k & sx & l & ET & Hb & HB & EL & HRl & HL & HD). destruct f5 as [[tg d]|]; [|cbn [time_item enc app] in ET; congruence].
    match goal with E : sml_time_parse s5 = _ |- _ => rename E into ETm end. assert (Ez6 : error s6 = false) by assumption.
    cbn [time_item tm_tag tm_data] in RP. rewrite enc_list, <- app_assoc in RP.
    match goal with Q : small s4, He : error s4 = false |- _ => destruct (header_go 2 s4 _ ltac:(change (2 ^ 28) with 268435456; lia) RP He Q) as (b' & u' & k' & sy & RB & Hb' & HB' & ET' & EL' & R2 & He2 & Sm2 & K0 & K1 & K2) end.
    rewrite EL in EL'. injection EL' as <- <-. assert (k = 2) by (apply K1; lia). subst k. specialize (HL ltac:(lia)). destruct l as [|r1 [|r2 [|]]]; cbn [length] in HL; try lia.
    assert (HD1 : dull [r1; r2]) by (left; exact HD). splice R2. destruct W5 as [WT WD]. cbn [tm_tag tm_data] in *.
    destruct tg as [tg|].
    { destruct WT as [WT _]. cbn [num_item enc app] in R2. rewrite host_length, WT in R2.
      destruct (dull_one 98 _ _ _ _ _ ltac:(right; discriminate) R2 Sm2 HRl HD1) as [HX _]. discriminate. }
    cbn [num_item enc app] in R2. destruct (dull_one 1 _ _ _ _ _ (or_introl eq_refl) R2 Sm2 HRl HD1) as (_ & sa & Ra & Sma & Hea & HRa & HDa).
    destruct d as [d|].
    { destruct WD as [WD _]. cbn [enc app] in Ra. rewrite host_length, WD in Ra.
      destruct (dull_one 101 _ _ _ _ _ ltac:(right; discriminate) Ra Sma HRa HDa) as [HX _]. discriminate. }
    cbn [enc app] in Ra. destruct (dull_one 1 _ _ _ _ _ (or_introl eq_refl) Ra Sma HRa HDa) as (_ & sb & Rb & Smb & Heb & HRb & HDb).
    apply runs_nil_inv in HRb. subst sb. destruct f6 as [m|].
    + match type of Rb with _ = _ ++ ?t => destruct (u64_head m t W6) as (uu & EU') end. rewrite EU' in Rb.
      pose proof (time_not _ _ _ _ _ Rb ltac:(discriminate) ltac:(discriminate) ltac:(discriminate) ETm). congruence.
    + cbn [num_item enc app] in Rb. rewrite (time_1 _ _ Rb) in ETm. discriminate.
Qed.
Lemma objects_inv s b u l s1 : rest s = b :: u -> object_list_parse s = Ret (Some l, s1) ->
  (b = 1 /\ l = [] /\ s1 = at_ s 1 false) \/
  (b <> 1 /\ b / 16 mod 8 * 16 = 112 /\ exists k s2, sml_buf_get_next_length s = Ret (k, s2) /\ (0 <= k -> runs sml_octet_string_parse l s2 s1 /\ Z.of_nat (length l) = k)).
Proof.
  intros R E. unfold object_list_parse in E. destruct (Z.eq_dec b 1) as [->|Hb].
  - left. unfold bind at 1 in E. rewrite (skip_fwd _ _ R) in E. change (negb (1 =? 0)) with true in E. injection E as <- <-. auto.
  - right. split; [exact Hb|]. unfold bind at 1 in E. rewrite (noskip_fwd _ _ _ R Hb) in E. change (negb (0 =? 0)) with false in E. cbv iota in E.
    unfold bind at 1 in E. rewrite (next_type_eq _ _ _ R) in E. destruct (Z.eqb_spec (b / 16 mod 8 * 16) SML_TYPE_LIST) as [HE|_]; [|discriminate]. cbn [negb] in E. split; [exact HE|].
    apply bind_inv in E. destruct E as (k & s2 & EL & E). exists k, s2. split; [exact EL|]. intros Hk. unfold with_fuel in E. now apply elems_runs in E.
Qed.
Lemma objects_list n items t s l s1 : 0 <= n < 2 ^ 28 -> rest s = enc (IList n items) ++ t -> error s = false -> small s -> object_list_parse s = Ret (Some l, s1) ->
  exists s2, runs sml_octet_string_parse l s2 s1 /\ rest s2 = flat_map enc items ++ t /\ error s2 = false /\ small s2 /\ (Z.of_nat (length l) = n <-> n <= 15).
Proof.
  intros Hn R He Sm E. rewrite enc_list, <- app_assoc in R.
  destruct (header_go n s _ Hn R He Sm) as (b & u & k & sx & RB & Hb & HB & ET & EL & R2 & He2 & Sm2 & K0 & K1 & K2).
  destruct (objects_inv _ _ _ _ _ RB E) as [(E1 & _)|(_ & _ & k' & s2 & EL' & HX)]; [contradiction|]. rewrite EL in EL'. injection EL' as <- <-.
  destruct (HX K0) as [HR HL]. exists sx. rewrite HL. auto.
Qed.
Lemma runs_app {A} (p : P A) l1 : forall l2 s s1, runs p (l1 ++ l2) s s1 -> exists s2, runs p l1 s s2 /\ runs p l2 s2 s1.
Proof.
  induction l1 as [|x l1 IH]; intros l2 s s1 HR; [exists s; split; [constructor|exact HR]|]. cbn [app] in HR. inversion HR as [|y l0 sa sb sc P1 P2 P3]; subst.
  destruct (IH _ _ _ P3) as (s2 & H1 & H2). exists s2. split; [econstructor; eauto|exact H2].
Qed.
Lemma tree_head c t : exists b u, enc (tree_item (Some c)) ++ t = b :: u /\ b <> 1 /\ b / 16 mod 8 * 16 = 112.
Proof. destruct c as [x y z]. cbn [tree_item]. rewrite node_eq. apply any_list_head. Qed.
(** nothing else ends in a tree and the checksum *)
Lemma dull_tree o t r l s s1 : at99 t -> rest s = enc (tree_item o) ++ t -> small s -> runs sml_octet_string_parse (r :: l) s s1 -> dull (r :: l) -> rest s1 = t.
Proof.
  intros Ct R Sm HR HD. destruct o as [c|].
  - exfalso. destruct c as [x y z]. cbn [tree_item] in R. rewrite node_eq in R. eapply dull_list; eauto.
  - cbn [tree_item enc app] in R. destruct (dull_one 1 _ _ _ _ _ (or_introl eq_refl) R Sm HR HD) as (_ & s2 & R2 & Sm2 & He2 & HR2 & HD2). destruct l as [|r2 l].
    + apply runs_nil_inv in HR2. subst s2. exact R2.
    + exfalso. destruct Ct as (u & ->). eapply dull_99; eauto.
Qed.
Lemma ex_pack_req m : wf_pack_req m -> every (size_ok false) (body_data_item (BPackReq m)) -> exact_body sml_get_profile_pack_request_parse BPackReq m.
Proof.
  destruct m as [f1 f2 f3 f4 f5 f6 f7 f8 f9]. body W HS R Ct He Sm E Er. destruct W as [W1 W2 W3 W4 W5 W6 W7 W8 W9].
  cbn [body_data_item gq_server_id gq_username gq_password gq_with_rawdata gq_begin_time gq_end_time gq_parameter_tree_path gq_object_list gq_das_details] in *. sizes HS.
  into 9 R Sm He E. fields E Er. apply bind_inv in E. destruct E as (ol & so & EO & E). destruct ol as [ol|]; [|discriminate]. fields E Er. inversion E. clear E. subst.
  match goal with E : sml_tree_parse so = _ |- _ => rename E into ET end.
  assert (N99 : forall l s, rest s = t -> object_list_parse s = Ret (Some l, so) -> False).
  { intros l sq Rs Es. destruct Ct as (u & ->). destruct (objects_inv _ _ _ _ _ Rs Es) as [(HX & _)|(_ & HX & _)]; discriminate. }
  assert (T99 : rest so = t -> False). { intros Rs. destruct Ct as (u & ->). pose proof (tree_99 _ _ _ _ Rs ET). congruence. }
  g (ex_oct _ S). g (ex_oct _ S0). g (ex_oct _ S1). g (ex_bool _ W4). g (ex_time _ W5). g (ex_time _ W6).
  assert (EC : f8 = [] \/ f8 <> []) by (destruct f8; [left; reflexivity|right; discriminate]).
  path S5.
  - match goal with R : rest s8 = _, Q : small s8 |- _ => rename R into Ro; rename Q into Smo end. assert (Ez8 : error s8 = false) by assumption. destruct EC as [->|EC].
    + cbn [objects_item enc app] in Ro. destruct (objects_inv _ _ _ _ _ Ro EO) as [(_ & _ & ->)|(HX & _)]; [|congruence].
      assert (HO : every readable (objects_item [])) by exact (conj I I). apply rest_1 in Ro. assert (Smo' : small (at_ s8 1 false)) by now apply at_small.
      assert (Eo' : error (at_ s8 1 false) = false) by (rewrite at_error, Ez8; reflexivity). g (ex_tree _ W9 S7). done_.
    + exfalso. assert (EI : objects_item f8 = IList (Z.of_nat (length f8)) (map oct_item (removelast f8))) by (destruct f8; [congruence|reflexivity]). rewrite EI in Ro, S6. clear EI.
      apply every_list in S6. destruct S6 as [[HC _] HA]. rewrite Forall_map in HA.
      destruct (objects_list _ _ _ _ _ _ (conj (Nat2Z.is_nonneg _) HC) Ro Ez8 Smo EO) as (sx & HR' & Rx & Hex & Smx & _).
      rewrite (app_removelast_last None EC) in HR'. destruct (runs_app _ _ _ _ _ HR') as (sy & HRa & HRb).
      assert (HX : Forall (fun x => exact_on ne sml_octet_string_parse (oct_item x) (id x)) (removelast f8)).
      { rewrite Forall_forall in *. intros x Hx. apply ex_oct. auto. }
      rewrite <- (map_id (removelast f8)) in HRa. destruct (runs_exact _ oct_item id _ _ _ _ HX Rx ltac:(ctx) Hex Smx HRa) as (_ & Ry & Smy).
      inversion HRb as [|y l0 sa sb sc P1 P2 P3]; subst. apply runs_nil_inv in P3. subst sb. destruct f9 as [c|].
      * destruct (tree_head c t) as (b & u & EB & Hb & HB). rewrite EB in Ry. pose proof (octet_not _ _ _ _ _ Ry ltac:(rewrite HB; discriminate) P1). congruence.
      * cbn [tree_item enc app] in Ry. rewrite (octet_1 _ _ Ry) in P1. injection P1 as _ <-. apply T99. now apply rest_1.
  - exfalso. destruct (swallowed_inv _ _ HW) as (r & l & sx & HD & Rx & Smx & Hex & HRx). destruct EC as [->|EC].
    + cbn [objects_item enc app] in Rx. destruct (dull_one 1 _ _ _ _ _ (or_introl eq_refl) Rx Smx HRx HD) as (_ & sa & Ra & Sma & Hea & HRa & HDa). destruct l as [|r2 l].
      * apply runs_nil_inv in HRa. subst sa. destruct f9 as [c|].
        -- destruct c as [x y z]. cbn [tree_item] in Ra. rewrite node_eq in Ra.
           destruct (objects_list 3 _ _ _ _ _ ltac:(change (2 ^ 28) with 268435456; lia) Ra Hea Sma EO) as (sb & _ & _ & _ & _ & HL). cbn [length] in HL. lia.
        -- cbn [tree_item enc app] in Ra. destruct (objects_inv _ _ _ _ _ Ra EO) as [(_ & _ & Eo)|(HX & _)]; [|congruence]. apply T99. rewrite Eo. now apply rest_1.
      * apply (N99 [] s8); [|exact EO]. eapply dull_tree; eauto.
    + assert (EI : objects_item f8 = IList (Z.of_nat (length f8)) (map oct_item (removelast f8))) by (destruct f8; [congruence|reflexivity]). rewrite EI in Rx. eapply dull_list; eauto.
  - exfalso. destruct HP as (b & u & k & sx & l & EB & Hb & HB & EL & HRl & HL & HD). destruct EC as [->|EC]; [cbn [objects_item enc app] in EB; congruence|].
    assert (EI : objects_item f8 = IList (Z.of_nat (length f8)) (map oct_item (removelast f8))) by (destruct f8; [congruence|reflexivity]). rewrite EI in RP, S6. clear EI EB.
    apply every_list in S6. destruct S6 as [[HC _] HA]. rewrite Forall_map in HA. rewrite enc_list, <- app_assoc in RP.
    match goal with Q : small s7, He : error s7 = false |- _ => destruct (header_go _ s7 _ (conj (Nat2Z.is_nonneg _) HC) RP He Q) as (b' & u' & k' & sy & RB & Hb' & HB' & ET' & EL' & R2 & He2 & Sm2 & K0 & K1 & K2) end.
    rewrite EL in EL'. injection EL' as <- <-. specialize (HL K0).
    assert (HN : length f8 = (length (removelast f8) + 1)%nat). { rewrite (app_removelast_last None EC) at 1. now rewrite app_length. }
    destruct (dull_items _ _ _ _ _ HA R2 ltac:(ctx) Sm2 He2 HRl (or_introl HD)) as [(HLn & Rp & Smp & Hep)|(l2 & sz & HLn & HL2 & Rz & Smz & Hez & HRz & HDz)].
    + destruct (skipn (length l) (removelast f8)) as [|o w] eqn:ES.
      * cbn [map flat_map app] in Rp. assert (HE : (length (removelast f8) <= length l)%nat).
        { pose proof (skipn_length (length l) (removelast f8)) as HX. rewrite ES in HX. cbn [length] in HX. lia. }
        destruct f9 as [c|].
        -- destruct c as [x y z]. cbn [tree_item] in Rp. rewrite node_eq in Rp.
           destruct (objects_list 3 _ _ _ _ _ ltac:(change (2 ^ 28) with 268435456; lia) Rp Hep Smp EO) as (sb & _ & _ & _ & _ & HL3). lia.
        -- cbn [tree_item enc app] in Rp. destruct (objects_inv _ _ _ _ _ Rp EO) as [(_ & HX & _)|(HX & _)]; [contradiction|congruence].
      * cbn [map flat_map] in Rp. rewrite <- app_assoc in Rp. match type of Rp with _ = _ ++ ?t => destruct (oct_head o t) as (bo & uo & EBo & HBo) end. rewrite EBo in Rp.
        destruct (objects_inv _ _ _ _ _ Rp EO) as [(_ & HX & _)|(_ & HX & _)]; [contradiction|]. rewrite HBo in HX. discriminate.
    + destruct l2 as [|r2 l2]; [congruence|]. apply (N99 f8 s8); [|exact EO]. eapply dull_tree; eauto.
Qed.
(** *** all bodies *)
Lemma body_inv {A} (p : P (option A)) (c : A -> body_data) x s s1 : (forall y, c y = c x -> y = x) -> c x <> BNull ->
  bind p (fun d => ret (from_opt BNull c d)) s = Ret (c x, s1) -> p s = Ret (Some x, s1).
Proof.
  intros HI HN E. apply bind_inv in E. destruct E as (d & s2 & E1 & E). injection E as E <-. destruct d as [y|]; cbn [from_opt] in E; [|congruence].
  apply HI in E. now subst y.
Qed.
Lemma body_data_back tag d s t s1 : wf_body_data tag d -> every (size_ok false) (body_data_item d) -> rest s = enc (body_data_item d) ++ t -> at99 t -> error s = false -> small s ->
  body_data_parse tag s = Ret (d, s1) -> error s1 = false -> every readable (body_data_item d) /\ body_run d = d /\ rest s1 = t /\ small s1.
Proof.
  intros HW HS R Ct He Sm E Er.
  assert (HX : forall {A} (p : P (option A)) (c : A -> body_data) x, exact_on at99 p (body_data_item (c x)) (Some x) -> d = c x -> body_run (c x) = c x -> p s = Ret (Some x, s1) ->
    every readable (body_data_item d) /\ body_run d = d /\ rest s1 = t /\ small s1).
  { intros A p c x HE -> HR Ep. destruct (HE s t s1 R Ct He Sm Ep Er) as (H1 & H2 & H3). auto. }
  destruct d as [|m|m|m|m|m|m|m|m|m|m|m|m|m]; cbn [wf_body_data] in HW.
  - cbn [body_data_item] in *. assert (ER : body_data_parse tag = ret BNull).
    { cbn [In] in HW. unfold body_data_parse. 
      repeat match goal with |- context [tag =? ?c] => destruct (Z.eqb_spec tag c) as [HE|_]; [exfalso; apply HW; unfold SML_MESSAGE_OPEN_REQUEST,
      SML_MESSAGE_OPEN_RESPONSE, SML_MESSAGE_CLOSE_REQUEST, SML_MESSAGE_CLOSE_RESPONSE, SML_MESSAGE_GET_PROFILE_PACK_REQUEST, SML_MESSAGE_GET_PROFILE_PACK_RESPONSE,
      SML_MESSAGE_GET_PROFILE_LIST_REQUEST, SML_MESSAGE_GET_PROFILE_LIST_RESPONSE, SML_MESSAGE_GET_PROC_PARAMETER_REQUEST, SML_MESSAGE_GET_PROC_PARAMETER_RESPONSE,
      SML_MESSAGE_SET_PROC_PARAMETER_REQUEST, SML_MESSAGE_GET_LIST_REQUEST, SML_MESSAGE_GET_LIST_RESPONSE, SML_MESSAGE_ATTENTION_RESPONSE in HE; lia|] end. reflexivity. }
    rewrite ER in E. injection E as <-. cbn [enc app] in R. repeat split; auto.
  - destruct HW as [-> HW]. eapply (HX _ _ BOpenReq); [exact (ex_open_req m HW HS)|reflexivity|reflexivity|]. apply (body_inv _ BOpenReq); [congruence|discriminate|exact E].
  - destruct HW as [-> HW]. eapply (HX _ _ BOpenRes); [exact (ex_open_res m HW HS)|reflexivity|reflexivity|]. apply (body_inv _ BOpenRes); [congruence|discriminate|exact E].
  - destruct HW as [-> HW]. eapply (HX _ _ BCloseReq); [exact (ex_close_req m HW HS)|reflexivity|reflexivity|]. apply (body_inv _ BCloseReq); [congruence|discriminate|exact E].
  - destruct HW as [-> HW]. eapply (HX _ _ BCloseRes); [exact (ex_close_res m HW HS)|reflexivity|reflexivity|]. apply (body_inv _ BCloseRes); [congruence|discriminate|exact E].
  - destruct HW as [[-> | ->] HW]; (eapply (HX _ _ BPackReq); [exact (ex_pack_req m HW HS)|reflexivity|reflexivity|]; apply (body_inv _ BPackReq); [congruence|discriminate|exact E]).
  - destruct HW as [-> HW]. eapply (HX _ _ BPackRes); [exact (ex_pack_res m HW HS)|reflexivity|reflexivity|]. apply (body_inv _ BPackRes); [congruence|discriminate|exact E].
  - destruct HW as [-> HW]. eapply (HX _ _ BProfListRes); [exact (ex_prof_list_res m HW HS)|reflexivity|reflexivity|]. apply (body_inv _ BProfListRes); [congruence|discriminate|exact E].
  - destruct HW as [-> HW]. eapply (HX _ _ BProcReq); [exact (ex_proc_req m HW HS)|reflexivity|reflexivity|]. apply (body_inv _ BProcReq); [congruence|discriminate|exact E].
  - destruct HW as [-> HW]. eapply (HX _ _ BProcRes); [exact (ex_proc_res m HW HS)|reflexivity|reflexivity|]. apply (body_inv _ BProcRes); [congruence|discriminate|exact E].
  - destruct HW as [-> HW]. eapply (HX _ _ BSetProc); [exact (ex_set_proc m HW HS)|reflexivity|reflexivity|]. apply (body_inv _ BSetProc); [congruence|discriminate|exact E].
  - destruct HW as [-> HW]. eapply (HX _ _ BListReq); [exact (ex_list_req m HW HS)|reflexivity|reflexivity|]. apply (body_inv _ BListReq); [congruence|discriminate|exact E].
  - destruct HW as [-> HW]. assert (Ep : sml_get_list_response_parse s = Ret (Some m, s1)) by (apply (body_inv _ BListRes); [congruence|discriminate|exact E]).
    destruct (list_res_back m s t s1 HW HS R (at99_ne _ Ct) He Sm Ep Er) as (H1 & H2 & H3 & H4). split; [exact H1|]. split; [|auto].
    cbn [body_run]. unfold list_res_run. rewrite H2. now destruct m.
  - destruct HW as [-> HW]. eapply (HX _ _ BAttention); [exact (ex_attention m HW HS)|reflexivity|reflexivity|]. apply (body_inv _ BAttention); [congruence|discriminate|exact E].
Qed.
Lemma body_back b s t s1 : wf_body b -> every (size_ok false) (body_item (Some b)) -> rest s = enc (body_item (Some b)) ++ t -> at99 t -> error s = false -> small s ->
  sml_message_body_parse s = Ret (Some b, s1) -> error s1 = false -> every readable (body_item (Some b)) /\ body_run (mb_data b) = mb_data b /\ rest s1 = t /\ small s1.
Proof.
  destruct b as [tag d]. intros (m & ET & Hm & HD) HS R Ct He Sm E Er. cbn [mb_tag mb_data body_item] in *. subst tag. pose proof (at99_ne _ Ct) as Ht. sizes HS.
  unfold sml_message_body_parse in E. apply bind_inv in E. destruct E as (e & sx & EE & E). unfold at_end in EE. injection EE as <- <-. destruct (_ <=? _)%nat; [discriminate|].
  into 2 R Sm He E. fields E Er. destruct v as [m'|]; [|discriminate]. apply bind_inv in E. destruct E as (d' & sy & ED & E). injection E as -> -> ->.
  match goal with E : sml_u32_parse s0 = _ |- _ => rename E into EU end. g (ex_u32 (Some m) Hm).
  match goal with R : rest s2 = _, Q : small s2 |- _ => destruct (body_data_back _ d s2 t s1 HD S0 R Ct ltac:(assumption) Q ED Er) as (H1 & H2 & H3) end.
  split; [all_readable|auto].
Qed.

(** *** the message *)
Lemma field_some {A B} (p : P A) (k : A -> P (option B)) s x s1 : field p k s = Ret (Some x, s1) -> exists v s', p s = Ret (v, s') /\ error s' = false /\ k v s' = Ret (Some x, s1).
Proof.
  intros E. unfold field in E. apply bind_inv in E. destruct E as (v & s' & E1 & E). unfold bind at 1, sml_buf_has_errors in E. destruct (error s') eqn:Er; [discriminate|]. eauto.
Qed.
Lemma run_stable l1 : forall w l e l2 v, dzg_run w l = l -> l = l1 ++ e :: l2 -> w = true \/ Exists affected l1 -> le_obj_name e = Some power_name -> le_value e = Some v ->
  (length (enc (value_item (Some v))) <= 3)%nat -> Z.land (v_type v) 112 = 96.
Proof.
  induction l1 as [|x l1 IH]; intros w l e l2 v HR -> HW HN HV HL.
  - destruct HW as [->|HW]; [|inversion HW]. cbn [app dzg_run] in HR. cbv zeta in HR. injection HR as HR _. unfold worked in HR.
    assert (EP : is_power e = true). { unfold is_power. rewrite HN. apply list_eqb_eq. reflexivity. }
    assert (EA : affectedb e = false). { unfold affectedb. rewrite HN. destruct (le_value e) as [[ty []]|]; reflexivity. }
    assert (ES : short_value e = true). { unfold short_value. rewrite HV. apply Nat.leb_le. exact HL. }
    rewrite EA, EP, ES in HR. cbn [andb fst] in HR. unfold forced in HR. rewrite HV in HR. apply (f_equal le_value) in HR. cbn [le_value] in HR. rewrite HV in HR. injection HR as HR.
    rewrite <- HR. unfold force_unsigned. cbn [v_type]. rewrite Z.land_lor_distr_l, Z.land_ldiff. unfold SML_TYPE_UNSIGNED. reflexivity.
  - cbn [app dzg_run] in HR. cbv zeta in HR. injection HR as _ HR. eapply (IH _ _ e l2 v HR eq_refl); auto.
    unfold worked. destruct (affectedb x) eqn:EA; [left; reflexivity|]. destruct HW as [->|HW].
    + left. destruct (_ && _ && _); reflexivity.
    + right. inversion HW; subst; [|assumption]. exfalso. apply affectedb_iff in H1. congruence.
Qed.
Definition same_content (m r : sml_message) : Prop :=
  m_transaction_id r = m_transaction_id m /\ m_group_id r = m_group_id m /\ m_abort_on_error r = m_abort_on_error m /\ m_message_body r = m_message_body m.
Lemma message_back m s t r s1 : writable m -> Forall (every (size_ok false)) (message_items m) -> rest s = message_bytes m ++ t -> error s = false -> small s ->
  sml_message_parse s = Ret (Some r, s1) -> same_content m r -> Forall (every readable) (message_items m) /\ message_stable m.
Proof.
  destruct m as [tid gid ab body crc]. intros [W1 W2 W3 (b & EB & W4)] HS R He Sm E SC. unfold message_items, message_stable, same_content in *.
  cbn [m_transaction_id m_group_id m_abort_on_error m_message_body m_crc] in *. subst body.
  repeat (apply Forall_cons_iff in HS; let h := fresh "S" in destruct HS as [h HS]).
  assert (R0 : exists t', at99 t' /\ rest s = enc (IList 6 [oct_item tid; num_item 96 gid; num_item 96 ab; body_item (Some b)]) ++ t').
  { eexists (seal _ ++ t). split; [eexists; reflexivity|]. rewrite R. unfold message_bytes, checked_bytes, message_items. rewrite enc_list. change (tl_text 112 6) with [118].
    cbn [m_transaction_id m_group_id m_abort_on_error m_message_body m_crc]. rewrite <- app_assoc. reflexivity. }
  clear R. destruct R0 as (t' & Ct & R). pose proof (at99_ne _ Ct) as Ht.
  unfold sml_message_parse in E. apply bind_inv in E. destruct E as (ms & sx & EM & E). unfold cursor_int in EM. injection EM as _ <-.
  destruct (expect_step 6 _ _ _ _ _ _ ltac:(lia) R Sm He E) as (s' & E' & R1 & Sm1 & He1). clear E. rename E' into E.
  repeat (apply field_some in E; let v := fresh "v" in let s' := fresh "s" in let E1 := fresh "E" in let Er1 := fresh "Er" in destruct E as (v & s' & E1 & Er1 & E)).
  assert (EV : v = tid /\ v0 = gid /\ v1 = ab /\ v2 = Some b).
  { clear -E SC. repeat (apply bind_inv in E; let v := fresh "u" in let s' := fresh "z" in let E1 := fresh "E" in destruct E as (v & s' & E1 & E);
      repeat match type of E with (if ?c then _ else _) _ = _ => destruct c; try discriminate | (match ?c with None => _ | Some _ => _ end) _ = _ => destruct c; try discriminate end).
    injection E as <- _. cbn [m_transaction_id m_group_id m_abort_on_error m_message_body m_crc] in SC. exact SC. }
  destruct EV as (-> & -> & -> & ->). splice R1. clear E R He Sm.
  g (ex_oct _ S). g (ex_u8 _ W2). g (ex_u8 _ W3).
  match goal with R : rest s3 = _, Q : small s3 |- _ => destruct (body_back b s3 t' s4 W4 S2 R Ct ltac:(assumption) Q ltac:(assumption) ltac:(assumption)) as (H1 & H2 & _) end.
  split; [repeat (apply Forall_cons; [assumption|]); apply Forall_nil|].
  destruct b as [tag d]. cbn [mb_data] in *. destruct d; try exact I. cbn [body_stable]. cbn [body_run] in H2. injection H2 as H2. unfold list_res_run in H2.
  apply (f_equal lr_val_list) in H2. cbn [lr_val_list] in H2. intros l1 e l2 v EL HA. apply (run_stable l1 false _ e l2 v H2 EL). now right.
Qed.
End WithHost.
