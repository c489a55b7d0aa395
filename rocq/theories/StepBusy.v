(** No byte is consumed without a step (StepModel). *)
From Verif Require Import Base Buf Crc16 Number OctetString Boolean Value Time SList Tree Bodies Message File StepModel StepFacts StepPay.

(** [t] consumes at most [d] bytes more than it takes steps. *)
Record busy {A} (t : T A) (d : Z) : Prop := Busy { busy_le : forall s c x s', t s = (c, Ret (x, s')) -> adv s s' <= Z.of_nat c + d }.
Arguments busy_le {A t d}.
Lemma b_ret {A} (x : A) d : 0 <= d -> busy (t_ret x) d.
Proof. intros Hd. split. intros s c y s' E. inversion E; subst. unfold adv. lia. Qed.
Lemma b_fail {A} f d : busy (t_fail f : T A) d.
Proof. split. discriminate. Qed.
Lemma b_fuel0 {A} d : busy (t_out_of_fuel : T A) d.
Proof. split. discriminate. Qed.
Lemma b_spend n : busy (t_spend n) (- Z.of_nat n).
Proof. split. intros s c y s' E. inversion E; subst. unfold adv. lia. Qed.
Lemma b_step {A} (p : P A) : (forall s x s', p s = Ret (x, s') -> cursor s' = cursor s) -> busy (t_step p) (-1).
Proof. intros Hp. split. intros s c y s' E. unfold t_step in E. inversion E as [[Hc Hx]]. unfold adv. rewrite (Hp _ _ _ Hx). lia. Qed.
Ltac quietstep := apply b_step; intros s x s' E; inversion E; subst; reflexivity.
Lemma b_has_errors : busy t_has_errors (-1). Proof. quietstep. Qed.
Lemma b_at_end : busy t_at_end (-1). Proof. quietstep. Qed.
Lemma b_int n : busy (t_int_op n) (-1). Proof. quietstep. Qed.
Lemma b_cursor n : busy (t_cursor_int n) (-1). Proof. quietstep. Qed.
Lemma b_set_error : busy t_set_error (-1). Proof. quietstep. Qed.
Lemma b_byte : busy t_get_current_byte (-1).
Proof. apply b_step. intros s x s' E. unfold sml_buf_get_current_byte in E. destruct (nth_error _ _); inversion E; subst; auto. Qed.
Lemma b_slice a b : busy (t_buffer_slice a b) (-1).
Proof. apply b_step. intros s x s' E. unfold buffer_slice in E. destruct (_ <? _); [discriminate|]. destruct (_ <? _); [discriminate|]. destruct (_ <=? _)%nat; inversion E; subst; auto. Qed.
Lemma b_add a b : busy (t_file_add_message a b) (-1).
Proof. apply b_step. intros s x s' E. unfold sml_file_add_message in E. destruct (_ <=? _); inversion E; subst; auto. Qed.
Lemma b_update l : busy (t_update_bytes_read l) (l - 1).
Proof. split. intros s c x s' E. unfold t_update_bytes_read, t_step, sml_buf_update_bytes_read in E. destruct (Z.ltb_spec l 0); [discriminate|]. inversion E; subst. unfold adv. cbn [cursor set_cursor]. lia. Qed.
Lemma b_bind {A B} (t : T A) (q : A -> T B) d1 d : busy t d1 -> (forall x, busy (q x) (d - d1)) -> busy (t_bind t q) d.
Proof.
  intros Hp Hq. split. intros s c x s' E. unfold t_bind in E. destruct (t s) as [c1 [[y s1]|f|]] eqn:E1; [|discriminate|discriminate].
  destruct (q y s1) as [c2 o] eqn:E2. inversion E; subst. pose proof (busy_le Hp _ _ _ _ E1). pose proof (busy_le (Hq y) _ _ _ _ E2). unfold adv in *. lia.
Qed.
Lemma b_weaken {A} (t : T A) d d' : busy t d -> d <= d' -> busy t d'.
Proof. intros Hp Hd. split. intros s c x s' E. pose proof (busy_le Hp _ _ _ _ E). lia. Qed.
Lemma b_read n : busy (t_read_current n) (- Z.of_nat n - 1).
Proof.
  unfold t_read_current. eapply b_bind; [apply b_spend|]. intros _. eapply b_weaken; [apply b_step|lia].
  intros s x s' E. unfold read_current in E. destruct (_ <=? _)%nat; inversion E; subst; auto.
Qed.
Lemma b_with {A} (f : nat -> T A) d : (forall n, busy (f n) d) -> busy (t_with_fuel f) d.
Proof. intros Hf. split. intros s c x s' E. exact (busy_le (Hf _) _ _ _ _ E). Qed.
Create HintDb busy discriminated.
#[export] Hint Constants Opaque : busy.
#[export] Hint Resolve b_has_errors b_at_end b_int b_cursor b_set_error b_byte b_slice b_add b_update b_read b_spend : busy.
(** Follows the text of the parser. *)
Ltac ts := repeat (cbv zeta; lazymatch goal with
  | |- busy (t_ret _) _ => apply b_ret; lia
  | |- busy (t_fail _) _ => apply b_fail
  | |- busy t_out_of_fuel _ => apply b_fuel0
  | |- busy (t_bind (t_step _) _) _ => eapply b_bind; [apply b_step; intros ? ? ? EE; inversion EE; subst; reflexivity|intros ?]
  | |- busy (t_bind _ _) _ => first [eapply b_bind; [solve [eauto 2 with busy nocore]|intros ?]|apply b_bind with (d1 := 0); [|intros ?]]
  | |- busy (t_with_fuel _) _ => apply b_with; intros ?
  | |- busy (if ?b then _ else _) _ => destruct b
  | |- busy (match ?x with _ => _ end) _ => destruct x
  | |- _ => solve [eapply b_weaken; [solve [eauto 2 with busy nocore]|lia]]
  end).
Lemma b_err_null {A} : busy (t_err_null : T (option A)) 0.
Proof. unfold t_err_null. ts. Qed.
#[export] Hint Resolve b_err_null : busy.
Lemma b_next_type : busy t_get_next_type 0.
Proof. unfold t_get_next_type. ts. Qed.
#[export] Hint Resolve b_next_type : busy.
Lemma b_length_loop fuel : forall a b, busy (t_get_next_length_loop fuel a b) 0.
Proof. induction fuel as [|fuel IH]; intros a b; cbn [t_get_next_length_loop]; ts; try (eapply b_weaken; [apply IH|lia]). Qed.
#[export] Hint Resolve b_length_loop : busy.
Lemma b_next_length : busy t_get_next_length 0.
Proof. unfold t_get_next_length. ts. Qed.
#[export] Hint Resolve b_next_length : busy.
Lemma b_skipped : busy t_optional_is_skipped 0.
Proof. unfold t_optional_is_skipped. ts. Qed.
#[export] Hint Resolve b_skipped : busy.
Lemma b_unless {A} (k : T (option A)) : busy k 0 -> busy (t_unless_skipped k) 0.
Proof. intros H1. unfold t_unless_skipped. ts. Qed.
Lemma b_field {A B} (t : T A) (k : A -> T (option B)) : busy t 0 -> (forall x, busy (k x) 0) -> busy (t_field t k) 0.
Proof. intros H1 H2. unfold t_field. ts. Qed.
Lemma b_expect {B} n (k : T (option B)) : busy k 0 -> busy (t_expect_list n k) 0.
Proof. intros H1. unfold t_expect_list. ts. Qed.
Lemma b_label {A} (k : T (option A)) : busy k 0 -> busy (t_error_label k) 0.
Proof. intros H1. unfold t_error_label. ts. Qed.
Ltac tss := repeat (cbv zeta; lazymatch goal with
  | |- busy (t_unless_skipped _) _ => eapply b_weaken; [apply b_unless|lia]
  | |- busy (t_expect_list _ _) _ => eapply b_weaken; [apply b_expect|lia]
  | |- busy (t_error_label _) _ => eapply b_weaken; [apply b_label|lia]
  | |- busy (t_field _ _) _ => eapply b_weaken; [apply b_field; [|intros ?]|lia]
  | |- _ => progress ts
  end).

Section WithHost.
Context {H : Host}.
Lemma b_number type max : busy (t_number_parse type max) 0.
Proof. unfold t_number_parse. tss. Qed.
Lemma b_u8 : busy t_u8_parse 0. Proof. unfold t_u8_parse. apply b_number. Qed.
Lemma b_u16 : busy t_u16_parse 0. Proof. unfold t_u16_parse. apply b_number. Qed.
Lemma b_u32 : busy t_u32_parse 0. Proof. unfold t_u32_parse. apply b_number. Qed.
Lemma b_u64 : busy t_u64_parse 0. Proof. unfold t_u64_parse. apply b_number. Qed.
Lemma b_i8 : busy t_i8_parse 0. Proof. unfold t_i8_parse. apply b_number. Qed.
Lemma b_i16 : busy t_i16_parse 0. Proof. unfold t_i16_parse. apply b_number. Qed.
Lemma b_i64 : busy t_i64_parse 0. Proof. unfold t_i64_parse. apply b_number. Qed.
Lemma b_octet : busy t_octet_string_parse 0.
Proof. unfold t_octet_string_parse. tss. Qed.
Lemma b_boolean : busy t_boolean_parse 0.
Proof. unfold t_boolean_parse. tss. Qed.
Hint Resolve b_number b_u8 b_u16 b_u32 b_u64 b_i8 b_i16 b_i64 b_octet b_boolean : busy.
Lemma b_max_loop fuel : forall a b, busy (t_max_loop fuel a b) 0.
Proof. induction fuel as [|fuel IH]; intros a b; cbn [t_max_loop]; ts; try (eapply b_weaken; [apply IH|lia]). Qed.
Lemma b_width b : busy (t_number_width b) 0.
Proof. apply b_max_loop. Qed.
Hint Resolve b_width : busy.
Lemma b_value : busy t_value_parse 0.
Proof. unfold t_value_parse. tss. Qed.
Lemma b_status : busy t_status_parse 0.
Proof. unfold t_status_parse. tss. Qed.
Lemma b_time_value tag : busy (t_time_value tag) 0.
Proof. unfold t_time_value. tss. Qed.
Hint Resolve b_value b_status b_time_value : busy.
Lemma b_time : busy t_time_parse 0.
Proof. unfold t_time_parse. tss. Qed.
Hint Resolve b_time : busy.
Lemma b_seqloop {A} (t : T (option A)) : busy t 0 -> forall fuel n, busy (t_sequence_loop fuel n t) 0.
Proof. intros H1. induction fuel as [|fuel IH]; intros n; cbn [t_sequence_loop]; ts. Qed.
Lemma b_sequence {A} (t : T (option A)) : busy t 0 -> busy (t_sequence_parse t) 0.
Proof. intros H1. unfold t_sequence_parse. tss. eapply b_weaken; [now apply b_seqloop|lia]. Qed.
Lemma b_workaround w v l : busy (t_apply_workaround w v l) 0.
Proof.
  unfold t_apply_workaround. eapply b_bind; [apply b_spend|]. intros _. eapply b_bind; [apply b_step; intros s x s' E; apply detect_still in E; now subst|]. intros d. ts.
Qed.
Hint Resolve b_sequence b_workaround : busy.
Lemma b_entry w : busy (t_list_entry_parse w) 0.
Proof. unfold t_list_entry_parse. tss. Qed.
Hint Resolve b_entry : busy.
Lemma b_list_loop fuel : forall n w, busy (t_list_loop fuel n w) 0.
Proof. induction fuel as [|fuel IH]; intros n w; cbn [t_list_loop]; ts. Qed.
Hint Resolve b_list_loop : busy.
Lemma b_list_parse : busy t_list_parse 0.
Proof. unfold t_list_parse. ts. Qed.
Lemma b_elems {A} (t : T A) : busy t 0 -> forall fuel n, busy (t_elems_loop fuel n t) 0.
Proof. intros H1. induction fuel as [|fuel IH]; intros n; cbn [t_elems_loop]; ts. Qed.
Hint Resolve b_list_parse b_elems : busy.
Lemma b_path : busy t_tree_path_parse 0.
Proof. unfold t_tree_path_parse. tss. Qed.
Lemma b_tupel : busy t_tupel_entry_parse 0.
Proof. unfold t_tupel_entry_parse. tss. Qed.
Lemma b_period : busy t_period_entry_parse 0.
Proof. unfold t_period_entry_parse. tss. Qed.
Hint Resolve b_path b_tupel b_period : busy.
Lemma b_ppv : busy t_proc_par_value_parse 0.
Proof. unfold t_proc_par_value_parse. tss. Qed.
Hint Resolve b_ppv : busy.
Lemma b_tree_rec d : busy (t_tree_parse_rec d) 0.
Proof. induction d as [|d IH]; cbn [t_tree_parse_rec]; tss. Qed.
Hint Resolve b_tree_rec : busy.
Lemma b_tree : busy t_tree_parse 0.
Proof. unfold t_tree_parse. ts. Qed.
Lemma b_objects : busy t_object_list_parse 0.
Proof. unfold t_object_list_parse. ts. Qed.
Lemma b_header : busy t_prof_obj_header_entry_parse 0.
Proof. unfold t_prof_obj_header_entry_parse. tss. Qed.
Lemma b_value_entry : busy t_value_entry_parse 0.
Proof. unfold t_value_entry_parse. tss. Qed.
Hint Resolve b_tree b_objects b_header b_value_entry : busy.
Lemma b_period_entry : busy t_prof_obj_period_entry_parse 0.
Proof. unfold t_prof_obj_period_entry_parse. tss. Qed.
Hint Resolve b_period_entry : busy.
Lemma b_open_request : busy t_open_request_parse 0.
Proof. unfold t_open_request_parse. tss. Qed.
Lemma b_open_response : busy t_open_response_parse 0.
Proof. unfold t_open_response_parse. tss. Qed.
Lemma b_close_request : busy t_close_request_parse 0.
Proof. unfold t_close_request_parse. tss. Qed.
Lemma b_close_response : busy t_close_response_parse 0.
Proof. unfold t_close_response_parse. tss. Qed.
Lemma b_get_profile_pack_request : busy t_get_profile_pack_request_parse 0.
Proof. unfold t_get_profile_pack_request_parse. tss. Qed.
Lemma b_get_profile_pack_response : busy t_get_profile_pack_response_parse 0.
Proof. unfold t_get_profile_pack_response_parse. tss. Qed.
Lemma b_get_profile_list_response : busy t_get_profile_list_response_parse 0.
Proof. unfold t_get_profile_list_response_parse. tss. Qed.
Lemma b_get_proc_parameter_request : busy t_get_proc_parameter_request_parse 0.
Proof. unfold t_get_proc_parameter_request_parse. tss. Qed.
Lemma b_get_proc_parameter_response : busy t_get_proc_parameter_response_parse 0.
Proof. unfold t_get_proc_parameter_response_parse. tss. Qed.
Lemma b_set_proc_parameter_request : busy t_set_proc_parameter_request_parse 0.
Proof. unfold t_set_proc_parameter_request_parse. tss. Qed.
Lemma b_get_list_request : busy t_get_list_request_parse 0.
Proof. unfold t_get_list_request_parse. tss. Qed.
Lemma b_get_list_response : busy t_get_list_response_parse 0.
Proof. unfold t_get_list_response_parse. tss. Qed.
Lemma b_attention_response : busy t_attention_response_parse 0.
Proof. unfold t_attention_response_parse. tss. Qed.
Hint Resolve b_open_request b_open_response b_close_request b_close_response b_get_profile_pack_request b_get_profile_pack_response b_get_profile_list_response b_get_proc_parameter_request b_get_proc_parameter_response b_set_proc_parameter_request b_get_list_request b_get_list_response b_attention_response : busy.
Lemma b_data tag : busy (t_body_data_parse tag) 0.
Proof. unfold t_body_data_parse. ts. Qed.
Hint Resolve b_data : busy.
Lemma b_body : busy t_message_body_parse 0.
Proof. unfold t_message_body_parse. tss. Qed.
Hint Resolve b_body : busy.
Lemma b_message : busy t_message_parse 0.
Proof. unfold t_message_parse. tss. Qed.
Hint Resolve b_message : busy.
Lemma b_file_loop fuel : forall l, busy (t_file_loop fuel l) 0.
Proof. induction fuel as [|fuel IH]; intros l; cbn [t_file_loop]; ts. Qed.
End WithHost.
