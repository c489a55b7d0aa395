(** Facts about the parser that counts its steps (StepModel): it does what the plain
    one does, and the steps are paid for by the bytes that are consumed. *)
From Verif Require Import Base Buf Crc16 Number OctetString Boolean Value Time SList Tree Bodies Message File StepModel.

(** *** Counting changes nothing *)
Record tsame {A} (t : T A) (p : P A) : Prop := TS { ts_eq : forall s, snd (t s) = p s }.
Arguments TS {A} t p.
Arguments ts_eq {A t p}.
Lemma ts_ret {A} (x : A) : tsame (t_ret x) (ret x).
Proof. split. intros s. reflexivity. Qed.
Lemma ts_step {A} (p : P A) : tsame (t_step p) p.
Proof. split. intros s. reflexivity. Qed.
Lemma ts_fail {A} f : tsame (t_fail f : T A) (fail f).
Proof. split. intros s. reflexivity. Qed.
Lemma ts_fuel0 {A} : tsame (t_out_of_fuel : T A) out_of_fuel.
Proof. split. intros s. reflexivity. Qed.
Lemma ts_bind {A B} (t : T A) (p : P A) (k : A -> T B) (k' : A -> P B) : tsame t p -> (forall x, tsame (k x) (k' x)) -> tsame (t_bind t k) (bind p k').
Proof.
  intros H1 H2. split. intros s. unfold t_bind, bind. rewrite <- (ts_eq H1 s). destruct (t s) as [l [[x s1]|f|]]; cbn [snd]; try reflexivity. rewrite <- (ts_eq (H2 x) s1). destruct (k x s1); reflexivity.
Qed.
Lemma ts_spend {B} n (k : T B) p : tsame k p -> tsame (t_spend n ;;~ k) p.
Proof. intros H1. split. intros s. unfold t_bind, t_spend. rewrite <- (ts_eq H1 s). destruct (k s); reflexivity. Qed.
Lemma ts_with {A} (f : nat -> T A) f' : (forall n, tsame (f n) (f' n)) -> tsame (t_with_fuel f) (with_fuel f').
Proof. intros H1. split. intros s. apply (ts_eq (H1 _)). Qed.
Lemma ts_set_error : tsame t_set_error set_error. Proof. apply ts_step. Qed.
Lemma ts_has_errors : tsame t_has_errors sml_buf_has_errors. Proof. apply ts_step. Qed.
Lemma ts_at_end : tsame t_at_end at_end. Proof. apply ts_step. Qed.
Lemma ts_byte : tsame t_get_current_byte sml_buf_get_current_byte. Proof. apply ts_step. Qed.
Lemma ts_update n : tsame (t_update_bytes_read n) (sml_buf_update_bytes_read n). Proof. apply ts_step. Qed.
Lemma ts_int n : tsame (t_int_op n) (int_op n). Proof. apply ts_step. Qed.
Lemma ts_cursor n : tsame (t_cursor_int n) (cursor_int n). Proof. apply ts_step. Qed.
Lemma ts_read n : tsame (t_read_current n) (read_current n). Proof. apply ts_spend, ts_step. Qed.
Lemma ts_slice a b : tsame (t_buffer_slice a b) (buffer_slice a b). Proof. apply ts_step. Qed.
Lemma ts_add a b : tsame (t_file_add_message a b) (sml_file_add_message a b). Proof. apply ts_step. Qed.
Create HintDb ts discriminated.
#[export] Hint Constants Opaque : ts.
#[export] Hint Variables Opaque : ts.
#[export] Hint Resolve ts_ret ts_step ts_fail ts_fuel0 ts_set_error ts_has_errors ts_at_end ts_byte ts_update ts_int ts_cursor ts_read ts_slice ts_add : ts.
(** Follows the text of both sides. *)
Ltac ts := repeat (cbv zeta; lazymatch goal with
  | |- tsame (t_bind (t_spend _) _) _ => apply ts_spend
  | |- tsame (t_bind _ _) (bind _ _) => apply ts_bind; [|intros ?]
  | |- tsame (t_with_fuel _) _ => apply ts_with; intros ?
  | |- tsame (if ?b then _ else _) _ => destruct b
  | |- tsame (match ?x with _ => _ end) _ => destruct x
  | |- _ => solve [auto 2 with ts nocore]
  end).
Lemma ts_err_null {A} : tsame (t_err_null : T (option A)) err_null.
Proof. unfold t_err_null, err_null. ts. Qed.
#[export] Hint Resolve ts_err_null : ts.
Lemma ts_next_type : tsame t_get_next_type sml_buf_get_next_type.
Proof. unfold t_get_next_type, sml_buf_get_next_type. ts. Qed.
#[export] Hint Resolve ts_next_type : ts.
Lemma ts_length_loop fuel : forall a b, tsame (t_get_next_length_loop fuel a b) (get_next_length_loop fuel a b).
Proof. induction fuel as [|fuel IH]; intros a b; cbn [t_get_next_length_loop get_next_length_loop]; ts; apply IH. Qed.
#[export] Hint Resolve ts_length_loop : ts.
Lemma ts_next_length : tsame t_get_next_length sml_buf_get_next_length.
Proof. unfold t_get_next_length, sml_buf_get_next_length. ts. Qed.
#[export] Hint Resolve ts_next_length : ts.
Lemma ts_skipped : tsame t_optional_is_skipped sml_buf_optional_is_skipped.
Proof. unfold t_optional_is_skipped, sml_buf_optional_is_skipped. ts. Qed.
#[export] Hint Resolve ts_skipped : ts.
Lemma ts_unless {A} (k : T (option A)) k' : tsame k k' -> tsame (t_unless_skipped k) (unless_skipped k').
Proof. intros H1. unfold t_unless_skipped, unless_skipped. ts. Qed.
Lemma ts_field {A B} (t : T A) p (k : A -> T (option B)) k' : tsame t p -> (forall x, tsame (k x) (k' x)) -> tsame (t_field t k) (field p k').
Proof. intros H1 H2. unfold t_field, field. ts. Qed.
Lemma ts_expect {B} n (k : T (option B)) k' : tsame k k' -> tsame (t_expect_list n k) (expect_list n k').
Proof. intros H1. unfold t_expect_list, expect_list. ts. Qed.
Lemma ts_label {A} (k : T (option A)) k' : tsame k k' -> tsame (t_error_label k) (error_label k').
Proof. intros H1. unfold t_error_label, error_label. ts. Qed.
Ltac tss := repeat (cbv zeta; lazymatch goal with
  | |- tsame (t_unless_skipped _) _ => apply ts_unless
  | |- tsame (t_field _ _) _ => apply ts_field; [|intros ?]
  | |- tsame (t_expect_list _ _) _ => apply ts_expect
  | |- tsame (t_error_label _) _ => apply ts_label
  | |- tsame (t_bind (t_spend _) _) _ => apply ts_spend
  | |- tsame (t_bind _ _) (bind _ _) => apply ts_bind; [|intros ?]
  | |- tsame (t_with_fuel _) _ => apply ts_with; intros ?
  | |- tsame (if ?b then _ else _) _ => destruct b
  | |- tsame (match ?x with _ => _ end) _ => destruct x
  | |- _ => solve [auto 2 with ts nocore]
  end).

Section WithHost.
Context {H : Host}.
Lemma ts_number type max : tsame (t_number_parse type max) (sml_number_parse type max).
Proof. unfold t_number_parse, sml_number_parse. tss. Qed.
Lemma ts_u8 : tsame t_u8_parse sml_u8_parse. Proof. unfold t_u8_parse, sml_u8_parse. apply ts_number. Qed.
Lemma ts_u16 : tsame t_u16_parse sml_u16_parse. Proof. unfold t_u16_parse, sml_u16_parse. apply ts_number. Qed.
Lemma ts_u32 : tsame t_u32_parse sml_u32_parse. Proof. unfold t_u32_parse, sml_u32_parse. apply ts_number. Qed.
Lemma ts_u64 : tsame t_u64_parse sml_u64_parse. Proof. unfold t_u64_parse, sml_u64_parse. apply ts_number. Qed.
Lemma ts_i8 : tsame t_i8_parse sml_i8_parse. Proof. unfold t_i8_parse, sml_i8_parse. apply ts_number. Qed.
Lemma ts_i16 : tsame t_i16_parse sml_i16_parse. Proof. unfold t_i16_parse, sml_i16_parse. apply ts_number. Qed.
Lemma ts_i64 : tsame t_i64_parse sml_i64_parse. Proof. unfold t_i64_parse, sml_i64_parse. apply ts_number. Qed.
Lemma ts_octet : tsame t_octet_string_parse sml_octet_string_parse.
Proof. unfold t_octet_string_parse, sml_octet_string_parse. tss. Qed.
Lemma ts_boolean : tsame t_boolean_parse sml_boolean_parse.
Proof. unfold t_boolean_parse, sml_boolean_parse. tss. Qed.
Hint Resolve ts_number ts_u8 ts_u16 ts_u32 ts_u64 ts_i8 ts_i16 ts_i64 ts_octet ts_boolean : ts.
Lemma ts_max_loop fuel : forall a b, tsame (t_max_loop fuel a b) (max_loop fuel a b).
Proof. induction fuel as [|fuel IH]; intros a b; cbn [t_max_loop max_loop]; ts; apply IH. Qed.
Lemma ts_width b : tsame (t_number_width b) (number_width b).
Proof. apply ts_max_loop. Qed.
Hint Resolve ts_width : ts.
Lemma ts_value : tsame t_value_parse sml_value_parse.
Proof. unfold t_value_parse, sml_value_parse. tss. Qed.
Lemma ts_status : tsame t_status_parse sml_status_parse.
Proof. unfold t_status_parse, sml_status_parse. tss. Qed.
Lemma ts_time_value tag : tsame (t_time_value tag) (sml_time_value tag).
Proof. unfold t_time_value, sml_time_value. tss. Qed.
Hint Resolve ts_value ts_status ts_time_value : ts.
Lemma ts_time : tsame t_time_parse sml_time_parse.
Proof. unfold t_time_parse, sml_time_parse. tss. Qed.
Hint Resolve ts_time : ts.
Lemma ts_seqloop {A} (t : T (option A)) p : tsame t p -> forall fuel n, tsame (t_sequence_loop fuel n t) (sequence_loop fuel n p).
Proof. intros H1. induction fuel as [|fuel IH]; intros n; cbn [t_sequence_loop sequence_loop]; ts. Qed.
Lemma ts_sequence {A} (t : T (option A)) p : tsame t p -> tsame (t_sequence_parse t) (sml_sequence_parse p).
Proof. intros H1. unfold t_sequence_parse, sml_sequence_parse. tss. now apply ts_seqloop. Qed.
Lemma ts_workaround w v l : tsame (t_apply_workaround w v l) (apply_workaround w v l).
Proof. unfold t_apply_workaround, apply_workaround. ts. Qed.
Hint Resolve ts_sequence ts_workaround : ts.
Lemma ts_entry w : tsame (t_list_entry_parse w) (sml_list_entry_parse w).
Proof. unfold t_list_entry_parse, sml_list_entry_parse. tss. Qed.
Hint Resolve ts_entry : ts.
Lemma ts_list_loop fuel : forall n w, tsame (t_list_loop fuel n w) (list_loop fuel n w).
Proof. induction fuel as [|fuel IH]; intros n w; cbn [t_list_loop list_loop]; ts. Qed.
Hint Resolve ts_list_loop : ts.
Lemma ts_list_parse : tsame t_list_parse sml_list_parse.
Proof. unfold t_list_parse, sml_list_parse. ts. Qed.
Lemma ts_elems {A} (t : T A) p : tsame t p -> forall fuel n, tsame (t_elems_loop fuel n t) (elems_loop fuel n p).
Proof. intros H1. induction fuel as [|fuel IH]; intros n; cbn [t_elems_loop elems_loop]; ts. Qed.
Hint Resolve ts_list_parse ts_elems : ts.
Lemma ts_path : tsame t_tree_path_parse sml_tree_path_parse.
Proof. unfold t_tree_path_parse, sml_tree_path_parse. tss. Qed.
Lemma ts_tupel : tsame t_tupel_entry_parse sml_tupel_entry_parse.
Proof. unfold t_tupel_entry_parse, sml_tupel_entry_parse. tss. Qed.
Lemma ts_period : tsame t_period_entry_parse sml_period_entry_parse.
Proof. unfold t_period_entry_parse, sml_period_entry_parse. tss. Qed.
Hint Resolve ts_path ts_tupel ts_period : ts.
Lemma ts_ppv : tsame t_proc_par_value_parse sml_proc_par_value_parse.
Proof. unfold t_proc_par_value_parse, sml_proc_par_value_parse. tss. Qed.
Hint Resolve ts_ppv : ts.
Lemma ts_tree_rec d : tsame (t_tree_parse_rec d) (sml_tree_parse_rec d).
Proof. induction d as [|d IH]; cbn [t_tree_parse_rec sml_tree_parse_rec]; tss. Qed.
Hint Resolve ts_tree_rec : ts.
Lemma ts_tree : tsame t_tree_parse sml_tree_parse.
Proof. unfold t_tree_parse, sml_tree_parse. ts. Qed.
Lemma ts_objects : tsame t_object_list_parse object_list_parse.
Proof. unfold t_object_list_parse, object_list_parse. ts. Qed.
Lemma ts_header : tsame t_prof_obj_header_entry_parse sml_prof_obj_header_entry_parse.
Proof. unfold t_prof_obj_header_entry_parse, sml_prof_obj_header_entry_parse. tss. Qed.
Lemma ts_value_entry : tsame t_value_entry_parse sml_value_entry_parse.
Proof. unfold t_value_entry_parse, sml_value_entry_parse. tss. Qed.
Hint Resolve ts_tree ts_objects ts_header ts_value_entry : ts.
Lemma ts_period_entry : tsame t_prof_obj_period_entry_parse sml_prof_obj_period_entry_parse.
Proof. unfold t_prof_obj_period_entry_parse, sml_prof_obj_period_entry_parse. tss. Qed.
Hint Resolve ts_period_entry : ts.
Lemma ts_open_request : tsame t_open_request_parse sml_open_request_parse.
Proof. unfold t_open_request_parse, sml_open_request_parse. tss. Qed.
Lemma ts_open_response : tsame t_open_response_parse sml_open_response_parse.
Proof. unfold t_open_response_parse, sml_open_response_parse. tss. Qed.
Lemma ts_close_request : tsame t_close_request_parse sml_close_request_parse.
Proof. unfold t_close_request_parse, sml_close_request_parse. tss. Qed.
Lemma ts_close_response : tsame t_close_response_parse sml_close_response_parse.
Proof. unfold t_close_response_parse, sml_close_response_parse. tss. Qed.
Lemma ts_get_profile_pack_request : tsame t_get_profile_pack_request_parse sml_get_profile_pack_request_parse.
Proof. unfold t_get_profile_pack_request_parse, sml_get_profile_pack_request_parse. tss. Qed.
Lemma ts_get_profile_pack_response : tsame t_get_profile_pack_response_parse sml_get_profile_pack_response_parse.
Proof. unfold t_get_profile_pack_response_parse, sml_get_profile_pack_response_parse. tss. Qed.
Lemma ts_get_profile_list_response : tsame t_get_profile_list_response_parse sml_get_profile_list_response_parse.
Proof. unfold t_get_profile_list_response_parse, sml_get_profile_list_response_parse. tss. Qed.
Lemma ts_get_proc_parameter_request : tsame t_get_proc_parameter_request_parse sml_get_proc_parameter_request_parse.
Proof. unfold t_get_proc_parameter_request_parse, sml_get_proc_parameter_request_parse. tss. Qed.
Lemma ts_get_proc_parameter_response : tsame t_get_proc_parameter_response_parse sml_get_proc_parameter_response_parse.
Proof. unfold t_get_proc_parameter_response_parse, sml_get_proc_parameter_response_parse. tss. Qed.
Lemma ts_set_proc_parameter_request : tsame t_set_proc_parameter_request_parse sml_set_proc_parameter_request_parse.
Proof. unfold t_set_proc_parameter_request_parse, sml_set_proc_parameter_request_parse. tss. Qed.
Lemma ts_get_list_request : tsame t_get_list_request_parse sml_get_list_request_parse.
Proof. unfold t_get_list_request_parse, sml_get_list_request_parse. tss. Qed.
Lemma ts_get_list_response : tsame t_get_list_response_parse sml_get_list_response_parse.
Proof. unfold t_get_list_response_parse, sml_get_list_response_parse. tss. Qed.
Lemma ts_attention_response : tsame t_attention_response_parse sml_attention_response_parse.
Proof. unfold t_attention_response_parse, sml_attention_response_parse. tss. Qed.
Hint Resolve ts_open_request ts_open_response ts_close_request ts_close_response ts_get_profile_pack_request ts_get_profile_pack_response ts_get_profile_list_response ts_get_proc_parameter_request ts_get_proc_parameter_response ts_set_proc_parameter_request ts_get_list_request ts_get_list_response ts_attention_response : ts.
Lemma ts_data tag : tsame (t_body_data_parse tag) (body_data_parse tag).
Proof. unfold t_body_data_parse, body_data_parse. ts. Qed.
Hint Resolve ts_data : ts.
Lemma ts_body : tsame t_message_body_parse sml_message_body_parse.
Proof. unfold t_message_body_parse, sml_message_body_parse. tss. Qed.
Hint Resolve ts_body : ts.
Lemma ts_message : tsame t_message_parse sml_message_parse.
Proof. unfold t_message_parse, sml_message_parse. tss. Qed.
Hint Resolve ts_message : ts.
Lemma ts_file_loop fuel : forall l, tsame (t_file_loop fuel l) (file_loop fuel l).
Proof. induction fuel as [|fuel IH]; intros l; cbn [t_file_loop file_loop]; ts. Qed.
Lemma ts_file bytes : snd (t_file_parse bytes) = sml_file_parse bytes.
Proof.
  unfold t_file_parse, sml_file_parse. rewrite <- (ts_eq (ts_file_loop (S (length bytes)) []) _). destruct (t_file_loop _ _ _) as [n [[ms s]|f|]]; reflexivity.
Qed.
End WithHost.
