(** What a parser accepts: the language of its input.  Rules for the idioms of the
    parsers, and the simple elements. *)
From Verif Require Import Base Buf Crc16 Number OctetString Boolean Value Time SList Tree Bodies
  Message File Lib Wf Safe Safe2 Safe3 Ctx Ctx2 Ctx3 Scan Spec TL Inv Reads NumFacts Dzg Exact Grammar.

(** *** The flags of the buffer are never cleared *)
Definition mon {A} (p : P A) : Prop := forall s v s1, p s = Ret (v, s1) ->
  (error s = true -> error s1 = true) /\ (ovf s = true -> ovf s1 = true).
Lemma mon_ret {A} (v : A) : mon (ret v).
Proof. intros s v1 s1 E. injection E as <- <-. auto. Qed.
Lemma mon_bind {A B} (p : P A) (k : A -> P B) : mon p -> (forall a, mon (k a)) -> mon (bind p k).
Proof.
  intros Hp Hk s v s1 E. apply bind_inv in E. destruct E as (a & s2 & E1 & E2).
  destruct (Hp _ _ _ E1), (Hk _ _ _ _ E2). auto.
Qed.
Lemma mon_fun {A} (f : sbuf -> A) : mon (fun s => Ret (f s, s)).
Proof. intros s v s1 E. injection E as <- <-. auto. Qed.
Lemma mon_fail {A} f : mon (fail f : P A). Proof. intros s v s1 E. discriminate. Qed.
Lemma mon_fuel {A} : mon (out_of_fuel : P A). Proof. intros s v s1 E. discriminate. Qed.
Lemma mon_with {A} (f : nat -> P A) : (forall n, mon (f n)) -> mon (with_fuel f).
Proof. intros Hf s. apply (Hf (fuel_of s) s). Qed.
Lemma mon_at_end : mon at_end. Proof. apply mon_fun. Qed.
Lemma mon_has : mon sml_buf_has_errors. Proof. apply mon_fun. Qed.
Lemma mon_set : mon set_error. Proof. intros s v s1 E. injection E as <- <-. auto. Qed.
Lemma mon_cur : mon sml_buf_get_current_byte.
Proof. intros s v s1 E. unfold sml_buf_get_current_byte in E. destruct (nth_error _ _); [|discriminate]. injection E as <- <-. auto. Qed.
Lemma mon_read n : mon (read_current n).
Proof. intros s v s1 E. unfold read_current in E. destruct (_ <=? _)%nat; [|discriminate]. injection E as <- <-. auto. Qed.
Lemma mon_upd n : mon (sml_buf_update_bytes_read n).
Proof. intros s v s1 E. unfold sml_buf_update_bytes_read in E. destruct (_ <? _); [discriminate|]. injection E as <- <-. auto. Qed.
Lemma mon_int n : mon (int_op n).
Proof. intros s v s1 E. injection E as <- <-. cbn. split; auto. intros ->. reflexivity. Qed.
Lemma mon_err {A} : mon (err_null : P (option A)).
Proof. apply mon_bind; [apply mon_set|intros; apply mon_ret]. Qed.
Create HintDb mon discriminated.
#[global] Hint Resolve mon_at_end mon_has mon_set mon_cur mon_read mon_upd mon_int mon_ret mon_err mon_fail mon_fuel mon_fun : mon.
Ltac mon_step := lazymatch goal with
  | |- forall _, _ => intro
  | |- mon (bind _ _) => apply mon_bind
  | |- mon (if ?b then _ else _) => destruct b
  | |- mon (match ?b with _ => _ end) => destruct b
  | |- mon (let _ := _ in _) => cbv zeta
  | |- mon (with_fuel _) => apply mon_with
  | |- mon (fun _ => Ret _) => apply mon_fun
  | |- _ => solve [auto with mon nocore]
  end.
Ltac mon := repeat mon_step.
Lemma mon_type : mon sml_buf_get_next_type. Proof. unfold sml_buf_get_next_type. mon. Qed.
Lemma mon_length_loop fuel : forall l li, mon (get_next_length_loop fuel l li).
Proof. induction fuel; intros l li; cbn [get_next_length_loop]; mon. Qed.
#[global] Hint Resolve mon_type mon_length_loop : mon.
Lemma mon_length : mon sml_buf_get_next_length. Proof. unfold sml_buf_get_next_length. mon. Qed.
Lemma mon_skip : mon sml_buf_optional_is_skipped. Proof. unfold sml_buf_optional_is_skipped. mon. Qed.
#[global] Hint Resolve mon_length mon_skip : mon.
Lemma mon_unless {A} (k : P (option A)) : mon k -> mon (unless_skipped k).
Proof. intros Hk. unfold unless_skipped. mon. Qed.
Lemma mon_field {A B} (p : P A) (k : A -> P (option B)) : mon p -> (forall a, mon (k a)) -> mon (field p k).
Proof. intros Hp Hk. unfold field. mon. Qed.
Lemma mon_expect {B} n (k : P (option B)) : mon k -> mon (expect_list n k).
Proof. intros Hk. unfold expect_list. mon. Qed.
Lemma mon_label {A} (k : P (option A)) : mon k -> mon (error_label k).
Proof. intros Hk. unfold error_label. mon. Qed.
#[global] Hint Resolve mon_unless mon_field mon_expect mon_label : mon.
Ltac mon_step ::= lazymatch goal with
  | |- forall _, _ => intro
  | |- mon (bind _ _) => apply mon_bind
  | |- mon (field _ _) => apply mon_field
  | |- mon (expect_list _ _) => apply mon_expect
  | |- mon (unless_skipped _) => apply mon_unless
  | |- mon (error_label _) => apply mon_label
  | |- mon (if ?b then _ else _) => destruct b
  | |- mon (match ?b with _ => _ end) => destruct b
  | |- mon (let _ := _ in _) => cbv zeta
  | |- mon (with_fuel _) => apply mon_with
  | |- mon (fun _ => Ret _) => apply mon_fun
  | |- _ => solve [auto with mon nocore]
  end.
Lemma mon_elems {A} (p : P A) : mon p -> forall fuel n, mon (elems_loop fuel n p).
Proof. intros Hp. induction fuel; intros n; cbn [elems_loop]; mon. Qed.
Lemma mon_seqloop {A} (p : P (option A)) : mon p -> forall fuel n, mon (sequence_loop fuel n p).
Proof. intros Hp. induction fuel; intros n; cbn [sequence_loop]; mon. Qed.
#[global] Hint Resolve mon_elems mon_seqloop : mon.
Lemma mon_sequence {A} (p : P (option A)) : mon p -> mon (sml_sequence_parse p).
Proof. intros Hp. unfold sml_sequence_parse. mon. Qed.
#[global] Hint Resolve mon_sequence : mon.
Lemma mon_octet : mon sml_octet_string_parse. Proof. unfold sml_octet_string_parse. mon. Qed.
Lemma mon_bool : mon sml_boolean_parse. Proof. unfold sml_boolean_parse. mon. Qed.
#[global] Hint Resolve mon_octet mon_bool : mon.
(** By the name of the parser: proof search is slow on long structures. *)
Ltac mon_base := lazymatch goal with
  | |- mon (ret _) => apply mon_ret
  | |- mon err_null => apply mon_err
  | |- mon set_error => apply mon_set
  | |- mon at_end => apply mon_at_end
  | |- mon sml_buf_has_errors => apply mon_has
  | |- mon sml_buf_get_current_byte => apply mon_cur
  | |- mon sml_buf_get_next_type => apply mon_type
  | |- mon sml_buf_get_next_length => apply mon_length
  | |- mon sml_buf_optional_is_skipped => apply mon_skip
  | |- mon sml_octet_string_parse => apply mon_octet
  | |- mon sml_boolean_parse => apply mon_bool
  | _ => fail
  end.
Ltac mon_prim := mon_base.
Ltac mon_step ::= lazymatch goal with
  | |- forall _, _ => intro
  | |- mon (bind _ _) => apply mon_bind
  | |- mon (field _ _) => apply mon_field
  | |- mon (expect_list _ _) => apply mon_expect
  | |- mon (unless_skipped _) => apply mon_unless
  | |- mon (error_label _) => apply mon_label
  | |- mon (if ?b then _ else _) => destruct b
  | |- mon (match ?b with _ => _ end) => destruct b
  | |- mon (let _ := _ in _) => cbv zeta
  | |- mon (with_fuel _) => apply mon_with
  | |- mon (fun _ => Ret _) => apply mon_fun
  | |- mon (sml_sequence_parse _) => apply mon_sequence
  | |- mon (sequence_loop _ _ _) => apply mon_seqloop
  | |- mon (elems_loop _ _ _) => apply mon_elems
  | H : mon ?p |- mon ?p => exact H
  | |- _ => first [mon_prim|solve [auto with mon nocore]]
  end.
Section Mon.
Context {H : Host}.
Lemma mon_number ty n : mon (sml_number_parse ty n). Proof. unfold sml_number_parse. mon. Qed.
Lemma mon_max fuel : forall m l, mon (max_loop fuel m l). Proof. induction fuel; intros; cbn [max_loop]; mon. Qed.
Lemma mon_width b : mon (number_width b). Proof. apply mon_max. Qed.
End Mon.
#[global] Hint Resolve mon_number mon_width : mon.
Section Mon1.
Context {H : Host}.
Lemma mon_u8 : mon sml_u8_parse. Proof. unfold sml_u8_parse. exact (mon_number _ _). Qed.
Lemma mon_u16 : mon sml_u16_parse. Proof. unfold sml_u16_parse. exact (mon_number _ _). Qed.
Lemma mon_u32 : mon sml_u32_parse. Proof. unfold sml_u32_parse. exact (mon_number _ _). Qed.
Lemma mon_u64 : mon sml_u64_parse. Proof. unfold sml_u64_parse. exact (mon_number _ _). Qed.
Lemma mon_i8 : mon sml_i8_parse. Proof. unfold sml_i8_parse. exact (mon_number _ _). Qed.
Lemma mon_i16 : mon sml_i16_parse. Proof. unfold sml_i16_parse. exact (mon_number _ _). Qed.
Lemma mon_i64 : mon sml_i64_parse. Proof. unfold sml_i64_parse. exact (mon_number _ _). Qed.
End Mon1.
#[global] Hint Resolve mon_u8 mon_u16 mon_u32 mon_u64 mon_i8 mon_i16 mon_i64 : mon.
Ltac mon_prim ::= lazymatch goal with
  | |- mon (@sml_u8_parse _) => apply mon_u8
  | |- mon (@sml_u16_parse _) => apply mon_u16
  | |- mon (@sml_u32_parse _) => apply mon_u32
  | |- mon (@sml_u64_parse _) => apply mon_u64
  | |- mon (@sml_i8_parse _) => apply mon_i8
  | |- mon (@sml_i16_parse _) => apply mon_i16
  | |- mon (@sml_i64_parse _) => apply mon_i64
  | _ => mon_base
  end.
Section Mon2.
Context {H : Host}.
Lemma mon_value : mon sml_value_parse. Proof. unfold sml_value_parse. mon. Qed.
Lemma mon_status : mon sml_status_parse. Proof. unfold sml_status_parse. mon. Qed.
Lemma mon_time_value tag : mon (sml_time_value tag). Proof. unfold sml_time_value. mon. Qed.
End Mon2.
#[global] Hint Resolve mon_value mon_status mon_time_value : mon.
Ltac mon_prim ::= lazymatch goal with
  | |- mon (@sml_u8_parse _) => apply mon_u8
  | |- mon (@sml_u16_parse _) => apply mon_u16
  | |- mon (@sml_u32_parse _) => apply mon_u32
  | |- mon (@sml_u64_parse _) => apply mon_u64
  | |- mon (@sml_i8_parse _) => apply mon_i8
  | |- mon (@sml_i16_parse _) => apply mon_i16
  | |- mon (@sml_i64_parse _) => apply mon_i64
  | |- mon (@sml_value_parse _) => apply mon_value
  | |- mon (@sml_status_parse _) => apply mon_status
  | |- mon (@sml_time_value _ _) => apply mon_time_value
  | _ => mon_base
  end.
Section Mon3.
Context {H : Host}.
Lemma mon_time : mon sml_time_parse. Proof. unfold sml_time_parse. mon. Qed.
Lemma mon_as_bytes d : mon (as_bytes d). Proof. destruct d; cbn; mon. Qed.
End Mon3.
#[global] Hint Resolve mon_time mon_as_bytes : mon.
Ltac mon_prim ::= lazymatch goal with
  | |- mon (@sml_u8_parse _) => apply mon_u8
  | |- mon (@sml_u16_parse _) => apply mon_u16
  | |- mon (@sml_u32_parse _) => apply mon_u32
  | |- mon (@sml_u64_parse _) => apply mon_u64
  | |- mon (@sml_i8_parse _) => apply mon_i8
  | |- mon (@sml_i16_parse _) => apply mon_i16
  | |- mon (@sml_i64_parse _) => apply mon_i64
  | |- mon (@sml_value_parse _) => apply mon_value
  | |- mon (@sml_status_parse _) => apply mon_status
  | |- mon (@sml_time_value _ _) => apply mon_time_value
  | |- mon (@sml_time_parse _) => apply mon_time
  | _ => mon_base
  end.
Section Mon4.
Context {H : Host}.
Lemma mon_detect e : mon (detect_buggy_dzg_dvs74 e). Proof. unfold detect_buggy_dzg_dvs74. mon. Qed.
Lemma mon_path : mon sml_tree_path_parse. Proof. unfold sml_tree_path_parse. mon. Qed.
Lemma mon_period : mon sml_period_entry_parse. Proof. unfold sml_period_entry_parse. mon. Qed.
Lemma mon_tupel : mon sml_tupel_entry_parse. Proof. unfold sml_tupel_entry_parse. mon. Qed.
End Mon4.
#[global] Hint Resolve mon_detect mon_path mon_period mon_tupel : mon.
Ltac mon_prim ::= lazymatch goal with
  | |- mon (@sml_u8_parse _) => apply mon_u8
  | |- mon (@sml_u16_parse _) => apply mon_u16
  | |- mon (@sml_u32_parse _) => apply mon_u32
  | |- mon (@sml_u64_parse _) => apply mon_u64
  | |- mon (@sml_i8_parse _) => apply mon_i8
  | |- mon (@sml_i16_parse _) => apply mon_i16
  | |- mon (@sml_i64_parse _) => apply mon_i64
  | |- mon (@sml_value_parse _) => apply mon_value
  | |- mon (@sml_status_parse _) => apply mon_status
  | |- mon (@sml_time_value _ _) => apply mon_time_value
  | |- mon (@sml_time_parse _) => apply mon_time
  | |- mon (@detect_buggy_dzg_dvs74 _ _) => apply mon_detect
  | |- mon sml_tree_path_parse => apply mon_path
  | |- mon (@sml_period_entry_parse _) => apply mon_period
  | |- mon (@sml_tupel_entry_parse _) => apply mon_tupel
  | _ => mon_base
  end.
Section Mon5.
Context {H : Host}.
Lemma mon_workaround w n e : mon (apply_workaround w n e). Proof. unfold apply_workaround. mon. Qed.
Lemma mon_ppv : mon sml_proc_par_value_parse. Proof. unfold sml_proc_par_value_parse. mon. Qed.
Lemma mon_objects : mon object_list_parse. Proof. unfold object_list_parse. mon. Qed.
Lemma mon_header : mon sml_prof_obj_header_entry_parse. Proof. unfold sml_prof_obj_header_entry_parse. mon. Qed.
Lemma mon_value_entry : mon sml_value_entry_parse. Proof. unfold sml_value_entry_parse. mon. Qed.
End Mon5.
#[global] Hint Resolve mon_workaround mon_ppv mon_objects mon_header mon_value_entry : mon.
Ltac mon_prim ::= lazymatch goal with
  | |- mon (@sml_u8_parse _) => apply mon_u8
  | |- mon (@sml_u16_parse _) => apply mon_u16
  | |- mon (@sml_u32_parse _) => apply mon_u32
  | |- mon (@sml_u64_parse _) => apply mon_u64
  | |- mon (@sml_i8_parse _) => apply mon_i8
  | |- mon (@sml_i16_parse _) => apply mon_i16
  | |- mon (@sml_i64_parse _) => apply mon_i64
  | |- mon (@sml_value_parse _) => apply mon_value
  | |- mon (@sml_status_parse _) => apply mon_status
  | |- mon (@sml_time_value _ _) => apply mon_time_value
  | |- mon (@sml_time_parse _) => apply mon_time
  | |- mon (@detect_buggy_dzg_dvs74 _ _) => apply mon_detect
  | |- mon sml_tree_path_parse => apply mon_path
  | |- mon (@sml_period_entry_parse _) => apply mon_period
  | |- mon (@sml_tupel_entry_parse _) => apply mon_tupel
  | |- mon (apply_workaround _ _ _) => apply mon_workaround
  | |- mon (@sml_proc_par_value_parse _) => apply mon_ppv
  | |- mon object_list_parse => apply mon_objects
  | |- mon (@sml_prof_obj_header_entry_parse _) => apply mon_header
  | |- mon (@sml_value_entry_parse _) => apply mon_value_entry
  | _ => mon_base
  end.
Section Mon6.
Context {H : Host}.
Lemma mon_entry w : mon (sml_list_entry_parse w). Proof. unfold sml_list_entry_parse. mon. Qed.
Lemma mon_tree_rec d : mon (sml_tree_parse_rec d). Proof. induction d; cbn [sml_tree_parse_rec]; mon. Qed.
Lemma mon_period_entry : mon sml_prof_obj_period_entry_parse. Proof. unfold sml_prof_obj_period_entry_parse. mon. Qed.
End Mon6.
#[global] Hint Resolve mon_entry mon_tree_rec mon_period_entry : mon.
Ltac mon_prim ::= lazymatch goal with
  | |- mon (@sml_u8_parse _) => apply mon_u8
  | |- mon (@sml_u16_parse _) => apply mon_u16
  | |- mon (@sml_u32_parse _) => apply mon_u32
  | |- mon (@sml_u64_parse _) => apply mon_u64
  | |- mon (@sml_i8_parse _) => apply mon_i8
  | |- mon (@sml_i16_parse _) => apply mon_i16
  | |- mon (@sml_i64_parse _) => apply mon_i64
  | |- mon (@sml_value_parse _) => apply mon_value
  | |- mon (@sml_status_parse _) => apply mon_status
  | |- mon (@sml_time_value _ _) => apply mon_time_value
  | |- mon (@sml_time_parse _) => apply mon_time
  | |- mon (@detect_buggy_dzg_dvs74 _ _) => apply mon_detect
  | |- mon sml_tree_path_parse => apply mon_path
  | |- mon (@sml_period_entry_parse _) => apply mon_period
  | |- mon (@sml_tupel_entry_parse _) => apply mon_tupel
  | |- mon (apply_workaround _ _ _) => apply mon_workaround
  | |- mon (@sml_proc_par_value_parse _) => apply mon_ppv
  | |- mon object_list_parse => apply mon_objects
  | |- mon (@sml_prof_obj_header_entry_parse _) => apply mon_header
  | |- mon (@sml_value_entry_parse _) => apply mon_value_entry
  | |- mon (@sml_list_entry_parse _ _) => apply mon_entry
  | |- mon (@sml_tree_parse_rec _ _) => apply mon_tree_rec
  | |- mon (@sml_prof_obj_period_entry_parse _) => apply mon_period_entry
  | _ => mon_base
  end.
Section Mon7.
Context {H : Host}.
Lemma mon_list_loop fuel : forall n w, mon (list_loop fuel n w). Proof. induction fuel; intros; cbn [list_loop]; mon. Qed.
Lemma mon_tree : mon sml_tree_parse. Proof. unfold sml_tree_parse. mon. Qed.
End Mon7.
#[global] Hint Resolve mon_list_loop mon_tree : mon.
Ltac mon_prim ::= lazymatch goal with
  | |- mon (@sml_u8_parse _) => apply mon_u8
  | |- mon (@sml_u16_parse _) => apply mon_u16
  | |- mon (@sml_u32_parse _) => apply mon_u32
  | |- mon (@sml_u64_parse _) => apply mon_u64
  | |- mon (@sml_i8_parse _) => apply mon_i8
  | |- mon (@sml_i16_parse _) => apply mon_i16
  | |- mon (@sml_i64_parse _) => apply mon_i64
  | |- mon (@sml_value_parse _) => apply mon_value
  | |- mon (@sml_status_parse _) => apply mon_status
  | |- mon (@sml_time_value _ _) => apply mon_time_value
  | |- mon (@sml_time_parse _) => apply mon_time
  | |- mon (@detect_buggy_dzg_dvs74 _ _) => apply mon_detect
  | |- mon sml_tree_path_parse => apply mon_path
  | |- mon (@sml_period_entry_parse _) => apply mon_period
  | |- mon (@sml_tupel_entry_parse _) => apply mon_tupel
  | |- mon (apply_workaround _ _ _) => apply mon_workaround
  | |- mon (@sml_proc_par_value_parse _) => apply mon_ppv
  | |- mon object_list_parse => apply mon_objects
  | |- mon (@sml_prof_obj_header_entry_parse _) => apply mon_header
  | |- mon (@sml_value_entry_parse _) => apply mon_value_entry
  | |- mon (@sml_list_entry_parse _ _) => apply mon_entry
  | |- mon (@sml_tree_parse_rec _ _) => apply mon_tree_rec
  | |- mon (@sml_prof_obj_period_entry_parse _) => apply mon_period_entry
  | |- mon (@list_loop _ _ _ _) => apply mon_list_loop
  | |- mon (@sml_tree_parse _) => apply mon_tree
  | _ => mon_base
  end.
Section Mon8.
Context {H : Host}.
Lemma mon_list : mon sml_list_parse. Proof. unfold sml_list_parse. mon. Qed.
End Mon8.
#[global] Hint Resolve mon_list : mon.
Ltac mon_prim ::= lazymatch goal with
  | |- mon (@sml_u8_parse _) => apply mon_u8
  | |- mon (@sml_u16_parse _) => apply mon_u16
  | |- mon (@sml_u32_parse _) => apply mon_u32
  | |- mon (@sml_u64_parse _) => apply mon_u64
  | |- mon (@sml_i8_parse _) => apply mon_i8
  | |- mon (@sml_i16_parse _) => apply mon_i16
  | |- mon (@sml_i64_parse _) => apply mon_i64
  | |- mon (@sml_value_parse _) => apply mon_value
  | |- mon (@sml_status_parse _) => apply mon_status
  | |- mon (@sml_time_value _ _) => apply mon_time_value
  | |- mon (@sml_time_parse _) => apply mon_time
  | |- mon (@detect_buggy_dzg_dvs74 _ _) => apply mon_detect
  | |- mon sml_tree_path_parse => apply mon_path
  | |- mon (@sml_period_entry_parse _) => apply mon_period
  | |- mon (@sml_tupel_entry_parse _) => apply mon_tupel
  | |- mon (apply_workaround _ _ _) => apply mon_workaround
  | |- mon (@sml_proc_par_value_parse _) => apply mon_ppv
  | |- mon object_list_parse => apply mon_objects
  | |- mon (@sml_prof_obj_header_entry_parse _) => apply mon_header
  | |- mon (@sml_value_entry_parse _) => apply mon_value_entry
  | |- mon (@sml_list_entry_parse _ _) => apply mon_entry
  | |- mon (@sml_tree_parse_rec _ _) => apply mon_tree_rec
  | |- mon (@sml_prof_obj_period_entry_parse _) => apply mon_period_entry
  | |- mon (@list_loop _ _ _ _) => apply mon_list_loop
  | |- mon (@sml_tree_parse _) => apply mon_tree
  | |- mon (@sml_list_parse _) => apply mon_list
  | _ => mon_base
  end.
Section Mon9.
Context {H : Host}.
Lemma mon_body_data tag : mon (body_data_parse tag).
Proof.
  unfold body_data_parse. mon; unfold sml_open_request_parse, sml_open_response_parse, sml_close_request_parse, sml_close_response_parse,
    sml_get_profile_pack_request_parse, sml_get_profile_pack_response_parse, sml_get_profile_list_response_parse,
    sml_get_proc_parameter_request_parse, sml_get_proc_parameter_response_parse, sml_set_proc_parameter_request_parse,
    sml_get_list_request_parse, sml_get_list_response_parse, sml_attention_response_parse; mon.
Qed.
End Mon9.
#[global] Hint Resolve mon_body_data : mon.

(** *** Acceptance *)
Definition good (s : sbuf) : Prop := okbuf s /\ small s /\ error s = false /\ ovf s = false.
(** [p] succeeds from [s] with [v] in [s1] exactly if [s1] is behind some bytes that say [v]. *)
Definition acc {A} (p : P A) (W : lang A) : Prop := forall s, good s -> forall v s1,
  (p s = Ret (v, s1) /\ error s1 = false /\ ovf s1 = false) <->
  (exists bs t, rest s = bs ++ t /\ W v bs t /\ s1 = at_ s (length bs) false).

Ltac nil0 := change (length (@nil Z)) with 0%nat in *; rewrite ?at_0 in *; cbn [app] in *.
Lemma at_flags s n : good s -> error (at_ s n false) = false /\ ovf (at_ s n false) = false.
Proof. intros (_ & _ & He & Ho). cbn. now rewrite He, Ho. Qed.
Lemma good_at s bs t : good s -> rest s = bs ++ t -> good (at_ s (length bs) false).
Proof.
  intros (Ok & Sm & He & Ho) R. split; [|split; [now apply at_small|split; [exact He|cbn; now rewrite Ho]]].
  eapply moved_ok; [apply moved_at| |exact Ok]. rewrite R, app_length. lia.
Qed.
Lemma good_bytes s bs t : good s -> rest s = bs ++ t -> bytes_ok (bs ++ t) /\ Z.of_nat (length (bs ++ t)) < 2147483648.
Proof.
  intros (Ok & Sm & _) R. rewrite <- R. split; [now apply rest_bytes|]. rewrite rest_length. unfold small in Sm. lia.
Qed.
Lemma acc_ext {A} (p : P A) (W W' : lang A) : acc p W ->
  (forall v bs t, bytes_ok (bs ++ t) -> Z.of_nat (length (bs ++ t)) < 2147483648 -> W v bs t <-> W' v bs t) -> acc p W'.
Proof.
  intros Hp HW s G v s1. rewrite (Hp s G). split; intros (bs & t & R & X & E); exists bs, t; destruct (good_bytes _ _ _ G R);
    (split; [exact R|]); (split; [|exact E]); now apply HW.
Qed.
(** one after the other *)
Definition then_ {A B} (W1 : lang A) (W2 : A -> lang B) : lang B := fun r bs t =>
  exists a b1 b2, bs = b1 ++ b2 /\ W1 a b1 (b2 ++ t) /\ W2 a r b2 t.
Lemma acc_ret {A} (v : A) : acc (ret v) (fun v' bs t => v' = v /\ bs = []).
Proof.
  intros s G v' s1. split.
  - intros (E & _). injection E as <- <-. exists [], (rest s). nil0. auto.
  - intros (bs & t & R & (-> & ->) & ->). nil0. split; [reflexivity|]. apply G.
Qed.
Lemma acc_bind {A B} (p : P A) (k : A -> P B) W1 W2 : (forall a, mon (k a)) -> acc p W1 -> (forall a, acc (k a) (W2 a)) ->
  acc (bind p k) (then_ W1 W2).
Proof.
  intros Mk Hp Hk s G r s1. split.
  - intros (E & He & Ho). apply bind_inv in E. destruct E as (a & s2 & E1 & E2).
    assert (He2 : error s2 = false) by (destruct (error s2) eqn:X; auto; rewrite (proj1 (Mk _ _ _ _ E2) X) in He; discriminate).
    assert (Ho2 : ovf s2 = false) by (destruct (ovf s2) eqn:X; auto; rewrite (proj2 (Mk _ _ _ _ E2) X) in Ho; discriminate).
    destruct (proj1 (Hp s G a s2)) as (b1 & t1 & R1 & X1 & ->); auto.
    destruct (proj1 (Hk a _ (good_at _ _ _ G R1) r s1)) as (b2 & t2 & R2 & X2 & ->); auto.
    rewrite (at_app _ _ _ _ R1) in R2. subst t1. exists (b1 ++ b2), t2. split; [now rewrite <- app_assoc|].
    split; [exists a, b1, b2; auto|]. now rewrite at_at, app_length.
  - intros (bs & t & R & (a & b1 & b2 & -> & X1 & X2) & ->). rewrite <- app_assoc in R.
    destruct (proj2 (Hp s G a (at_ s (length b1) false))) as (E1 & _); [eauto|].
    destruct (proj2 (Hk a _ (good_at _ _ _ G R) r (at_ (at_ s (length b1) false) (length b2) false))) as (E2 & F).
    { exists b2, t. rewrite (at_app _ _ _ _ R). auto. }
    rewrite at_at, <- app_length in E2, F. split; [|exact F]. unfold bind. now rewrite E1.
Qed.
Lemma acc_has : acc sml_buf_has_errors (fun e bs t => e = false /\ bs = []).
Proof.
  intros s G v s1. split.
  - intros (E & _). injection E as <- <-. exists [], (rest s). nil0. destruct G as (_ & _ & -> & _). auto.
  - intros (bs & t & R & (-> & ->) & ->). nil0. unfold sml_buf_has_errors. destruct G as (_ & _ & E & O). now rewrite E.
Qed.
Lemma acc_error {A} (p : P A) : (forall s v s1, p s = Ret (v, s1) -> error s1 = true) -> acc p (fun _ _ _ => False).
Proof. intros Hp s G v s1. split; [|intros (? & ? & _ & [] & _)]. intros (E & He & _). rewrite (Hp _ _ _ E) in He. discriminate. Qed.
Lemma acc_fault {A} f : acc (fail f : P A) (fun _ _ _ => False).
Proof. apply acc_error. discriminate. Qed.
Lemma acc_fuel {A} : acc (out_of_fuel : P A) (fun _ _ _ => False).
Proof. apply acc_error. discriminate. Qed.
Lemma acc_null {A} : acc (err_null : P (option A)) (fun _ _ _ => False).
Proof. apply acc_error. intros s v s1 E. injection E as <- <-. reflexivity. Qed.
Lemma acc_set {A} (k : P A) : mon k -> acc (set_error ;;; k) (fun _ _ _ => False).
Proof.
  intros Mk. apply acc_error. intros s v s1 E. apply bind_inv in E. destruct E as ([] & s2 & E1 & E2). injection E1 as <-.
  now apply (Mk _ _ _ E2).
Qed.
Lemma acc_field {A B} (p : P A) (k : A -> P (option B)) W1 W2 : (forall a, mon (k a)) -> acc p W1 -> (forall a, acc (k a) (W2 a)) ->
  acc (field p k) (then_ W1 W2).
Proof.
  intros Mk Hp Hk. unfold field. eapply acc_ext.
  - apply acc_bind with (W2 := W2); [mon|exact Hp|]. intros a. eapply acc_ext.
    + apply acc_bind with (W2 := fun e : bool => if e then (fun r bs t => r = None /\ bs = []) else W2 a); [intros []; mon|apply acc_has|].
      intros []; [apply acc_ret|apply Hk].
    + intros v bs t _ _. split; [intros (e & b1 & b2 & -> & (-> & ->) & X); exact X|intros X; exists false, [], bs; auto].
  - reflexivity.
Qed.
Lemma acc_with {A} (f : nat -> P A) W : (forall n s, good s -> (length (rest s) + 2 = n)%nat -> forall v s1,
    (f n s = Ret (v, s1) /\ error s1 = false /\ ovf s1 = false) <->
    (exists bs t, rest s = bs ++ t /\ W v bs t /\ s1 = at_ s (length bs) false)) -> acc (with_fuel f) W.
Proof. intros Hf s G v s1. apply Hf; auto. unfold fuel_of. rewrite rest_length. destruct G as ((Hc & _) & _). unfold buffer_len in *. lia. Qed.

(** *** Elementary operations *)
Lemma acc_at_end : acc at_end (fun e bs t => bs = [] /\ (e = true <-> t = [])).
Proof.
  intros s G v s1. split.
  - intros (E & _). exists [], (rest s). nil0. destruct (rest s) eqn:R.
    + rewrite (at_end_nil _ R) in E. injection E as <- <-. tauto.
    + rewrite (at_end_cons _ _ _ R) in E. injection E as <- <-. split; [auto|]. split; [|reflexivity]. split; [reflexivity|]. split; discriminate.
  - intros (bs & t & R & (-> & X) & ->). nil0. split; [|apply G]. destruct t as [|b t].
    + rewrite (at_end_nil _ R). destruct X as [_ X]. now rewrite X.
    + rewrite (at_end_cons _ _ _ R). destruct v; [|reflexivity]. destruct X as [X _]. discriminate X. reflexivity.
Qed.
Lemma acc_current : acc sml_buf_get_current_byte (fun b bs t => bs = [] /\ exists u, t = b :: u).
Proof.
  intros s G v s1. split.
  - intros (E & _). exists [], (rest s). nil0. destruct (rest s) as [|b u] eqn:R.
    + exfalso. apply rest_nil in R. unfold sml_buf_get_current_byte in E. destruct (nth_error _ _) eqn:N; [|discriminate].
      assert (nth_error (buffer s) (cursor s) <> None) as X by congruence. apply nth_error_Some in X. unfold buffer_len in R. lia.
    + rewrite (current_cons _ _ _ R) in E. injection E as <- <-. eauto.
  - intros (bs & t & R & (-> & u & ->) & ->). nil0. now rewrite (current_cons _ _ _ R); destruct G as (_ & _ & ? & ?).
Qed.
Definition byte_type (b : Z) : Z := b / 16 mod 8 * 16.
Lemma acc_type : acc sml_buf_get_next_type (fun ty bs t => bs = [] /\ exists b u, t = b :: u /\ ty = byte_type b).
Proof.
  intros s G v s1. split.
  - intros (E & He & _). destruct (type_inv _ _ _ E He) as (b & u & R & -> & ->). exists [], (rest s). nil0. eauto 8.
  - intros (bs & t & R & (-> & b & u & -> & ->) & ->). nil0. now rewrite (next_type_eq _ _ _ R); destruct G as (_ & _ & ? & ?).
Qed.
Lemma acc_length : acc sml_buf_get_next_length (fun l bs t => tl_field bs /\ tl_nibbles bs < 2147483648 /\ l = tl_length bs).
Proof.
  intros s G v s1. pose proof G as (Ok & Sm & He & Ho). split.
  - intros (E & He1 & Ho1). destruct (length_inv _ _ _ Ok Sm He E He1) as (bs & t & R & TF & _ & EV).
    destruct (next_length_closed s bs t Sm R TF) as (l & E0 & _). rewrite E in E0. injection E0 as -> ->.
    cbn [ovf at_ set_ovf set_cursor] in Ho1. rewrite Ho in Ho1. cbn [orb] in Ho1. rewrite Ho1. unfold big in Ho1. apply Z.leb_gt in Ho1.
    exists bs, t. split; [auto|]. split; [|auto]. auto.
  - intros (bs & t & R & (TF & TN & ->) & ->). rewrite (length_fwd _ _ _ Sm R TF TN). auto using at_flags.
Qed.
Lemma acc_skip : acc sml_buf_optional_is_skipped (fun r bs t => (r = 1 /\ bs = [1]) \/ (r = 0 /\ bs = [] /\ exists b u, t = b :: u /\ b <> 1)).
Proof.
  intros s G v s1. pose proof G as (Ok & Sm & He & Ho). split.
  - intros (E & He1 & Ho1). destruct (rest s) as [|b u] eqn:R.
    + unfold sml_buf_optional_is_skipped, bind in E. rewrite (at_end_nil _ R) in E. injection E as <- <-. discriminate.
    + destruct (Z.eq_dec b 1) as [->|Hb].
      * rewrite (skip_fwd _ _ R) in E. injection E as <- <-. exists [1], u. auto.
      * rewrite (noskip_fwd _ _ _ R Hb) in E. injection E as <- <-. exists [], (b :: u). nil0. eauto 10.
  - intros (bs & t & R & [(-> & ->)|(-> & -> & b & u & -> & Hb)] & ->); cbn [app] in R.
    + rewrite (skip_fwd _ _ R). auto using at_flags.
    + nil0. rewrite (noskip_fwd _ _ _ R Hb). auto.
Qed.

(** *** Idioms *)
Definition starts (W : list Z -> list Z -> Prop) : Prop := forall bs t, W bs t -> exists b u, bs ++ t = b :: u /\ b <> 1.
Lemma acc_unless {A} (k : P (option A)) W : mon k -> acc k W -> (forall v, starts (W v)) ->
  acc (unless_skipped k) (fun v bs t => (v = None /\ bs = [1]) \/ W v bs t).
Proof.
  intros Mk Hk HS. unfold unless_skipped. eapply acc_ext.
  - apply acc_bind with (W2 := fun sk : Z => if negb (sk =? 0) then (fun r bs t => r = None /\ bs = []) else W); [mon|apply acc_skip|].
    intros sk. destruct (negb (sk =? 0)); [apply acc_ret|exact Hk].
  - intros v bs t _ _. split.
    + intros (sk & b1 & b2 & -> & [(-> & ->)|(-> & -> & _)] & X); cbn in X |- *; [left|now right]. destruct X as [-> ->]. auto.
    + intros [(-> & ->)|X]; [exists 1, [1], []; cbn; auto 6|]. unfold then_. exists 0. exists (@nil Z). exists bs. cbn [app Z.eqb negb].
      destruct (HS v _ _ X) as (b & u & E & Hb). split; [auto|]. split; [|exact X]. right. eauto 8.
Qed.
Lemma acc_optional {A} (k : P (option A)) (W : lang A) : mon k -> acc k (required W) -> (forall v, starts (W v)) ->
  acc (unless_skipped k) (optional W).
Proof.
  intros Mk Hk HS. eapply acc_ext; [apply (acc_unless k (required W) Mk Hk)|].
  - intros [v|] bs t X; [exact (HS v _ _ X)|destruct X].
  - intros [v|] bs t _ _; cbn; split; auto; intros [[? ?]|X]; auto; [discriminate|contradiction].
Qed.
Lemma acc_label {A} (k : P (option A)) (W : lang (option A)) : acc k W -> acc (error_label k) (fun v bs t => v <> None /\ W v bs t).
Proof.
  intros Hk. unfold error_label. eapply acc_ext.
  - apply acc_bind with (W2 := fun r : option A => match r with Some x => fun v bs t => v = Some x /\ bs = [] | None => fun _ _ _ => False end); [intros []; mon|exact Hk|].
    intros [x|]; [apply acc_ret|apply acc_null].
  - intros v bs t _ _. split.
    + intros ([x|] & b1 & b2 & -> & X & Y); [|contradiction]. destruct Y as [-> ->]. rewrite app_nil_r. split; [discriminate|exact X].
    + intros (N & X). exists v, bs, []. rewrite app_nil_r. cbn. destruct v; [auto|contradiction].
Qed.
Lemma header_len ty l tl : header ty l tl -> Z.of_nat (length tl) >= 0 /\ l <= tl_nibbles tl.
Proof. intros (_ & _ & <-). unfold tl_length. destruct (_ =? 112); lia. Qed.
Lemma header_type ty l tl t : header ty l tl -> exists b u, tl = b :: u /\ tl ++ t = b :: u ++ t /\ byte_type b = ty.
Proof.
  intros (TF & <- & _). destruct (tl_hd _ TF) as (b & u & ->). exists b, u. split; [auto|]. split; [reflexivity|].
  symmetry. exact (tl_type_hd (b :: u) b (u ++ t) t TF eq_refl).
Qed.
(** "next type is [ty], next length" *)
Lemma acc_header {A} ty (k : Z -> P A) W2 bad : (forall l, mon (k l)) -> (forall l, acc (k l) (W2 l)) -> mon bad -> acc bad (fun _ _ _ => False) ->
  acc (t <- sml_buf_get_next_type ;; if negb (t =? ty) then bad else l <- sml_buf_get_next_length ;; k l)
    (fun r bs t => exists tl b l, bs = tl ++ b /\ header ty l tl /\ tl_nibbles tl < 2147483648 /\ W2 l r b t).
Proof.
  intros Mk Hk Mb Hb. eapply acc_ext.
  - apply acc_bind with (W2 := fun t : Z => if negb (t =? ty) then fun _ _ _ => False else
        then_ (fun l bs t => tl_field bs /\ tl_nibbles bs < 2147483648 /\ l = tl_length bs) W2); [mon|apply acc_type|].
    intros t. destruct (negb (t =? ty)); [exact Hb|]. apply acc_bind; [exact Mk|apply acc_length|exact Hk].
  - intros r bs t _ _. split.
    + intros (t0 & b1 & b2 & -> & (-> & b & u & E & ->) & X). cbn [app] in *. destruct (Z.eqb_spec (byte_type b) ty) as [Hty|]; [|contradiction].
      cbn [negb] in X. destruct X as (l & tl & b' & -> & (TF & TN & ->) & X). exists tl, b', (tl_length tl). split; [auto|]. split; [|auto].
      split; [exact TF|]. split; [|reflexivity]. rewrite <- Hty. apply (tl_type_hd tl b u (b' ++ t) TF). now rewrite app_assoc.
    + intros (tl & b & l & -> & Hh & TN & X). destruct (header_type _ _ _ (b ++ t) Hh) as (b0 & u & _ & E & Hty).
      exists ty, [], (tl ++ b). split; [reflexivity|]. rewrite <- app_assoc. split; [eauto 6|]. rewrite Z.eqb_refl. cbn [negb].
      destruct Hh as (TF & _ & HL). exists l, tl, b. rewrite HL. auto.
Qed.
Lemma list_nibbles l tl : header 112 l tl -> tl_nibbles tl = l.
Proof. intros (_ & HT & <-). unfold tl_length. now rewrite HT. Qed.
Lemma acc_expect {B} n (k : P (option B)) W : mon k -> acc k W -> n < 2147483648 ->
  acc (expect_list n k) (fun r bs t => exists tl b, bs = tl ++ b /\ header 112 n tl /\ W r b t).
Proof.
  intros Mk Hk Hn. unfold expect_list. eapply acc_ext.
  - apply (acc_header 112 _ (fun l : Z => if negb (l =? n) then fun _ _ _ => False else W)); [mon| |mon|apply acc_null].
    intros l. destruct (negb (l =? n)); [apply acc_null|exact Hk].
  - intros r bs t _ _. split.
    + intros (tl & b & l & -> & Hh & TN & X). destruct (Z.eqb_spec l n) as [->|]; [|contradiction]. cbn [negb] in X. eauto.
    + intros (tl & b & -> & Hh & X). exists tl, b, n. rewrite Z.eqb_refl. cbn [negb]. rewrite (list_nibbles _ _ Hh). auto 6.
Qed.
(** structures *)
Definition rec {B} (C : B -> Prop) (ws : B -> list (list Z -> list Z -> Prop)) : lang (option B) := fun r bs t =>
  exists m, r = Some m /\ C m /\ fields (ws m) bs t.
Lemma acc_fld {A B} (p : P A) (k : A -> P (option B)) (W1 : lang A) (C : B -> Prop) (f : B -> A) ws :
  (forall a, mon (k a)) -> acc p W1 -> (forall a, acc (k a) (rec (fun m => C m /\ f m = a) ws)) ->
  acc (field p k) (rec C (fun m => W1 (f m) :: ws m)).
Proof.
  intros Mk Hp Hk. eapply acc_ext; [exact (acc_field p k W1 (fun a => rec (fun m => C m /\ f m = a) ws) Mk Hp Hk)|]. intros r bs t _ _. split.
  - intros (a & b1 & b2 & -> & X1 & m & -> & (Cm & <-) & X2). exists m. split; [auto|]. split; [auto|]. exists b1, b2. auto.
  - intros (m & -> & Cm & b1 & b2 & -> & X1 & X2). exists (f m), b1, b2. split; [auto|]. split; [auto|]. exists m. auto.
Qed.
Lemma acc_done {B} (v : B) (C : B -> Prop) : (forall m, C m <-> m = v) -> acc (ret (Some v)) (rec C (fun _ => [])).
Proof.
  intros HC. eapply acc_ext; [apply acc_ret|]. intros r bs t _ _. split.
  - intros (-> & ->). exists v. split; [auto|]. split; [now apply HC|reflexivity].
  - intros (m & -> & Cm & E). cbn in E. apply HC in Cm. subst. auto.
Qed.
Lemma acc_structure {B} n (k : P (option B)) (ws : B -> list (list Z -> list Z -> Prop)) : mon k -> acc k (rec (fun _ => True) ws) -> n < 2147483648 ->
  (forall m, Z.of_nat (length (ws m)) = n) -> acc (expect_list n k) (required (fun m => structure (ws m))).
Proof.
  intros Mk Hk Hn HL. eapply acc_ext; [exact (acc_expect n k _ Mk Hk Hn)|]. intros r bs t _ _. split.
  - intros (tl & b & -> & Hh & m & -> & _ & X). cbn. exists tl, b. now rewrite HL.
  - intros X. destruct r as [m|]; [|destruct X]. destruct X as (tl & b & -> & Hh & X). rewrite HL in Hh. exists tl, b. split; [auto|]. split; [auto|]. exists m. auto.
Qed.
Lemma starts_structure ws : starts (structure ws).
Proof.
  intros bs t (tl & b & -> & Hh & _). destruct (header_type _ _ _ (b ++ t) Hh) as (b0 & u & _ & E & Hty). rewrite <- app_assoc, E.
  exists b0, (u ++ b ++ t). split; [auto|]. intros ->. discriminate.
Qed.

(** loops *)
Lemma fields_length {A} (W : lang A) : (forall v bs t, W v bs t -> bs <> []) -> forall l bs t, fields (map W l) bs t -> (length l <= length bs)%nat.
Proof.
  intros HN. induction l as [|x l IH]; intros bs t; cbn [map fields length]; [lia|]. intros (b1 & b2 & -> & X & Y).
  apply IH in Y. apply HN in X. rewrite app_length. destruct b1; [congruence|]. cbn. lia.
Qed.
Lemma acc_elems {A} (p : P A) (W : lang A) : mon p -> acc p W -> (forall v bs t, W v bs t -> bs <> []) -> forall fuel n s, good s ->
  (length (rest s) < fuel)%nat -> forall v s1, (elems_loop fuel n p s = Ret (v, s1) /\ error s1 = false /\ ovf s1 = false) <->
  (exists bs t, rest s = bs ++ t /\ (exists l, v = Some l /\ length l = Z.to_nat n /\ fields (map W l) bs t) /\ s1 = at_ s (length bs) false).
Proof.
  intros Mp Hp HN. induction fuel as [|fuel IH]; intros n s G Hf v s1; [lia|]. cbn [elems_loop]. destruct (Z.leb_spec n 0) as [Hn|Hn].
  - rewrite (acc_ret (Some []) s G v s1). split.
    + intros (bs & t & R & (-> & ->) & E). exists [], t. split; [auto|]. split; [|auto]. exists []. split; [auto|]. split; [cbn; lia|reflexivity].
    + intros (bs & t & R & (l & -> & HL & X) & E). destruct l; [|cbn in HL; lia]. cbn in X. subst bs. exists [], t. auto.
  - split.
    + intros (E & He & Ho). apply bind_inv in E. destruct E as (x & s2 & E1 & E).
      assert (M2 : mon (e <- sml_buf_has_errors ;; (if (e : bool) then ret None else t <- elems_loop fuel (n - 1) p ;;
         ret match t with Some t0 => Some (x :: t0) | None => None end))) by mon.
      assert (He2 : error s2 = false) by (destruct (error s2) eqn:X; auto; rewrite (proj1 (M2 _ _ _ E) X) in He; discriminate).
      assert (Ho2 : ovf s2 = false) by (destruct (ovf s2) eqn:X; auto; rewrite (proj2 (M2 _ _ _ E) X) in Ho; discriminate).
      destruct (proj1 (Hp s G x s2)) as (b1 & t1 & R1 & X1 & ->); auto. clear M2.
      unfold bind at 1 in E. unfold sml_buf_has_errors in E. rewrite He2 in E. apply bind_inv in E. destruct E as (r & s3 & E2 & E3).
      injection E3 as <- <-. pose proof (good_at _ _ _ G R1) as G1.
      assert (HX : (length (rest (at_ s (length b1) false)) < fuel)%nat).
      { rewrite (at_app _ _ _ _ R1). rewrite R1, app_length in Hf. apply HN in X1. destruct b1; [congruence|]. cbn in Hf. lia. }
      destruct (proj1 (IH (n - 1) _ G1 HX r s3)) as (b2 & t2 & R2 & (l & -> & HL & X2) & ->); auto.
      rewrite (at_app _ _ _ _ R1) in R2. subst t1. exists (b1 ++ b2), t2. split; [now rewrite <- app_assoc|]. split.
      * exists (x :: l). split; [auto|]. split; [cbn; lia|]. cbn [map fields]. exists b1, b2. auto.
      * now rewrite at_at, app_length.
    + intros (bs & t & R & (l & -> & HL & X) & ->). destruct l as [|x l]; [cbn in HL; lia|]. cbn [map fields] in X.
      destruct X as (b1 & b2 & -> & X1 & X2). rewrite <- app_assoc in R. pose proof (good_at _ _ _ G R) as G1.
      destruct (proj2 (Hp s G x (at_ s (length b1) false))) as (E1 & He1 & Ho1); [eauto|].
      assert (HX : (length (rest (at_ s (length b1) false)) < fuel)%nat).
      { rewrite (at_app _ _ _ _ R). rewrite R, app_length in Hf. apply HN in X1. destruct b1; [congruence|]. cbn in Hf. lia. }
      destruct (proj2 (IH (n - 1) _ G1 HX (Some l) (at_ (at_ s (length b1) false) (length b2) false))) as (E2 & F).
      { exists b2, t. rewrite (at_app _ _ _ _ R). split; [auto|]. split; [|auto]. exists l. split; [auto|]. split; [cbn in HL; lia|exact X2]. }
      rewrite at_at, <- app_length in E2, F. split; [|exact F]. unfold bind at 1. rewrite E1. unfold bind at 1, sml_buf_has_errors. rewrite He1.
      unfold bind. rewrite E2. reflexivity.
Qed.
Lemma elems_sequence {A} fuel : forall n (p : P (option A)) s, elems_loop fuel n p s = sequence_loop fuel n p s.
Proof.
  induction fuel as [|fuel IH]; intros n p s; cbn [elems_loop sequence_loop]; destruct (n <=? 0); auto. unfold bind. destruct (p s) as [[x s1]| |]; auto.
  unfold sml_buf_has_errors. destruct (error s1); auto. now rewrite IH.
Qed.
(** the elements behind a list header, as a continuation *)
Lemma acc_items {A} (p : P A) (W : lang A) n : mon p -> acc p W -> (forall v bs t, W v bs t -> bs <> []) ->
  acc (with_fuel (fun fuel => elems_loop fuel n p)) (fun v bs t => exists l, v = Some l /\ length l = Z.to_nat n /\ fields (map W l) bs t).
Proof. intros Mp Hp HN. apply acc_with. intros fuel s G Hf. apply acc_elems; auto. lia. Qed.
(** ... in a list *)
Lemma items_structure {A} (W : lang A) (l : list A) bs t : (forall v bs t, W v bs t -> bs <> []) -> Z.of_nat (length (bs ++ t)) < 2147483648 ->
  (exists tl b n, bs = tl ++ b /\ header 112 n tl /\ tl_nibbles tl < 2147483648 /\ length l = Z.to_nat n /\ fields (map W l) b t) <->
  sequence_of W l bs t.
Proof.
  intros HN HS. unfold sequence_of, structure. rewrite map_length. split.
  - intros (tl & b & n & -> & Hh & TN & HL & X). exists tl, b. split; [auto|]. split; [|auto]. rewrite HL, Z2Nat.id; [auto|].
    rewrite <- (list_nibbles _ _ Hh). destruct Hh as ((i & la & -> & Hc & Hl) & _). unfold tl_nibbles.
    assert (HF : forall q a, 0 <= a -> 0 <= fold_left (fun n b => n * 16 + b mod 16) q a).
    { induction q as [|y q IH]; intros a Ha; cbn; [lia|]. apply IH. pose proof (Z.mod_pos_bound y 16). lia. }
    apply HF. lia.
  - intros (tl & b & -> & Hh & X). exists tl, b, (Z.of_nat (length l)). rewrite (list_nibbles _ _ Hh), Nat2Z.id.
    apply fields_length in X as Y; [|exact HN]. rewrite !app_length in HS. split; [auto|]. split; [auto|]. split; [lia|]. auto.
Qed.
