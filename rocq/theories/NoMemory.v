(** What happens if malloc fails: the parsers with an allocator that may refuse
    compared with the same parsers where it does not. *)
From stdpp Require Import gmap.
From Verif Require Import Base Buf Crc16 Number OctetString Boolean Value Time SList Tree Bodies Message File HeapBase HeapModel HeapLogic HeapCost.

(** Requests are granted as long as not more than [L] bytes are in use, and only so
    long. *)
Definition grants_up_to (ME : Memory) (L : Z) : Prop := forall st b, used (hmem st) + weight b <= L -> grants st b = true.
Definition refuses_above (ME : Memory) (L : Z) : Prop := forall st b, L < used (hmem st) + weight b -> grants st b = false.

Section Sim.
Context {HO : Host} {AL : Allocator} (ME : Memory) (L : Z).
(** [p] with refusals and [q] without them: the same, or the end of the program; the
    same if there is enough memory; the end of the program if there is not. *)
Definition nm {A} (p q : H A) : Prop :=
  (forall st, p st = q st \/ p st = Fault NullDeref) /\
  (forall st a st', q st = Ret (a, st') -> hpeak st <= hpeak st' /\
     (grants_up_to ME L -> hpeak st' <= L -> p st = Ret (a, st')) /\
     (refuses_above ME L -> hpeak st <= L < hpeak st' -> p st = Fault NullDeref)).
Lemma nm_bind {A B} (p q : H A) (f g : A -> H B) : nm p q -> (forall a, nm (f a) (g a)) -> nm (bind p f) (bind q g).
Proof.
  intros [P1 P2] F. split.
  - intros st. unfold bind. destruct (P1 st) as [->| ->]; [|auto]. destruct (q st) as [[a st1]| |]; auto. apply F.
  - intros st b st' E. apply bind_inv in E as (a & st1 & E1 & E2). destruct (P2 _ _ _ E1) as (M1 & K1 & C1), (proj2 (F a) _ _ _ E2) as (M2 & K2 & C2). split; [lia|]. split.
    + intros G HL. unfold bind. rewrite K1; [|exact G|lia]. auto.
    + intros G HL. unfold bind. destruct (Z.le_gt_cases (hpeak st1) L) as [B1|B1]; [|rewrite C1; [reflexivity|exact G|lia]].
      destruct (P1 st) as [->| ->]; [|reflexivity]. rewrite E1. apply C2; [exact G|lia].
Qed.
Lemma nm_same {A} (q : H A) : (forall st a st', q st = Ret (a, st') -> hpeak st' = hpeak st) -> nm q q.
Proof. intros M. split; [auto|]. intros st a st' E. rewrite (M _ _ _ E). split; [lia|]. split; [auto|lia]. Qed.
Lemma nm_malloc b : nm (@malloc AL ME b) (@malloc AL plenty b).
Proof.
  split.
  - intros st. unfold malloc. cbn [grants plenty]. destruct (grants st b); auto.
  - intros st a st' E. change (alloc b st = Ret (a, st')) in E. unfold malloc. rewrite E. clear - E. unfold alloc in E. injection E as _ <-. cbn [hpeak].
    rewrite used_insert by apply choose_fresh. split; [lia|]. split; intros G HL; rewrite G by lia; reflexivity.
Qed.
Lemma nm_fuel {A} (f g : nat -> H A) : (forall n, nm (f n) (g n)) -> nm (hwith_fuel f) (hwith_fuel g).
Proof. intros F. split; intros st; unfold hwith_fuel; apply F. Qed.
Lemma nm_calm {A} (q : H A) : calm q -> nm q q.
Proof. intros C. apply nm_same. intros st a st' E. now destruct (C _ _ _ E) as (_ & _ & _ & ->). Qed.
Lemma nm_lift {A} (q : P A) : nm (lift q) (lift q).
Proof. apply nm_same. intros st a st' E. now apply lift_inv in E as (_ & _ & ->). Qed.
Lemma nm_out {A} : nm (@out_of_fuel hstate A) out_of_fuel.
Proof. apply nm_same. intros st a st' E. discriminate. Qed.
Lemma nm_if_ptr s (p q : H unit) : nm p q -> nm (if_ptr s p) (if_ptr s q).
Proof. intros N. destruct s; [apply nm_calm, calm_ret|exact N..]. Qed.

Hint Resolve calm_ret calm_fail calm_fuel calm_free calm_load_block calm_load_struct calm_load calm_load_int calm_load_bytes calm_store calm_store_bytes calm_str_free calm_number_free calm_bool_free calm_value_free calm_status_free calm_time_free calm_seq_free calm_list_entry_free calm_list_free calm_tree_path_free calm_tupel_free calm_period_free calm_ppv_free calm_tree_free calm_object_list_free calm_header_free calm_value_entry_free calm_prof_period_free calm_open_request_free calm_open_response_free calm_close_request_free calm_close_response_free calm_profile_pack_request_free calm_profile_pack_response_free calm_profile_list_response_free calm_proc_request_free calm_proc_response_free calm_set_proc_free calm_list_request_free calm_list_response_free calm_attention_free calm_body_free calm_message_free calm_on_error calm_on_error_set calm_herr calm_workaround still_ret still_pure still_set_error still_has_errors still_at_end still_byte still_read still_int_op still_type : calm.
Ltac calm1 :=
  lazymatch goal with
  | |- forall _, _ => intro
  | |- calm (lift set_error ;;; _) => apply calm_abort
  | |- calm (bind _ _) => apply calm_bind
  | |- calm (if_ptr _ _) => apply calm_if_ptr
  | |- calm (for_each _ _ _ _) => apply calm_for_each
  | |- calm (free_struct _ _) => apply calm_free_struct
  | |- calm (with_heap_fuel _) => apply calm_heap_fuel
  | |- calm (lift _) => apply calm_lift
  | |- Forall _ [] => constructor
  | |- Forall _ (_ :: _) => constructor; cbv beta
  | |- calm (if ?b then _ else _) => destruct b
  | |- calm (match ?x with _ => _ end) => destruct x
  | |- _ => solve [auto 2 with calm nocore]
  end.
Ltac calm := cbv zeta; repeat (cbv zeta beta; calm1).
Create HintDb nm discriminated.
Hint Constants Opaque : nm.
Hint Resolve nm_malloc nm_lift nm_out : nm.
Ltac nm1 :=
  lazymatch goal with
  | |- forall _, _ => intro
  | |- nm (bind _ _) _ => apply nm_bind
  | |- nm (hwith_fuel _) _ => apply nm_fuel
  | |- nm (hunless_skipped _) _ => unfold hunless_skipped
  | |- nm (hexpect_list _ _ _) _ => unfold hexpect_list
  | |- nm (hfield _ _ _ _ _) _ => unfold hfield
  | |- nm (if ?b then _ else _) _ => destruct b
  | |- nm (match ?x with _ => _ end) _ => destruct x
  | |- nm (if_ptr _ _) _ => apply nm_if_ptr
  | |- nm ?p ?q => first [constr_eq p q; apply nm_calm; solve [calm]|solve [auto 2 with nm nocore]]
  end.
Ltac nm := cbv zeta; repeat (cbv zeta beta; nm1).
(** realloc: the new array is there together with the old one, so that the step
    from one to the other needs nothing. *)
Lemma nm_realloc b arr (k : slot -> H unit) : (forall a, calm (k a)) -> let rest := free arr ;;; (arr' <- alloc b ;; k arr') in
  nm (@regrant ME b ;;; rest) (@regrant plenty b ;;; rest).
Proof.
  intros CK rest.
  assert (R : forall st u st', rest st = Ret (u, st') -> used (hmem st) + weight b <= hpeak st -> hpeak st' = hpeak st).
  { intros st u st' E HU. apply bind_inv in E as (u1 & st1 & E1 & E). apply bind_inv in E as (a & st2 & E2 & E).
    destruct (CK _ _ _ _ E) as (_ & _ & _ & ->). unfold alloc in E2. injection E2 as _ <-. cbn [hpeak]. rewrite used_insert by apply choose_fresh.
    destruct (calm_free arr _ _ _ E1) as (_ & _ & U & ->). lia. }
  split.
  - intros st. unfold bind at 1 3, regrant. cbn [grants plenty]. destruct (grants st b); auto.
  - intros st u st' E. apply bind_inv in E as (u1 & st1 & E1 & E). change (spike (weight b) st = Ret (u1, st1)) in E1.
    assert (P1 : st1 = mkH (hbuf st) (hmem st) (hconf st) (Z.max (hpeak st) (used (hmem st) + weight b))) by now injection E1.
    pose proof (R _ _ _ E) as HR. rewrite P1 in HR. cbn [hmem hpeak] in HR. specialize (HR ltac:(lia)). split; [lia|].
    split; intros G HL; unfold bind, regrant; rewrite G by lia; [|reflexivity]. rewrite E1. exact E.
Qed.
Lemma nm_append p i x : nm (@append AL ME p i x) (@append AL plenty p i x).
Proof.
  unfold append. do 5 (apply nm_bind; [apply nm_calm; calm|intros ?]). apply nm_realloc. intros ?. calm.
Qed.
Lemma nm_number t w : nm (@h_number_parse HO AL ME t w) (@h_number_parse HO AL plenty t w).
Proof. unfold h_number_parse. nm. Qed.
Hint Resolve nm_append nm_number : nm.
Lemma nm_str : nm (@h_octet_string_parse AL ME) (@h_octet_string_parse AL plenty).
Proof. unfold h_octet_string_parse, h_octet_string_init. nm. Qed.
Hint Resolve nm_str : nm.
Lemma nm_bool : nm (@h_boolean_parse AL ME) (@h_boolean_parse AL plenty).
Proof. unfold h_boolean_parse. nm. Qed.
Lemma nm_u8 : nm (@h_u8_parse HO AL ME) (@h_u8_parse HO AL plenty).
Proof. unfold h_u8_parse. nm. Qed.
Hint Resolve nm_u8 : nm.
Lemma nm_u16 : nm (@h_u16_parse HO AL ME) (@h_u16_parse HO AL plenty).
Proof. unfold h_u16_parse. nm. Qed.
Hint Resolve nm_u16 : nm.
Lemma nm_u32 : nm (@h_u32_parse HO AL ME) (@h_u32_parse HO AL plenty).
Proof. unfold h_u32_parse. nm. Qed.
Hint Resolve nm_u32 : nm.
Lemma nm_u64 : nm (@h_u64_parse HO AL ME) (@h_u64_parse HO AL plenty).
Proof. unfold h_u64_parse. nm. Qed.
Hint Resolve nm_u64 : nm.
Lemma nm_i8 : nm (@h_i8_parse HO AL ME) (@h_i8_parse HO AL plenty).
Proof. unfold h_i8_parse. nm. Qed.
Hint Resolve nm_i8 : nm.
Lemma nm_i16 : nm (@h_i16_parse HO AL ME) (@h_i16_parse HO AL plenty).
Proof. unfold h_i16_parse. nm. Qed.
Hint Resolve nm_i16 : nm.
Lemma nm_i64 : nm (@h_i64_parse HO AL ME) (@h_i64_parse HO AL plenty).
Proof. unfold h_i64_parse. nm. Qed.
Hint Resolve nm_i64 : nm.
Hint Resolve nm_bool : nm.
Lemma nm_value : nm (@h_value_parse HO AL ME) (@h_value_parse HO AL plenty).
Proof. unfold h_value_parse. nm. Qed.
Hint Resolve nm_value : nm.
Lemma nm_status : nm (@h_status_parse HO AL ME) (@h_status_parse HO AL plenty).
Proof. unfold h_status_parse. nm. Qed.
Hint Resolve nm_status : nm.
Lemma nm_time_value p : nm (@h_time_value HO AL ME p) (@h_time_value HO AL plenty p).
Proof. unfold h_time_value. nm. Qed.
Hint Resolve nm_time_value : nm.
Lemma nm_time : nm (@h_time_parse HO AL ME) (@h_time_parse HO AL plenty).
Proof. unfold h_time_parse. nm. Qed.
Hint Resolve nm_time : nm.
Lemma nm_seq_loop ep ep' ef fuel : (forall p, calm (ef p)) -> nm ep ep' -> forall n s, nm (@h_sequence_loop AL ME fuel n s ep ef) (@h_sequence_loop AL plenty fuel n s ep' ef).
Proof. intros CF E. induction fuel as [|fuel IH]; intros n s; cbn [h_sequence_loop]; nm. Qed.
Lemma nm_seq ep ep' ef : (forall p, calm (ef p)) -> nm ep ep' -> nm (@h_sequence_parse AL ME ep ef) (@h_sequence_parse AL plenty ep' ef).
Proof. intros CF E. unfold h_sequence_parse. nm. now apply nm_seq_loop. Qed.
Lemma nm_list_entry w : nm (@h_list_entry_parse HO AL ME w) (@h_list_entry_parse HO AL plenty w).
Proof. unfold h_list_entry_parse. nm. Qed.
Hint Resolve nm_list_entry : nm.
Lemma nm_list_loop fuel : forall n w h l, nm (@h_list_loop HO AL ME fuel n w h l) (@h_list_loop HO AL plenty fuel n w h l).
Proof. induction fuel as [|fuel IH]; intros n w h l; cbn [h_list_loop]; nm. Qed.
Hint Resolve nm_list_loop : nm.
Lemma nm_list : nm (@h_list_parse HO AL ME) (@h_list_parse HO AL plenty).
Proof. unfold h_list_parse. nm. Qed.
Hint Resolve nm_list : nm.
Lemma nm_tree_path_loop fuel : forall n p, nm (@h_tree_path_loop AL ME fuel n p) (@h_tree_path_loop AL plenty fuel n p).
Proof. induction fuel as [|fuel IH]; intros n p; cbn [h_tree_path_loop]; nm. Qed.
Hint Resolve nm_tree_path_loop : nm.
Lemma nm_tree_path : nm (@h_tree_path_parse AL ME) (@h_tree_path_parse AL plenty).
Proof. unfold h_tree_path_parse. nm. Qed.
Hint Resolve nm_tree_path : nm.
Lemma nm_tupel_entry : nm (@h_tupel_entry_parse HO AL ME) (@h_tupel_entry_parse HO AL plenty).
Proof. unfold h_tupel_entry_parse. nm. Qed.
Hint Resolve nm_tupel_entry : nm.
Lemma nm_period_entry : nm (@h_period_entry_parse HO AL ME) (@h_period_entry_parse HO AL plenty).
Proof. unfold h_period_entry_parse. nm. Qed.
Hint Resolve nm_period_entry : nm.
Lemma nm_proc_par_value : nm (@h_proc_par_value_parse HO AL ME) (@h_proc_par_value_parse HO AL plenty).
Proof. unfold h_proc_par_value_parse. nm. Qed.
Hint Resolve nm_proc_par_value : nm.
Lemma nm_children p p' fuel : nm p p' -> forall n t, nm (@h_children_loop HO AL ME fuel n t p) (@h_children_loop HO AL plenty fuel n t p').
Proof. intros E. induction fuel as [|fuel IH]; intros n t; cbn [h_children_loop]; nm. Qed.
Lemma nm_tree_rec depth : nm (@h_tree_parse_rec HO AL ME depth) (@h_tree_parse_rec HO AL plenty depth).
Proof. induction depth as [|depth IH]; cbn [h_tree_parse_rec]; nm. now apply nm_children.
Qed.
Hint Resolve nm_tree_rec : nm.
Lemma nm_tree : nm (@h_tree_parse HO AL ME) (@h_tree_parse HO AL plenty).
Proof. unfold h_tree_parse. nm. Qed.
Hint Resolve nm_tree : nm.
Lemma nm_open_request : nm (@h_open_request_parse HO AL ME) (@h_open_request_parse HO AL plenty).
Proof. unfold h_open_request_parse. nm. Qed.
Hint Resolve nm_open_request : nm.
Lemma nm_open_response : nm (@h_open_response_parse HO AL ME) (@h_open_response_parse HO AL plenty).
Proof. unfold h_open_response_parse. nm. Qed.
Hint Resolve nm_open_response : nm.
Lemma nm_close_request : nm (@h_close_request_parse AL ME) (@h_close_request_parse AL plenty).
Proof. unfold h_close_request_parse. nm. Qed.
Hint Resolve nm_close_request : nm.
Lemma nm_close_response : nm (@h_close_response_parse AL ME) (@h_close_response_parse AL plenty).
Proof. unfold h_close_response_parse. nm. Qed.
Hint Resolve nm_close_response : nm.
Lemma nm_object_loop k k' fuel : nm k k' -> forall i p l, nm (@h_object_list_loop HO AL ME fuel i p l k) (@h_object_list_loop HO AL plenty fuel i p l k').
Proof. intros E. induction fuel as [|fuel IH]; intros i p l; cbn [h_object_list_loop]; nm. Qed.
Ltac nm1 ::=
  lazymatch goal with
  | |- forall _, _ => intro
  | |- calm _ => solve [calm]
  | |- nm (bind _ _) _ => apply nm_bind
  | |- nm (hwith_fuel _) _ => apply nm_fuel
  | |- nm (hunless_skipped _) _ => unfold hunless_skipped
  | |- nm (hexpect_list _ _ _) _ => unfold hexpect_list
  | |- nm (hfield _ _ _ _ _) _ => unfold hfield
  | |- nm (if ?b then _ else _) _ => destruct b
  | |- nm (match ?x with _ => _ end) _ => destruct x
  | |- nm (if_ptr _ _) _ => apply nm_if_ptr
  | |- nm (h_object_list_loop _ _ _ _ _) _ => apply nm_object_loop
  | |- nm (h_sequence_parse _ _) _ => apply nm_seq
  | |- nm ?p ?q => first [constr_eq p q; apply nm_calm; solve [calm]|solve [auto 2 with nm nocore]]
  end.
Lemma nm_get_profile_pack_request : nm (@h_get_profile_pack_request_parse HO AL ME) (@h_get_profile_pack_request_parse HO AL plenty).
Proof. unfold h_get_profile_pack_request_parse. nm. Qed.
Hint Resolve nm_get_profile_pack_request : nm.
Lemma nm_prof_obj_header_entry : nm (@h_prof_obj_header_entry_parse HO AL ME) (@h_prof_obj_header_entry_parse HO AL plenty).
Proof. unfold h_prof_obj_header_entry_parse. nm. Qed.
Hint Resolve nm_prof_obj_header_entry : nm.
Lemma nm_value_entry : nm (@h_value_entry_parse HO AL ME) (@h_value_entry_parse HO AL plenty).
Proof. unfold h_value_entry_parse. nm. Qed.
Hint Resolve nm_value_entry : nm.
Lemma nm_prof_obj_period_entry : nm (@h_prof_obj_period_entry_parse HO AL ME) (@h_prof_obj_period_entry_parse HO AL plenty).
Proof. unfold h_prof_obj_period_entry_parse. nm. Qed.
Hint Resolve nm_prof_obj_period_entry : nm.
Lemma nm_get_profile_pack_response : nm (@h_get_profile_pack_response_parse HO AL ME) (@h_get_profile_pack_response_parse HO AL plenty).
Proof. unfold h_get_profile_pack_response_parse. nm. Qed.
Hint Resolve nm_get_profile_pack_response : nm.
Lemma nm_get_profile_list_response : nm (@h_get_profile_list_response_parse HO AL ME) (@h_get_profile_list_response_parse HO AL plenty).
Proof. unfold h_get_profile_list_response_parse. nm. Qed.
Hint Resolve nm_get_profile_list_response : nm.
Lemma nm_get_proc_parameter_request : nm (@h_get_proc_parameter_request_parse AL ME) (@h_get_proc_parameter_request_parse AL plenty).
Proof. unfold h_get_proc_parameter_request_parse. nm. Qed.
Hint Resolve nm_get_proc_parameter_request : nm.
Lemma nm_get_proc_parameter_response : nm (@h_get_proc_parameter_response_parse HO AL ME) (@h_get_proc_parameter_response_parse HO AL plenty).
Proof. unfold h_get_proc_parameter_response_parse. nm. Qed.
Hint Resolve nm_get_proc_parameter_response : nm.
Lemma nm_set_proc_parameter_request : nm (@h_set_proc_parameter_request_parse HO AL ME) (@h_set_proc_parameter_request_parse HO AL plenty).
Proof. unfold h_set_proc_parameter_request_parse. nm. Qed.
Hint Resolve nm_set_proc_parameter_request : nm.
Lemma nm_get_list_request : nm (@h_get_list_request_parse AL ME) (@h_get_list_request_parse AL plenty).
Proof. unfold h_get_list_request_parse. nm. Qed.
Hint Resolve nm_get_list_request : nm.
Lemma nm_get_list_response : nm (@h_get_list_response_parse HO AL ME) (@h_get_list_response_parse HO AL plenty).
Proof. unfold h_get_list_response_parse. nm. Qed.
Hint Resolve nm_get_list_response : nm.
Lemma nm_attention_response : nm (@h_attention_response_parse HO AL ME) (@h_attention_response_parse HO AL plenty).
Proof. unfold h_attention_response_parse. nm. Qed.
Hint Resolve nm_attention_response : nm.
Lemma nm_body_data t : nm (@h_body_data_parse HO AL ME t) (@h_body_data_parse HO AL plenty t).
Proof. unfold h_body_data_parse. nm. Qed.
Hint Resolve nm_body_data : nm.
Lemma nm_message_body : nm (@h_message_body_parse HO AL ME) (@h_message_body_parse HO AL plenty).
Proof. unfold h_message_body_parse. nm. Qed.
Hint Resolve nm_message_body : nm.
Lemma nm_message : nm (@h_message_parse HO AL ME) (@h_message_parse HO AL plenty).
Proof. unfold h_message_parse. nm. Qed.
Hint Resolve nm_message : nm.
Lemma nm_add f m : nm (@h_file_add_message AL ME f m) (@h_file_add_message AL plenty f m).
Proof. unfold h_file_add_message. nm. Qed.
Hint Resolve nm_add : nm.
Lemma nm_file_loop fuel : forall f, nm (@h_file_loop HO AL ME fuel f) (@h_file_loop HO AL plenty fuel f).
Proof. induction fuel as [|fuel IH]; intros f; cbn [h_file_loop]; nm. Qed.
Hint Resolve nm_file_loop : nm.
Lemma nm_file bytes : nm (@h_file_parse_run HO AL ME bytes) (@h_file_parse_run HO AL plenty bytes).
Proof. unfold h_file_parse_run, h_buffer_init. nm. Qed.
End Sim.
