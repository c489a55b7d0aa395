(** Facts about the parsers that print (ReportModel): they do what the silent ones do,
    and they print one line for every time that is given as a local time. *)
From Verif Require Import Base Buf Crc16 Number OctetString Boolean Value Time SList Tree Bodies
  Message File Lib Wf Safe Safe2 Safe3 Ctx Ctx2 Ctx3 Scan Spec TL Inv Reads NumFacts Dzg Exact Grammar Accept ReportModel.

(** *** Specification: the times of a message that have no value *)
Definition of_opt {A} (f : A -> nat) (o : option A) : nat := match o with Some x => f x | None => 0%nat end.
Definition of_all {A} (f : A -> nat) (l : list A) : nat := list_sum (map f l).
Definition no_value (t : sml_time) : nat := match tm_data t with Some _ => 0%nat | None => 1%nat end.
Definition time_lost : option sml_time -> nat := of_opt no_value.
Definition ppv_lost (v : sml_proc_par_value) : nat :=
  match ppv_dat v with
  | PTupel t => time_lost (tu_sec_index t)
  | PTime t => no_value t
  | _ => 0
  end.
Fixpoint tree_lost (t : sml_tree) : nat :=
  match t with Tree _ v children => (of_opt ppv_lost v + of_all tree_lost children)%nat end.
Definition entry_lost (e : list_entry) : nat := time_lost (le_val_time e).
Definition period_lost (e : sml_prof_obj_period_entry) : nat := time_lost (pp_val_time e).
Definition data_lost (d : body_data) : nat :=
  match d with
  | BOpenRes b => time_lost (or_ref_time b)
  | BPackReq b => time_lost (gq_begin_time b) + time_lost (gq_end_time b) + of_opt tree_lost (gq_das_details b)
  | BPackRes b => time_lost (gr_act_time b) + of_opt (of_all (of_opt period_lost)) (gr_period_list b)
  | BProfListRes b => time_lost (gl_act_time b) + time_lost (gl_val_time b)
  | BProcRes b => of_opt tree_lost (pr_parameter_tree b)
  | BSetProc b => of_opt tree_lost (sq_parameter_tree b)
  | BListRes b => time_lost (lr_act_sensor_time b) + of_all entry_lost (lr_val_list b) + time_lost (lr_act_gateway_time b)
  | BAttention b => of_opt tree_lost (ar_attention_details b)
  | _ => 0
  end.
Definition body_lost : option sml_message_body -> nat := of_opt (fun b => data_lost (mb_data b)).
Definition message_lost (m : sml_message) : nat := body_lost (m_message_body m).

Section WithHost.
Context {H : Host}.

(** *** The lines change nothing else *)
Definition same {A} (r : R A) (p : P A) : Prop := forall s, snd (r s) = p s.
Lemma same_quiet {A} (p : P A) : same (quiet p) p.
Proof. intros s. reflexivity. Qed.
Lemma same_bind {A B} (r : R A) (p : P A) (k : A -> R B) (k' : A -> P B) : same r p -> (forall x, same (k x) (k' x)) -> same (rbind r k) (bind p k').
Proof.
  intros H1 H2 s. unfold rbind, bind. rewrite <- (H1 s). destruct (r s) as [l [[x s1]|f|]]; cbn [snd]; try reflexivity. rewrite <- (H2 x s1). destruct (k x s1); reflexivity.
Qed.
Lemma same_say {B} l (k : unit -> R B) p : same (k tt) p -> same (rbind (say l) k) p.
Proof. intros H1 s. unfold rbind, say. rewrite <- (H1 s). destruct (k tt s); reflexivity. Qed.
Lemma same_field {A B} (r : R A) (p : P A) (k : A -> R (option B)) k' : same r p -> (forall x, same (k x) (k' x)) -> same (rfield r k) (field p k').
Proof.
  intros H1 H2. unfold rfield, field. apply same_bind; [auto|]. intros x. apply same_bind; [apply same_quiet|]. intros []; [apply same_quiet|auto].
Qed.
Lemma same_list {B} n (k : R (option B)) k' : same k k' -> same (rexpect_list n k) (expect_list n k').
Proof.
  intros H1. unfold rexpect_list, expect_list. apply same_bind; [apply same_quiet|]. intros t. destruct (negb _); [apply same_quiet|].
  apply same_bind; [apply same_quiet|]. intros l. destruct (negb _); [apply same_quiet|auto].
Qed.
Lemma same_unless {A} (k : R (option A)) k' : same k k' -> same (r_unless_skipped k) (unless_skipped k').
Proof. intros H1. unfold r_unless_skipped, unless_skipped. apply same_bind; [apply same_quiet|]. intros sk. destruct (negb _); [apply same_quiet|auto]. Qed.
Lemma same_label {A} (k : R (option A)) k' : same k k' -> same (r_error_label k) (error_label k').
Proof. intros H1. unfold r_error_label, error_label. apply same_bind; [auto|]. intros []; apply same_quiet. Qed.
Lemma same_fuel {A} (f : nat -> R A) f' : (forall n, same (f n) (f' n)) -> same (r_with_fuel f) (with_fuel f').
Proof. intros H1 s. apply H1. Qed.
Ltac sm := repeat lazymatch goal with
  | |- same (quiet _) _ => apply same_quiet
  | |- same (rexpect_list _ _) _ => apply same_list
  | |- same (r_unless_skipped _) _ => apply same_unless
  | |- same (r_error_label _) _ => apply same_label
  | |- same (r_with_fuel _) _ => apply same_fuel; intros ?
  | |- same (rfield _ _) _ => apply same_field; [|intros ?]
  | |- same (rbind (say _) _) _ => apply same_say
  | |- same (rbind _ _) _ => apply same_bind; [|intros ?]
  end.
Lemma same_time_value tag : same (r_time_value tag) (sml_time_value tag).
Proof.
  unfold r_time_value, sml_time_value. sm. destruct (_ =? _); [sm|]. destruct (_ =? _); sm.
Qed.
Lemma same_time : same r_time_parse sml_time_parse.
Proof. unfold r_time_parse, sml_time_parse. sm. destruct (_ =? _); [apply same_time_value|]. sm. apply same_time_value. Qed.
Lemma same_seqloop {A} (r : R (option A)) p : same r p -> forall fuel n, same (r_sequence_loop fuel n r) (sequence_loop fuel n p).
Proof.
  intros H1. induction fuel as [|fuel IH]; intros n; cbn [r_sequence_loop sequence_loop]; destruct (n <=? 0); try solve [sm].
  apply same_bind; [auto|]. intros x. apply same_bind; [sm|]. intros []; [sm|]. apply same_bind; [auto|]; intros y; sm.
Qed.
Lemma same_sequence {A} (r : R (option A)) p : same r p -> same (r_sequence_parse r) (sml_sequence_parse p).
Proof.
  intros H1. unfold r_sequence_parse, sml_sequence_parse. sm. destruct (negb _); [sm|]. sm. now apply same_seqloop.
Qed.
Lemma same_entry w : same (r_list_entry_parse w) (sml_list_entry_parse w).
Proof.
  unfold r_list_entry_parse, sml_list_entry_parse. sm; [apply same_time|]. destruct x4; sm.
Qed.
Lemma same_list_loop fuel : forall n w, same (r_list_loop fuel n w) (list_loop fuel n w).
Proof.
  induction fuel as [|fuel IH]; intros n w; cbn [r_list_loop list_loop]; destruct (n <=? 0); try solve [sm].
  apply same_bind; [apply same_entry|]. intros x. apply same_bind; [sm|]. intros []; [sm|]. destruct x as [[l w']|]; [|sm]. apply same_bind; [auto|]; intros y; sm.
Qed.
Lemma same_list_parse : same r_list_parse sml_list_parse.
Proof.
  unfold r_list_parse, sml_list_parse. sm. destruct (negb _); [sm|]. sm. destruct (negb _); [sm|]. sm; [apply same_list_loop|]. destruct x2; sm.
Qed.
Lemma same_elems {A} (r : R A) p : same r p -> forall fuel n, same (r_elems_loop fuel n r) (elems_loop fuel n p).
Proof.
  intros H1. induction fuel as [|fuel IH]; intros n; cbn [r_elems_loop elems_loop]; destruct (n <=? 0); try solve [sm].
  apply same_bind; [auto|]. intros x. apply same_bind; [sm|]. intros []; [sm|]. apply same_bind; [auto|]; intros y; sm.
Qed.
Lemma same_tupel : same r_tupel_entry_parse sml_tupel_entry_parse.
Proof. unfold r_tupel_entry_parse, sml_tupel_entry_parse. sm. apply same_time. Qed.
Lemma same_ppv : same r_proc_par_value_parse sml_proc_par_value_parse.
Proof.
  unfold r_proc_par_value_parse, sml_proc_par_value_parse. sm. destruct x as [m|]; [|sm]. cbv zeta.
  destruct (_ =? _); [sm|]. destruct (_ =? _); [sm|]. destruct (_ =? _); [sm; apply same_tupel|]. destruct (_ =? _); [sm; apply same_time|sm].
Qed.
Lemma same_tree_rec d : same (r_tree_parse_rec d) (sml_tree_parse_rec d).
Proof.
  induction d as [|d IH]; cbn [r_tree_parse_rec sml_tree_parse_rec]; sm; [apply same_ppv|]. destruct (negb _); [sm|]. sm. destruct (negb _); [sm|]. sm; [now apply same_elems|]. destruct x4; sm.
Qed.
Lemma same_tree : same r_tree_parse sml_tree_parse.
Proof. unfold r_tree_parse, sml_tree_parse. sm. apply same_tree_rec. Qed.
Lemma same_period_entry : same r_prof_obj_period_entry_parse sml_prof_obj_period_entry_parse.
Proof. unfold r_prof_obj_period_entry_parse, sml_prof_obj_period_entry_parse. sm. apply same_time. Qed.
Lemma same_pack_request : same r_get_profile_pack_request_parse sml_get_profile_pack_request_parse.
Proof.
  unfold r_get_profile_pack_request_parse, sml_get_profile_pack_request_parse. sm; try apply same_time. destruct x6; sm. apply same_tree.
Qed.
Lemma same_data tag : same (r_body_data_parse tag) (body_data_parse tag).
Proof.
  unfold r_body_data_parse.
  destruct (Z.eqb_spec tag SML_MESSAGE_OPEN_RESPONSE) as [->|_]. { unfold body_data_parse; cbn -[same rbind r_open_response_parse sml_open_response_parse]. sm. unfold r_open_response_parse, sml_open_response_parse. sm. apply same_time. }
  destruct (orb _ _) eqn:EO. { apply orb_prop in EO. destruct EO as [EO|EO]; apply Z.eqb_eq in EO; subst tag; unfold body_data_parse; cbn -[same rbind r_get_profile_pack_request_parse sml_get_profile_pack_request_parse]; sm; apply same_pack_request. }
  clear EO.
  destruct (Z.eqb_spec tag SML_MESSAGE_GET_PROFILE_PACK_RESPONSE) as [->|_].
  { unfold body_data_parse; cbn -[same rbind r_get_profile_pack_response_parse sml_get_profile_pack_response_parse]. sm. unfold r_get_profile_pack_response_parse, sml_get_profile_pack_response_parse. sm; [apply same_time|]. apply same_sequence, same_period_entry. }
  destruct (Z.eqb_spec tag SML_MESSAGE_GET_PROFILE_LIST_RESPONSE) as [->|_].
  { unfold body_data_parse; cbn -[same rbind r_get_profile_list_response_parse sml_get_profile_list_response_parse]. sm. unfold r_get_profile_list_response_parse, sml_get_profile_list_response_parse. sm; apply same_time. }
  destruct (Z.eqb_spec tag SML_MESSAGE_GET_PROC_PARAMETER_RESPONSE) as [->|_].
  { unfold body_data_parse; cbn -[same rbind r_get_proc_parameter_response_parse sml_get_proc_parameter_response_parse]. sm. unfold r_get_proc_parameter_response_parse, sml_get_proc_parameter_response_parse. sm; apply same_tree. }
  destruct (Z.eqb_spec tag SML_MESSAGE_SET_PROC_PARAMETER_REQUEST) as [->|_].
  { unfold body_data_parse; cbn -[same rbind r_set_proc_parameter_request_parse sml_set_proc_parameter_request_parse]. sm. unfold r_set_proc_parameter_request_parse, sml_set_proc_parameter_request_parse. sm; apply same_tree. }
  destruct (Z.eqb_spec tag SML_MESSAGE_GET_LIST_RESPONSE) as [->|_].
  { unfold body_data_parse; cbn -[same rbind r_get_list_response_parse sml_get_list_response_parse]. sm. unfold r_get_list_response_parse, sml_get_list_response_parse. sm; [apply same_time|apply same_list_parse|apply same_time]. }
  destruct (Z.eqb_spec tag SML_MESSAGE_ATTENTION_RESPONSE) as [->|_].
  { unfold body_data_parse; cbn -[same rbind r_attention_response_parse sml_attention_response_parse]. sm. unfold r_attention_response_parse, sml_attention_response_parse. sm; apply same_tree. }
  sm.
Qed.

(** *** What is printed about local times *)
Definition ignored (y : line) : Prop := exists a b c, y = Ignored a b c.
(** The parser prints nothing else, and does not clear the error flag. *)
Definition rmon {A} (p : R A) : Prop := forall s l x s', p s = (l, Ret (x, s')) -> (error s = true -> error s' = true) /\ Forall ignored l.
Lemma rbind_inv {A B} (p : R A) (k : A -> R B) s l x s2 : rbind p k s = (l, Ret (x, s2)) ->
  exists l1 y s1 l2, p s = (l1, Ret (y, s1)) /\ k y s1 = (l2, Ret (x, s2)) /\ l = l1 ++ l2.
Proof.
  unfold rbind. destruct (p s) as [l1 [[y s1]|f|]]; [|discriminate|discriminate]. destruct (k y s1) as [l2 o] eqn:E. intros HE. inversion HE; subst. eauto 8.
Qed.
Lemma rmon_quiet {A} (p : P A) : mon p -> rmon (quiet p).
Proof. intros Hp s l x s' E. unfold quiet in E. inversion E; subst. split; [|constructor]. intros He. now apply (Hp _ _ _ H2). Qed.
Lemma rmon_bind {A B} (p : R A) (k : A -> R B) : rmon p -> (forall x, rmon (k x)) -> rmon (rbind p k).
Proof.
  intros Hp Hk s l x s' E. apply rbind_inv in E. destruct E as (l1 & y & s1 & l2 & E1 & E2 & ->). destruct (Hp _ _ _ _ E1), (Hk _ _ _ _ _ E2). split; [auto|]. apply Forall_app. auto.
Qed.
Lemma rmon_say a b c : rmon (say (Ignored a b c)).
Proof. intros s l x s' E. unfold say in E. inversion E; subst. split; [auto|]. constructor; [|constructor]. unfold ignored. eauto. Qed.
Lemma rmon_fuel {A} (f : nat -> R A) : (forall n, rmon (f n)) -> rmon (r_with_fuel f).
Proof. intros Hf s. apply (Hf (fuel_of s) s). Qed.
Lemma rmon_field {A B} (p : R A) (k : A -> R (option B)) : rmon p -> (forall a, rmon (k a)) -> rmon (rfield p k).
Proof. intros Hp Hk. unfold rfield. apply rmon_bind; [auto|]. intros x. apply rmon_bind; [apply rmon_quiet; mon|]. intros []; [apply rmon_quiet; mon|auto]. Qed.
Lemma rmon_list {B} n (k : R (option B)) : rmon k -> rmon (rexpect_list n k).
Proof.
  intros Hk. unfold rexpect_list. apply rmon_bind; [apply rmon_quiet; mon|]. intros t. destruct (negb _); [apply rmon_quiet; mon|].
  apply rmon_bind; [apply rmon_quiet; mon|]. intros l. destruct (negb _); [apply rmon_quiet; mon|auto].
Qed.
Lemma rmon_unless {A} (k : R (option A)) : rmon k -> rmon (r_unless_skipped k).
Proof. intros Hk. unfold r_unless_skipped. apply rmon_bind; [apply rmon_quiet; mon|]. intros sk. destruct (negb _); [apply rmon_quiet; mon|auto]. Qed.
Lemma rmon_label {A} (k : R (option A)) : rmon k -> rmon (r_error_label k).
Proof. intros Hk. unfold r_error_label. apply rmon_bind; [auto|]. intros []; apply rmon_quiet; mon. Qed.

(** If the parser succeeds, the result [x] and the number [n] of lines satisfy [Q x n]. *)
Definition wp {A} (p : R A) (n : nat) (Q : A -> nat -> Prop) : Prop :=
  forall s l x s', p s = (l, Ret (x, s')) -> error s' = false -> Q x (n + length l)%nat.
Lemma wp_ret {A} (x : A) n (Q : A -> nat -> Prop) : Q x n -> wp (quiet (ret x)) n Q.
Proof. intros HQ s l y s' E _. unfold quiet, ret in E. inversion E; subst. now rewrite Nat.add_0_r. Qed.
Lemma wp_err {A} n (Q : option A -> nat -> Prop) : wp (quiet err_null) n Q.
Proof. intros s l y s' E He. unfold quiet, err_null, bind, set_error, ret in E. inversion E; subst. discriminate. Qed.
Lemma wp_seterr {A} (x : A) n (Q : A -> nat -> Prop) : wp (quiet (set_error ;;; ret x)) n Q.
Proof. intros s l y s' E He. unfold quiet, bind, set_error, ret in E. inversion E; subst. discriminate. Qed.
Lemma wp_none {A} n (Q : A -> nat -> Prop) : wp (quiet out_of_fuel) n Q.
Proof. intros s l y s' E. discriminate. Qed.
Lemma wp_fail {A} f n (Q : A -> nat -> Prop) : wp (quiet (fail f)) n Q.
Proof. intros s l y s' E. discriminate. Qed.
Lemma wp_bind {A B} (p : R A) (k : A -> R B) n Q1 Q : wp p 0 Q1 -> (forall x, rmon (k x)) -> (forall x m, Q1 x m -> wp (k x) (n + m) Q) -> wp (rbind p k) n Q.
Proof.
  intros Hp Hm Hk s l x s' E He. apply rbind_inv in E. destruct E as (l1 & y & s1 & l2 & E1 & E2 & ->).
  assert (He1 : error s1 = false). { destruct (error s1) eqn:He1; [|auto]. destruct (Hm _ _ _ _ _ E2) as [HM _]. rewrite (HM He1) in He. discriminate. }
  rewrite app_length, Nat.add_assoc. apply (Hk _ _ (Hp _ _ _ _ E1 He1) _ _ _ _ E2 He).
Qed.
Lemma wp_quiet {A B} (p : P A) (k : A -> R B) n Q : (forall x, wp (k x) n Q) -> wp (rbind (quiet p) k) n Q.
Proof.
  intros Hk s l x s' E He. apply rbind_inv in E. destruct E as (l1 & y & s1 & l2 & E1 & E2 & ->). unfold quiet in E1. inversion E1; subst. exact (Hk _ _ _ _ _ E2 He).
Qed.
Lemma wp_has {B} (k : bool -> R B) n Q : rmon (k true) -> wp (k false) n Q -> wp (rbind (quiet sml_buf_has_errors) k) n Q.
Proof.
  intros Hm Hk s l x s' E He. apply rbind_inv in E. destruct E as (l1 & y & s1 & l2 & E1 & E2 & ->). unfold quiet, sml_buf_has_errors in E1. inversion E1; subst. cbn [app].
  destruct (error s1) eqn:He1; [|exact (Hk _ _ _ _ E2 He)]. destruct (Hm _ _ _ _ E2) as [HM _]. rewrite (HM He1) in He. discriminate.
Qed.
Lemma wp_field {A B} (p : R A) (k : A -> R (option B)) n Q1 Q : wp p 0 Q1 -> (forall x, rmon (k x)) -> (forall x m, Q1 x m -> wp (k x) (n + m) Q) -> wp (rfield p k) n Q.
Proof.
  intros Hp Hm Hk. unfold rfield. eapply wp_bind; [exact Hp| |].
  - intros x. apply rmon_bind; [apply rmon_quiet; mon|]. intros []; [apply rmon_quiet; mon|auto].
  - intros x m HQ. apply wp_has; [apply rmon_quiet; mon|]. auto.
Qed.
Lemma wp_qfield {A B} (p : P A) (k : A -> R (option B)) n Q : (forall x, wp (k x) n Q) -> wp (rfield (quiet p) k) n Q.
Proof. intros Hk. unfold rfield. apply wp_quiet. intros x. apply wp_has; [apply rmon_quiet; mon|]. auto. Qed.
Lemma wp_list {B} n (k : R (option B)) m Q : wp k m Q -> wp (rexpect_list n k) m Q.
Proof.
  intros Hk. unfold rexpect_list. apply wp_quiet. intros t. destruct (negb _); [apply wp_err|]. apply wp_quiet. intros l. destruct (negb _); [apply wp_err|auto].
Qed.
Lemma wp_unless {A} (k : R (option A)) n (Q : option A -> nat -> Prop) : Q None n -> wp k n Q -> wp (r_unless_skipped k) n Q.
Proof. intros HN Hk. unfold r_unless_skipped. apply wp_quiet. intros sk. destruct (negb _); [now apply wp_ret|auto]. Qed.
Lemma wp_label {A} (k : R (option A)) (Q : option A -> nat -> Prop) : rmon k -> wp k 0 (fun x n => match x with Some _ => Q x n | None => True end) -> wp (r_error_label k) 0 Q.
Proof.
  intros Hm Hk. unfold r_error_label. eapply wp_bind; [exact Hk|intros []; apply rmon_quiet; mon|]. intros [x|] n HQ; [now apply wp_ret|apply wp_err].
Qed.
Lemma wp_fuel {A} (f : nat -> R A) n Q : (forall m, wp (f m) n Q) -> wp (r_with_fuel f) n Q.
Proof. intros Hf s. apply (Hf (fuel_of s) s). Qed.
Lemma wp_weak {A} (p : R A) n (Q Q' : A -> nat -> Prop) : wp p n Q -> (forall x m, Q x m -> Q' x m) -> wp p n Q'.
Proof. intros Hp HQ s l x s' E He. apply HQ. eauto. Qed.
Lemma wp_only {A B} (p : P A) (k : A -> R B) n Q (Post : A -> Prop) : (forall s x s1, p s = Ret (x, s1) -> error s1 = false -> Post x) -> (forall x, rmon (k x)) ->
  (forall x, Post x -> wp (k x) n Q) -> wp (rbind (quiet p) k) n Q.
Proof.
  intros Hp Hm Hk. eapply wp_bind with (Q1 := fun x m => Post x /\ m = 0%nat); [|exact Hm|].
  - intros s l x s' E He. unfold quiet in E. inversion E; subst. split; [|reflexivity]. eauto.
  - intros x m [HP ->]. rewrite Nat.add_0_r. auto.
Qed.

Ltac rm_prim := fail.
Ltac rm := repeat lazymatch goal with
  | |- forall _, _ => intros ?
  | |- rmon (quiet _) => apply rmon_quiet; solve [mon]
  | |- rmon (say _) => apply rmon_say
  | |- rmon (rexpect_list _ _) => apply rmon_list
  | |- rmon (r_unless_skipped _) => apply rmon_unless
  | |- rmon (r_error_label _) => apply rmon_label
  | |- rmon (r_with_fuel _) => apply rmon_fuel; intros ?
  | |- rmon (rfield _ _) => apply rmon_field; [|intros ?]
  | |- rmon (rbind _ _) => apply rmon_bind; [|intros ?]
  | |- rmon (if ?b then _ else _) => destruct b
  | |- rmon (match ?b with _ => _ end) => destruct b
  | |- rmon (let _ := _ in _) => cbv zeta
  | H : rmon ?p |- rmon ?p => exact H
  | |- _ => rm_prim
  end.

Lemma rmon_time_value tag : rmon (r_time_value tag).
Proof. unfold r_time_value. rm. Qed.
Lemma rmon_time : rmon r_time_parse.
Proof. unfold r_time_parse. rm; apply rmon_time_value. Qed.
Lemma rmon_seqloop {A} (p : R (option A)) : rmon p -> forall fuel n, rmon (r_sequence_loop fuel n p).
Proof. intros Hp. induction fuel as [|fuel IH]; intros n; cbn [r_sequence_loop]; rm; auto. Qed.
Lemma rmon_sequence {A} (p : R (option A)) : rmon p -> rmon (r_sequence_parse p).
Proof. intros Hp. unfold r_sequence_parse. rm. now apply rmon_seqloop. Qed.
Lemma rmon_entry w : rmon (r_list_entry_parse w).
Proof. unfold r_list_entry_parse. rm. apply rmon_time. Qed.
Lemma rmon_list_loop fuel : forall n w, rmon (r_list_loop fuel n w).
Proof. induction fuel as [|fuel IH]; intros n w; cbn [r_list_loop]; rm; auto; apply rmon_entry. Qed.
Lemma rmon_list_parse : rmon r_list_parse.
Proof. unfold r_list_parse. rm. apply rmon_list_loop. Qed.
Lemma rmon_elems {A} (p : R A) : rmon p -> forall fuel n, rmon (r_elems_loop fuel n p).
Proof. intros Hp. induction fuel as [|fuel IH]; intros n; cbn [r_elems_loop]; rm; auto. Qed.
Lemma rmon_tupel : rmon r_tupel_entry_parse.
Proof. unfold r_tupel_entry_parse. rm. apply rmon_time. Qed.
Lemma rmon_ppv : rmon r_proc_par_value_parse.
Proof. unfold r_proc_par_value_parse. rm; [apply rmon_tupel|apply rmon_time]. Qed.
Lemma rmon_tree_rec d : rmon (r_tree_parse_rec d).
Proof. induction d as [|d IH]; cbn [r_tree_parse_rec]; rm; [apply rmon_ppv|]. now apply rmon_elems. Qed.
Lemma rmon_tree : rmon r_tree_parse.
Proof. unfold r_tree_parse. rm. apply rmon_tree_rec. Qed.
Lemma rmon_period : rmon r_prof_obj_period_entry_parse.
Proof. unfold r_prof_obj_period_entry_parse. rm. apply rmon_time. Qed.
Lemma rmon_data tag : rmon (r_body_data_parse tag).
Proof.
  unfold r_body_data_parse, r_open_response_parse, r_get_profile_pack_request_parse, r_get_profile_pack_response_parse, r_get_profile_list_response_parse,
    r_get_proc_parameter_response_parse, r_set_proc_parameter_request_parse, r_get_list_response_parse, r_attention_response_parse.
  rm; try apply rmon_time; try apply rmon_tree; try apply rmon_list_parse. apply rmon_sequence, rmon_period.
Qed.

(** A number whose type was looked at is read, or the error flag is set. *)
Lemma typed_u32 s t s1 o s2 : sml_buf_get_next_type s = Ret (t, s1) -> t = SML_TYPE_UNSIGNED -> sml_u32_parse s1 = Ret (o, s2) -> error s2 = false -> exists m, o = Some m.
Proof.
  intros E Ht E2 He. unfold sml_buf_get_next_type in E. apply bind_inv in E. destruct E as (e & s3 & Ee & E). unfold at_end in Ee. injection Ee as He1 <-.
  destruct e. { unfold bind, set_error, ret in E. injection E as E _. subst. discriminate. }
  apply bind_inv in E. destruct E as (b & s3 & Eb & E). pose proof Eb as Eb'. unfold sml_buf_get_current_byte in Eb. destruct (nth_error _ _) eqn:En; [|discriminate]. injection Eb as <- <-. injection E as Ez <-.
  assert (Hz : z <> 1). { intros ->. rewrite Ht in Ez. vm_compute in Ez. discriminate. }
  unfold sml_u32_parse, sml_number_parse, unless_skipped in E2. apply bind_inv in E2. destruct E2 as (sk & s4 & Es & E2).
  unfold sml_buf_optional_is_skipped in Es. apply bind_inv in Es. destruct Es as (e & s5 & Ee & Es). unfold at_end in Ee. injection Ee as He2 <-. rewrite He1 in He2. subst e.
  apply bind_inv in Es. destruct Es as (b & s5 & Eb2 & Es). rewrite Eb' in Eb2. injection Eb2 as <- <-. change SML_OPTIONAL_SKIPPED with 1 in Es. destruct (Z.eqb_spec z 1) as [|_]; [contradiction|]. injection Es as <- <-. cbn [Z.eqb negb] in E2.
  assert (HN : forall y, err_null y = Ret (o, s2) -> exists m : mem, o = Some m). { intros y Ey. unfold err_null, bind, set_error, ret in Ey. injection Ey as _ <-. discriminate. }
  apply bind_inv in E2. destruct E2 as (e & s4 & _ & E2). destruct e; [eauto|]. apply bind_inv in E2. destruct E2 as (t2 & s5 & _ & E2). destruct (negb _); [eauto|].
  apply bind_inv in E2. destruct E2 as (l & s6 & _ & E2). destruct (_ || _); [eauto|]. apply bind_inv in E2. destruct E2 as (sh & s7 & _ & E2). destruct sh; [eauto|].
  apply bind_inv in E2. destruct E2 as (e & s8 & _ & E2). destruct e; [eauto|]. apply bind_inv in E2. destruct E2 as (b & s9 & _ & E2). apply bind_inv in E2. destruct E2 as (d & s10 & _ & E2).
  apply bind_inv in E2. destruct E2 as (u & s11 & _ & E2). injection E2 as <- _. eauto.
Qed.

Lemma wp_time_value tag : wp (r_time_value tag) 0 (fun o m => m = time_lost o).
Proof.
  intros s l x s' E He. unfold r_time_value in E. apply rbind_inv in E. destruct E as (l1 & t & s1 & l2 & E1 & E & ->). unfold quiet in E1. inversion E1; subst l1. cbn [app]. rename H2 into ET.
  destruct (Z.eqb_spec t SML_TYPE_UNSIGNED) as [Ht|_].
  - unfold rfield in E. apply rbind_inv in E. destruct E as (l1 & o & s2 & l3 & E2 & E & ->). unfold quiet at 1 in E2. injection E2 as <- E2.
    apply rbind_inv in E. destruct E as (l1 & e & s3 & l4 & E3 & E & ->). unfold quiet, sml_buf_has_errors in E3. injection E3 as <- <- <-. destruct (error s2) eqn:He2.
    + unfold quiet, ret in E. injection E as <- <- <-. congruence.
    + unfold quiet, ret in E. injection E as <- <- <-. destruct (typed_u32 _ _ _ _ _ ET Ht E2 He2) as (m & ->). reflexivity.
  - revert E He. generalize s1 l2 x s'. clear.
    match goal with |- forall s l x s', ?p s = _ -> _ -> _ => change (wp p 0 (fun o m => m = time_lost o)) end.
    destruct (_ =? _); [|now apply wp_ret]. apply wp_quiet. intros _. do 3 (apply wp_qfield; intros ?).
    eapply wp_bind with (Q1 := fun _ m => m = 1%nat); [|intros; apply rmon_quiet; mon|intros ? m ->; now apply wp_ret].
    intros s l x2 s' E _. unfold say in E. injection E as <- _ _. reflexivity.
Qed.
Lemma wp_time : wp r_time_parse 0 (fun o m => m = time_lost o).
Proof.
  unfold r_time_parse. apply wp_unless; [reflexivity|]. apply wp_quiet. intros b. destruct (_ =? _); [apply wp_time_value|]. apply wp_list, wp_qfield. intros t. apply wp_time_value.
Qed.
Lemma wp_seqloop {A} (p : R (option A)) f : rmon p -> wp p 0 (fun o m => m = of_opt f o) -> forall fuel n,
  wp (r_sequence_loop fuel n p) 0 (fun o m => match o with Some l => m = of_all (of_opt f) l | None => False end).
Proof.
  intros Hm Hp. induction fuel as [|fuel IH]; intros n; cbn [r_sequence_loop]; (destruct (_ <=? _); [now apply wp_ret|]); [apply wp_none|].
  pose proof (rmon_seqloop p Hm fuel (n - 1)) as Hm2. eapply wp_bind; [exact Hp|rm|]. cbv beta. intros x m ->. apply wp_has; [rm|]. eapply wp_bind; [apply IH|rm|].
  cbv beta. intros [l|] k Hk; [subst k|contradiction]. apply wp_ret. unfold of_all. cbn. reflexivity.
Qed.
Lemma wp_sequence {A} (p : R (option A)) f : rmon p -> wp p 0 (fun o m => m = of_opt f o) -> wp (r_sequence_parse p) 0 (fun o m => m = of_opt (of_all (of_opt f)) o).
Proof.
  intros Hm Hp. unfold r_sequence_parse. pose proof (rmon_seqloop p Hm) as Hm2. apply wp_label; [rm; auto|]. apply wp_quiet. intros t. destruct (negb _); [now apply wp_ret|]. apply wp_quiet. intros len. apply wp_fuel. intros n.
  eapply wp_weak; [apply wp_seqloop; eauto|]. intros [l|] m; cbn; auto.
Qed.
Lemma workaround_time w n e s e' w' s' : apply_workaround w n e s = Ret ((e', w'), s') -> le_val_time e' = le_val_time e.
Proof.
  unfold apply_workaround. intros E. apply bind_inv in E. destruct E as ([] & s1 & _ & E); [injection E as <- _ _; reflexivity|].
  destruct (le_value e); [|injection E as <- _ _; reflexivity]. destruct (_ && _); injection E as <- _ _; reflexivity.
Qed.
Lemma wp_entry w : wp (r_list_entry_parse w) 0 (fun o m => match o with Some (e, _) => m = entry_lost e | None => False end).
Proof.
  pose proof rmon_time as HT. unfold r_list_entry_parse. apply wp_label; [rm|]. apply wp_list. do 2 (apply wp_qfield; intros ?). eapply wp_field; [apply wp_time|rm|]. cbv beta. intros tm m ->.
  do 2 (apply wp_qfield; intros ?). apply wp_quiet. intros []; [now apply wp_ret|]. apply wp_quiet. intros b. cbv zeta. do 2 (apply wp_qfield; intros ?).
  eapply wp_only with (Post := fun r => le_val_time (fst r) = tm); [|rm|].
  - intros s [e' w'] s1 E _. apply workaround_time in E. exact E.
  - intros [e' w'] HE. cbn [fst] in HE. apply wp_ret. unfold entry_lost. now rewrite HE.
Qed.
Lemma wp_list_loop fuel : forall n w, wp (r_list_loop fuel n w) 0 (fun o m => match o with Some l => m = of_all entry_lost l | None => False end).
Proof.
  pose proof rmon_entry as HT. pose proof rmon_list_loop as HT2.
  induction fuel as [|fuel IH]; intros n w; cbn [r_list_loop]; (destruct (_ <=? _); [now apply wp_ret|]); [apply wp_none|].
  eapply wp_bind; [apply wp_entry|rm; auto|]. cbv beta. intros [[e w']|] m HE; [|contradiction]. subst m. apply wp_has; [rm|]. eapply wp_bind; [apply IH|rm|].
  cbv beta. intros [l|] k Hk; [subst k|contradiction]. apply wp_ret. reflexivity.
Qed.
Lemma wp_list_parse : wp r_list_parse 0 (fun l m => m = of_all entry_lost l).
Proof.
  pose proof rmon_list_loop as HT2. unfold r_list_parse. apply wp_quiet. intros sk. destruct (negb _); [now apply wp_ret|]. apply wp_quiet. intros t. destruct (negb _); [apply wp_seterr|]. apply wp_quiet. intros n.
  eapply wp_bind; [apply wp_fuel; intros k; apply wp_list_loop|rm|]. cbv beta. intros [l|] m HE; [subst m; now apply wp_ret|contradiction].
Qed.
Lemma wp_elems {A} (p : R A) f : rmon p -> wp p 0 (fun o m => m = f o) -> forall fuel n,
  wp (r_elems_loop fuel n p) 0 (fun o m => match o with Some l => m = of_all f l | None => False end).
Proof.
  intros Hm Hp. induction fuel as [|fuel IH]; intros n; cbn [r_elems_loop]; (destruct (_ <=? _); [now apply wp_ret|]); [apply wp_none|].
  pose proof (rmon_elems p Hm fuel (n - 1)) as Hm2. eapply wp_bind; [exact Hp|rm|]. cbv beta. intros x m ->. apply wp_has; [rm|]. eapply wp_bind; [apply IH|rm|].
  cbv beta. intros [l|] k Hk; [subst k|contradiction]. apply wp_ret. reflexivity.
Qed.
Lemma wp_tupel : wp r_tupel_entry_parse 0 (fun o m => m = of_opt (fun t => time_lost (tu_sec_index t)) o).
Proof.
  pose proof rmon_time as HT. unfold r_tupel_entry_parse. apply wp_unless; [reflexivity|]. apply wp_list. apply wp_qfield; intros ?. eapply wp_field; [apply wp_time|rm|]. cbv beta. intros tm m ->.
  do 21 (apply wp_qfield; intros ?). apply wp_ret. reflexivity.
Qed.
Lemma wp_ppv : wp r_proc_par_value_parse 0 (fun o m => m = of_opt ppv_lost o).
Proof.
  pose proof rmon_time as HT. unfold r_proc_par_value_parse. apply wp_unless; [reflexivity|]. apply wp_list, wp_qfield. intros [tag|]; [|now apply wp_ret]. cbv zeta.
  destruct (_ =? _); [apply wp_quiet; intros []; now apply wp_ret|]. destruct (_ =? _); [apply wp_quiet; intros []; now apply wp_ret|].
  destruct (_ =? _); [eapply wp_bind; [apply wp_tupel|rm|]; cbv beta; intros [] m ->; now apply wp_ret|].
  destruct (_ =? _); [eapply wp_bind; [apply wp_time|rm|]; cbv beta; intros [] m ->; now apply wp_ret|apply wp_err].
Qed.
Lemma of_all_somes {A} (f : A -> nat) l : of_all (of_opt f) l = of_all f (somes l).
Proof. unfold of_all. induction l as [|[x|] l IH]; cbn; auto. Qed.
Lemma wp_tree_rec d : wp (r_tree_parse_rec d) 0 (fun o m => m = of_opt tree_lost o).
Proof.
  pose proof rmon_ppv as HT. pose proof (fun d => rmon_elems _ (rmon_tree_rec d)) as HE. induction d as [|d IH]; cbn [r_tree_parse_rec]; [apply wp_none|].
  apply wp_unless; [reflexivity|]. apply wp_list, wp_qfield. intros name. eapply wp_field; [apply wp_ppv|rm; auto|]. cbv beta. intros v m ->. apply wp_quiet. intros sk.
  destruct (negb _); [apply wp_ret; cbn; unfold of_all; cbn; lia|]. apply wp_quiet. intros t. destruct (negb _); [apply wp_err|]. apply wp_quiet. intros n.
  eapply wp_bind; [apply wp_fuel; intros k; apply (wp_elems _ (of_opt tree_lost)); [apply rmon_tree_rec|exact IH]|rm|].
  cbv beta. intros [l|] m HE2; [subst m|contradiction]. apply wp_ret. cbn [of_opt tree_lost]. rewrite of_all_somes. reflexivity.
Qed.
Lemma wp_tree : wp r_tree_parse 0 (fun o m => m = of_opt tree_lost o).
Proof. apply wp_fuel. apply wp_tree_rec. Qed.
Lemma wp_period : wp r_prof_obj_period_entry_parse 0 (fun o m => m = of_opt period_lost o).
Proof.
  pose proof rmon_time as HT. unfold r_prof_obj_period_entry_parse. apply wp_label; [rm|]. apply wp_list. eapply wp_field; [apply wp_time|rm|]. cbv beta. intros tm m ->.
  do 3 (apply wp_qfield; intros ?). apply wp_ret. reflexivity.
Qed.
Lemma elems_error {A} (p : P A) fuel : forall n s s', elems_loop fuel n p s = Ret (None, s') -> error s' = true.
Proof.
  induction fuel as [|fuel IH]; intros n s s' E; cbn [elems_loop] in E; (destruct (_ <=? _); [discriminate|]); [discriminate|].
  apply bind_inv in E. destruct E as (x & s1 & _ & E). apply bind_inv in E. destruct E as (e & s2 & Ee & E). unfold sml_buf_has_errors in Ee. injection Ee as <- <-.
  destruct (error s1) eqn:He; [injection E as <-; exact He|]. apply bind_inv in E. destruct E as ([t|] & s3 & Et & E); [discriminate|]. injection E as <-. eapply IH; eauto.
Qed.
Lemma objects_error s o s' : object_list_parse s = Ret (o, s') -> error s' = false -> o <> None.
Proof.
  intros E He ->. unfold object_list_parse in E. apply bind_inv in E. destruct E as (sk & s1 & _ & E). destruct (negb _); [discriminate|]. apply bind_inv in E. destruct E as (t & s2 & _ & E).
  destruct (negb _). { unfold err_null, bind, set_error, ret in E. injection E as <-. discriminate. }
  apply bind_inv in E. destruct E as (n & s3 & _ & E). unfold with_fuel in E. apply elems_error in E. congruence.
Qed.
Lemma wp_data tag : wp (r_body_data_parse tag) 0 (fun d m => m = data_lost d).
Proof.
  pose proof rmon_time as HT. pose proof rmon_tree as HR. pose proof rmon_list_parse as HL. pose proof (rmon_sequence _ rmon_period) as HS.
  assert (HB : forall A (p : R (option A)) (f : A -> body_data), wp p 0 (fun o m => m = data_lost (from_opt BNull f o)) ->
    wp (rbind p (fun d => quiet (ret (from_opt BNull f d)))) 0 (fun d m => m = data_lost d)).
  { intros A p f Hp. eapply wp_bind; [exact Hp|rm|]. cbv beta. intros d m ->. now apply wp_ret. }
  unfold r_body_data_parse.
  destruct (tag =? SML_MESSAGE_OPEN_RESPONSE) eqn:E1. { apply HB. unfold r_open_response_parse. apply wp_list. do 4 (apply wp_qfield; intros ?). eapply wp_field; [apply wp_time|rm|]. cbv beta. intros tm m ->. apply wp_qfield; intros ?. now apply wp_ret. }
  destruct (orb _ _) eqn:EO.
  { apply HB. unfold r_get_profile_pack_request_parse. apply wp_list. do 4 (apply wp_qfield; intros ?). eapply wp_field; [apply wp_time|rm|]. cbv beta. intros tm m ->.
    eapply wp_field; [apply wp_time|rm|]. cbv beta. intros tm2 m ->. apply wp_qfield; intros ?. eapply wp_only with (Post := fun o => o <> None); [apply objects_error|rm|].
    intros [ol|] HO; [|contradiction]. eapply wp_field; [apply wp_tree|rm|]. cbv beta. intros tr m ->. apply wp_ret. reflexivity. }
  destruct (tag =? SML_MESSAGE_GET_PROFILE_PACK_RESPONSE) eqn:E2.
  { apply HB. unfold r_get_profile_pack_response_parse. apply wp_label; [rm|]. apply wp_list, wp_qfield; intros ?. eapply wp_field; [apply wp_time|rm|]. cbv beta. intros tm m ->.
    do 3 (apply wp_qfield; intros ?). eapply wp_field; [apply (wp_sequence _ _ rmon_period wp_period)|rm|]. cbv beta. intros pl m ->. do 2 (apply wp_qfield; intros ?). apply wp_ret. reflexivity. }
  destruct (tag =? SML_MESSAGE_GET_PROFILE_LIST_RESPONSE) eqn:E3.
  { apply HB. unfold r_get_profile_list_response_parse. apply wp_label; [rm|]. apply wp_list, wp_qfield; intros ?. eapply wp_field; [apply wp_time|rm|]. cbv beta. intros tm m ->.
    do 2 (apply wp_qfield; intros ?). eapply wp_field; [apply wp_time|rm|]. cbv beta. intros tm2 m ->. do 4 (apply wp_qfield; intros ?). apply wp_ret. reflexivity. }
  destruct (tag =? SML_MESSAGE_GET_PROC_PARAMETER_RESPONSE) eqn:E4. { apply HB. unfold r_get_proc_parameter_response_parse. apply wp_list. do 2 (apply wp_qfield; intros ?). eapply wp_field; [apply wp_tree|rm|]. cbv beta. intros tr m ->. now apply wp_ret. }
  destruct (tag =? SML_MESSAGE_SET_PROC_PARAMETER_REQUEST) eqn:E5. { apply HB. unfold r_set_proc_parameter_request_parse. apply wp_list. do 4 (apply wp_qfield; intros ?). eapply wp_field; [apply wp_tree|rm|]. cbv beta. intros tr m ->. now apply wp_ret. }
  destruct (tag =? SML_MESSAGE_GET_LIST_RESPONSE) eqn:E6.
  { apply HB. unfold r_get_list_response_parse. apply wp_list. do 3 (apply wp_qfield; intros ?). eapply wp_field; [apply wp_time|rm|]. cbv beta. intros tm m ->. eapply wp_field; [apply wp_list_parse|rm|]. cbv beta. intros vl m ->.
    apply wp_qfield; intros ?. eapply wp_field; [apply wp_time|rm|]. cbv beta. intros tm2 m ->. apply wp_ret. reflexivity. }
  destruct (tag =? SML_MESSAGE_ATTENTION_RESPONSE) eqn:E7. { apply HB. unfold r_attention_response_parse. apply wp_list. do 3 (apply wp_qfield; intros ?). eapply wp_field; [apply wp_tree|rm|]. cbv beta. intros tr m ->. now apply wp_ret. }
  apply orb_false_iff in EO. destruct EO as [EO1 EO2]. intros s l x s' E _. unfold quiet in E. injection E as <- E. cbn [length Nat.add]. revert E. unfold body_data_parse.
  rewrite E1, E2, E3, E4, E5, E6, E7, EO1, EO2. cbn [orb].
  repeat (match goal with |- (if ?b then _ else _) _ = _ -> _ => destruct b end; [intros E; apply bind_inv in E; destruct E as ([d|] & s1 & _ & E); injection E as <- _; reflexivity|]).
  intros E. injection E as <- _. reflexivity.
Qed.
End WithHost.
