(** Memory safety of the message bodies, sml_message_parse and sml_file_parse. *)
From Verif Require Import Base Buf Crc16 Number OctetString Boolean Value Time SList Tree Bodies
  Message File Lib Wf Safe Safe2.

Section WithHost.
Context {H : Host}.

(** one field of a record *)
Ltac fld L := eapply field_safe1; [apply L|intros ? ?].
Ltac last := apply safe_ret; eexists; split; [reflexivity|split; cbn; eauto].
Ltac body n := eapply safe_le; [apply (safe_expect_list _ n)|lia].

Lemma open_req_safe : safe 1 sml_open_request_parse (some wf_open_req).
Proof.
  body 7%nat. do 6 (fld octet_safe). fld u8_safe. last.
Qed.
Lemma open_res_safe : safe 1 sml_open_response_parse (some wf_open_res).
Proof. body 6%nat. do 4 (fld octet_safe). fld time_safe. fld u8_safe. last. Qed.
Lemma close_req_safe : safe 1 sml_close_request_parse (some wf_close_req).
Proof. body 1%nat. fld octet_safe. apply safe_ret. eexists; split; [reflexivity|assumption]. Qed.
Lemma close_res_safe : safe 1 sml_close_response_parse (some wf_close_res).
Proof. body 1%nat. fld octet_safe. apply safe_ret. eexists; split; [reflexivity|assumption]. Qed.

Lemma object_list_safe : safe 1 object_list_parse (some (Forall (opt wf_oct))).
Proof.
  intros s Hs. unfold object_list_parse. apply wp_bind, wp_optional; intros Hc.
  - cbn. apply post_err; auto using step_set_err.
  - intros H1. cbn. split; [apply step_adv; auto; lia|]. intros _. simpl. split; [lia|].
    eexists; split; [reflexivity|constructor].
  - intros H1. cbn [Z.eqb negb].
    apply (wp_type_check _ (fun t => negb (t =? SML_TYPE_LIST))); auto. intros _.
    apply (wp_length_bind 0); auto. intros l s1 Hs1 _ _.
    apply wp_with_fuel. apply (elems_loop_safe _ (opt wf_oct)); auto using fuel_of_gt, octet_safe.
Qed.

Lemma pack_req_safe : safe 1 sml_get_profile_pack_request_parse (some wf_pack_req).
Proof.
  body 8%nat. do 3 (fld octet_safe). fld boolean_safe. do 2 (fld time_safe). fld tree_path_safe.
  eapply (safe_bind 1 0); [apply object_list_safe|].
  intros [l|].
  - eapply (safe_le 1); [|lia]. eapply field_safe1; [apply tree_safe|]. intros t Ht. apply safe_ret. intros [l' [[= <-] Hl]].
    eexists; split; [reflexivity|split; cbn; eauto].
  - intros s Hs. apply wp_ret. split; [now apply step_refl|]. intros He. split; [lia|].
    intros [x [[=] _]].
Qed.

Lemma header_safe : safe 1 sml_prof_obj_header_entry_parse (some wf_header).
Proof.
  apply safe_error_label. body 3%nat. fld octet_safe. fld u8_safe. fld i8_safe.
  apply safe_ret. split; assumption.
Qed.
Lemma value_entry_safe : safe 1 sml_value_entry_parse (some wf_value_entry).
Proof.
  apply safe_error_label. body 2%nat. fld value_safe. fld octet_safe.
  apply safe_ret. split; assumption.
Qed.

Lemma seq_some {A} (Q : A -> Prop) r :
  some (Forall (some Q)) r -> exists l, r = Some (map Some l) /\ Forall Q l.
Proof. intros [l [-> Hl]]. destruct (map_Some_inv _ _ Hl) as [l' [-> Hl']]. eauto. Qed.

Lemma per_entry_safe : safe 1 sml_prof_obj_period_entry_parse (some wf_per_entry).
Proof.
  apply safe_error_label. body 4%nat. fld time_safe. fld u64_safe.
  fld (sequence_safe _ _ value_entry_safe). fld octet_safe.
  apply safe_ret. split; cbn; auto. now apply seq_some.
Qed.
Lemma pack_res_safe : safe 1 sml_get_profile_pack_response_parse (some wf_pack_res).
Proof.
  apply safe_error_label. body 8%nat. fld octet_safe. fld time_safe. fld u32_safe. fld tree_path_safe.
  fld (sequence_safe _ _ header_safe). fld (sequence_safe _ _ per_entry_safe). do 2 (fld octet_safe).
  apply safe_ret. split; cbn; auto; now apply seq_some.
Qed.
Lemma prof_list_res_safe : safe 1 sml_get_profile_list_response_parse (some wf_prof_list_res).
Proof.
  apply safe_error_label. body 9%nat. fld octet_safe. fld time_safe. fld u32_safe. fld tree_path_safe.
  fld time_safe. fld u64_safe. fld (sequence_safe _ _ period_safe). do 2 (fld octet_safe).
  apply safe_ret. split; cbn; auto.
Qed.
Lemma proc_req_safe : safe 1 sml_get_proc_parameter_request_parse (some wf_proc_req).
Proof. body 5%nat. do 3 (fld octet_safe). fld tree_path_safe. fld octet_safe. last. Qed.
Lemma proc_res_safe : safe 1 sml_get_proc_parameter_response_parse (some wf_proc_res).
Proof. body 3%nat. fld octet_safe. fld tree_path_safe. fld tree_safe. last. Qed.
Lemma set_proc_safe : safe 1 sml_set_proc_parameter_request_parse (some wf_set_proc).
Proof. body 5%nat. do 3 (fld octet_safe). fld tree_path_safe. fld tree_safe. last. Qed.
Lemma list_req_safe : safe 1 sml_get_list_request_parse (some wf_list_req).
Proof. body 5%nat. do 5 (fld octet_safe). last. Qed.
Lemma list_res_safe : safe 1 sml_get_list_response_parse (some wf_list_res).
Proof.
  body 7%nat. do 3 (fld octet_safe). fld time_safe. fld list_safe. fld octet_safe. fld time_safe. last.
Qed.
Lemma attention_safe : safe 1 sml_attention_response_parse (some wf_attention).
Proof. body 4%nat. do 3 (fld octet_safe). fld tree_safe. last. Qed.

Lemma body_data_safe tag : safe 0 (body_data_parse tag) (wf_body_data tag).
Proof.
  assert (HM : forall A (p : P (option A)) (c : A -> body_data) Q, safe 1 p (some Q) ->
    (forall x, Q x -> wf_body_data tag (c x)) ->
    safe 0 (d <- p ;; ret (from_opt BNull c d)) (wf_body_data tag)).
  { intros A p c Q Hp HQ. eapply (safe_le 1); [|lia]. eapply safe_map; [apply Hp|].
    intros a [x [-> Hx]]. apply HQ, Hx. }
  unfold body_data_parse.
  repeat match goal with
  | |- context [if tag =? ?c then _ else _] => destruct (Z.eqb_spec tag c) as [E|?];
      [eapply HM; [first [apply open_req_safe|apply open_res_safe|apply close_req_safe
        |apply close_res_safe|apply pack_req_safe|apply pack_res_safe|apply prof_list_res_safe
        |apply proc_req_safe|apply proc_res_safe|apply set_proc_safe|apply list_req_safe
        |apply list_res_safe|apply attention_safe]
       |intros x Hx; cbn; split; [auto|exact Hx]]|]
  end.
  apply safe_ret. cbn. intros Hin. repeat destruct Hin as [Hin|Hin]; auto.
Qed.

Lemma body_safe : safe 2 sml_message_body_parse (opt wf_body).
Proof.
  intros s Hs. unfold sml_message_body_parse. apply wp_bind, wp_at_end; intros Hc.
  - apply safe_err_null; auto.
  - apply (safe_expect_list 2 1); auto. fld u32_safe. destruct a as [m|]; [|apply safe_ret; exact I].
    eapply safe_map; [apply body_data_safe|]. intros d Hd. exists m. auto.
Qed.

(** Runs that may fault only if [Small] fails. *)
Definition wpq {A} (Small : Prop) (p : P A) (Q : A -> sbuf -> Prop) (s : sbuf) : Prop :=
  match p s with Ret (a, s') => Q a s' | Fault _ => ~ Small | NoFuel => False end.
Lemma wpq_wp {A} Small (p : P A) Q s : wp p Q s -> wpq Small p Q s.
Proof. unfold wp, wpq. destruct (p s) as [[? ?]| |]; tauto. Qed.
Lemma wpq_bind {A B} Small (p : P A) (k : A -> P B) Q s :
  wpq Small p (fun a s' => wpq Small (k a) Q s') s -> wpq Small (bind p k) Q s.
Proof. unfold wpq, bind. destruct (p s) as [[? ?]| |]; auto. Qed.
Lemma wpq_mono {A} Small (p : P A) (Q Q' : A -> sbuf -> Prop) s :
  wpq Small p Q s -> (forall a s', Q a s' -> Q' a s') -> wpq Small p Q' s.
Proof. unfold wpq. destruct (p s) as [[? ?]| |]; auto. Qed.
Lemma wp_wpq_bind {A B} Small (p : P A) (k : A -> P B) Q s :
  wp p (fun a s' => wpq Small (k a) Q s') s -> wpq Small (bind p k) Q s.
Proof. intros Hp. apply wpq_bind, wpq_wp, Hp. Qed.
Lemma wpq_ret {A} Small (a : A) (Q : A -> sbuf -> Prop) s : Q a s -> wpq Small (ret a) Q s.
Proof. auto. Qed.

Lemma wpq_field {A B} Small n (p : P A) (k : A -> P (option B)) Q1 s0 (Q : option B -> sbuf -> Prop) s :
  safe n p Q1 -> okbuf s -> step s0 s ->
  (forall r s', step s0 s' -> error s' = true -> Q r s') ->
  (forall a s', okbuf s' -> step s0 s' -> step s s' -> error s' = false -> (cursor s + n <= cursor s')%nat -> Q1 a ->
     wpq Small (k a) Q s') ->
  wpq Small (field p k) Q s.
Proof.
  intros Hp Hs St0 Herr Hk. unfold field. apply wp_wpq_bind. eapply wp_mono; [apply Hp, Hs|].
  intros a s1 [St1 Po1]. apply wp_wpq_bind. unfold wp, sml_buf_has_errors.
  assert (step s0 s1) by (eapply step_trans; eauto).
  destruct (error s1) eqn:E1.
  - apply wpq_ret. auto.
  - destruct (Po1 eq_refl). apply Hk; auto. eapply step_ok; eauto.
Qed.

(** Where an accepted message lies in the buffer: its checksummed bytes and the
    field that holds the checksum. *)
Definition crc_ok (bs : list Z) (c : mem) : Prop :=
  mem_u c = sml_crc16_calculate bs \/ mem_u c = sml_crc16kermit_calculate bs.

Record accepted (s s' : sbuf) (m : sml_message) : Prop := {
  acc_wf : wf_message m;
  acc_crc : exists k c s1 s2,
    (6 <= k)%nat /\ cursor s1 = (cursor s + k)%nat /\ buffer s1 = buffer s /\ error s1 = false /\
    sml_u16_parse s1 = Ret (Some c, s2) /\ error s2 = false /\
    (Z.of_nat (buffer_len s) < 2147483648 -> crc_ok (firstn k (skipn (cursor s) (buffer s))) c) /\ m_crc m = Some c /\
    exists b, nth_error (buffer s) (cursor s2) = Some b /\
      cursor s' = (cursor s2 + if (b =? 0)%Z then 1 else 0)%nat }.

Definition message_post (s : sbuf) (r : option sml_message) (s' : sbuf) : Prop :=
  step s s' /\ (error s' = false -> (cursor s + 7 <= cursor s')%nat /\ opt (accepted s s') r).

Lemma message_safe s : okbuf s -> 
  wpq (Z.of_nat (buffer_len s) < 2147483648) sml_message_parse (message_post s) s.
Proof.
  intros Hs. pose proof Hs as [Hc0 Hb].
  assert (Herr : forall r s', step s s' -> error s' = true -> message_post s r s').
  { intros r s' St E. split; auto. intros; congruence. }
  unfold sml_message_parse. apply wpq_bind. unfold wpq at 1, cursor_int at 1.
  rewrite Z.sub_0_r. unfold expect_list.
  apply wp_wpq_bind, wp_next_type.
  { intros Hc. cbn. apply Herr; auto. apply (step_trans _ (set_err s)); apply step_set_err; auto. }
  intros b0 Hc Eb0. destruct (negb _).
  { cbn. apply Herr; auto using step_set_err. }
  apply wp_wpq_bind. eapply wp_mono; [apply next_length_int, Hs|].
  intros l s1 [[St1 Po1] Hl]. pose proof (step_ok _ _ Hs St1) as Hs1.
  destruct (negb _).
  { cbn. apply Herr; auto. eapply step_trans; eauto using step_set_err. }
  eapply (wpq_field _ 1); [apply octet_safe|auto|exact St1|auto|].
  intros transaction_id s2 Hs2 St2 St2' E2 C2 H2.
  eapply (wpq_field _ 1); [apply u8_safe|auto|exact St2|auto|].
  intros group_id s3 Hs3 St3 St3' E3 C3 H3.
  eapply (wpq_field _ 1); [apply u8_safe|auto|exact St3|auto|].
  intros abort_on_error s4 Hs4 St4 St4' E4 C4 H4.
  eapply (wpq_field _ 2); [apply body_safe|auto|exact St4|auto|].
  intros message_body s5 Hs5 St5 St5' E5 C5 H5.
  apply wpq_bind. unfold wpq at 1, cursor_int at 1.
  apply wpq_bind. unfold wpq at 1. destruct (_ <? 3).
  { cbn. apply Herr; auto. eapply step_trans; eauto using step_set_err. }
  apply wpq_bind.
  pose proof (u16_safe s5 Hs5) as H6. unfold wp in H6.
  destruct (sml_u16_parse s5) as [[crc s6]| |] eqn:E6; try contradiction.
  unfold wpq at 1. rewrite E6. destruct H6 as [St6' Po6].
  assert (step s s6) as St6 by (eapply step_trans; eauto).
  pose proof (step_ok _ _ Hs St6) as Hs6.
  apply wpq_bind. unfold wpq at 1, sml_buf_has_errors. destruct (error s6) eqn:Er6.
  { cbn. apply Herr; auto. eapply step_trans; eauto using step_set_err. }
  destruct crc as [c|]; [|cbn; apply Herr; auto; eapply step_trans; eauto using step_set_err].
  destruct (Po6 eq_refl) as [C6 Hcrc]. cbn [opt] in Hcrc.
  pose proof (st_cur _ _ St6) as Cu6. pose proof (st_buf _ _ St6) as B6.
  assert (cursor s + 1 <= cursor s1)%nat as C1.
  { apply Po1. apply (step_noerr _ _ St2' E2). }
  clear - Herr Hs Hc0 Hb St5 St6 C1 C2 C3 C4 C5 C6 Cu6 B6 Hs6 E5 E6 Er6 H2 H3 H4 H5 Hcrc.
  apply wpq_bind. unfold wpq at 1, buffer_slice.
  destruct (Z.ltb_spec (wrap32 (Z.of_nat (cursor s))) 0) as [Hm|Hm].
  { intros Hsm. rewrite wrap32_ok in Hm; [lia|]. unfold int_ok. lia. }
  destruct (Z.ltb_spec (wrap32 (Z.of_nat (cursor s5) - wrap32 (Z.of_nat (cursor s)))) 0) as [Hn|Hn].
  { intros Hsm. rewrite (wrap32_ok (Z.of_nat (cursor s))) in Hn by (unfold int_ok; lia).
    rewrite wrap32_ok in Hn by (unfold int_ok; lia). lia. }
  set (st := wrap32 (Z.of_nat (cursor s))) in *.
  set (ln := wrap32 (Z.of_nat (cursor s5) - st)) in *.
  assert (Hst : Z.of_nat (buffer_len s) < 2147483648 ->
    Z.to_nat st = cursor s /\ Z.to_nat ln = (cursor s5 - cursor s)%nat).
  { intros Hsm. subst st ln. rewrite (wrap32_ok (Z.of_nat (cursor s))) by (unfold int_ok; lia).
    rewrite wrap32_ok by (unfold int_ok; lia). lia. }
  assert (buffer_len s6 = buffer_len s) as BL6 by (unfold buffer_len; now rewrite B6).
  destruct (Nat.leb_spec (Z.to_nat st + Z.to_nat ln) (buffer_len s6)) as [Hle|Hle].
  2: { intros Hsm. destruct (Hst Hsm) as [E1' E2']. rewrite E1', E2' in Hle. lia. }
  set (bs := firstn _ _). set (ca := mem_u c =? sml_crc16_calculate bs).
  set (ck := mem_u c =? sml_crc16kermit_calculate bs).
  destruct (negb ca && negb ck) eqn:Eck.
  { clear Eck Hle Hm Hn Hst. clearbody st ln bs ca ck. apply wpq_ret. split; auto.
    intros _. split; [lia|exact I]. }
  assert (Hcrcok : Z.of_nat (buffer_len s) < 2147483648 ->
    crc_ok (firstn (cursor s5 - cursor s) (skipn (cursor s) (buffer s))) c).
  { intros Hsm. destruct (Hst Hsm) as [E1' E2']. replace (firstn _ _) with bs.
    - clear - Eck. unfold crc_ok. subst ca ck. lia.
    - subst bs. now rewrite E1', E2', B6. }
  clear Eck Hle Hm Hn Hst. clearbody st ln bs ca ck.
  apply wp_wpq_bind, wp_at_end; intros Hc6.
  { cbn. apply Herr; auto. eapply step_trans; eauto using step_set_err. }
  apply wp_wpq_bind, wp_current_byte; auto. intros b Eb.
  assert (HF : wpq (Z.of_nat (buffer_len s) < 2147483648)
     (ret (Some (mkMsg transaction_id group_id abort_on_error message_body (Some c)))) (message_post s)
     (if (b =? SML_MESSAGE_END)%Z then set_cursor (cursor s6 + 1) s6 else s6)).
  { apply wpq_ret. split.
    - destruct (b =? SML_MESSAGE_END); auto. eapply step_trans; [exact St6|]. apply step_adv; auto; lia.
    - intros _. split; [destruct (b =? SML_MESSAGE_END); cbn; lia|]. split.
      + split; cbn; eauto.
      + exists (cursor s5 - cursor s)%nat, c, s5, s6. split; [lia|]. split; [lia|].
        split; [apply (st_buf _ _ St5)|]. split; auto. split; auto. split; auto. split; auto.
        split; auto. exists b. split; [now rewrite <- B6|].
        unfold SML_MESSAGE_END. destruct (b =? 0); cbn; lia. }
  destruct (b =? SML_MESSAGE_END) eqn:Eend.
  - apply wp_wpq_bind. apply wp_update_Z; [lia|]. exact HF.
  - apply wp_wpq_bind, wp_ret. exact HF.
Qed.


(** The loop of sml_file_parse, for any lower bound [N] of the size of an
    accepted message. *)
Definition min_size (N : nat) : Prop := forall s m s', okbuf s -> error s = false ->
  sml_message_parse s = Ret (Some m, s') -> error s' = false -> (cursor s + N <= cursor s')%nat.

(** [m] was parsed somewhere in [b] completely and without error. *)
Definition parsed_in (b : list Z) (m : sml_message) : Prop := exists s1 s2,
  buffer s1 = b /\ okbuf s1 /\ error s1 = false /\
  sml_message_parse s1 = Ret (Some m, s2) /\ error s2 = false.

Lemma file_loop_safe N : min_size N -> forall fuel msgs s, okbuf s -> error s = false ->
  (buffer_len s - cursor s <= fuel)%nat -> (N * length msgs <= cursor s)%nat ->
  wpq (Z.of_nat (buffer_len s) < 2147483648 /\ Z.of_nat (buffer_len s) < Z.of_nat N * 32768)
    (file_loop fuel msgs)
    (fun r s' => step s s' /\ (exists new, r = msgs ++ new /\ Forall (parsed_in (buffer s)) new) /\
       (N * length r <= cursor s')%nat /\ (error s' = false -> cursor s' = buffer_len s)) s.
Proof.
  intros HN. induction fuel as [|fuel IH]; intros msgs s Hs He Hf Hm.
  all: assert (Hend : (buffer_len s <= cursor s)%nat -> cursor s = buffer_len s) by (destruct Hs; lia).
  - cbn [file_loop]. apply wp_wpq_bind, wp_at_end; intros Hc; [|lia].
    apply wpq_ret. split; [now apply step_refl|]. split; [|auto]. exists []. now rewrite app_nil_r.
  - cbn [file_loop]. apply wp_wpq_bind, wp_at_end; intros Hc.
    { apply wpq_ret. split; [now apply step_refl|]. split; [|auto]. exists []. now rewrite app_nil_r. }
    apply wp_wpq_bind, wp_current_byte; auto. intros b Eb. destruct (b =? SML_MESSAGE_END).
    + apply wp_wpq_bind. apply wp_update_Z; [lia|]. change (Z.to_nat 1) with 1%nat.
      assert (step s (set_cursor (cursor s + 1) s)) as St by (apply step_adv; auto; lia).
      eapply wpq_mono.
      * apply (IH msgs (set_cursor (cursor s + 1) s)); cbn; auto; try lia. eapply step_ok; eauto.
        unfold buffer_len in *. cbn. lia.
      * cbn. intros r s' (St' & P1 & P2 & P3). split; [eapply step_trans; eauto|]. auto.
    + apply wpq_bind. pose proof (message_safe s Hs) as HM. unfold wpq in HM. unfold wpq at 1.
      destruct (sml_message_parse s) as [[r s1]|f|] eqn:Er; auto; [|tauto].
      destruct HM as [St Po]. pose proof (step_ok _ _ Hs St) as Hs1.
      pose proof (st_cur _ _ St) as Cu.
      assert (buffer_len s1 = buffer_len s) as BL by (unfold buffer_len; now rewrite (st_buf _ _ St)).
      apply wpq_bind. unfold wpq at 1, sml_buf_has_errors. destruct (error s1) eqn:E1.
      { apply wpq_ret. split; auto. split; [exists []; now rewrite app_nil_r|]. split; [lia|congruence]. }
      destruct (Po eq_refl) as [C1 HO]. destruct r as [m|].
      * pose proof (HN s m s1 Hs He Er E1) as CN.
        apply wpq_bind. unfold wpq at 1, sml_file_add_message.
        destruct (Z.leb_spec (Z.of_nat (length msgs) + 1) 32767) as [Hl|Hl].
        2: { cbn. intros [_ Hsm]. destruct Hs. nia. }
        cbn [ret]. rewrite <- BL. eapply wpq_mono.
        { apply IH; auto; try lia. rewrite app_length. cbn. lia. }
        cbn. intros r s' (St' & (new & -> & HF) & P2 & P3).
        split; [eapply step_trans; eauto|]. rewrite (st_buf _ _ St) in HF.
        split; [|auto]. exists (m :: new). rewrite <- app_assoc. split; [reflexivity|].
        constructor; auto. exists s, s1. auto.
      * rewrite <- BL. eapply wpq_mono; [apply IH; auto; lia|].
        cbn. intros r s' (St' & (new & -> & HF) & P2 & P3). rewrite (st_buf _ _ St) in HF.
        split; [eapply step_trans; eauto|]. split; eauto.
Qed.

Lemma min_size_7 : min_size 7.
Proof.
  intros s m s' Hs He Er E. pose proof (message_safe s Hs) as HM. unfold wpq in HM. rewrite Er in HM.
  now apply HM.
Qed.

Lemma parsed_in_wf b m : parsed_in b m -> wf_message m.
Proof.
  intros (s1 & s2 & Hb & Hs & He & Er & E). pose proof (message_safe s1 Hs) as HM.
  unfold wpq in HM. rewrite Er in HM. destruct HM as [_ HM]. apply (HM E).
Qed.

(** sml_file_parse on every input. *)
Lemma file_parse_safe N bytes : min_size N -> bytes_ok bytes ->
  match sml_file_parse bytes with
  | Ret f => buffer (f_buf f) = bytes /\ (cursor (f_buf f) <= length bytes)%nat /\
      (N * length (f_messages f) <= cursor (f_buf f))%nat /\
      Forall (parsed_in bytes) (f_messages f) /\
      (error (f_buf f) = false -> cursor (f_buf f) = length bytes) /\
      (short_chains bytes -> ovf (f_buf f) = false)
  | Fault _ => 2147483648 <= Z.of_nat (length bytes) \/ Z.of_nat N * 32768 <= Z.of_nat (length bytes)
  | NoFuel => False
  end.
Proof.
  intros HN Hb. set (s0 := mkBuf bytes 0 false false).
  assert (Hs : okbuf s0) by (split; cbn; auto; lia).
  pose proof (file_loop_safe N HN (S (length bytes)) [] s0 Hs eq_refl) as HL.
  unfold sml_file_parse. fold s0. unfold wpq in HL. change (buffer_len s0) with (length bytes) in HL.
  destruct (file_loop _ _ s0) as [[r s']|f|].
  - destruct HL as (St & (new & -> & HF) & P2 & P3); [cbn; lia|cbn; lia|]. cbn [f_buf f_messages].
    split; [apply (st_buf _ _ St)|]. split; [apply (st_cur _ _ St)|]. split; auto. split; auto.
    split; auto. intros Hsc. apply (st_ovf2 _ _ St Hsc).
  - cbn in HL. destruct (Z.lt_ge_cases (Z.of_nat (length bytes)) 2147483648); [right|left; lia].
    destruct (Z.lt_ge_cases (Z.of_nat (length bytes)) (Z.of_nat N * 32768)); auto.
    exfalso. apply HL; lia.
  - apply HL; cbn; lia.
Qed.
End WithHost.
