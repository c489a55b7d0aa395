(** The steps of whole messages and files (StepModel). *)
From Verif Require Import Base Buf Crc16 Number OctetString Boolean Value Time SList Tree Bodies Message File Safe StepModel StepFacts StepPay.

Lemma tb_inv {A B} (t : T A) (q : A -> T B) s c r : t_bind t q s = (c, Ret r) ->
  exists c1 x s1 c2, t s = (c1, Ret (x, s1)) /\ q x s1 = (c2, Ret r) /\ c = (c1 + c2)%nat.
Proof.
  unfold t_bind. destruct (t s) as [c1 [[x s1]|f|]]; [|discriminate|discriminate]. destruct (q x s1) as [c2 o] eqn:E. intros HE. inversion HE; subst. eauto 8.
Qed.
Lemma tf_inv {A B} (t : T A) (q : A -> T (option B)) k1 e1 w1 s c x s' : pay t k1 e1 w1 -> t_field t q s = (c, Ret (x, s')) ->
  (error s' = true /\ (cursor s <= cursor s')%nat /\ Z.of_nat c <= 80 * adv s s' + (if error s then w1 else e1) + 1) \/
  exists c1 y s1 c2, error s = false /\ error s1 = false /\ (cursor s <= cursor s1)%nat /\ Z.of_nat c1 <= 80 * adv s s1 + k1 + 1 /\ q y s1 = (c2, Ret (x, s')) /\ c = (c1 + c2)%nat.
Proof.
  intros Hp E. unfold t_field in E. apply tb_inv in E. destruct E as (c1 & y & s1 & c2 & E1 & E2 & ->). destruct (pay_le Hp _ _ _ _ E1) as (A1 & A2 & A3).
  apply tb_inv in E2. destruct E2 as (c3 & b & s2 & c4 & E2 & E3 & ->). unfold t_has_errors, t_step, sml_buf_has_errors in E2. inversion E2; subst.
  destruct (error s2) eqn:Es.
  - unfold t_ret in E3. inversion E3; subst. left. repeat split; auto. destruct (error s); lia.
  - destruct (error s) eqn:Es0; [discriminate (A1 eq_refl)|]. right. exists (c1 + 1)%nat, y, s2, c4. repeat split; auto; lia.
Qed.
Lemma te_inv {B} n (q : T (option B)) s c x s' : error s = false -> t_expect_list n q s = (c, Ret (x, s')) ->
  (error s' = true /\ (cursor s <= cursor s')%nat /\ Z.of_nat c <= 80 * adv s s' + 10) \/
  exists c1 s1 c2, (cursor s <= cursor s1)%nat /\ Z.of_nat c1 <= 80 * adv s s1 + (if error s1 then 9 else -70) /\ q s1 = (c2, Ret (x, s')) /\ c = (c1 + c2)%nat.
Proof.
  intros He E. unfold t_expect_list in E. apply tb_inv in E. destruct E as (c1 & ty & s1 & c2 & E1 & E2 & ->). destruct (pay_le pay_next_type _ _ _ _ E1) as (A1 & A2 & A3). rewrite He in A3.
  destruct (negb _).
  { left. destruct (pay_le pay_err_null _ _ _ _ E2) as (B1 & B2 & B3). unfold t_err_null, t_bind, t_set_error, t_step, set_error, t_ret in E2. inversion E2; subst. unfold adv in *. cbn [error cursor set_err] in *. split; [auto|]. split; [lia|]. destruct (error s1); lia. }
  apply tb_inv in E2. destruct E2 as (c3 & l & s2 & c4 & E3 & E4 & ->). destruct (pay_le pay_next_length _ _ _ _ E3) as (B1 & B2 & B3).
  assert (HB : Z.of_nat (c1 + c3) <= 80 * adv s s2 + (if error s2 then 9 else -70)).
  { unfold adv in *. destruct (error s1) eqn:Es; [rewrite (B1 eq_refl) in *; lia|]. destruct (error s2); lia. }
  destruct (negb _).
  { left. unfold t_err_null, t_bind, t_set_error, t_step, set_error, t_ret in E4. inversion E4; subst. unfold adv in *. cbn [error cursor set_err] in *. split; [auto|]. split; [lia|]. destruct (error s2); lia. }
  right. exists (c1 + c3)%nat, s2, c4. repeat split; auto; [lia|]. lia.
Qed.
Lemma wrap_le a b : 0 <= b <= a -> Z.max 0 (wrap32 (a - wrap32 (b - 0))) <= a - b.
Proof.
  intros Hb. unfold wrap32. rewrite Z.sub_0_r.
  set (M := 4294967296). set (h := 2147483648).
  pose proof (Z.div_mod (b + h) M ltac:(lia)) as D1. pose proof (Z.div_mod (a - ((b + h) mod M - h) + h) M ltac:(lia)) as D2.
  pose proof (Z.mod_pos_bound (a - ((b + h) mod M - h) + h) M ltac:(lia)) as M2. 
  set (q1 := (b + h) / M) in *. set (q2 := (a - ((b + h) mod M - h) + h) / M) in *. set (r1 := (b + h) mod M) in *. set (r2 := (a - (r1 - h) + h) mod M) in *.
  clearbody q1 q2 r1 r2. unfold M, h in *. lia.
Qed.

Section WithHost.
Context {H : Host}.
(** sml_message.c:68-104, with start and length of the part that is checksummed. *)
Definition tail_of transaction_id group_id abort_on_error message_body msg_start len : T (option sml_message) :=
  few <-- t_step (fun s => Ret (size_sub (buffer_len s) (cursor s) <? 3, s)) ;;
  if (few : bool) then t_err_null else
  crc <-- t_u16_parse ;;
  e <-- t_has_errors ;;
  match (if (e : bool) then None else crc) with
  | None => t_err_null
  | Some c =>
      bs <-- t_buffer_slice msg_start len ;;
      t_spend (2 * length bs) ;;~    (* two checksums *)
      if negb (mem_u c =? sml_crc16_calculate bs) && negb (mem_u c =? sml_crc16kermit_calculate bs)
      then t_ret None
      else
        e <-- t_at_end ;;
        if (e : bool) then t_err_null else
        b <-- t_get_current_byte ;;
        (if b =? SML_MESSAGE_END then t_update_bytes_read 1 else t_ret tt) ;;~
        t_ret (Some (mkMsg transaction_id group_id abort_on_error message_body crc))
  end.
Lemma pay_slice_bind {B} st len (q : list Z -> T B) k e w : (forall bs, pay (q bs) (k - 1 - 2 * Z.max 0 len) (e - 1 - 2 * Z.max 0 len) (w - 1 - 2 * Z.max 0 len)) ->
  pay (bs <-- t_buffer_slice st len ;; t_spend (2 * length bs) ;;~ q bs) k e w.
Proof.
  intros Hq. split. intros s c x s' E. apply tb_inv in E. destruct E as (c1 & bs & s1 & c2 & E1 & E2 & ->). apply tb_inv in E2. destruct E2 as (c3 & u & s2 & c4 & E2 & E3 & ->).
  unfold t_spend in E2. inversion E2; subst. destruct (pay_le (Hq bs) _ _ _ _ E3) as (B1 & B2 & B3). unfold t_buffer_slice, t_step in E1. inversion E1 as [[Hc Hb]]. clear E1.
  unfold buffer_slice in Hb. destruct (_ <? _); [discriminate|]. destruct (Z.ltb_spec len 0); [discriminate|]. destruct (Nat.leb_spec (Z.to_nat st + Z.to_nat len) (buffer_len s)); [|discriminate].
  inversion Hb; subst. assert (HL : (length (firstn (Z.to_nat len) (skipn (Z.to_nat st) (buffer s2))) <= Z.to_nat len)%nat) by (rewrite firstn_length; lia).
  set (n := length _) in *. clearbody n. repeat split; auto. destruct (error s2); [|destruct (error s')]; lia.
Qed.
Lemma pay_tail a b c d st len : pay (tail_of a b c d st len) (2 * Z.max 0 len) (100 + 2 * Z.max 0 len) (100 + 2 * Z.max 0 len).
Proof.
  unfold tail_of. eapply pay_bind; [apply pay_step; intros ? ? ? EE; inversion EE; subst; split; reflexivity|]. intros few. destruct few; [leaf|].
  eapply pay_bind; [apply pay_u16|]. intros crc. eapply pay_bind; [apply pay_has_errors|]. intros e. destruct (if e then None else crc) as [m|]; [|leaf].
  apply pay_slice_bind. intros bs. destruct (_ && _); [apply pay_ret; lia|]. eapply pay_bind; [apply pay_at_end|]. intros ee. destruct ee; [leaf|].
  eapply pay_bind; [apply pay_byte|]. intros y. destruct (_ =? _).
  - apply pay_update. intros _. apply pay_ret; lia.
  - eapply pay_bind; [apply (pay_ret tt 0 0 0); lia|]. intros _. apply pay_ret; lia.
Qed.
Lemma message_steps s c x s' : error s = false -> t_message_parse s = (c, Ret (x, s')) ->
  (cursor s <= cursor s')%nat /\ Z.of_nat c <= 82 * adv s s' + (if error s' then 600 else -10).
Proof.
  intros He E. unfold t_message_parse in E. apply tb_inv in E. destruct E as (c0 & st & s0 & c1 & E0 & E1 & ->).
  unfold t_cursor_int, t_step, cursor_int in E0. inversion E0; subst. clear E0.
  apply te_inv in E1; [|auto]. destruct E1 as [(Hx & L & B)|(a1 & s1 & b1 & L1 & B1 & E1 & ->)]; [rewrite Hx; unfold adv in *; split; lia|].
  eapply tf_inv in E1; [|apply pay_octet]. destruct E1 as [(Hx & L & B)|(c1 & tid & s2 & b2 & G1 & G2 & L2 & B2 & E2 & ->)]; [rewrite Hx; unfold adv in *; split; [lia|destruct (error s1); lia]|].
  rewrite G1 in B1. eapply tf_inv in E2; [|apply pay_u8]. destruct E2 as [(Hx & L & B)|(c2 & gid & s3 & b3 & G3 & G4 & L3 & B3 & E3 & ->)]; [rewrite Hx; rewrite G2 in B; unfold adv in *; split; lia|].
  eapply tf_inv in E3; [|apply pay_u8]. destruct E3 as [(Hx & L & B)|(c3 & abt & s4 & b4 & G5 & G6 & L4 & B4 & E4 & ->)]; [rewrite Hx; rewrite G4 in B; unfold adv in *; split; lia|].
  eapply tf_inv in E4; [|apply pay_body]. destruct E4 as [(Hx & L & B)|(c4 & bdy & s5 & b5 & G7 & G8 & L5 & B5 & E5 & ->)]; [rewrite Hx; rewrite G6 in B; unfold adv in *; split; lia|].
  apply tb_inv in E5. destruct E5 as (c5 & len & s6 & b6 & E5 & E6 & ->). unfold t_cursor_int, t_step, cursor_int in E5. inversion E5; subst. clear E5.
  change (tail_of tid gid abt bdy (wrap32 (Z.of_nat (cursor s0) - 0)) (wrap32 (Z.of_nat (cursor s6) - wrap32 (Z.of_nat (cursor s0) - 0))) s6 = (b6, Ret (x, s'))) in E6.
  destruct (pay_le (pay_tail _ _ _ _ _ _) _ _ _ _ E6) as (D1 & D2 & D3). rewrite G8 in D3.
  pose proof (wrap_le (Z.of_nat (cursor s6)) (Z.of_nat (cursor s0)) ltac:(lia)) as HW. set (len := wrap32 _) in *. clearbody len. unfold adv in *. split; [lia|]. destruct (error s'); lia.
Qed.
Lemma file_steps fuel : forall l s c x s', error s = false -> t_file_loop fuel l s = (c, Ret (x, s')) ->
  (cursor s <= cursor s')%nat /\ Z.of_nat c <= 82 * adv s s' + 700.
Proof.
  induction fuel as [|fuel IH]; intros l s c x s' He E; cbn [t_file_loop] in E; apply tb_inv in E; destruct E as (c0 & e & s0 & c1 & E0 & E1 & ->);
    unfold t_at_end, t_step, at_end in E0; inversion E0; subst; clear E0; destruct (_ <=? _)%nat.
  1, 3: unfold t_ret in E1; inversion E1; subst; unfold adv; split; lia.
  - discriminate.
  - apply tb_inv in E1. destruct E1 as (c2 & b & s1 & c3 & E1 & E2 & ->). unfold t_get_current_byte, t_step, sml_buf_get_current_byte in E1.
    destruct (nth_error _ _) as [b'|]; [|discriminate]. inversion E1; subst. clear E1. destruct (_ =? _).
    { apply tb_inv in E2. destruct E2 as (c4 & u & s2 & c5 & E2 & E3 & ->). unfold t_update_bytes_read, t_step, sml_buf_update_bytes_read in E2. change (1 <? 0) with false in E2. cbv iota in E2. inversion E2; subst. clear E2.
      apply IH in E3; [|exact He]. cbn [cursor set_cursor] in E3. unfold adv in *. cbn [cursor set_cursor] in E3. change (Z.to_nat 1) with 1%nat in E3. split; lia. }
    apply tb_inv in E2. destruct E2 as (c4 & msg & s2 & c5 & E2 & E3 & ->). apply message_steps in E2; [|exact He]. destruct E2 as [L2 B2].
    apply tb_inv in E3. destruct E3 as (c6 & e & s3 & c7 & E3 & E4 & ->). unfold t_has_errors, t_step, sml_buf_has_errors in E3. inversion E3; subst. clear E3.
    destruct (error s3) eqn:Es; [unfold t_ret in E4; inversion E4; subst; unfold adv in *; split; lia|]. destruct msg as [m|].
    + apply tb_inv in E4. destruct E4 as (c8 & l' & s4 & c9 & E4 & E5 & ->). unfold t_file_add_message, t_step, sml_file_add_message in E4. destruct (_ <=? 32767); [|discriminate]. inversion E4; subst. clear E4.
      apply IH in E5; [|auto]. unfold adv in *. split; lia.
    + apply IH in E4; [|auto]. unfold adv in *. split; lia.
Qed.
End WithHost.
