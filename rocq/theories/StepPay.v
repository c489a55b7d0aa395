(** The steps of the parser (StepModel) are paid for by the bytes that it consumes:
    80 steps for every byte, and a few that are left over. *)
From Verif Require Import Base Buf Crc16 Number OctetString Boolean Value Time SList Tree Bodies Message File Safe StepModel StepFacts.

Definition adv (s s' : sbuf) : Z := Z.of_nat (cursor s') - Z.of_nat (cursor s).
(** Beyond what the bytes consumed pay for, [t] takes at most [k] steps if there is no
    error, [e] if it raises the error flag, and [w] if it was raised before. *)
Record pay {A} (t : T A) (k e w : Z) : Prop := Pay { pay_le : forall s c x s', t s = (c, Ret (x, s')) ->
  (error s = true -> error s' = true) /\ (cursor s <= cursor s')%nat /\
  Z.of_nat c <= 80 * adv s s' + (if error s then w else if error s' then e else k) }.
Arguments pay_le {A t k e w}.

Lemma pay_weaken {A} (t : T A) k e w k' e' w' : pay t k e w -> k <= k' -> e <= e' -> w <= w' -> pay t k' e' w'.
Proof.
  intros Hp Hk He Hw. split. intros s c x s' E. destruct (pay_le Hp _ _ _ _ E) as (E1 & E2 & E3). repeat split; auto.
  destruct (error s), (error s'); lia.
Qed.
Lemma pay_ret {A} (x : A) k e w : 0 <= k -> 0 <= e -> 0 <= w -> pay (t_ret x) k e w.
Proof.
  intros Hk He Hw. split. intros s c y s' E. unfold t_ret in E. inversion E; subst. unfold adv. repeat split; auto. destruct (error s'); lia.
Qed.
Lemma pay_fail {A} f k e w : pay (t_fail f : T A) k e w.
Proof. split. intros s c y s' E. discriminate. Qed.
Lemma pay_fuel0 {A} k e w : pay (t_out_of_fuel : T A) k e w.
Proof. split. intros s c y s' E. discriminate. Qed.
Lemma pay_spend n : pay (t_spend n) (Z.of_nat n) (Z.of_nat n) (Z.of_nat n).
Proof. split. intros s c y s' E. unfold t_spend in E. inversion E; subst. unfold adv. repeat split; auto. destruct (error s'); lia. Qed.
(** A step that moves nothing. *)
Lemma pay_step {A} (p : P A) : (forall s x s', p s = Ret (x, s') -> cursor s' = cursor s /\ error s' = error s) -> pay (t_step p) 1 1 1.
Proof.
  intros Hp. split. intros s c y s' E. unfold t_step in E. inversion E; subst. destruct (Hp _ _ _ H1) as [E1 E2]. unfold adv. rewrite E1, E2. repeat split; auto. destruct (error s); lia.
Qed.
Ltac quietstep := apply pay_step; intros s x s' E; inversion E; subst; split; reflexivity.
Lemma pay_has_errors : pay t_has_errors 1 1 1. Proof. quietstep. Qed.
Lemma pay_at_end : pay t_at_end 1 1 1. Proof. quietstep. Qed.
Lemma pay_int n : pay (t_int_op n) 1 1 1. Proof. quietstep. Qed.
Lemma pay_cursor n : pay (t_cursor_int n) 1 1 1. Proof. quietstep. Qed.
Lemma pay_byte : pay t_get_current_byte 1 1 1.
Proof. apply pay_step. intros s x s' E. unfold sml_buf_get_current_byte in E. destruct (nth_error _ _); inversion E; subst; auto. Qed.
Lemma pay_slice a b : pay (t_buffer_slice a b) 1 1 1.
Proof. apply pay_step. intros s x s' E. unfold buffer_slice in E. destruct (_ <? _); [discriminate|]. destruct (_ <? _); [discriminate|]. destruct (_ <=? _)%nat; inversion E; subst; auto. Qed.
Lemma pay_add a b : pay (t_file_add_message a b) 1 1 1.
Proof. apply pay_step. intros s x s' E. unfold sml_file_add_message in E. destruct (_ <=? _); inversion E; subst; auto. Qed.
(** Success is impossible: any credit. *)
Lemma pay_set_error : pay t_set_error (-10000) 1 1.
Proof. split. intros s c y s' E. inversion E; subst. unfold adv. cbn [cursor error set_err]. repeat split; auto. destruct (error s); lia. Qed.
Lemma pay_bind {A B} (t : T A) (q : A -> T B) k1 e1 w1 k e w : pay t k1 e1 w1 ->
  (forall x, pay (q x) (k - k1) (e - k1) (Z.min (e - e1) (w - w1))) -> pay (t_bind t q) k e w.
Proof.
  intros Hp Hq. split. intros s c x s' E. unfold t_bind in E. destruct (t s) as [c1 [[y s1]|f|]] eqn:E1; [|discriminate|discriminate].
  destruct (q y s1) as [c2 o] eqn:E2. inversion E; subst. destruct (pay_le Hp _ _ _ _ E1) as (A1 & A2 & A3). destruct (pay_le (Hq y) _ _ _ _ E2) as (B1 & B2 & B3).
  unfold adv in *. repeat split; auto; [lia|]. destruct (error s) eqn:Es; [rewrite (A1 eq_refl) in *; lia|]. destruct (error s1) eqn:Es1; [rewrite (B1 eq_refl); lia|]. destruct (error s'); lia.
Qed.
Lemma pay_update {B} l (q : unit -> T B) k e w :
  (0 <= l -> pay (q tt) (k - (1 - 80 * l)) (e - (1 - 80 * l)) (w - (1 - 80 * l))) -> pay (t_bind (t_update_bytes_read l) q) k e w.
Proof.
  intros Hq. split. intros s c x s' E. unfold t_bind, t_update_bytes_read, t_step, sml_buf_update_bytes_read in E.
  destruct (Z.ltb_spec l 0); [discriminate|]. specialize (Hq ltac:(lia)). destruct (q tt _) as [c2 o] eqn:E2. inversion E; subst.
  destruct (pay_le Hq _ _ _ _ E2) as (B1 & B2 & B3). unfold adv in *. cbn [cursor error set_cursor] in *. repeat split; auto; [lia|]. destruct (error s); [|destruct (error s')]; lia.
Qed.
Lemma pay_read n : pay (t_read_current n) (Z.of_nat n + 1) (Z.of_nat n + 1) (Z.of_nat n + 1).
Proof.
  unfold t_read_current. eapply pay_bind; [apply pay_spend|]. intros _. eapply pay_weaken; [apply pay_step|..]; try lia.
  intros s x s' E. unfold read_current in E. destruct (_ <=? _)%nat; inversion E; subst; auto.
Qed.
Lemma pay_with {A} (f : nat -> T A) k e w : (forall n, pay (f n) k e w) -> pay (t_with_fuel f) k e w.
Proof. intros Hf. split. intros s c x s' E. exact (pay_le (Hf _) _ _ _ _ E). Qed.
Create HintDb pay discriminated.
#[export] Hint Constants Opaque : pay.
#[export] Hint Resolve pay_has_errors pay_at_end pay_int pay_cursor pay_byte pay_slice pay_add pay_set_error pay_read pay_spend : pay.
(** Follows the text of the parser. *)
Ltac leaf := solve [eapply pay_weaken; [solve [eauto 2 with pay nocore]|lia..]].
Ltac pw := cbv zeta; lazymatch goal with
  | |- pay (t_ret _) _ _ _ => apply pay_ret; lia
  | |- pay (t_fail _) _ _ _ => apply pay_fail
  | |- pay t_out_of_fuel _ _ _ => apply pay_fuel0
  | |- pay (t_bind (t_update_bytes_read _) _) _ _ _ => apply pay_update; intros ?
  | |- pay (t_bind (t_step _) _) _ _ _ => eapply pay_bind; [apply pay_step; intros ? ? ? EE; inversion EE; subst; split; reflexivity|intros ?]
  | |- pay (t_bind _ _) _ _ _ => eapply pay_bind; [solve [eauto 2 with pay nocore]|intros ?]
  | |- pay (t_with_fuel _) _ _ _ => apply pay_with; intros ?
  | |- pay (if ?b then _ else _) _ _ _ => destruct b
  | |- pay (match ?x with _ => _ end) _ _ _ => destruct x
  | |- _ => leaf
  end.
Ltac pws := repeat pw.
Lemma pay_err_null {A} : pay (t_err_null : T (option A)) (-10000) 1 1.
Proof. unfold t_err_null. pws. Qed.
#[export] Hint Resolve pay_err_null : pay.
Lemma pay_next_type : pay t_get_next_type 2 2 2.
Proof. unfold t_get_next_type. pws. Qed.
Lemma pay_length_loop fuel : forall a b, pay (t_get_next_length_loop fuel a b) 3 3 3.
Proof.
  induction fuel as [|fuel IH]; intros a b; cbn [t_get_next_length_loop]; pws.
  eapply pay_bind with (k1 := 1) (e1 := 1) (w1 := 1); [pws|]. intros x9. eapply pay_weaken; [apply IH|lia..].
Qed.
#[export] Hint Resolve pay_next_type pay_length_loop : pay.
Lemma pay_next_length : pay t_get_next_length (-72) 7 7.
Proof.
  unfold t_get_next_length. pws. eapply pay_bind with (k1 := 3) (e1 := 3) (w1 := 3); [pws|]. intros x9. pws.
Qed.
#[export] Hint Resolve pay_next_length : pay.
(** "if (sml_buf_optional_is_skipped(buf)) return x;" *)
Lemma pay_optional {B} (x : B) (q : T B) k e w : pay q (k - 2) (e - 2) (w - 2) -> -76 <= k -> 4 <= e -> 4 <= w ->
  pay (sk <-- t_optional_is_skipped ;; if negb (sk =? 0) then t_ret x else q) k e w.
Proof.
  intros Hq Hk He Hw. split. intros s c y s' E. unfold t_bind, t_optional_is_skipped, t_bind, t_at_end, t_step, at_end, t_get_current_byte, t_step, sml_buf_get_current_byte in E.
  destruct (buffer_len s <=? cursor s)%nat eqn:Ele.
  { inversion E; subst. unfold adv. cbn [cursor error set_err]. repeat split; auto. destruct (error s); lia. }
  destruct (nth_error (buffer s) (cursor s)) as [b|]; [|discriminate]. destruct (b =? SML_OPTIONAL_SKIPPED).
  { rewrite Ele in E. inversion E; subst. unfold adv. cbn [cursor error set_cursor]. change (Z.to_nat 1) with 1%nat. repeat split; auto; [lia|]. destruct (error s); lia. }
  unfold t_ret in E. change (negb (0 =? 0)) with false in E. cbn iota in E. destruct (q s) as [c2 o] eqn:E2. inversion E; subst.
  destruct (pay_le Hq _ _ _ _ E2) as (B1 & B2 & B3). repeat split; auto. destruct (error s); [|destruct (error s')]; lia.
Qed.
Lemma pay_unless {A} (q : T (option A)) k e w : pay q (k - 2) (e - 2) (w - 2) -> -76 <= k -> 4 <= e -> 4 <= w -> pay (t_unless_skipped q) k e w.
Proof. apply pay_optional. Qed.
Lemma pay_field {A B} (t : T A) (q : A -> T (option B)) k1 e1 w1 k e w : pay t k1 e1 w1 -> e1 + 1 <= e -> w1 + 1 <= w ->
  (forall x, pay (q x) (k - k1 - 1) (e - k1 - 1) 10000) -> pay (t_field t q) k e w.
Proof.
  intros Hp He Hw Hq. split. intros s c x s' E. unfold t_field, t_bind, t_has_errors, t_step, sml_buf_has_errors in E.
  destruct (t s) as [c1 [[y s1]|f|]] eqn:E1; [|discriminate|discriminate]. destruct (pay_le Hp _ _ _ _ E1) as (A1 & A2 & A3). unfold adv in *.
  destruct (error s1) eqn:Es.
  - inversion E; subst. repeat split; auto. rewrite Es. destruct (error s); lia.
  - destruct (q y s1) as [c2 o] eqn:E2. inversion E; subst. destruct (pay_le (Hq y) _ _ _ _ E2) as (B1 & B2 & B3). unfold adv in *. rewrite Es in B3.
    destruct (error s); [discriminate (A1 eq_refl)|]. repeat split; auto; [discriminate|lia|]. destruct (error s'); lia.
Qed.
Lemma pay_expect {B} n (q : T (option B)) k e w : pay q (k + 70) (e + 70) (Z.min (e - 9) (w - 9)) -> 10 <= e -> 10 <= w -> -9000 <= k -> pay (t_expect_list n q) k e w.
Proof.
  intros Hq He Hw Hk. unfold t_expect_list. eapply pay_bind; [apply pay_next_type|]. intros x. destruct (negb _); [leaf|].
  eapply pay_bind; [apply pay_next_length|]. intros y. destruct (negb _); [leaf|]. eapply pay_weaken; [exact Hq|lia..].
Qed.
Lemma pay_label {A} (t : T (option A)) k1 e1 w1 k e w : pay t k1 e1 w1 -> k1 <= k -> e1 + 1 <= e -> k1 + 1 <= e -> w1 + 1 <= w -> pay (t_error_label t) k e w.
Proof. intros Hp H1 H2 H3 H4. unfold t_error_label. eapply pay_bind; [exact Hp|]. intros []; [apply pay_ret; lia|]. eapply pay_weaken; [apply pay_err_null|lia..].
Qed.

Section WithHost.
Context {H : Host}.
Ltac pv := cbv zeta; lazymatch goal with
  | |- pay (t_unless_skipped _) _ _ _ => apply pay_unless; [|lia..]
  | |- pay (t_expect_list _ _) _ _ _ => apply pay_expect; [|lia..]
  | |- pay (t_field _ _) _ _ _ => eapply pay_field; [solve [eauto 2 with pay nocore]|lia|lia|intros ?]
  | |- _ => pw
  end.
Ltac pvs := repeat pv.
Lemma pay_number type max : 0 <= max <= 16 -> pay (t_number_parse type max) (-20) 60 60.
Proof. intros Hm. unfold t_number_parse. pvs. Qed.
Lemma pay_octet : pay t_octet_string_parse (-60) 20 20.
Proof. unfold t_octet_string_parse. pvs. Qed.
Lemma pay_boolean : pay t_boolean_parse (-60) 20 20.
Proof. unfold t_boolean_parse. pvs. Qed.
Lemma pay_u8 : pay t_u8_parse (-20) 60 60. Proof. apply pay_number. lia. Qed.
Lemma pay_u16 : pay t_u16_parse (-20) 60 60. Proof. apply pay_number. lia. Qed.
Lemma pay_u32 : pay t_u32_parse (-20) 60 60. Proof. apply pay_number. lia. Qed.
Lemma pay_u64 : pay t_u64_parse (-20) 60 60. Proof. apply pay_number. lia. Qed.
Lemma pay_i8 : pay t_i8_parse (-20) 60 60. Proof. apply pay_number. lia. Qed.
Lemma pay_i16 : pay t_i16_parse (-20) 60 60. Proof. apply pay_number. lia. Qed.
Lemma pay_i64 : pay t_i64_parse (-20) 60 60. Proof. apply pay_number. lia. Qed.
Hint Resolve pay_octet pay_boolean pay_u8 pay_u16 pay_u32 pay_u64 pay_i8 pay_i16 pay_i64 : pay.
(** At most five iterations, and the width is at most 16. *)
Lemma pay_max_loop fuel : forall a b, pay (t_max_loop fuel a b) (Z.of_nat fuel) (Z.of_nat fuel) (Z.of_nat fuel).
Proof.
  induction fuel as [|fuel IH]; intros a b; cbn [t_max_loop]; [pws|]. rewrite Nat2Z.inj_succ. eapply pay_bind; [apply pay_spend|]. intros _. change (Z.of_nat 1) with 1.
  destruct (_ <? _); [|apply pay_ret; lia]. eapply pay_weaken; [apply IH|lia..].
Qed.
Lemma pay_width {B} (q : Z -> T B) b k e w : (forall m, 0 <= m <= 16 -> pay (q m) (k - 5) (e - 5) (w - 5)) -> pay (m <-- t_number_width b ;; q m) k e w.
Proof.
  intros Hq. split. intros s c x s' E. unfold t_bind in E. destruct (t_number_width b s) as [c1 [[m s1]|f|]] eqn:E1; [|discriminate|discriminate].
  destruct (q m s1) as [c2 o] eqn:E2. inversion E; subst. pose proof (pay_le (pay_max_loop 5 1 _) _ _ _ _ E1) as (_ & _ & A3).
  pose proof (ts_eq (ts_width b) s) as Ew. rewrite E1, number_width_eq in Ew. cbn [snd] in Ew. inversion Ew; subst.
  pose proof (width_of_cases (Z.land b 15 - 1)) as HW. destruct (pay_le (Hq (width_of (Z.land b 15 - 1)) ltac:(lia)) _ _ _ _ E2) as (B1 & B2 & B3).
  unfold adv in *. repeat split; auto. change (Z.of_nat 5) with 5 in A3. destruct (error s); [|destruct (error s')]; lia.
Qed.
Lemma pay_num_ret {B} type m (f : option mem -> B) k e w : 0 <= m <= 16 -> -20 <= k -> 60 <= e -> 60 <= w -> pay (d <-- t_number_parse type m ;; t_ret (f d)) k e w.
Proof. intros Hm Hk He Hw. eapply pay_bind; [now apply pay_number|]. intros d. apply pay_ret; lia. Qed.
Lemma pay_value : pay t_value_parse (-8) 80 80.
Proof.
  unfold t_value_parse. pvs. eapply pay_bind with (k1 := -15) (e1 := 65) (w1 := 65).
  - destruct (_ =? _); [pws|]. destruct (_ =? _); [pws|]. destruct (_ || _); [|pws]. apply pay_width. intros m Hm. apply pay_num_ret; lia.
  - intros y. pws.
Qed.
Lemma pay_status : pay t_status_parse (-8) 80 80.
Proof.
  unfold t_status_parse. pvs. eapply pay_bind with (k1 := -15) (e1 := 65) (w1 := 65).
  - destruct (_ =? _); [|pws]. apply pay_width. intros m Hm. apply pay_num_ret; lia.
  - intros y. pws.
Qed.
Lemma pay_time_value tag : pay (t_time_value tag) 3 80 80.
Proof. unfold t_time_value. pvs. Qed.
Hint Resolve pay_value pay_status pay_time_value : pay.
Lemma pay_time : pay t_time_parse 6 100 100.
Proof. unfold t_time_parse. pvs. Qed.
Hint Resolve pay_time : pay.
(** Elements that pay for themselves and for the check after them. *)
Lemma pay_loop {A B} (t : T A) (q : A -> T (option B)) k1 e1 w1 : pay t k1 e1 w1 -> k1 <= -1 -> -1 <= e1 -> -1 <= w1 <= 9000 ->
  (forall x, pay (q x) 0 (e1 + 1) (w1 + 1)) -> pay (t_field t q) 0 (e1 + 1) (w1 + 1).
Proof. intros Hp Hk1 He Hw Hq. eapply pay_field; [exact Hp|lia|lia|]. intros x. eapply pay_weaken; [apply Hq|lia..]. Qed.
Lemma pay_seqloop {A} (t : T (option A)) k1 e1 w1 : pay t k1 e1 w1 -> k1 <= -1 -> -1 <= e1 -> -1 <= w1 <= 9000 -> forall fuel n, pay (t_sequence_loop fuel n t) 0 (e1 + 1) (w1 + 1).
Proof.
  intros Hp Hk1 He Hw. induction fuel as [|fuel IH]; intros n; cbn [t_sequence_loop]; destruct (_ <=? _); try solve [pws].
  change (pay (t_field t (fun p => r <-- t_sequence_loop fuel (n - 1) t ;; t_ret (match r with None => None | Some t => Some (p :: t) end))) 0 (e1 + 1) (w1 + 1)).
  eapply pay_loop; eauto. intros x. eapply pay_bind; [apply IH|]. intros y. apply pay_ret; lia.
Qed.
Lemma pay_elems {A} (t : T A) k1 e1 w1 : pay t k1 e1 w1 -> k1 <= -1 -> -1 <= e1 -> -1 <= w1 <= 9000 -> forall fuel n, pay (t_elems_loop fuel n t) 0 (e1 + 1) (w1 + 1).
Proof.
  intros Hp Hk1 He Hw. induction fuel as [|fuel IH]; intros n; cbn [t_elems_loop]; destruct (_ <=? _); try solve [pws].
  change (pay (t_field t (fun x => r <-- t_elems_loop fuel (n - 1) t ;; t_ret (match r with None => None | Some t => Some (x :: t) end))) 0 (e1 + 1) (w1 + 1)).
  eapply pay_loop; eauto. intros x. eapply pay_bind; [apply IH|]. intros y. apply pay_ret; lia.
Qed.
Lemma label_type {A} (q : T (option A)) (c : Z -> bool) s :
  t_error_label (t <-- t_get_next_type ;; if c t then t_ret None else q) s = (t <-- t_get_next_type ;; if c t then t_err_null else t_error_label q) s.
Proof.
  unfold t_error_label. unfold t_bind at 1 2 3. destruct (t_get_next_type s) as [n [[x s1]|f|]]; try reflexivity. destruct (c x).
  - unfold t_ret. cbv beta iota. destruct (t_err_null s1) as [n' o]. f_equal. lia.
  - unfold t_bind. destruct (q s1) as [n' [[y s2]|f|]]; try reflexivity. destruct (match y with Some v => t_ret (Some v) | None => t_err_null end s2) as [n2 o]. f_equal. lia.
Qed.
Lemma pay_label_type {A} (q : T (option A)) (c : Z -> bool) k e w : pay (t <-- t_get_next_type ;; if c t then t_err_null else t_error_label q) k e w ->
  pay (t_error_label (t <-- t_get_next_type ;; if c t then t_ret None else q)) k e w.
Proof. intros Hp. split. intros s cc x s' E. rewrite label_type in E. exact (pay_le Hp _ _ _ _ E). Qed.
Lemma pay_sequence {A} (t : T (option A)) k1 e1 w1 : pay t k1 e1 w1 -> k1 <= -1 -> -1 <= e1 <= 200 -> -1 <= w1 <= 150 -> pay (t_sequence_parse t) (-70) 200 170.
Proof.
  intros Hp Hk1 He Hw. unfold t_sequence_parse. apply (pay_label_type _ (fun t => negb (t =? SML_TYPE_LIST))).
  eapply pay_bind; [apply pay_next_type|]. intros ty. destruct (negb _); [leaf|]. eapply pay_label with (k1 := -72) (e1 := 190) (w1 := 160); [|lia..].
  eapply pay_bind; [apply pay_next_length|]. intros l. apply pay_with. intros n. eapply pay_weaken; [eapply pay_seqloop; eauto; lia|lia..].
Qed.
Lemma detect_still l s x s' : detect_buggy_dzg_dvs74 l s = Ret (x, s') -> s' = s.
Proof.
  unfold detect_buggy_dzg_dvs74. destruct (negb _); [now inversion 1|]. destruct (le_value l) as [v|]; [|now inversion 1]. destruct (negb _); [now inversion 1|].
  unfold bind, as_bytes. destruct (v_data v) as [|o|b|m]; try discriminate. unfold ret. destruct (negb _); [now inversion 1|]. destruct (negb _); now inversion 1.
Qed.
Lemma pay_workaround w v l : pay (t_apply_workaround w v l) 25 25 25.
Proof.
  unfold t_apply_workaround. eapply pay_bind; [apply pay_spend|]. intros _. change (Z.of_nat 24) with 24.
  eapply pay_bind; [apply pay_step|]. { intros s x s' E. apply detect_still in E. subst. auto. }
  intros d. pws.
Qed.
Hint Resolve pay_workaround : pay.
Lemma pay_entry w : pay (t_list_entry_parse w) (-10) 190 150.
Proof. unfold t_list_entry_parse. apply pay_label with (k1 := -10) (e1 := 189) (w1 := 149); [|lia..]. pvs. Qed.
Lemma pay_list_loop fuel : forall n w, pay (t_list_loop fuel n w) 0 191 151.
Proof.
  induction fuel as [|fuel IH]; intros n w; cbn [t_list_loop]; destruct (_ <=? _); try solve [pws].
  change (pay (t_field (t_list_entry_parse w) (fun r => match r with
      | None => t_fail NullDeref
      | Some (l, w') => t <-- t_list_loop fuel (n - 1) w' ;; t_ret (match t with None => None | Some t => Some (l :: t) end)
      end)) 0 (190 + 1) (150 + 1)).
  eapply pay_loop; [apply pay_entry|lia..|]. intros [[l w']|]; [|apply pay_fail]. eapply pay_bind; [apply IH|]. intros y. apply pay_ret; lia.
Qed.
Hint Resolve pay_list_loop : pay.
Lemma pay_list_parse : pay t_list_parse (-50) 250 200.
Proof.
  unfold t_list_parse. apply pay_optional; [|lia..]. pws. eapply pay_bind with (k1 := 0) (e1 := 191) (w1 := 151); [pws|]. intros y. pws.
Qed.
Hint Resolve pay_list_parse : pay.
Lemma pay_path : pay t_tree_path_parse (-60) 100 100.
Proof.
  unfold t_tree_path_parse. apply pay_unless; [|lia..]. apply (pay_label_type _ (fun t => negb (t =? SML_TYPE_LIST))).
  eapply pay_bind; [apply pay_next_type|]. intros ty. destruct (negb _); [leaf|]. eapply pay_label with (k1 := -72) (e1 := 40) (w1 := 40); [|lia..].
  eapply pay_bind; [apply pay_next_length|]. intros l. eapply pay_bind with (k1 := 0) (e1 := 21) (w1 := 21).
  - apply pay_with. intros n. eapply pay_weaken; [eapply pay_elems; [apply pay_octet|lia..]|lia..].
  - intros y. pws.
Qed.
Lemma pay_tupel : pay t_tupel_entry_parse (-10) 200 150.
Proof. unfold t_tupel_entry_parse. pvs. Qed.
Lemma pay_period : pay t_period_entry_parse (-10) 200 150.
Proof. unfold t_period_entry_parse. pvs. Qed.
Hint Resolve pay_path pay_tupel pay_period : pay.
Lemma pay_ppv : pay t_proc_par_value_parse (-10) 250 150.
Proof. unfold t_proc_par_value_parse. pvs. Qed.
Hint Resolve pay_ppv : pay.
Lemma pay_tree_rec d : pay (t_tree_parse_rec d) (-10) 300 150.
Proof.
  induction d as [|d IH]; cbn [t_tree_parse_rec]; [pws|]. pvs. apply pay_optional; [|lia..]. pws.
  eapply pay_bind with (k1 := 0) (e1 := 301) (w1 := 151).
  - apply pay_with. intros n. eapply pay_weaken; [eapply pay_elems; [apply IH|lia..]|lia..].
  - intros y. pws.
Qed.
Hint Resolve pay_tree_rec : pay.
Lemma pay_tree : pay t_tree_parse (-10) 300 150.
Proof. unfold t_tree_parse. pws. Qed.
Lemma pay_objects : pay t_object_list_parse (-50) 100 100.
Proof.
  unfold t_object_list_parse. apply pay_optional; [|lia..]. pws. eapply pay_weaken; [eapply pay_elems; [apply pay_octet|lia..]|lia..].
Qed.
Lemma pay_header : pay t_prof_obj_header_entry_parse (-10) 200 150.
Proof. unfold t_prof_obj_header_entry_parse. apply pay_label with (k1 := -10) (e1 := 199) (w1 := 149); [|lia..]. pvs. Qed.
Lemma pay_value_entry : pay t_value_entry_parse (-10) 200 150.
Proof. unfold t_value_entry_parse. apply pay_label with (k1 := -10) (e1 := 199) (w1 := 149); [|lia..]. pvs. Qed.
Hint Resolve pay_tree pay_objects pay_header pay_value_entry : pay.
Lemma pay_values : pay (t_sequence_parse t_value_entry_parse) (-70) 220 170.
Proof. eapply pay_weaken; [eapply pay_sequence; [apply pay_value_entry|lia..]|lia..]. Qed.
Lemma pay_headers : pay (t_sequence_parse t_prof_obj_header_entry_parse) (-70) 220 170.
Proof. eapply pay_weaken; [eapply pay_sequence; [apply pay_header|lia..]|lia..]. Qed.
Lemma pay_periods : pay (t_sequence_parse t_period_entry_parse) (-70) 220 170.
Proof. eapply pay_weaken; [eapply pay_sequence; [apply pay_period|lia..]|lia..]. Qed.
Hint Resolve pay_values pay_headers pay_periods : pay.
Lemma pay_period_entry : pay t_prof_obj_period_entry_parse (-10) 200 150.
Proof. unfold t_prof_obj_period_entry_parse. apply pay_label with (k1 := -10) (e1 := 199) (w1 := 149); [|lia..]. pvs. Qed.
Lemma pay_period_entries : pay (t_sequence_parse t_prof_obj_period_entry_parse) (-70) 220 170.
Proof. eapply pay_weaken; [eapply pay_sequence; [apply pay_period_entry|lia..]|lia..]. Qed.
Hint Resolve pay_period_entries : pay.
Lemma pay_open_request : pay t_open_request_parse (-10) 400 200.
Proof. unfold t_open_request_parse. pvs. Qed.
Lemma pay_open_response : pay t_open_response_parse (-10) 400 200.
Proof. unfold t_open_response_parse. pvs. Qed.
Lemma pay_close_request : pay t_close_request_parse (-10) 400 200.
Proof. unfold t_close_request_parse. pvs. Qed.
Lemma pay_close_response : pay t_close_response_parse (-10) 400 200.
Proof. unfold t_close_response_parse. pvs. Qed.
Lemma pay_get_profile_pack_request : pay t_get_profile_pack_request_parse (-10) 400 200.
Proof. unfold t_get_profile_pack_request_parse. pvs. Qed.
Lemma pay_get_profile_pack_response : pay t_get_profile_pack_response_parse (-10) 400 200.
Proof. unfold t_get_profile_pack_response_parse. apply pay_label with (k1 := -10) (e1 := 399) (w1 := 199); [|lia..]. pvs. Qed.
Lemma pay_get_profile_list_response : pay t_get_profile_list_response_parse (-10) 400 200.
Proof. unfold t_get_profile_list_response_parse. apply pay_label with (k1 := -10) (e1 := 399) (w1 := 199); [|lia..]. pvs. Qed.
Lemma pay_get_proc_parameter_request : pay t_get_proc_parameter_request_parse (-10) 400 200.
Proof. unfold t_get_proc_parameter_request_parse. pvs. Qed.
Lemma pay_get_proc_parameter_response : pay t_get_proc_parameter_response_parse (-10) 400 200.
Proof. unfold t_get_proc_parameter_response_parse. pvs. Qed.
Lemma pay_set_proc_parameter_request : pay t_set_proc_parameter_request_parse (-10) 400 200.
Proof. unfold t_set_proc_parameter_request_parse. pvs. Qed.
Lemma pay_get_list_request : pay t_get_list_request_parse (-10) 400 200.
Proof. unfold t_get_list_request_parse. pvs. Qed.
Lemma pay_get_list_response : pay t_get_list_response_parse (-10) 400 200.
Proof. unfold t_get_list_response_parse. pvs. Qed.
Lemma pay_attention_response : pay t_attention_response_parse (-10) 400 200.
Proof. unfold t_attention_response_parse. pvs. Qed.
Hint Resolve pay_open_request pay_open_response pay_close_request pay_close_response pay_get_profile_pack_request pay_get_profile_pack_response pay_get_profile_list_response pay_get_proc_parameter_request pay_get_proc_parameter_response pay_set_proc_parameter_request pay_get_list_request pay_get_list_response pay_attention_response : pay.
Lemma pay_data tag : pay (t_body_data_parse tag) 0 400 200.
Proof. unfold t_body_data_parse. pws. Qed.
Hint Resolve pay_data : pay.
Lemma pay_body : pay t_message_body_parse (-10) 500 300.
Proof. unfold t_message_body_parse. pvs. Qed.
Hint Resolve pay_body : pay.
End WithHost.
