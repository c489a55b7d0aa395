(** Memory safety of the composite parsers, sml_message_parse and sml_file_parse. *)
From Verif Require Import Base Buf Crc16 Number OctetString Boolean Value Time SList Tree Bodies
  Message File Lib Wf Safe.

Lemma safe_le {A} n m (p : P A) (Q : A -> Prop) : safe n p Q -> (m <= n)%nat -> safe m p Q.
Proof. intros Hp Hm. eapply safe_weaken; eauto. Qed.
Lemma some_opt {A} (Q : A -> Prop) r : some Q r -> opt Q r.
Proof. intros [x [-> Hx]]; exact Hx. Qed.
Lemma safe_some_opt {A} n (p : P (option A)) (Q : A -> Prop) : safe n p (some Q) -> safe n p (opt Q).
Proof. intros Hp. eapply safe_weaken; eauto. intros r; apply some_opt. Qed.

Section WithHost.
Context {H : Host}.

(** one field of a record *)
Ltac fld L := eapply field_safe1; [apply L|intros ? ?].

Lemma apply_workaround_ok w n l s : wf_entry l -> opt wf_value (le_value l) ->
  exists l' w', apply_workaround w n l s = Ret ((l', w'), s) /\ wf_entry l'.
Proof.
  intros Hl Hv. unfold apply_workaround.
  assert (exists d, detect_buggy_dzg_dvs74 l s = Ret (d, s)) as [d Ed].
  { unfold detect_buggy_dzg_dvs74. destruct (negb _); [eexists; reflexivity|].
    destruct (le_value l) as [v|]; [|eexists; reflexivity].
    destruct (Z.eqb_spec (v_type v) SML_TYPE_OCTET_STRING) as [Et|]; [|eexists; reflexivity].
    simpl in Hv. inv Hv; cbn [v_type] in Et; unfold SML_TYPE_OCTET_STRING in Et; try lia.
    cbn [negb v_data as_bytes]. cbv [bind ret].
    destruct (negb _); [eexists; reflexivity|].
    destruct (negb _); eexists; reflexivity. }
  unfold bind at 1. rewrite Ed. destruct d.
  - cbv [ret]. eauto.
  - destruct (le_value l) as [v|] eqn:Ev; [|cbv [ret]; eauto].
    destruct (_ && _); [|cbv [ret]; eauto]. cbv [ret]. do 2 eexists. split; [reflexivity|].
    destruct Hl. split; simpl; auto. right. exists v. split; auto.
Qed.

(** Inside "error_label" a NULL result needs no flag. *)
Definition safeS {A} (n : nat) (p : P (option A)) (Q : A -> Prop) : Prop :=
  forall s, okbuf s -> wp p (fun r s' => step s s' /\
    (error s' = false -> forall x, r = Some x -> (cursor s + n <= cursor s')%nat /\ Q x)) s.

Lemma safeS_label {A} n (m : P (option A)) Q : safeS n m Q -> safe n (error_label m) (some Q).
Proof.
  intros Hm s Hs. unfold error_label. apply wp_bind. eapply wp_mono; [apply Hm, Hs|].
  intros [x|] s1 [St Po].
  - apply wp_ret. split; auto. intros He. destruct (Po He x eq_refl). split; auto. eexists; eauto.
  - cbn. apply post_err; auto. eapply step_trans; eauto. apply step_set_err. eapply step_ok; eauto.
Qed.
Lemma safeS_of {A} n (m : P (option A)) Q : safe n m (opt Q) -> safeS n m Q.
Proof.
  intros Hm s Hs. eapply wp_mono; [apply Hm, Hs|]. intros r s1 [St Po]. split; auto.
  intros He x ->. destruct (Po He). auto.
Qed.
Lemma safeS_none {A} n (Q : A -> Prop) : safeS n (ret None) Q.
Proof. intros s Hs. apply wp_ret. split; [now apply step_refl|]. discriminate. Qed.
Lemma safeS_field {A B} n (p : P A) (k : A -> P (option B)) Q1 Q2 :
  safe 1 p Q1 -> (forall a, Q1 a -> safeS n (k a) Q2) -> safeS (S n) (field p k) Q2.
Proof.
  intros Hp Hk s Hs. unfold field. apply wp_bind. eapply wp_mono; [apply Hp, Hs|].
  intros a s1 [St1 Po1]. apply wp_bind. unfold sml_buf_has_errors, wp at 1.
  destruct (error s1) eqn:E1.
  - apply wp_ret. split; auto. discriminate.
  - destruct (Po1 eq_refl) as [C1 HQ1].
    eapply wp_mono; [apply (Hk a HQ1); eapply step_ok; eauto|].
    intros b s2 [St2 Po2]. split; [eapply step_trans; eauto|].
    intros He x Hx. destruct (Po2 He x Hx). split; auto; lia.
Qed.
Lemma safeS_expect {B} n m (k : P (option B)) Q : safeS m k Q -> safeS (S m) (expect_list n k) Q.
Proof.
  intros Hk s Hs. unfold expect_list. apply wp_bind, wp_next_type.
  - intros Hc. cbn. split; [|discriminate].
    apply (step_trans _ (set_err s)); apply step_set_err; auto.
  - intros b Hc Eb. destruct (negb _).
    + cbn. split; [now apply step_set_err|discriminate].
    + apply wp_bind. eapply wp_mono; [apply next_length_int, Hs|].
      intros l s1 [[St1 Po1] Hl]. pose proof (step_ok _ _ Hs St1) as Hs1.
      destruct (negb _).
      * cbn. split; [eapply step_trans; eauto using step_set_err|discriminate].
      * eapply wp_mono; [apply Hk; auto|]. intros r s2 [St2 Po2].
        split; [eapply step_trans; eauto|]. intros He x Hx.
        destruct (Po2 He x Hx). destruct (Po1 (step_noerr _ _ St2 He)). split; auto; lia.
Qed.

Lemma list_entry_safe w : safe 8 (sml_list_entry_parse w) (some (fun r => wf_entry (fst r))).
Proof.
  unfold sml_list_entry_parse. apply safeS_label. apply safeS_expect.
  eapply safeS_field; [apply octet_safe|intros obj_name H1].
  eapply safeS_field; [apply status_safe|intros status H2].
  eapply safeS_field; [apply time_safe|intros val_time H3].
  eapply safeS_field; [apply u8_safe|intros unit H4].
  eapply safeS_field; [apply i8_safe|intros scaler H5].
  intros s Hs. apply wp_bind, wp_at_end; intros Hc.
  - apply safeS_none; auto.
  - apply wp_bind, wp_current_byte; auto. intros b Eb. revert s Hs Hc Eb.
    cut (safeS 2 (value <-? sml_value_parse ;;
      value_signature <-? sml_octet_string_parse ;;
      r <- apply_workaround w (Z.land b (Z.lor SML_ANOTHER_TL SML_LENGTH_FIELD))
         (mkEntry obj_name status val_time unit scaler value value_signature) ;;
      ret (Some r)) (fun r => wf_entry (fst r))); [intros HS s Hs _ _; apply HS; auto|].
    eapply safeS_field; [apply value_safe|intros value H6].
    eapply safeS_field; [apply octet_safe|intros value_signature H7].
    intros s Hs. 
    destruct (apply_workaround_ok w (Z.land b (Z.lor SML_ANOTHER_TL SML_LENGTH_FIELD))
      (mkEntry obj_name status val_time unit scaler value value_signature) s) as [l' [w' [E Hl']]].
    + split; simpl; auto. destruct value; simpl in *; auto. left; auto.
    + exact H6.
    + unfold wp, bind. rewrite E. cbn [ret]. split; [now apply step_refl|].
      intros _ x [= <-]. split; [lia|exact Hl'].
Qed.

Lemma list_loop_safe fuel : forall n w s, okbuf s -> (buffer_len s - cursor s < fuel)%nat ->
  wp (list_loop fuel n w) (post 0 (some (Forall wf_entry)) s) s.
Proof.
  induction fuel as [|fuel IH]; intros n w s Hs Hf; [lia|].
  cbn [list_loop]. destruct (n <=? 0).
  - apply wp_ret. split; [now apply step_refl|]. intros _. split; [lia|]. eexists; split; eauto.
  - apply wp_bind. eapply wp_mono; [apply list_entry_safe, Hs|]. intros a s1 [St1 Po1].
    pose proof (step_ok _ _ Hs St1) as Hs1.
    apply wp_bind. unfold wp at 1, sml_buf_has_errors. destruct (error s1) eqn:E1.
    + apply wp_ret. apply post_err; auto.
    + destruct (Po1 eq_refl) as [C1 [[l w'] [-> Hl]]]. apply wp_bind.
      pose proof (st_buf _ _ St1) as B1.
      eapply wp_mono; [apply IH; auto|].
      * unfold buffer_len in *. rewrite B1. pose proof (st_cur _ _ St1). unfold buffer_len in *. lia.
      * intros r s2 [St2 Po2]. apply wp_ret. split; [eapply step_trans; eauto|].
        intros He. destruct (Po2 He) as [C2 [t [-> Ht]]]. split; [lia|].
        eexists; split; [reflexivity|]. constructor; auto.
Qed.

Lemma wp_type_check_gen {B} n (bad : Z -> bool) (e k : P B) (Q : B -> Prop) s :
  okbuf s -> bad 256 = true ->
  (forall s, okbuf s -> wp e (fun _ s' => step s s' /\ error s' = true) s) ->
  ((cursor s < buffer_len s)%nat -> wp k (post n Q s) s) ->
  wp (t <- sml_buf_get_next_type ;; if bad t then e else k) (post n Q s) s.
Proof.
  intros Hs Hb He Hk. apply wp_bind, wp_next_type.
  - intros Hc. rewrite Hb. eapply wp_mono; [apply He; auto|]. intros a s' [St E].
    apply post_err; auto. eapply step_trans; eauto using step_set_err.
  - intros b Hc Eb. destruct (bad (Z.land b 112)); [|auto].
    eapply wp_mono; [apply He; auto|]. intros a s' [St E]. apply post_err; auto.
Qed.

Lemma list_safe : safe 1 sml_list_parse (Forall wf_entry).
Proof.
  intros s Hs. unfold sml_list_parse. apply wp_bind, wp_optional; intros Hc.
  - cbn. apply post_err; auto using step_set_err.
  - intros H1. cbn. split; [apply step_adv; auto; lia|]. intros _. simpl. split; [lia|auto].
  - intros H1. cbn [Z.eqb negb].
    apply (wp_type_check_gen _ (fun t => negb (t =? SML_TYPE_LIST))); auto.
    + intros s1 Hs1. cbn. split; auto using step_set_err.
    + intros _. apply (wp_length_bind 0); auto. intros l s1 Hs1 St1 Hl.
      apply wp_bind, wp_with_fuel. eapply wp_mono; [apply list_loop_safe; auto using fuel_of_gt|].
      intros [r|] s2 [St2 Po2].
      * apply wp_ret. split; auto. intros He. destruct (Po2 He) as [C2 [t [[= <-] Ht]]]. auto.
      * cbn. apply post_err; auto. eapply step_trans; eauto.
        apply step_set_err. eapply step_ok; eauto.
Qed.

Lemma sequence_safe {A} (p : P (option A)) Q : safe 1 p Q ->
  safe 1 (sml_sequence_parse p) (some (Forall Q)).
Proof.
  intros Hp. unfold sml_sequence_parse. apply safeS_label. intros s Hs.
  apply wp_bind, wp_next_type.
  - intros Hc. cbn. split; [now apply step_set_err|discriminate].
  - intros b Hc Eb. destruct (negb _).
    + apply safeS_none; auto.
    + eapply (wp_mono _ (post 1 (some (Forall Q)) s)).
      * apply (wp_length_bind 0); auto. intros l s1 Hs1 _ _.
        apply wp_with_fuel. apply sequence_loop_safe; auto using fuel_of_gt.
      * intros r s' [St Po]. split; auto. intros He x ->. destruct (Po He) as [C [y [[= <-] Hy]]]. auto.
Qed.

Lemma map_Some_inv {A} (Q : A -> Prop) (l : list (option A)) :
  Forall (some Q) l -> exists l', l = map Some l' /\ Forall Q l'.
Proof.
  induction 1 as [|r l [x [-> Hx]] _ [l' [-> Hl']]].
  - exists []; auto.
  - exists (x :: l'); simpl; auto.
Qed.

Lemma somes_Forall {A} (Q : A -> Prop) (l : list (option A)) : Forall (opt Q) l -> Forall Q (somes l).
Proof. induction 1 as [|[x|] l Hx Hl IH]; simpl; auto. Qed.

Lemma tree_path_safe : safe 1 sml_tree_path_parse (opt wf_path).
Proof.
  apply safe_unless; [|exact I]. apply safe_some_opt. apply safeS_label. intros s Hs.
  apply wp_bind, wp_next_type.
  - intros Hc. cbn. split; [now apply step_set_err|discriminate].
  - intros b Hc Eb. destruct (negb _).
    + apply safeS_none; auto.
    + eapply (wp_mono _ (post 1 (some wf_path) s)).
      * apply (wp_length_bind 0); auto. intros l s1 Hs1 _ _.
        eapply post_bind_ret.
        { apply wp_with_fuel. apply (elems_loop_safe _ (opt wf_oct)); auto using fuel_of_gt, octet_safe. }
        intros r [t [-> Ht]]. eexists; split; [reflexivity|]. now apply somes_Forall.
      * intros r s' [St Po]. split; auto. intros He x ->. destruct (Po He) as [C [y [[= <-] Hy]]]. auto.
Qed.

Lemma tupel_safe : safe 1 sml_tupel_entry_parse (opt wf_tupel).
Proof.
  apply safe_unless; [|exact I]. eapply safe_le; [apply (safe_expect_list 23 23)|lia].
  fld octet_safe. fld time_safe. fld u64_safe.
  fld u8_safe. fld i8_safe. fld i64_safe. fld u8_safe. fld i8_safe. fld i64_safe.
  fld u8_safe. fld i8_safe. fld i64_safe. fld octet_safe.
  fld u8_safe. fld i8_safe. fld i64_safe. fld u8_safe. fld i8_safe. fld i64_safe.
  fld u8_safe. fld i8_safe. fld i64_safe. fld octet_safe.
  apply safe_ret. split; assumption.
Qed.

Lemma period_safe : safe 1 sml_period_entry_parse (opt wf_period).
Proof.
  apply safe_unless; [|exact I]. eapply safe_le; [apply (safe_expect_list 5 5)|lia].
  fld octet_safe. fld u8_safe. fld i8_safe. fld value_safe. fld octet_safe.
  apply safe_ret. split; assumption.
Qed.

Lemma safe_map {A B} n (p : P A) (f : A -> B) Q1 (Q2 : B -> Prop) :
  safe n p Q1 -> (forall a, Q1 a -> Q2 (f a)) -> safe n (a <- p ;; ret (f a)) Q2.
Proof. intros Hp HQ s Hs. eapply post_bind_ret; eauto. Qed.

Lemma mem_u1_range m : wf_num 1 m -> 0 <= mem_u m < 256.
Proof.
  intros [Hl Hb]. destruct m as [|b [|c m]]; try discriminate. inv Hb. unfold byte_ok in *.
  unfold mem_u. destruct host_endian; simpl; lia.
Qed.

Lemma ppv_safe : safe 1 sml_proc_par_value_parse (opt wf_ppv).
Proof.
  apply safe_unless; [|exact I]. eapply safe_le; [apply (safe_expect_list 2 1)|lia].
  fld u8_safe. destruct a as [m|]; [|apply safe_ret; exact I].
  cbn [opt] in *. cbn zeta.
  destruct (Z.eqb_spec (mem_u m) SML_PROC_PAR_VALUE_TAG_VALUE) as [E|].
  { eapply (safe_le 1); [|lia]. eapply safe_map; [apply value_safe|]. intros a Ha.
    exists m. split; [reflexivity|]. split; auto. rewrite E. eexists; split; [reflexivity|auto]. }
  destruct (Z.eqb_spec (mem_u m) SML_PROC_PAR_VALUE_TAG_PERIOD_ENTRY) as [E|].
  { eapply (safe_le 1); [|lia]. eapply safe_map; [apply period_safe|]. intros a Ha.
    exists m. split; [reflexivity|]. split; auto. rewrite E. eexists; split; [reflexivity|auto]. }
  destruct (Z.eqb_spec (mem_u m) SML_PROC_PAR_VALUE_TAG_TUPEL_ENTRY) as [E|].
  { eapply (safe_le 1); [|lia]. eapply safe_map; [apply tupel_safe|]. intros a Ha.
    exists m. split; [reflexivity|]. split; auto. rewrite E. eexists; split; [reflexivity|auto]. }
  destruct (Z.eqb_spec (mem_u m) SML_PROC_PAR_VALUE_TAG_TIME) as [E|].
  { eapply (safe_le 1); [|lia]. eapply safe_map; [apply time_safe|]. intros a Ha.
    exists m. split; [reflexivity|]. split; auto. rewrite E. eexists; split; [reflexivity|auto]. }
  apply safe_err_null.
Qed.

(** The recursion of sml_tree_parse: fuel is used only when bytes are. *)
Lemma elems_loop_safe_at {A} (p : P A) (Q : A -> Prop) N fuel : forall n,
  (forall s, okbuf s -> (buffer_len s - cursor s <= N)%nat -> wp p (post 1 Q s) s) ->
  forall s, okbuf s -> (buffer_len s - cursor s < fuel)%nat -> (buffer_len s - cursor s <= N)%nat ->
  wp (elems_loop fuel n p) (post 0 (some (Forall Q)) s) s.
Proof.
  induction fuel as [|fuel IH]; intros n Hp s Hs Hf HN; [lia|].
  cbn [elems_loop]. destruct (n <=? 0).
  - apply wp_ret. split; [now apply step_refl|]. intros _. split; [lia|]. eexists; split; eauto.
  - apply wp_bind. eapply wp_mono; [apply Hp; auto|]. intros a s1 [St1 Po1].
    pose proof (step_ok _ _ Hs St1) as Hs1.
    apply wp_bind. unfold wp at 1, sml_buf_has_errors. destruct (error s1) eqn:E1.
    + apply wp_ret. apply post_err; auto.
    + destruct (Po1 eq_refl) as [C1 HQ]. apply wp_bind.
      pose proof (st_buf _ _ St1) as B1. pose proof (st_cur _ _ St1).
      assert (buffer_len s1 = buffer_len s) as BL by (unfold buffer_len; now rewrite B1).
      eapply wp_mono; [apply IH; auto; lia|].
      intros r s2 [St2 Po2]. apply wp_ret. split; [eapply step_trans; eauto|].
      intros He. destruct (Po2 He) as [C2 [t [-> Ht]]]. split; [lia|].
      eexists; split; [reflexivity|]. constructor; auto.
Qed.

Lemma tree_rec_safe depth : forall s, okbuf s -> (buffer_len s - cursor s < depth)%nat ->
  wp (sml_tree_parse_rec depth) (post 1 (opt wf_tree) s) s.
Proof.
  induction depth as [|depth IH]; intros s Hs Hd; [lia|].
  cbn [sml_tree_parse_rec]. unfold unless_skipped. apply wp_bind, wp_optional; intros Hc.
  { cbn. apply post_err; auto using step_set_err. }
  { intros H1. cbn. split; [apply step_adv; auto; lia|]. intros _. simpl. split; [lia|auto]. }
  intros H1. cbn [Z.eqb negb]. unfold expect_list.
  apply (wp_type_check _ (fun t => negb (t =? SML_TYPE_LIST))); auto. intros _.
  apply wp_bind. eapply wp_mono; [apply next_length_int, Hs|].
  intros l s1 [[St1 Po1] Hl]. pose proof (step_ok _ _ Hs St1) as Hs1.
  destruct (negb (l =? 3)).
  { cbn. apply post_err; auto. eapply step_trans; eauto using step_set_err. }
  unfold field. apply wp_bind. eapply wp_mono; [apply octet_safe, Hs1|].
  intros name s2 [St2 Po2]. pose proof (step_ok _ _ Hs1 St2) as Hs2.
  pose proof (step_trans _ _ _ St1 St2) as St02.
  apply wp_bind. unfold wp at 1, sml_buf_has_errors. destruct (error s2) eqn:E2.
  { apply wp_ret. apply post_err; auto. }
  apply wp_bind. eapply wp_mono; [apply ppv_safe, Hs2|].
  intros value s3 [St3 Po3]. pose proof (step_ok _ _ Hs2 St3) as Hs3.
  pose proof (step_trans _ _ _ St02 St3) as St03.
  apply wp_bind. unfold wp at 1, sml_buf_has_errors. destruct (error s3) eqn:E3.
  { apply wp_ret. apply post_err; auto. }
  destruct (Po2 eq_refl) as [C2 Hname]. destruct (Po3 eq_refl) as [C3 Hvalue].
  pose proof (st_cur _ _ St1) as C1.
  apply wp_bind, wp_optional; intros Hc3.
  { cbn. apply post_err; auto. eapply step_trans; eauto using step_set_err. }
  { intros H3. cbn. split; [eapply step_trans; [exact St03|]; apply step_adv; auto; lia|].
    intros _. simpl. split; [lia|]. constructor; auto. }
  intros H3. cbn [Z.eqb negb].
  cut (wp (t <- sml_buf_get_next_type ;;
        if negb (t =? SML_TYPE_LIST) then err_null else
        elems <- sml_buf_get_next_length ;;
        r <- with_fuel (fun fuel => elems_loop fuel elems (sml_tree_parse_rec depth)) ;;
        match r with
        | None => ret None
        | Some l => ret (Some (Tree name value (somes l)))
        end) (post 1 (opt wf_tree) s3) s3).
  { intros HW. eapply wp_mono; [apply HW|]. intros r s4 [St4 Po4].
    split; [eapply step_trans; eauto|]. intros He. destruct (Po4 He). split; auto. lia. }
  apply (wp_type_check _ (fun t => negb (t =? SML_TYPE_LIST))); auto. intros _.
  assert (buffer_len s3 = buffer_len s) as BL3 by (unfold buffer_len; now rewrite (st_buf _ _ St03)).
  apply wp_bind. eapply wp_mono; [apply next_length_int, Hs3|].
  intros n s4 [[St4 Po4] _]. pose proof (step_ok _ _ Hs3 St4) as Hs4.
  assert (buffer_len s4 = buffer_len s) as BL4
    by (unfold buffer_len; now rewrite (st_buf _ _ St4), (st_buf _ _ St03)).
  pose proof (st_cur _ _ St4) as C4.
  apply wp_bind, wp_with_fuel.
  eapply wp_mono.
  { eapply (elems_loop_safe_at _ (opt wf_tree) (buffer_len s4 - cursor s4)); auto using fuel_of_gt.
    intros s5 Hs5 H5. apply IH; auto. lia. }
  intros r s5 [St5 Po5]. destruct r as [r|].
  - apply wp_ret. split; [eapply step_trans; eauto|]. intros He.
    destruct (Po5 He) as [C5 [t [[= <-] Ht]]].
    destruct (Po4 (step_noerr _ _ St5 He)) as [C4' _]. split; [lia|].
    constructor; auto. now apply somes_Forall.
  - apply wp_ret. split; [eapply step_trans; eauto|]. intros He.
    destruct (Po5 He) as [_ [t [[=] _]]].
Qed.

Lemma tree_safe : safe 1 sml_tree_parse (opt wf_tree).
Proof. intros s Hs. apply wp_with_fuel, tree_rec_safe; auto using fuel_of_gt. Qed.
End WithHost.
