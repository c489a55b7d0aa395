(** What sml_file_parse does with its input, without buffers and cursors:
    [scan bytes msgs err].  The theorems about whole files rest on it. *)
From Verif Require Import Base Buf Crc16 Number OctetString Boolean Value Time SList Tree Bodies
  Message File Lib Wf Safe Safe2 Safe3 Ctx Ctx2 Ctx3.

Definition start (l : list Z) : sbuf := mkBuf l 0 false false.
Definition fits (l : list Z) : Prop := Z.of_nat (length l) < 2147483648.

Lemma prefix_firstn_self n (l : list Z) : prefix (firstn n l) l.
Proof. exists (skipn n l). now rewrite firstn_skipn. Qed.

Section WithHost.
Context {H : Host}.

(** The message parser alone on [l]: consumes [k] bytes without an error and
    returns [r]; or raises the error flag. *)
Definition one (l : list Z) (r : option sml_message) (k : nat) : Prop :=
  exists s, sml_message_parse (start l) = Ret (r, s) /\ error s = false /\ cursor s = k.
Definition one_fails (l : list Z) : Prop :=
  exists r s, sml_message_parse (start l) = Ret (r, s) /\ error s = true.

Inductive scan : list Z -> list sml_message -> bool -> Prop :=
| scan_nil : scan [] [] false
| scan_zero l ms e : scan l ms e -> scan (0 :: l) ms e
| scan_fail b l : b <> 0 -> one_fails (b :: l) -> scan (b :: l) [] true
| scan_some b l m k ms e : b <> 0 -> one (b :: l) (Some m) k ->
    scan (skipn k (b :: l)) ms e -> scan (b :: l) (m :: ms) e
| scan_none b l k ms e : b <> 0 -> one (b :: l) None k ->
    scan (skipn k (b :: l)) ms e -> scan (b :: l) ms e.

Lemma start_ok l : bytes_ok l -> okbuf (start l).
Proof. split; cbn; auto; lia. Qed.
Lemma start_rest l : rest (start l) = l. Proof. reflexivity. Qed.
Lemma rest_bytes s : okbuf s -> bytes_ok (rest s).
Proof. intros [_ Hb]. now apply Forall_skipn. Qed.
Lemma rest_fits s : small s -> fits (rest s).
Proof. unfold small, fits. rewrite rest_length. lia. Qed.

Lemma message_adv s r s' : okbuf s -> sml_message_parse s = Ret (r, s') ->
  step s s' /\ (error s' = false -> (cursor s + 7 <= cursor s')%nat).
Proof.
  intros Hs E. pose proof (message_safe s Hs) as HM. unfold wpq in HM. rewrite E in HM.
  destruct HM as [St Po]. split; auto. intros He. now apply Po.
Qed.

(** a run from the middle of a buffer is a run alone on the rest *)
Lemma run_one s r s' : okbuf s -> small s -> error s = false -> sml_message_parse s = Ret (r, s') ->
  if error s' then one_fails (rest s) else one (rest s) r (cursor s' - cursor s).
Proof.
  intros Hs Sm He E.
  assert (Hs0 : okbuf (start (rest s))) by (apply start_ok, rest_bytes, Hs).
  assert (Sm0 : small (start (rest s))) by (apply rest_fits, Sm).
  destruct (error s') eqn:Er.
  - pose proof (message_safe _ Hs0) as HM. unfold wpq in HM.
    destruct (sml_message_parse (start (rest s))) as [[r0 s0]|f|] eqn:E0; try tauto.
    exists r0, s0. split; auto. destruct (error s0) eqn:Er0; auto. exfalso.
    destruct (message_ctx _ _ _ Hs0 Sm0 E0 Er0 s Hs Sm He) as (s2 & P2 & A2).
    { apply prefix_firstn_self. }
    rewrite E in P2. injection P2 as <- <-. pose proof (ad_err _ _ _ A2). congruence.
  - destruct (message_ctx _ _ _ Hs Sm E Er _ Hs0 Sm0 eq_refl) as (s2 & P2 & A2).
    { apply prefix_firstn_self. }
    exists s2. split; auto. split; [apply A2|]. now rewrite (ad_cur _ _ _ A2).
Qed.

(** and a run on [l] is the same on [l ++ t] *)
Lemma one_app l r k t : bytes_ok (l ++ t) -> fits (l ++ t) -> one l r k -> one (l ++ t) r k.
Proof.
  intros Hb Hf (s & E & Er & <-).
  assert (bytes_ok l) as Hbl by (apply Forall_app in Hb; tauto).
  assert (fits l) as Hfl by (unfold fits in *; rewrite app_length in Hf; lia).
  destruct (message_ctx _ _ _ (start_ok _ Hbl) Hfl E Er (start (l ++ t)) (start_ok _ Hb) Hf eq_refl)
    as (s2 & P2 & A2).
  { unfold fitting2. rewrite !start_rest. eapply prefix_trans; [|apply prefix_app].
    apply prefix_firstn_self. }
  exists s2. split; auto. split; [apply A2|]. rewrite (ad_cur _ _ _ A2). cbn. lia.
Qed.
Lemma one_len l r k : bytes_ok l -> one l r k -> (7 <= k <= length l)%nat.
Proof.
  intros Hb (s & E & Er & <-). destruct (message_adv _ _ _ (start_ok _ Hb) E) as [St Po].
  specialize (Po Er). pose proof (st_cur _ _ St). cbn in *. unfold buffer_len in *. cbn in *. lia.
Qed.
Lemma one_det l r k r' k' : one l r k -> one l r' k' -> r = r' /\ k = k'.
Proof. intros (s & E & _ & <-) (s' & E' & _ & <-). rewrite E in E'. now injection E' as <- <-. Qed.
Lemma one_not_fails l r k : one l r k -> one_fails l -> False.
Proof. intros (s & E & Er & _) (r' & s' & E' & Er'). rewrite E in E'. injection E' as <- <-. congruence. Qed.

Ltac same_one := match goal with A : one ?l _ _, B : one ?l _ _ |- _ =>
  let X := fresh in let Y := fresh in
  destruct (one_det _ _ _ _ _ A B) as [X Y]; clear B; first [discriminate X|injection X as <-|clear X]; subst end.

Lemma scan_det l ms e ms' e' : scan l ms e -> scan l ms' e' -> ms = ms' /\ e = e'.
Proof.
  intros HS. revert ms' e'.
  induction HS as [|l ms e _ IH|b l Hb HF|b l m k ms e Hb HO _ IH|b l k ms e Hb HO _ IH]; intros ms' e' HS'; inv HS';
    try congruence; auto.
  all: try (exfalso; eapply one_not_fails; eassumption).
  all: same_one; match goal with A : scan _ _ _ |- _ => destruct (IH _ _ A) as [-> ->] end; auto.
Qed.

Lemma fits_skipn k l : fits l -> fits (skipn k l).
Proof. unfold fits. rewrite skipn_length. lia. Qed.

(** every input can be scanned *)
Lemma scan_total l : bytes_ok l -> fits l -> exists ms e, scan l ms e.
Proof.
  remember (length l) as n eqn:En. assert (Hn : (length l <= n)%nat) by lia. clear En. revert l Hn.
  induction n as [|n IH]; intros [|b l] Hn Hb Hf; try (cbn in Hn; lia).
  - exists [], false. constructor.
  - exists [], false. constructor.
  - destruct (Z.eq_dec b 0) as [->|Hz].
    { inv Hb. destruct (IH l) as (ms & e & HS); [cbn in Hn; lia|auto|unfold fits in *; cbn in *; lia|].
      exists ms, e. now constructor. }
    assert (Hs0 : okbuf (start (b :: l))) by (now apply start_ok).
    pose proof (message_safe _ Hs0) as HM. unfold wpq in HM.
    destruct (sml_message_parse (start (b :: l))) as [[r s]|f|] eqn:E; try tauto.
    pose proof (run_one _ _ _ Hs0 Hf eq_refl E) as HR. rewrite start_rest in HR. destruct (error s) eqn:Er.
    { exists [], true. now constructor. }
    pose proof (one_len _ _ _ Hb HR) as HL.
    set (k := (cursor s - cursor (start (b :: l)))%nat) in *.
    destruct (IH (skipn k (b :: l))) as (ms & e & HS).
    { rewrite skipn_length. lia. }
    { now apply Forall_skipn. }
    { now apply fits_skipn. }
    destruct r as [m|].
    + exists (m :: ms), e. eapply scan_some; eauto.
    + exists ms, e. eapply scan_none; eauto.
Qed.

Lemma skipn_app_le {A} k (l t : list A) : (k <= length l)%nat -> skipn k (l ++ t) = skipn k l ++ t.
Proof. intros Hk. rewrite skipn_app. now replace (k - length l)%nat with 0%nat by lia. Qed.

Lemma fits_app_l a b : fits (a ++ b) -> fits a.
Proof. unfold fits. rewrite app_length. lia. Qed.

(** an error-free scan of [l], then a scan of [t] *)
Lemma scan_app l ms t ms' e' : bytes_ok (l ++ t) -> fits (l ++ t) ->
  scan l ms false -> scan t ms' e' -> scan (l ++ t) (ms ++ ms') e'.
Proof.
  intros Hb Hf HS HT. remember false as e eqn:Ee. revert Ee Hb Hf.
  induction HS as [|l ms e _ IH|b l Hz HF|b l m k ms e Hz HO _ IH|b l k ms e Hz HO _ IH]; intros Ee Hb Hf;
    try discriminate; auto.
  - cbn. constructor. apply IH; auto; [inv Hb; auto|unfold fits in *; cbn in *; lia].
  - pose proof (one_len (b :: l) _ k (proj1 (proj1 (Forall_app _ _ _) Hb)) HO) as HL.
    cbn [app]. apply scan_some with k; auto.
    + change (b :: l ++ t) with ((b :: l) ++ t). now apply one_app.
    + change (b :: l ++ t) with ((b :: l) ++ t). rewrite skipn_app_le by lia. apply IH; auto.
      * rewrite <- skipn_app_le by lia. now apply Forall_skipn.
      * rewrite <- skipn_app_le by lia. now apply fits_skipn.
  - pose proof (one_len (b :: l) _ k (proj1 (proj1 (Forall_app _ _ _) Hb)) HO) as HL.
    cbn [app]. apply scan_none with k; auto.
    + change (b :: l ++ t) with ((b :: l) ++ t). now apply one_app.
    + change (b :: l ++ t) with ((b :: l) ++ t). rewrite skipn_app_le by lia. apply IH; auto.
      * rewrite <- skipn_app_le by lia. now apply Forall_skipn.
      * rewrite <- skipn_app_le by lia. now apply fits_skipn.
Qed.

Lemma scan_extend l ms e t ms' e' : bytes_ok (l ++ t) -> fits (l ++ t) ->
  scan l ms e -> scan (l ++ t) ms' e' -> exists new, ms' = ms ++ new.
Proof.
  intros Hb Hf HS. revert ms' e' Hb Hf.
  induction HS as [|l ms e _ IH|b l Hz HF|b l m k ms e Hz HO _ IH|b l k ms e Hz HO _ IH]; intros ms' e' Hb Hf HT.
  - now exists ms'.
  - cbn in HT. inv HT; try congruence. apply IH with e'; auto; [inv Hb; auto|unfold fits in *; cbn in *; lia].
  - now exists ms'.
  - pose proof (one_len (b :: l) _ k (proj1 (proj1 (Forall_app _ _ _) Hb)) HO) as HL.
    assert (HO' : one ((b :: l) ++ t) (Some m) k) by (now apply one_app).
    destruct (IH) with (ms' := tl ms') (e' := e') as [new Hnew].
    { rewrite <- skipn_app_le by lia. now apply Forall_skipn. }
    { rewrite <- skipn_app_le by lia. now apply fits_skipn. }
    { rewrite <- skipn_app_le by lia. cbn [app] in HT, HO'. inv HT; try congruence.
      - exfalso; eapply one_not_fails; eassumption.
      - same_one. auto.
      - same_one. }
    exists new. cbn [app] in HT, HO'. inv HT; try congruence.
    + exfalso; eapply one_not_fails; eassumption.
    + same_one. cbn in *. now f_equal.
    + same_one.
  - pose proof (one_len (b :: l) _ k (proj1 (proj1 (Forall_app _ _ _) Hb)) HO) as HL.
    assert (HO' : one ((b :: l) ++ t) None k) by (now apply one_app).
    apply IH with e'.
    { rewrite <- skipn_app_le by lia. now apply Forall_skipn. }
    { rewrite <- skipn_app_le by lia. now apply fits_skipn. }
    rewrite <- skipn_app_le by lia. cbn [app] in HT, HO'. inv HT; try congruence.
    + exfalso; eapply one_not_fails; eassumption.
    + same_one.
    + same_one. auto.
Qed.

(** the loop of sml_file_parse performs the scan *)
Lemma file_loop_scan fuel : forall msgs s ms e, okbuf s -> small s -> error s = false ->
  (length (rest s) <= fuel)%nat -> scan (rest s) ms e -> Z.of_nat (length msgs) <= 32767 ->
  match file_loop fuel msgs s with
  | Ret (r, s') => r = msgs ++ ms /\ error s' = e /\ Z.of_nat (length msgs + length ms) <= 32767
  | Fault f => f = WildPtr /\ 32767 < Z.of_nat (length msgs + length ms)
  | NoFuel => False
  end.
Proof.
  induction fuel as [|fuel IH]; intros msgs s ms e Hs Sm He Hf HS Hm.
  - assert (Er : rest s = []) by (destruct (rest s); auto; cbn in Hf; lia).
    rewrite Er in HS. inv HS. cbn [file_loop]. unfold bind, at_end.
    replace (_ <=? _)%nat with true.
    2: { symmetry. apply Nat.leb_le. pose proof (rest_length s). rewrite Er in *. cbn in *. lia. }
    cbn [ret length]. rewrite Nat.add_0_r, app_nil_r. auto.
  - cbn [file_loop]. unfold bind at 1, at_end.
    pose proof (rest_length s) as RL. pose proof (proj1 Hs) as Hc.
    destruct (buffer_len s <=? cursor s)%nat eqn:Ae.
    { apply Nat.leb_le in Ae. assert (Er : rest s = []) by (destruct (rest s); auto; cbn in RL; lia).
      rewrite Er in HS. inv HS. cbn [ret length]. rewrite Nat.add_0_r, app_nil_r. auto. }
    apply Nat.leb_gt in Ae.
    destruct (rest s) as [|b l] eqn:Er; [cbn in RL; lia|].
    assert (En : nth_error (buffer s) (cursor s) = Some b).
    { rewrite nth_error_skipn_hd. fold (rest s). now rewrite Er. }
    unfold bind at 1, sml_buf_get_current_byte. rewrite En.
    change SML_MESSAGE_END with 0. destruct (Z.eqb_spec b 0) as [->|Hz].
    { inv HS; try congruence.
      unfold bind at 1, sml_buf_update_bytes_read. cbn [Z.ltb Z.compare]. change (Z.to_nat 1) with 1%nat.
      set (s1 := set_cursor (cursor s + 1) s).
      assert (Er1 : rest s1 = l).
      { subst s1. unfold rest. cbn. rewrite <- skipn_skipn_add. fold (rest s). now rewrite Er. }
      apply IH; auto.
      - subst s1. destruct Hs. split; cbn; auto. unfold buffer_len in *. cbn. lia.
      - rewrite Er1. cbn in Hf. lia.
      - now rewrite Er1. }
    unfold bind at 1. pose proof (message_safe s Hs) as HM. unfold wpq in HM.
    destruct (sml_message_parse s) as [[r s1]|f|] eqn:Em; try (unfold small in Sm; tauto).
    destruct HM as [St _]. pose proof (step_ok _ _ Hs St) as Hs1.
    pose proof (run_one _ _ _ Hs Sm He Em) as HR. rewrite Er in HR.
    unfold bind at 1, sml_buf_has_errors. destruct (error s1) eqn:Er1.
    { inv HS; try congruence; try (exfalso; eapply one_not_fails; eassumption).
      cbn [ret length]. rewrite Nat.add_0_r, app_nil_r. auto. }
    assert (Rs : rest s1 = skipn (cursor s1 - cursor s) (b :: l)).
    { rewrite <- Er. apply mono_rest. now apply mono_step. }
    assert (HL : (7 <= cursor s1 - cursor s <= length (b :: l))%nat).
    { eapply one_len; eauto. rewrite <- Er. now apply rest_bytes. }
    assert (Sm1 : small s1) by (eapply mono_small; eauto using mono_step).
    assert (Hf1 : (length (rest s1) <= fuel)%nat) by (rewrite Rs, skipn_length; lia).
    inv HS; try congruence; try (exfalso; eapply one_not_fails; eassumption);
      match goal with A : one ?l _ _, B : one ?l _ _ |- _ => destruct (one_det _ _ _ _ _ A B) as [-> X]; subst end.
    + unfold bind at 1, sml_file_add_message.
      destruct (Z.leb_spec (Z.of_nat (length msgs) + 1) 32767) as [Hl|Hl].
      * cbn [ret]. assert (HS : scan (rest s1) ms0 e) by (now rewrite Rs).
        pose proof (IH (msgs ++ [m]) s1 ms0 e Hs1 Sm1 Er1 Hf1 HS) as HI.
        rewrite app_length in HI. cbn [length] in *.
        replace (length msgs + 1 + length ms0)%nat with (length msgs + S (length ms0))%nat in HI by lia.
        rewrite <- app_assoc in HI. apply HI. lia.
      * cbn [fail length]. split; auto. lia.
    + apply IH; auto. now rewrite Rs.
Qed.

(** sml_file_parse in terms of the scan *)
Lemma file_parse_scan bytes ms e : bytes_ok bytes -> fits bytes -> scan bytes ms e ->
  match sml_file_parse bytes with
  | Ret f => f_messages f = ms /\ error (f_buf f) = e /\ Z.of_nat (length ms) <= 32767
  | Fault f => f = WildPtr /\ 32767 < Z.of_nat (length ms)
  | NoFuel => False
  end.
Proof.
  intros Hb Hf HS. unfold sml_file_parse.
  pose proof (file_loop_scan (S (length bytes)) [] (start bytes) ms e (start_ok _ Hb) Hf eq_refl) as HL.
  rewrite start_rest in HL. specialize (HL (Nat.le_succ_diag_r _) HS). fold (start bytes).
  change (length (@nil sml_message) + length ms)%nat with (length ms) in HL.
  assert (H0 : Z.of_nat (length (@nil sml_message)) <= 32767) by (cbn; lia). specialize (HL H0).
  destruct (file_loop _ _ _) as [[r s]|f|]; auto.
Qed.
Lemma file_parse_inv bytes f : bytes_ok bytes -> fits bytes -> sml_file_parse bytes = Ret f ->
  scan bytes (f_messages f) (error (f_buf f)).
Proof.
  intros Hb Hf E. destruct (scan_total _ Hb Hf) as (ms & e & HS).
  pose proof (file_parse_scan _ _ _ Hb Hf HS) as HP. rewrite E in HP.
  destruct HP as (-> & -> & _). exact HS.
Qed.
End WithHost.
