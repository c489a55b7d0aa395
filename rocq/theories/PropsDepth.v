(** Property C59: how deep sml_tree_parse recurses. *)
From Verif Require Import Base Buf Number OctetString Boolean Value Time SList Tree
  Lib Wf Safe Safe2 Ctx Spec TL Reads.

Section WithHost.
Context {H : Host}.

(** *** At most one level for four bytes *)
Definition keeps_error {A} (p : P A) : Prop := forall s r s', p s = Ret (r, s') -> error s' = error s.
Lemma ke_bind {A B} (p : P A) (k : A -> P B) : keeps_error p -> (forall a, keeps_error (k a)) -> keeps_error (bind p k).
Proof. intros Hp Hk s r s' E. apply bind_ret_inv in E as (a & s1 & E1 & E2). rewrite (Hk _ _ _ _ E2). exact (Hp _ _ _ E1). Qed.
Lemma ke_ret {A} (a : A) : keeps_error (ret a).
Proof. intros s r s' E. now injection E as <- <-. Qed.
Lemma ke_at_end : keeps_error at_end.
Proof. intros s r s' E. now injection E as <- <-. Qed.
Lemma ke_byte : keeps_error sml_buf_get_current_byte.
Proof. intros s r s' E. unfold sml_buf_get_current_byte in E. destruct (nth_error _ _); [now injection E as <- <-|discriminate]. Qed.
Lemma ke_int z : keeps_error (int_op z).
Proof. intros s r s' E. now injection E as <- <-. Qed.
Lemma ke_update z : keeps_error (sml_buf_update_bytes_read z).
Proof. intros s r s' E. unfold sml_buf_update_bytes_read in E. destruct (z <? 0); [discriminate|now injection E as <- <-]. Qed.
Lemma ke_loop fuel : forall l ll, keeps_error (get_next_length_loop fuel l ll).
Proof.
  induction fuel as [|fuel IH]; intros l ll; [intros s r s'; discriminate|]. cbn [get_next_length_loop].
  apply ke_bind; [apply ke_at_end|]. intros []; [apply ke_ret|].
  apply ke_bind; [apply ke_byte|]. intros b. apply ke_bind; [apply ke_int|]. intros l1. cbv zeta. destruct (negb _); [apply ke_ret|].
  apply ke_bind; [apply ke_update|]. intros _. apply ke_bind; [destruct (negb _); [apply ke_int|apply ke_ret]|]. intros l2. apply IH.
Qed.
Lemma next_length_err s : okbuf s -> error s = false ->
  wp sml_buf_get_next_length (fun l s' => post 1 int_ok s l s' /\ (error s' = true -> l = -1)) s.
Proof.
  intros Hs He. pose proof (next_length_safe s Hs) as W. apply wp_run in W.
  destruct W as [l [s' [E Po]]]. unfold wp. rewrite E. split; auto. intros He'.
  unfold sml_buf_get_next_length in E. apply bind_ret_inv in E as (e & s1 & E1 & E). apply ke_at_end in E1.
  destruct e; [now inv E|].
  apply bind_ret_inv in E as (b & s2 & E2 & E). apply ke_byte in E2. cbv zeta in E.
  apply bind_ret_inv in E as (ll & s3 & E3 & E). apply ke_loop in E3.
  apply bind_ret_inv in E as (e & s4 & E4 & E). apply ke_at_end in E4.
  destruct e; [now inv E|].
  apply bind_ret_inv in E as (u & s5 & E5 & E). apply ke_update in E5. apply ke_int in E. congruence.
Qed.

Lemma tree_rec_deep depth : forall s, okbuf s -> (buffer_len s - cursor s < 4 * depth)%nat ->
  wp (sml_tree_parse_rec depth) (post 1 (opt wf_tree) s) s.
Proof.
  induction depth as [|depth IH]; intros s Hs Hd; [lia|].
  cbn [sml_tree_parse_rec]. unfold unless_skipped. apply wp_bind, wp_optional; intros Hc.
  { cbn. apply post_err; auto using step_set_err. }
  { intros H1. cbn. split; [apply step_adv; auto; lia|]. intros _. simpl. split; [lia|auto]. }
  intros H1. cbn [Z.eqb negb]. unfold expect_list.
  apply (wp_type_check _ (fun t => negb (t =? SML_TYPE_LIST))); auto. intros _.
  apply wp_bind. eapply wp_mono; [apply next_length_int, Hs|].
  intros l s1 [[St1 Po1] Hl]. pose proof (step_ok _ _ Hs St1) as Hs1.
  destruct (negb (l =? 3)).
  { cbn. apply post_err; auto. eapply step_trans; eauto using step_set_err. }
  unfold field. apply wp_bind. eapply wp_mono; [apply octet_safe, Hs1|].
  intros name s2 [St2 Po2]. pose proof (step_ok _ _ Hs1 St2) as Hs2.
  pose proof (step_trans _ _ _ St1 St2) as St02.
  apply wp_bind. unfold wp at 1, sml_buf_has_errors. destruct (error s2) eqn:E2.
  { apply wp_ret. apply post_err; auto. }
  apply wp_bind. eapply wp_mono; [apply ppv_safe, Hs2|].
  intros value s3 [St3 Po3]. pose proof (step_ok _ _ Hs2 St3) as Hs3.
  pose proof (step_trans _ _ _ St02 St3) as St03.
  apply wp_bind. unfold wp at 1, sml_buf_has_errors. destruct (error s3) eqn:E3.
  { apply wp_ret. apply post_err; auto. }
  destruct (Po2 eq_refl) as [C2 Hname]. destruct (Po3 eq_refl) as [C3 Hvalue].
  destruct (Po1 (step_noerr _ _ (step_trans _ _ _ St2 St3) E3)) as [C1 _].
  apply wp_bind, wp_optional; intros Hc3.
  { cbn. apply post_err; auto. eapply step_trans; eauto using step_set_err. }
  { intros H3. cbn. split; [eapply step_trans; [exact St03|]; apply step_adv; auto; lia|].
    intros _. simpl. split; [lia|]. constructor; auto. }
  intros H3. cbn [Z.eqb negb].
  cut (wp (t <- sml_buf_get_next_type ;;
        if negb (t =? SML_TYPE_LIST) then err_null else
        elems <- sml_buf_get_next_length ;;
        r <- with_fuel (fun fuel => elems_loop fuel elems (sml_tree_parse_rec depth)) ;;
        match r with
        | None => ret None
        | Some l => ret (Some (Tree name value (somes l)))
        end) (post 1 (opt wf_tree) s3) s3).
  { intros HW. eapply wp_mono; [apply HW|]. intros r s4 [St4 Po4].
    split; [eapply step_trans; eauto|]. intros He. destruct (Po4 He). split; auto. lia. }
  apply (wp_type_check _ (fun t => negb (t =? SML_TYPE_LIST))); auto. intros _.
  assert (buffer_len s3 = buffer_len s) as BL3 by (unfold buffer_len; now rewrite (st_buf _ _ St03)).
  apply wp_bind. eapply wp_mono; [exact (next_length_err _ Hs3 E3)|].
  intros n s4 [[St4 Po4] Hn]. pose proof (step_ok _ _ Hs3 St4) as Hs4.
  assert (buffer_len s4 = buffer_len s) as BL4
    by (unfold buffer_len; now rewrite (st_buf _ _ St4), (st_buf _ _ St03)).
  pose proof (st_cur _ _ St4) as C4.
  apply wp_bind, wp_with_fuel.
  destruct (error s4) eqn:E4.
  { rewrite (Hn eq_refl). change (fuel_of s4) with (S (S (buffer_len s4 - cursor s4))). cbn [elems_loop]. apply wp_ret.
    apply wp_ret. apply post_err; auto. }
  destruct (Po4 eq_refl) as [C4' _].
  eapply wp_mono.
  { eapply (elems_loop_safe_at _ (opt wf_tree) (buffer_len s4 - cursor s4)); auto using fuel_of_gt.
    intros s5 Hs5 H5. apply IH; auto. lia. }
  intros r s5 [St5 Po5]. destruct r as [r|].
  - apply wp_ret. split; [eapply step_trans; eauto|]. intros He.
    destruct (Po5 He) as [C5 [t [[= <-] Ht]]].
    split; [lia|].
    constructor; auto. now apply somes_Forall.
  - apply wp_ret. split; [eapply step_trans; eauto|]. intros He.
    destruct (Po5 He) as [_ [t [[=] _]]].
Qed.


(** *** More levels change nothing *)
Definition more {A} (p q : P A) : Prop := forall s, p s <> NoFuel -> q s = p s.
Lemma more_refl {A} (p : P A) : more p p.
Proof. intros s _. reflexivity. Qed.
Lemma more_bind {A B} (p q : P A) (k k' : A -> P B) : more p q -> (forall a, more (k a) (k' a)) -> more (bind p k) (bind q k').
Proof.
  intros Hp Hk s N. unfold bind in *. rewrite Hp.
  - destruct (p s) as [[a s1]|x|]; [now apply Hk|reflexivity..].
  - intros E. rewrite E in N. now apply N.
Qed.
Lemma more_then {A B} (p : P A) (k k' : A -> P B) : (forall a, more (k a) (k' a)) -> more (bind p k) (bind p k').
Proof. apply more_bind, more_refl. Qed.
Lemma more_loop {A} (p q : P A) fuel : more p q -> forall n, more (elems_loop fuel n p) (elems_loop fuel n q).
Proof.
  intros HP. induction fuel as [|fuel IH]; intros n; cbn [elems_loop]; destruct (n <=? 0); try apply more_refl.
  apply more_bind; [exact HP|]. intros a. apply more_then. intros []; [apply more_refl|]. apply more_bind; [apply IH|]. intros t. apply more_refl.
Qed.
Lemma more_tree d : more (sml_tree_parse_rec d) (sml_tree_parse_rec (S d)).
Proof.
  induction d as [|d IH]; [intros s N; now destruct N|].
  cbn [sml_tree_parse_rec]. unfold unless_skipped, expect_list, field.
  repeat first [apply more_then; intros ? | apply more_refl | match goal with |- more (if ?b then _ else _) _ => destruct b end].
  apply more_bind; [|intros; apply more_refl]. intros s. apply more_loop. exact IH.
Qed.
Lemma more_trees d : forall k, more (sml_tree_parse_rec d) (sml_tree_parse_rec (k + d)).
Proof.
  induction k as [|k IH]; [apply more_refl|]. intros s N. cbn [plus]. rewrite more_tree; [now apply IH|]. rewrite IH; auto.
Qed.

(** ** C59 *)

(** sml_tree_parse_rec d is sml_tree_parse in which a call inside of d others is
    reported (as NoFuel) instead of made.  With n unread bytes, n / 4 + 1 levels are
    enough: the result is the one of sml_tree_parse, whatever the bytes are. *)
Theorem C59_levels_bounded s d : okbuf s -> ((buffer_len s - cursor s) / 4 < d)%nat ->
  sml_tree_parse_rec d s = sml_tree_parse s /\ exists r, sml_tree_parse s = Ret r.
Proof.
  intros Hs Hd. assert (HD : (buffer_len s - cursor s < 4 * d)%nat).
  { pose proof (Nat.div_mod (buffer_len s - cursor s) 4). pose proof (Nat.mod_upper_bound (buffer_len s - cursor s) 4). lia. }
  assert (W1 := tree_rec_deep d s Hs HD). assert (W2 := tree_safe s Hs).
  apply wp_run in W1 as (r1 & s1 & E1 & _). apply wp_run in W2 as (r2 & s2 & E2 & _).
  split; [|now exists (r2, s2)]. unfold sml_tree_parse, with_fuel in *.
  destruct (Nat.le_ge_cases d (fuel_of s)) as [L|L].
  - replace (fuel_of s) with (fuel_of s - d + d)%nat in * by lia. symmetry. apply more_trees. rewrite E1. discriminate.
  - replace d with (d - fuel_of s + fuel_of s)%nat in * by lia. apply more_trees. rewrite E2. discriminate.
Qed.

(** The trees returned are not deeper either (sml_tree_write and sml_tree_free
    recurse as deep as the tree is). *)
Fixpoint levels (t : sml_tree) : nat := match t with Tree _ _ l => S (fold_right (fun t n => Nat.max (levels t) n) 0%nat l) end.
Lemma loop_all {A} (p : P A) (Q : A -> Prop) fuel : (forall s r s', p s = Ret (r, s') -> Q r) -> forall n s r s',
  elems_loop fuel n p s = Ret (Some r, s') -> Forall Q r.
Proof.
  intros HP. induction fuel as [|fuel IH]; intros n s r s' E; cbn [elems_loop] in E; destruct (n <=? 0);
    try (injection E as <- <-; constructor); [discriminate|].
  apply bind_ret_inv in E as (a & s1 & E1 & E). apply bind_ret_inv in E as (e & s2 & _ & E). destruct e; [discriminate|].
  apply bind_ret_inv in E as (t & s3 & E3 & E). destruct t as [t|]; [|discriminate]. injection E as <- <-.
  constructor; [now apply HP in E1|]. now apply IH in E3.
Qed.
Lemma rec_levels d : forall s r s', sml_tree_parse_rec d s = Ret (r, s') -> forall t, r = Some t -> (levels t <= d)%nat.
Proof.
  induction d as [|d IH]; intros s r s' E t ->; [discriminate|]. cbn [sml_tree_parse_rec] in E.
  unfold unless_skipped, expect_list, field in E.
  repeat match type of E with
  | bind _ _ _ = _ => apply bind_ret_inv in E as (? & ? & ? & E)
  | (if ?b then _ else _) _ = _ => destruct b; try discriminate E
  end.
  - injection E as <- <-. cbn [levels fold_right]. lia.
  - match type of E with (match ?r with _ => _ end) _ = _ => destruct r as [l|]; [|discriminate] end. injection E as <- <-. cbn [levels]. apply le_n_S.
    assert (HA : Forall (fun r => forall t, r = Some t -> (levels t <= d)%nat) l) by (eapply loop_all; [exact IH|eassumption]).
    clear -HA. induction HA as [|r l Hr HA IHl]; cbn [somes]; [cbn [fold_right]; lia|].
    destruct r as [t|]; cbn [somes fold_right]; [|exact IHl]. specialize (Hr t eq_refl). lia.
Qed.
Theorem C59_tree_levels s t s' : okbuf s -> sml_tree_parse s = Ret (Some t, s') ->
  (levels t <= (buffer_len s - cursor s) / 4 + 1)%nat.
Proof.
  intros Hs E. destruct (C59_levels_bounded s ((buffer_len s - cursor s) / 4 + 1) Hs) as [EQ _]; [lia|].
  rewrite <- EQ in E. now apply (rec_levels _ _ _ _ E).
Qed.

(** Four bytes for a level suffice: 73 01 01 71, n times. *)
Theorem C59_levels_reached n : forall s t, small s -> error s = false ->
  rest s = flat_map (fun _ => [115; 1; 1; 113]) (seq 0 n) ++ t ->
  sml_tree_parse_rec n s = NoFuel.
Proof.
  induction n as [|n IH]; intros s t Sm He R; [reflexivity|].
  assert (EF : flat_map (fun _ : nat => [115; 1; 1; 113]) (seq 0 (S n)) = [115; 1; 1; 113] ++ flat_map (fun _ => [115; 1; 1; 113]) (seq 0 n)).
  { cbn [seq flat_map]. f_equal. rewrite <- seq_shift. rewrite !flat_map_concat_map, map_map. reflexivity. }
  rewrite EF, <- app_assoc in R. clear EF. set (u := flat_map (fun _ => [115; 1; 1; 113]) (seq 0 n) ++ t) in *. cbn [app] in R.
  cbn [sml_tree_parse_rec]. rewrite (unless_noskip _ _ _ _ R) by discriminate.
  destruct (list_header 3) as (Hb & Hty & Hnib & Hlen); [lia|]. change (112 + 3) with 115 in *.
  unfold expect_list. unfold bind at 1. rewrite (type_fwd s [115] (1 :: 1 :: 113 :: u) R Hb), Hty.
  change (112 =? SML_TYPE_LIST) with true. cbn [negb]. unfold bind at 1.
  rewrite (length_fwd s [115] (1 :: 1 :: 113 :: u) Sm R Hb) by lia. rewrite Hlen. change (negb (3 =? 3)) with false. cbv iota.
  assert (R1 := at_app s [115] (1 :: 1 :: 113 :: u) false R). set (s1 := at_ s (length [115]) false) in *.
  assert (E1 : error s1 = false) by exact He.
  unfold field at 1. unfold bind at 1. unfold sml_octet_string_parse at 1. rewrite (unless_skip _ _ _ R1).
  assert (R2 := at_app s1 [1] (1 :: 113 :: u) false R1). set (s2 := at_ s1 (length [1]) false) in *.
  change (at_ s1 1 false) with s2. assert (E2 : error s2 = false) by exact He.
  unfold bind at 1. unfold sml_buf_has_errors at 1. rewrite E2.
  unfold field at 1. unfold bind at 1. unfold sml_proc_par_value_parse at 1. rewrite (unless_skip _ _ _ R2).
  assert (R3 := at_app s2 [1] (113 :: u) false R2). set (s3 := at_ s2 (length [1]) false) in *.
  change (at_ s2 1 false) with s3. assert (E3 : error s3 = false) by exact He.
  unfold bind at 1. unfold sml_buf_has_errors at 1. rewrite E3.
  unfold bind at 1. rewrite (noskip_fwd _ _ _ R3) by discriminate. change (negb (0 =? 0)) with false. cbv iota.
  destruct (list_header 1) as (Hb1 & Hty1 & Hnib1 & Hlen1); [lia|]. change (112 + 1) with 113 in *.
  unfold bind at 1. rewrite (type_fwd s3 [113] u R3 Hb1), Hty1. change (112 =? SML_TYPE_LIST) with true. cbn [negb].
  unfold bind at 1. assert (Sm3 : small s3) by exact Sm. rewrite (length_fwd s3 [113] u Sm3 R3 Hb1) by lia. rewrite Hlen1.
  assert (R4 := at_app s3 [113] u false R3). set (s4 := at_ s3 (length [113]) false) in *.
  unfold bind at 1. unfold with_fuel. change (fuel_of s4) with (S (S (buffer_len s4 - cursor s4))). cbn [elems_loop].
  change (1 <=? 0) with false. cbv iota. unfold bind at 1. rewrite (IH s4 t); auto.
Qed.
End WithHost.
Print Assumptions C59_levels_bounded.
Print Assumptions C59_tree_levels.
Print Assumptions C59_levels_reached.

(** ** Examples *)
Definition nested (n : nat) (t : list Z) : sbuf := mkBuf (flat_map (fun _ => [115; 1; 1; 113]) (seq 0 n) ++ t) 0 false false.
(** seven levels in 29 bytes *)
Example C59_example : let H : Host := LittleEndian in
  okbuf (nested 6 [115; 1; 1; 1; 99]) /\
  match sml_tree_parse (nested 6 [115; 1; 1; 1; 99]) with
  | Ret (Some t, s') => levels t = 7%nat /\ error s' = false | _ => False end /\
  sml_tree_parse_rec 6 (nested 6 [115; 1; 1; 1; 99]) = NoFuel /\
  Nat.div (length (buffer (nested 6 [115; 1; 1; 1; 99]))) 4 = 7%nat.
Proof.
  intros H. split; [|vm_compute; auto]. unfold okbuf. vm_compute. repeat constructor; try discriminate.
Qed.
