(** Property C75: what the parser of files says about what it could not read.

    Nothing is lost silently: for every damaged message that is passed over there is
    one line on stderr, and one more if reading stopped before the end.  No such line
    means that the input consists of intact messages and fill bytes, all of which
    have been returned. *)
From Verif Require Import Base Buf Crc16 Number OctetString Boolean Value Time SList Tree Bodies
  Message File Lib Wf Safe Safe2 Safe3 Ctx Ctx2 Ctx3 Scan Spec TL Inv Reads NumFacts Dzg Exact FileFacts PropsParse Grammar
  Accept Accept2 Accept3 Accept4 Accept5 Accept6 Accept7 Accept8 Accept9 PropsGrammar ReportModel ReportFacts.

(** *** Specification *)

(** The lines that report a loss. *)
Definition losses (l : list line) : list line := filter (fun x => match x with NotImplemented _ | NotFreed _ | Ignored _ _ _ => false | _ => true end) l.

Section WithHost.
Context {H : Host}.
(** A file with the messages [ms] and [n] damaged ones, and any number of fill bytes. *)
Inductive file_with : list sml_message -> nat -> list Z -> list Z -> Prop :=
| with_end t : file_with [] 0 [] t
| with_fill ms n bs t : file_with ms n bs t -> file_with ms n (0 :: bs) t
| with_message m ms n b bs t : message true m b (bs ++ t) -> file_with ms n bs t -> file_with (m :: ms) n (b ++ bs) t
| with_damaged ms n b bs t : damaged true b (bs ++ t) -> file_with ms n bs t -> file_with ms (S n) (b ++ bs) t.

(** *** The lines change nothing else *)
Lemma body_not_implemented t : existsb (Z.eqb t) implemented = false -> body_data_parse t = ret BNull.
Proof.
  unfold implemented. cbn [existsb]. intros E. repeat (apply orb_false_iff in E; destruct E as [? E]). unfold body_data_parse.
  repeat match goal with X : (t =? _) = false |- _ => rewrite X; clear X end. reflexivity.
Qed.
Ltac sm := repeat lazymatch goal with
  | |- same (quiet _) _ => apply same_quiet
  | |- same (rexpect_list _ _) _ => apply same_list
  | |- same (rfield _ _) _ => apply same_field; [|intros ?]
  | |- same (rbind _ _) _ => apply same_bind; [|intros ?]
  end.
Lemma same_body : same r_message_body_parse sml_message_body_parse.
Proof.
  unfold r_message_body_parse, sml_message_body_parse. apply same_bind; [sm|]. intros []; [sm|]. sm. destruct x as [m|]; [|sm].
  destruct (existsb _ _) eqn:E; [sm; apply same_data|]. apply same_say. rewrite (body_not_implemented _ E). intros s. reflexivity.
Qed.
Lemma same_give_up b p : same (r_give_up b p) p.
Proof.
  unfold r_give_up. generalize (body_free_lines b) as l. induction l as [|x l IH]; intros s; cbn [say_all].
  - unfold rbind, quiet, ret. destruct (p s); reflexivity.
  - specialize (IH s). unfold rbind, say in *. destruct (say_all l s) as [l1 [[[] s1]| |]]; cbn [app] in *; exact IH.
Qed.
Lemma same_message : same r_message_parse sml_message_parse.
Proof.
  unfold r_message_parse, sml_message_parse. apply same_bind; [sm|]. intros st. apply same_list. do 3 (apply same_field; [sm|]; intros ?).
  unfold field. apply same_bind; [apply same_body|]. intros mb. apply same_bind; [sm|]. intros []; [apply same_give_up|].
  apply same_bind; [sm|]. intros len. apply same_bind; [sm|]. intros []; [apply same_give_up|].
  apply same_bind; [sm|]. intros c. apply same_bind; [sm|]. intros e. destruct (if (e : bool) then None else c) as [m|]; [|apply same_give_up].
  apply same_bind; [sm|]. intros bs. destruct (_ && _); [apply same_say, same_give_up|]. apply same_bind; [sm|]. intros []; [apply same_give_up|sm].
Qed.
Lemma same_loop fuel : forall msgs, same (r_file_loop fuel msgs) (file_loop fuel msgs).
Proof.
  induction fuel as [|fuel IH]; intros msgs; cbn [r_file_loop file_loop]; (apply same_bind; [sm|]; intros []; [sm|]); [sm|].
  apply same_bind; [sm|]. intros b. destruct (_ =? _); [apply same_bind; [sm|]; auto|].
  apply same_bind; [apply same_message|]. intros m. apply same_bind; [sm|]. intros []; [apply same_say; sm|].
  destruct m; [|auto]. apply same_bind; [sm|auto].
Qed.
Lemma same_file bytes : snd (r_file_parse bytes) = sml_file_parse bytes.
Proof.
  unfold r_file_parse, sml_file_parse. rewrite <- (same_loop (S (length bytes)) [] _). destruct (r_file_loop _ _ _) as [l [[ms s]|f|]]; reflexivity.
Qed.

(** *** Which lines *)
Lemma rquiet_inv {A B} (p : P A) (k : A -> R B) s l x s2 : rbind (quiet p) k s = (l, Ret (x, s2)) ->
  exists y s1, p s = Ret (y, s1) /\ k y s1 = (l, Ret (x, s2)).
Proof.
  unfold rbind, quiet. destruct (p s) as [[y s1]|f|]; [|discriminate|discriminate]. destruct (k y s1) as [l' o] eqn:E. cbn [app]. intros HE. inversion HE; subst. eauto.
Qed.
Lemma losses_app a b : losses (a ++ b) = losses a ++ losses b.
Proof. unfold losses. induction a as [|x a IH]; cbn; [auto|]. destruct x; cbn; now rewrite ?IH. Qed.
(** the line about the type of a message, when its body was read *)
Definition body_lines (b : option sml_message_body) : list line :=
  match b with
  | Some (mkBody (Some m) _) => if existsb (Z.eqb (mem_u m)) implemented then [] else [NotImplemented (mem_u m)]
  | _ => []
  end.
Lemma body_exact s l x s1 : r_message_body_parse s = (l, Ret (x, s1)) ->
  exists ig, l = ig ++ body_lines x /\ Forall ignored ig /\ (error s1 = false -> length ig = body_lost x).
Proof.
  unfold r_message_body_parse. intros E.
  assert (HN : forall y, quiet (@err_null sml_message_body) y = (l, Ret (x, s1)) -> exists ig, l = ig ++ body_lines x /\ Forall ignored ig /\ (error s1 = false -> length ig = body_lost x)).
  { intros y Ey. unfold quiet, err_null, bind, set_error, ret in Ey. injection Ey as <- <- _. exists []. repeat split; constructor. }
  assert (HQ : forall y, quiet (ret (None : option sml_message_body)) y = (l, Ret (x, s1)) -> exists ig, l = ig ++ body_lines x /\ Forall ignored ig /\ (error s1 = false -> length ig = body_lost x)).
  { intros y Ey. unfold quiet, ret in Ey. injection Ey as <- <- _. exists []. repeat split; constructor. }
  apply rquiet_inv in E. destruct E as ([] & s' & _ & E); [eauto|].
  unfold rexpect_list in E. apply rquiet_inv in E. destruct E as (t & s3 & _ & E). destruct (negb _); [eauto|].
  apply rquiet_inv in E. destruct E as (n & s4 & _ & E). destruct (negb _); [eauto|].
  unfold rfield in E. apply rquiet_inv in E. destruct E as (m & s5 & _ & E). apply rquiet_inv in E. destruct E as ([] & s6 & _ & E); [eauto|].
  destruct m as [m|]; [|eauto].
  destruct (existsb _ _) eqn:EX.
  - apply rbind_inv in E. destruct E as (l1 & d & s7 & l2 & ED & E & ->). unfold quiet, ret in E. injection E as <- <- <-. cbn [body_lines]. rewrite EX. exists l1. split; [reflexivity|]. split; [exact (proj2 (rmon_data _ _ _ _ _ ED))|].
    intros He. exact (wp_data _ _ _ _ _ ED He).
  - unfold rbind, say, quiet, ret in E. cbn [app] in E. injection E as <- <- _. cbn [body_lines]. rewrite EX. exists []. repeat split; constructor.
Qed.
Lemma say_all_eq l s : say_all l s = (l, Ret (tt, s)).
Proof. induction l as [|x l IH]; [reflexivity|]. cbn [say_all]. unfold rbind, say. rewrite IH. reflexivity. Qed.
(** The lines about a message that was read, and about one that was not: [b] is its body,
    as far as it was read. *)
Lemma message_exact s l x s2 : r_message_parse s = (l, Ret (x, s2)) ->
  match x with
  | Some m => exists ig, l = ig ++ body_lines (m_message_body m) /\ Forall ignored ig /\ length ig = message_lost m
  | None => exists b ig, l = ig ++ body_lines b ++ (if error s2 then [] else [Dropped]) ++ body_free_lines b /\ Forall ignored ig /\ (error s2 = false -> length ig = body_lost b)
  end.
Proof.
  unfold r_message_parse. intros E.
  assert (HN : forall (l : list line) y s', quiet (@err_null sml_message) y = (l, Ret (x, s')) ->
    match x with Some m => exists ig, l = ig ++ body_lines (m_message_body m) /\ Forall ignored ig /\ length ig = message_lost m | None => exists b ig, l = ig ++ body_lines b ++ (if error s' then [] else [Dropped]) ++ body_free_lines b /\ Forall ignored ig /\ (error s' = false -> length ig = body_lost b) end).
  { intros l0 y s' E0. unfold quiet, err_null, bind, set_error, ret in E0. inversion E0; subst. exists None, []. repeat split; constructor. }
  assert (HQ : forall (l : list line) y s', error y = true -> quiet (ret (None : option sml_message)) y = (l, Ret (x, s')) ->
    match x with Some m => exists ig, l = ig ++ body_lines (m_message_body m) /\ Forall ignored ig /\ length ig = message_lost m | None => exists b ig, l = ig ++ body_lines b ++ (if error s' then [] else [Dropped]) ++ body_free_lines b /\ Forall ignored ig /\ (error s' = false -> length ig = body_lost b) end).
  { intros l0 y s' E0 E1. unfold quiet, ret in E1. inversion E1; subst. exists None, []. rewrite E0. repeat split; constructor. }
  apply rquiet_inv in E. destruct E as (st & s0 & _ & E). unfold rexpect_list in E.
  apply rquiet_inv in E. destruct E as (ty & s1 & _ & E). destruct (negb _); [eapply HN; eauto|].
  apply rquiet_inv in E. destruct E as (n & s3 & _ & E). destruct (negb _); [eapply HN; eauto|].
  unfold rfield at 1 in E. apply rquiet_inv in E. destruct E as (ti & s4 & _ & E). apply rquiet_inv in E. destruct E as (e & s5 & He & E). injection He as <- <-. destruct (error s4) eqn:He; [eapply HQ; eauto|]. clear He.
  unfold rfield at 1 in E. apply rquiet_inv in E. destruct E as (gi & s5 & _ & E). apply rquiet_inv in E. destruct E as (e & s6 & He & E). injection He as <- <-. destruct (error s5) eqn:He; [eapply HQ; eauto|]. clear He.
  unfold rfield at 1 in E. apply rquiet_inv in E. destruct E as (ab & s6 & _ & E). apply rquiet_inv in E. destruct E as (e & s7 & He & E). injection He as <- <-. destruct (error s6) eqn:He; [eapply HQ; eauto|]. clear He HN HQ.
  unfold rbind at 1 in E. destruct (r_message_body_parse s6) as [lb [[mb s7]|f|]] eqn:EB; [|discriminate|discriminate].
  destruct (body_exact _ _ _ _ EB) as (ig & -> & HF & HC).
  match type of E with (let '(_, _) := ?y in _) = _ => destruct y as [l' o] eqn:EK end. inversion E; subst l o. clear E.
  assert (HG : match x with Some m => l' = [] /\ m_message_body m = mb /\ error s7 = false | None => l' = (if error s2 then [] else [Dropped]) ++ body_free_lines mb /\ (error s2 = false -> error s7 = false) end).
  2: { destruct x as [m|]; [destruct HG as (-> & <- & He); exists ig; rewrite app_nil_r; auto|]. destruct HG as (-> & HE). exists mb, ig. rewrite <- !app_assoc. auto. }
  assert (HN : forall l y s', r_give_up mb err_null y = (l, Ret (x, s')) -> match x with Some m => l = [] /\ m_message_body m = mb /\ error s7 = false | None => l = (if error s' then [] else [Dropped]) ++ body_free_lines mb /\ (error s' = false -> error s7 = false) end).
  { intros l0 y s' E0. unfold r_give_up, rbind in E0. rewrite say_all_eq in E0. unfold quiet, err_null, bind, set_error, ret in E0. inversion E0; subst. cbn. split; [apply app_nil_r|discriminate]. }
  assert (HQ : forall l y s', error y = true -> r_give_up mb (ret None) y = (l, Ret (x, s')) -> match x with Some m => l = [] /\ m_message_body m = mb /\ error s7 = false | None => l = (if error s' then [] else [Dropped]) ++ body_free_lines mb /\ (error s' = false -> error s7 = false) end).
  { intros l0 y s' E0 E1. unfold r_give_up, rbind in E1. rewrite say_all_eq in E1. unfold quiet, ret in E1. inversion E1; subst. rewrite E0. split; [apply app_nil_r|discriminate]. }
  rename EK into E. apply rquiet_inv in E. destruct E as (e & s8 & He & E). injection He as <- <-. destruct (error s7) eqn:He7; [eapply HQ; eauto|].
  apply rquiet_inv in E. destruct E as (len & s8 & _ & E). apply rquiet_inv in E. destruct E as ([] & s9 & _ & E); [eapply HN; eauto|].
  apply rquiet_inv in E. destruct E as (c & s10 & _ & E). apply rquiet_inv in E. destruct E as (e & s11 & He & E). injection He as <- <-. destruct (error s10) eqn:He; [eapply HN; eauto|]. destruct c as [c|]; [|eapply HN; eauto].
  apply rquiet_inv in E. destruct E as (bs & s12 & HS & E). assert (s12 = s10) as -> by (unfold buffer_slice in HS; destruct (_ <? 0); [discriminate|]; destruct (_ <? 0); [discriminate|]; destruct (_ <=? _)%nat; [congruence|discriminate]). destruct (_ && _).
  { unfold r_give_up, rbind, say in E. rewrite say_all_eq in E. unfold quiet, ret in E. inversion E; subst. rewrite He. cbn. split; [now rewrite app_nil_r|auto]. }
  apply rquiet_inv in E. destruct E as ([] & s13 & _ & E); [eapply HN; eauto|]. apply rquiet_inv in E. destruct E as (b & s14 & _ & E). apply rquiet_inv in E. destruct E as (u & s15 & _ & E).
  unfold quiet, ret in E. inversion E; subst. auto.
Qed.
Lemma lines_kind b : losses (body_lines b) = [] /\ losses (body_free_lines b) = [] /\
  Forall (fun y => exists t, (y = NotImplemented t \/ y = NotFreed t) /\ ~ In t implemented) (body_lines b ++ body_free_lines b).
Proof.
  destruct b as [[[m|] d]|]; cbn [body_lines body_free_lines]; try (split; [reflexivity|]; split; [reflexivity|constructor]).
  destruct (existsb _ _) eqn:EX; split; try reflexivity; split; try reflexivity; [constructor|].
  assert (HI : ~ In (mem_u m) implemented).
  { intros HI. assert (existsb (Z.eqb (mem_u m)) implemented = true) as HT; [|congruence]. apply existsb_exists. eexists. split; [exact HI|apply Z.eqb_refl]. }
  constructor; [|constructor; [|constructor]]; eauto.
Qed.
(** A message that is read, or at which reading stops, is not reported as dropped; one
    that is passed over is. *)
Lemma message_losses s l x s2 : r_message_parse s = (l, Ret (x, s2)) ->
  losses l = (match x with Some _ => [] | None => if error s2 then [] else [Dropped] end) /\
  Forall (fun y => y = Dropped \/ ignored y \/ exists t, (y = NotImplemented t \/ y = NotFreed t) /\ ~ In t implemented) l.
Proof.
  assert (HI : forall ig, Forall ignored ig -> losses ig = []). { intros ig HF. induction HF as [|y ig (a & b & c & ->) _ IH]; [reflexivity|exact IH]. }
  intros E. apply message_exact in E. destruct x as [m|].
  - destruct E as (ig & -> & HF & _). destruct (lines_kind (m_message_body m)) as (H1 & _ & H2). rewrite losses_app, (HI _ HF). split; [exact H1|]. apply Forall_app in H2. apply Forall_app. split; [eapply Forall_impl; [|exact HF]; cbn; auto|]. eapply Forall_impl; [|exact (proj1 H2)]. cbn. auto.
  - destruct E as (b & ig & -> & HF & _). destruct (lines_kind b) as (H1 & H2 & H3). rewrite !losses_app, H1, H2, (HI _ HF). cbn [app]. rewrite app_nil_r. split; [destruct (error s2); reflexivity|].
    apply Forall_app in H3. rewrite !Forall_app. split; [eapply Forall_impl; [|exact HF]; cbn; auto|]. split; [eapply Forall_impl; [|exact (proj1 H3)]; cbn; auto|]. split; [destruct (error s2); auto|eapply Forall_impl; [|exact (proj2 H3)]; cbn; auto].
Qed.

(** *** The loop *)
Lemma loop_losses fuel : forall msgs s l r s', good s -> r_file_loop fuel msgs s = (l, Ret (r, s')) -> ovf s' = false ->
  exists ms n bs t, r = msgs ++ ms /\ rest s = bs ++ t /\ file_with ms n bs t /\
    losses l = repeat Dropped n ++ (if error s' then [NotWhole] else []) /\
    if error s' then stuck t else t = [].
Proof.
  induction fuel as [|fuel IH]; intros msgs s l r s' G E Ho; destruct (rest s) as [|b u] eqn:Rs; cbn [r_file_loop] in E; apply rquiet_inv in E; destruct E as (e & s1 & Ee & E);
    try rewrite (at_end_nil _ Rs) in Ee; try rewrite (at_end_cons _ _ _ Rs) in Ee; injection Ee as <- <-.
  1, 3: unfold quiet, ret in E; injection E as <- <- <-; exists [], 0%nat, [], []; rewrite app_nil_r; destruct G as (_ & _ & -> & _); cbn; repeat split; auto; constructor.
  { unfold quiet, out_of_fuel in E. discriminate. }
  apply rquiet_inv in E. destruct E as (b' & s1 & Ee & E). rewrite (current_cons _ _ _ Rs) in Ee. injection Ee as <- <-. change SML_MESSAGE_END with 0 in E. destruct (Z.eqb_spec b 0) as [Hb|Hb]; [subst b|].
  - apply rquiet_inv in E. destruct E as ([] & s1 & Ee & E). rewrite (update_eq 1) in Ee. injection Ee as <-.
    assert (EQ : set_cursor (cursor s + 1) s = at_ s (length [0]) false) by (destruct s; unfold at_, set_ovf, set_cursor; cbn; now rewrite orb_false_r). rewrite EQ in E.
    assert (R1 : rest s = [0] ++ u) by exact Rs. destruct (IH _ _ _ _ _ (good_at _ _ _ G R1) E Ho) as (ms & n & bs & t & -> & R2 & X & Y).
    rewrite (at_app _ _ _ _ R1) in R2. exists ms, n, (0 :: bs), t. split; [auto|]. split; [cbn [app]; now rewrite R2|]. split; [now constructor|exact Y].
  - unfold rbind at 1 in E. destruct (r_message_parse s) as [lm [[m s2]|f|]] eqn:EM; [|discriminate|discriminate].
    match type of E with (let '(_, _) := ?y in _) = _ => destruct y as [l' o] eqn:EK end. inversion E; subst l o. clear E. rename EK into E.
    pose proof (same_message s) as E1. rewrite EM in E1. cbn [snd] in E1. symmetry in E1.
    destruct (message_losses _ _ _ _ EM) as [HL _]. rewrite losses_app, HL.
    destruct (message_adv _ _ _ (proj1 G) E1) as [St _]. pose proof (step_ok _ _ (proj1 G) St) as Hs2.
    apply rquiet_inv in E. destruct E as (e & s3 & Ee & E). injection Ee as <- <-. destruct (error s2) eqn:He.
    + unfold rbind, say, quiet, ret in E. cbn [app] in E. injection E as <- <- <-. exists [], 0%nat, [], (b :: u). rewrite app_nil_r, He. split; [auto|]. split; [auto|]. split; [constructor|].
      split; [destruct m; reflexivity|]. split; [discriminate|]. split; [exact Hb|].
      assert (HN : forall x bs t, b :: u = bs ++ t -> ~ message_or_bad x bs t).
      { intros x bs t EQ X. destruct (proj2 (acc_message s G x (at_ s (length bs) false))) as (E2 & He2 & _); [exists bs, t; rewrite Rs; auto|]. rewrite E2 in E1. injection E1 as <- <-. congruence. }
      intros bs t EQ. split; [intros m' X; apply message_iff in X|intros X; apply damaged_iff in X]; eapply HN; eauto.
    + assert (HI : exists msgs', r_file_loop fuel msgs' s2 = (l', Ret (r, s')) /\ msgs' = msgs ++ match m with Some x => [x] | None => [] end).
      { destruct m as [m|]; [|exists msgs; now rewrite app_nil_r]. apply rquiet_inv in E. destruct E as (ms' & s3 & Ee & E). unfold sml_file_add_message in Ee. destruct (_ <=? _); [|discriminate].
        unfold ret in Ee. injection Ee as <- <-. now exists (msgs ++ [m]). }
      destruct HI as (msgs' & E2 & ->).
      assert (Ho2 : ovf s2 = false).
      { destruct (ovf s2) eqn:Ho2; [|auto]. rewrite <- Ho. symmetry. pose proof (same_loop fuel (msgs ++ match m with Some x => [x] | None => [] end) s2) as EL. rewrite E2 in EL. cbn [snd] in EL. eapply file_ovf; [exact Hs2|symmetry; exact EL|exact Ho2]. }
      destruct (proj1 (acc_message s G m s2)) as (b1 & t1 & R1 & X1 & ->); [auto|].
      destruct (IH _ _ _ _ _ (good_at _ _ _ G R1) E2 Ho) as (ms & n & bs & t & -> & R2 & X & -> & Y). rewrite (at_app _ _ _ _ R1) in R2. subst t1.
      exists (match m with Some x => [x] | None => [] end ++ ms), (match m with Some _ => n | None => S n end), (b1 ++ bs), t. rewrite <- !app_assoc. split; [auto|]. split; [now rewrite <- Rs|].
      split; [destruct m; [constructor; auto; now apply message_iff|apply with_damaged; auto; now apply damaged_iff]|].
      split; [destruct m; reflexivity|exact Y].
Qed.
(** Where a file can be read to, and what is in it, is determined. *)
Lemma file_with_det ms0 n0 bs0 t0 : file_with ms0 n0 bs0 t0 -> forall ms' n' bs' t', bytes_ok (bs0 ++ t0) -> fits (bs0 ++ t0) -> file_with ms' n' bs' t' -> bs0 ++ t0 = bs' ++ t' ->
  (t0 = [] \/ stuck t0) -> (t' = [] \/ stuck t') -> ms0 = ms' /\ n0 = n' /\ bs0 = bs' /\ t0 = t'.
Proof.
  assert (HD : forall x b u x' b' u', bytes_ok (b ++ u) -> fits (b ++ u) -> message_or_bad x b u -> message_or_bad x' b' u' -> b ++ u = b' ++ u' -> x = x' /\ b = b' /\ u = u').
  { intros x b u x' b' u' HB HF X X' EQ. pose proof (good_start _ HB HF) as G.
    destruct (proj2 (acc_message (start (b ++ u)) G x (at_ (start (b ++ u)) (length b) false))) as (E & _); [exists b, u; auto|].
    destruct (proj2 (acc_message (start (b ++ u)) G x' (at_ (start (b ++ u)) (length b') false))) as (E' & _); [exists b', u'; rewrite start_rest; auto|].
    rewrite E in E'. injection E' as -> EC. split; [auto|]. apply app_cut; [exact EQ|]. unfold at_, set_ovf, set_cursor in EC. cbn in EC. lia. }
  assert (HZ : forall x b u c v, message_or_bad x b u -> b ++ u = c :: v -> c <> 0).
  { intros x b u c v X EQ. destruct (accepted_hd _ _ _ X) as (c' & v' & -> & Hc). cbn in EQ. congruence. }
  assert (HT : forall x b u t, message_or_bad x b u -> b ++ u = t -> ~ (t = [] \/ stuck t)).
  { intros x b u t X EQ [->|(_ & _ & S)]; [destruct (accepted_hd _ _ _ X) as (c' & v' & -> & Hc); discriminate|].
    destruct (S b u (eq_sym EQ)) as [S1 S2]. destruct x as [m|]; [apply (S1 m); now apply message_iff|apply S2; now apply damaged_iff]. }
  assert (HA : forall b bs (t : list Z), bytes_ok ((b ++ bs) ++ t) -> fits ((b ++ bs) ++ t) -> bytes_ok (b ++ bs ++ t) /\ fits (b ++ bs ++ t) /\ bytes_ok (bs ++ t) /\ fits (bs ++ t)).
  { intros b bs t HB HF. rewrite <- app_assoc in *. repeat split; auto; [now apply Forall_app in HB|]. unfold fits in *. rewrite app_length in HF. lia. }
  induction 1 as [t|ms n bs t _ IH|m ms n b bs t X _ IH|ms n b bs t X _ IH]; intros ms' n' bs' t' HB HF X' EQ Ht Ht'.
  - destruct X' as [t'|ms' n' bs' t' X'|m' ms' n' b' bs' t' X' Y'|ms' n' b' bs' t' X' Y'].
    + cbn in EQ. auto.
    + cbn in EQ. subst t. destruct Ht as [Ht|(_ & Ht & _)]; [discriminate|]. cbn in Ht. congruence.
    + exfalso. apply message_iff in X'. cbn in EQ. rewrite <- app_assoc in EQ. exact (HT _ _ _ _ X' (eq_sym EQ) Ht).
    + exfalso. apply damaged_iff in X'. cbn in EQ. rewrite <- app_assoc in EQ. exact (HT _ _ _ _ X' (eq_sym EQ) Ht).
  - destruct X' as [t'|ms' n' bs' t' X'|m' ms' n' b' bs' t' X' Y'|ms' n' b' bs' t' X' Y'].
    + cbn in EQ. subst t'. destruct Ht' as [Ht'|(_ & Ht' & _)]; [discriminate|]. cbn in Ht'. congruence.
    + cbn in EQ. injection EQ as EQ. destruct (HA [0] bs t HB HF) as (_ & _ & HB' & HF'). destruct (IH _ _ _ _ HB' HF' X' EQ Ht Ht') as (-> & -> & -> & ->). auto.
    + exfalso. apply message_iff in X'. rewrite <- app_assoc in EQ. cbn in EQ. exact (HZ _ _ _ _ _ X' (eq_sym EQ) eq_refl).
    + exfalso. apply damaged_iff in X'. rewrite <- app_assoc in EQ. cbn in EQ. exact (HZ _ _ _ _ _ X' (eq_sym EQ) eq_refl).
  - apply message_iff in X. destruct (HA _ _ _ HB HF) as (HB1 & HF1 & HB2 & HF2). rewrite <- app_assoc in EQ. destruct X' as [t'|ms' n' bs' t' X'|m' ms' n' b' bs' t' X' Y'|ms' n' b' bs' t' X' Y'].
    + exfalso. cbn in EQ. exact (HT _ _ _ _ X EQ Ht').
    + exfalso. cbn in EQ. exact (HZ _ _ _ _ _ X EQ eq_refl).
    + apply message_iff in X'. rewrite <- app_assoc in EQ. destruct (HD _ _ _ _ _ _ HB1 HF1 X X' EQ) as (E1 & -> & E2). injection E1 as ->. destruct (IH _ _ _ _ HB2 HF2 Y' E2 Ht Ht') as (-> & -> & -> & ->). auto.
    + apply damaged_iff in X'. rewrite <- app_assoc in EQ. destruct (HD _ _ _ _ _ _ HB1 HF1 X X' EQ) as (E1 & _). discriminate.
  - apply damaged_iff in X. destruct (HA _ _ _ HB HF) as (HB1 & HF1 & HB2 & HF2). rewrite <- app_assoc in EQ. destruct X' as [t'|ms' n' bs' t' X'|m' ms' n' b' bs' t' X' Y'|ms' n' b' bs' t' X' Y'].
    + exfalso. cbn in EQ. exact (HT _ _ _ _ X EQ Ht').
    + exfalso. cbn in EQ. exact (HZ _ _ _ _ _ X EQ eq_refl).
    + apply message_iff in X'. rewrite <- app_assoc in EQ. destruct (HD _ _ _ _ _ _ HB1 HF1 X X' EQ) as (E1 & _). discriminate.
    + apply damaged_iff in X'. rewrite <- app_assoc in EQ. destruct (HD _ _ _ _ _ _ HB1 HF1 X X' EQ) as (E1 & -> & E2). destruct (IH _ _ _ _ HB2 HF2 Y' E2 Ht Ht') as (-> & -> & -> & ->). auto.
Qed.
End WithHost.

(** *** C75 *)

(** Printing is all that the lines do. *)
Theorem C75_same (H : Host) bytes : snd (r_file_parse bytes) = sml_file_parse bytes.
Proof. apply same_file. Qed.
Print Assumptions C75_same.
(** What is reported, for every input: one line for every damaged message up to the
    place where reading stops, and one more if that is not the end.  The messages
    returned are the intact ones up to that place. *)
Theorem C75_report (H : Host) bytes lines f : bytes_ok bytes -> Z.of_nat (length bytes) < 2147483648 -> short_chains bytes ->
  r_file_parse bytes = (lines, Ret f) ->
  exists n bs t, bytes = bs ++ t /\ file_with (f_messages f) n bs t /\
    ((t = [] /\ losses lines = repeat Dropped n) \/
     (t <> [] /\ hd 0 t <> 0 /\ (forall b u, t = b ++ u -> (forall m, ~ message true m b u) /\ ~ damaged true b u) /\
      losses lines = repeat Dropped n ++ [NotWhole])).
Proof.
  intros HB HL HS E. pose proof (good_start bytes HB HL) as G. pose proof (same_file bytes) as EP. rewrite E in EP. cbn [snd] in EP. symmetry in EP.
  pose proof (file_parse_safe 7 bytes min_size_7 HB) as HP. rewrite EP in HP.
  unfold r_file_parse in E. fold (start bytes) in E. destruct (r_file_loop _ _ _) as [l [[r s]|x|]] eqn:EL; [|discriminate|discriminate]. injection E as <- <-. cbn [f_buf f_messages] in *.
  assert (Ho : ovf s = false) by (destruct HP as (_ & _ & _ & _ & _ & HP); auto).
  destruct (loop_losses _ _ _ _ _ _ G EL Ho) as (ms & n & bs & t & -> & Rs & X & HLo & Y). rewrite start_rest in Rs. cbn [app]. exists n, bs, t. split; [exact Rs|]. split; [exact X|].
  rewrite HLo. destruct (error s).
  - right. destruct Y as (Y1 & Y2 & Y3). auto.
  - left. rewrite app_nil_r. auto.
Qed.
Print Assumptions C75_report.
(** Silence means that nothing was lost, and nothing else does. *)
Theorem C75_silence (H : Host) bytes lines f : bytes_ok bytes -> Z.of_nat (length bytes) < 2147483648 -> short_chains bytes ->
  r_file_parse bytes = (lines, Ret f) -> (losses lines = [] <-> file_with (f_messages f) 0 bytes []).
Proof.
  intros HB HL HS E. destruct (C75_report H bytes lines f HB HL HS E) as (n & bs & t & -> & X & Y). split.
  - intros EL. destruct Y as [[-> Y]|(_ & _ & _ & Y)]; rewrite EL in Y; [|destruct n; discriminate]. destruct n; [|discriminate]. now rewrite app_nil_r in *.
  - intros X'. assert (Ht : t = [] \/ stuck t) by (unfold stuck; destruct Y as [[-> _]|(Y1 & Y2 & Y3 & _)]; auto).
    destruct (file_with_det _ _ _ _ X _ _ _ _ HB HL X') as (_ & -> & _ & ->); [now rewrite app_nil_r|exact Ht|auto|].
    destruct Y as [[_ ->]|(Y & _)]; [reflexivity|contradiction].
Qed.
Print Assumptions C75_silence.
(** The number of lines: whatever way an input is divided into intact messages,
    damaged messages and fill bytes, as far as possible, the damaged ones are counted. *)
Theorem C75_count (H : Host) ms n bs t lines f : bytes_ok (bs ++ t) -> Z.of_nat (length (bs ++ t)) < 2147483648 -> short_chains (bs ++ t) ->
  file_with ms n bs t -> t = [] \/ (t <> [] /\ hd 0 t <> 0 /\ forall b u, t = b ++ u -> (forall m, ~ message true m b u) /\ ~ damaged true b u) ->
  r_file_parse (bs ++ t) = (lines, Ret f) ->
  f_messages f = ms /\ losses lines = repeat Dropped n ++ (if (length t =? 0)%nat then [] else [NotWhole]).
Proof.
  intros HB HL HS X Ht E. destruct (C75_report H _ lines f HB HL HS E) as (n' & bs' & t' & EQ & X' & Y).
  assert (Ht' : t' = [] \/ stuck t') by (unfold stuck; destruct Y as [[-> _]|(Y1 & Y2 & Y3 & _)]; auto).
  destruct (file_with_det _ _ _ _ X _ _ _ _ HB HL X' EQ Ht Ht') as (-> & -> & -> & <-). split; [reflexivity|].
  destruct Y as [[-> ->]|(Y1 & _ & _ & ->)]; [now rewrite app_nil_r|]. destruct t; [contradiction|reflexivity].
Qed.
Print Assumptions C75_count.
(** Inputs of up to 294912 bytes are read without a crash (C04), so all of the above
    applies to them. *)
Theorem C75_short_inputs (H : Host) bytes : bytes_ok bytes -> Z.of_nat (length bytes) <= 294912 ->
  exists lines f, r_file_parse bytes = (lines, Ret f).
Proof.
  intros HB HL. destruct (file_parse_ret bytes HB HL) as (f & E & _). pose proof (C75_same H bytes) as ES. rewrite E in ES. destruct (r_file_parse bytes) as [l o]. cbn [snd] in ES. subst o. eauto.
Qed.
Print Assumptions C75_short_inputs.
(** A line about the type of a message names a type that the library does not know. *)
Theorem C75_types (H : Host) bytes lines f type : r_file_parse bytes = (lines, Ret f) -> In (NotImplemented type) lines \/ In (NotFreed type) lines ->
  ~ In type [256; 257; 512; 513; 768; 769; 1024; 1025; 1280; 1281; 1536; 1792; 1793; 65281].
Proof.
  intros E HI. assert (HI' : exists y, (y = NotImplemented type \/ y = NotFreed type) /\ In y lines) by (destruct HI; eauto). clear HI. destruct HI' as (y & HY & HI).
  unfold r_file_parse in E. destruct (r_file_loop _ _ _) as [l [[r s]|x|]] eqn:EL; [|discriminate|discriminate]. injection E as <- <-.
  change [256; 257; 512; 513; 768; 769; 1024; 1025; 1280; 1281; 1536; 1792; 1793; 65281] with implemented.
  revert EL. generalize (@nil sml_message) (mkBuf bytes 0 false false) r s. generalize (S (length bytes)) as fuel. intros fuel. revert l HI.
  induction fuel as [|fuel IH]; intros l HI msgs s0 r0 s1 E; cbn [r_file_loop] in E; apply rquiet_inv in E; destruct E as ([] & s2 & _ & E).
  1, 3: unfold quiet in E; inversion E; subst; destruct HI. { unfold quiet in E. discriminate. }
  apply rquiet_inv in E. destruct E as (b & s3 & _ & E). destruct (_ =? _). { apply rquiet_inv in E. destruct E as (u & s4 & _ & E). exact (IH _ HI _ _ _ _ E). }
  unfold rbind at 1 in E. destruct (r_message_parse s3) as [lm [[m s4]|x|]] eqn:EM; [|discriminate|discriminate].
  match type of E with (let '(_, _) := ?y in _) = _ => destruct y as [l' o] eqn:EK end. inversion E; subst l o. clear E.
  apply in_app_iff in HI. destruct HI as [HI|HI].
  { destruct (message_losses _ _ _ _ EM) as [_ HF]. rewrite Forall_forall in HF. destruct (HF _ HI) as [ET|[(a & b0 & c & ET)|(t & ET & HN)]]; [destruct HY; congruence|destruct HY; congruence|]. assert (t = type) as -> by (destruct HY, ET; congruence). exact HN. }
  apply rquiet_inv in EK. destruct EK as ([] & s5 & _ & E).
  { unfold rbind, say, quiet, ret in E. cbn [app] in E. inversion E; subst l'. destruct HI as [HI|[]]. destruct HY; congruence. }
  destruct m as [m|]; [|exact (IH _ HI _ _ _ _ E)]. apply rquiet_inv in E. destruct E as (ms & s6 & _ & E). exact (IH _ HI _ _ _ _ E).
Qed.
Print Assumptions C75_types.

(** *** Examples *)
Definition said (H : Host) (bytes : list Z) : list line * option nat :=
  let '(l, o) := r_file_parse bytes in (l, match o with Ret f => Some (length (f_messages f)) | _ => None end).
(** Two messages; the first one damaged; cut off; both; and a message of a type the
    library does not know, behind which nothing is found. *)
Example C75_example :
  said LittleEndian (text1 ++ [0; 0] ++ text2) = ([], Some 2%nat) /\
  said LittleEndian ([118; 5; 0; 0; 0; 3] ++ skipn 6 text1 ++ text2) = ([Dropped], Some 1%nat) /\
  said LittleEndian (text1 ++ firstn 30 text2) = ([NotWhole], Some 1%nat) /\
  said LittleEndian ([118; 5; 0; 0; 0; 3] ++ skipn 6 text1 ++ firstn 30 text2) = ([Dropped; NotWhole], Some 0%nat) /\
  said LittleEndian ([118; 5; 0; 0; 0; 1; 98; 0; 98; 0; 114; 99; 9; 1; 113; 1; 99; 1; 2; 0] ++ text2) = ([NotImplemented 2305; NotFreed 2305; NotWhole], Some 0%nat).
Proof. repeat split; vm_compute; reflexivity. Qed.
Definition short_chainsb (b : list Z) : bool :=
  forallb (fun i => existsb (fun k => match nth_error b (i + k) with Some x => Z.land x 128 =? 0 | None => true end) (seq 0 7)) (seq 0 (length b)).
Lemma short_chainsb_ok b : short_chainsb b = true -> short_chains b.
Proof.
  intros E i. destruct (Nat.ltb_spec i (length b)) as [Hi|Hi].
  - unfold short_chainsb in E. rewrite forallb_forall in E. specialize (E i). rewrite in_seq in E. specialize (E ltac:(lia)). apply existsb_exists in E. destruct E as (k & Hk & E). apply in_seq in Hk.
    exists (i + k)%nat. split; [lia|]. intros x Ex. rewrite Ex in E. now apply Z.eqb_eq.
  - exists i. split; [lia|]. intros x Ex. apply nth_error_None in Hi. congruence.
Qed.
(** The first of these is an intact file. *)
Example C75_example_intact : exists f, @r_file_parse LittleEndian (text1 ++ [0; 0] ++ text2) = ([], Ret f) /\
  @file_with LittleEndian (f_messages f) 0 (text1 ++ [0; 0] ++ text2) [].
Proof.
  destruct (@r_file_parse LittleEndian (text1 ++ [0; 0] ++ text2)) as [l [f|x|]] eqn:E; [|vm_compute in E; discriminate|vm_compute in E; discriminate].
  assert (l = []) as -> by (vm_compute in E; congruence). exists f. split; [reflexivity|].
  refine (proj1 (C75_silence LittleEndian _ [] f _ _ _ E) eq_refl); [bytes|vm_compute; reflexivity|].
  apply short_chainsb_ok. vm_compute. reflexivity.
Qed.
