(** Whole files, and the standard language as a part of the accepted one. *)
From Verif Require Import Base Buf Crc16 Number OctetString Boolean Value Time SList Tree Bodies
  Message File Lib Wf Safe Safe2 Safe3 Ctx Ctx2 Ctx3 Scan Spec TL Inv Reads NumFacts Dzg Exact FileFacts Grammar
  Accept Accept2 Accept3 Accept4 Accept5 Accept6 Accept7 Accept8.

(** *** Standard SML is a part of what is accepted *)
Definition sub {A} (W W' : lang A) : Prop := forall v bs t, W v bs t -> W' v bs t.
Definition sub1 (w w' : list Z -> list Z -> Prop) : Prop := forall bs t, w bs t -> w' bs t.
Lemma sub_optional {A} (W W' : lang A) : sub W W' -> sub (optional W) (optional W').
Proof. intros HW [v|] bs t; [apply HW|auto]. Qed.
Lemma sub_required {A} (W W' : lang A) : sub W W' -> sub (required W) (required W').
Proof. intros HW [v|] bs t; [apply HW|auto]. Qed.
Lemma sub_fields ws ws' : Forall2 sub1 ws ws' -> sub1 (fields ws) (fields ws').
Proof.
  induction 1 as [|w w' ws ws' Hw _ IH]; intros bs t X; [exact X|]. destruct X as (b1 & b2 & -> & X1 & X2). exists b1, b2. auto.
Qed.
Lemma sub_length ws ws' : Forall2 sub1 ws ws' -> length ws = length ws'.
Proof. induction 1; cbn [length]; congruence. Qed.
Lemma sub_structure ws ws' : Forall2 sub1 ws ws' -> sub1 (structure ws) (structure ws').
Proof.
  intros HF bs t (tl & b & -> & Hh & X). exists tl, b. split; [auto|]. rewrite <- (sub_length _ _ HF). split; [auto|]. exact (sub_fields _ _ HF _ _ X).
Qed.
Lemma sub_map {A} (W W' : lang A) : sub W W' -> forall l, Forall2 sub1 (map W l) (map W' l).
Proof. intros HW. induction l; cbn [map]; constructor; auto. intros bs t. apply HW. Qed.
Lemma sub_sequence {A} (W W' : lang A) : sub W W' -> sub (sequence_of W) (sequence_of W').
Proof. intros HW l bs t. refine (sub_structure _ _ _ _ _). now apply sub_map. Qed.
Lemma sub1_refl w : sub1 w w. Proof. intros bs t X. exact X. Qed.
Lemma sub1_opt {A} (W W' : lang A) v : sub W W' -> sub1 (optional W v) (optional W' v).
Proof. intros HW. exact (sub_optional _ _ HW v). Qed.
Lemma sub1_lang {A} (W W' : lang A) v : sub W W' -> sub1 (W v) (W' v).
Proof. intros HW. exact (HW v). Qed.
Lemma sub1_req {A} (W W' : lang A) v : sub W W' -> sub1 (required W v) (required W' v).
Proof. intros HW. exact (sub_required _ _ HW v). Qed.
Create HintDb sub discriminated.
Ltac subs := refine (sub_structure _ _ _ _ _); repeat (apply Forall2_cons; [first [exact (sub1_refl _)|refine (sub1_opt _ _ _ _); solve [auto with sub nocore]|refine (sub1_lang _ _ _ _); solve [auto with sub nocore]|refine (sub1_req _ _ _ _); solve [auto with sub nocore]]|]); apply Forall2_nil.

Section WithHost.
Context {H : Host}.
Lemma sub_unsigned n : sub (unsigned false n) (unsigned true n).
Proof. intros m bs t (tl & d & -> & Hh & HB & HL & Hm & HBm & E & X). exists tl, d. do 7 (split; [assumption||reflexivity|]). intros Y. destruct (X Y). discriminate. Qed.
Lemma sub_signed n : sub (signed false n) (signed true n).
Proof. intros m bs t (tl & d & -> & Hh & HB & HL & Hm & HBm & X). exists tl, d. do 6 (split; [assumption||reflexivity|]). destruct d; [destruct X; discriminate|exact X]. Qed.
Lemma sub_sized bs w : sized false bs w -> sized true bs w.
Proof. intros [E _]. split; auto. Qed.
Hint Resolve sub_unsigned sub_signed : sub.
Lemma sub_value : sub (value false) (value true).
Proof.
  intros v bs t [X|[X|[(w & m & X & S & E)|(w & m & X & S & E)]]]; [left; exact X|right; left; exact X| |].
  - right; right; left. exists w, m. split; [now apply sub_signed|]. split; [now apply sub_sized|auto].
  - right; right; right. exists w, m. split; [now apply sub_unsigned|]. split; [now apply sub_sized|auto].
Qed.
Lemma sub_status : sub (status false) (status true).
Proof. intros v bs t (w & m & X & S & E). exists w, m. split; [now apply sub_unsigned|]. split; [now apply sub_sized|auto]. Qed.
Lemma sub_local : sub1 (local_time false) (local_time true).
Proof.
  intros bs t (tl & b & n & o1 & o2 & o3 & -> & Hh & [->|[E _]] & X); [|discriminate]. exists tl, b, 3, o1, o2, o3. split; [auto|]. split; [auto|]. split; [auto|].
  revert X. refine (sub_fields _ _ _ _ _). repeat (constructor; [refine (sub1_opt _ _ _ _); auto with sub|]). constructor.
Qed.
Lemma sub_time : sub (time false) (time true).
Proof.
  intros o bs t [X|[(m & X & E)|[(tag & m & X & E)|[(tag & X & E)|[E _]]]]]; [left; exact X| | | |discriminate].
  - right; left. exists m. split; [now apply sub_unsigned|auto].
  - right; right; left. exists tag, m. split; [|auto]. revert X. subs.
  - right; right; right; left. exists tag. split; [|auto]. revert X. refine (sub_structure _ _ _ _ _). constructor; [refine (sub1_opt _ _ _ (sub_unsigned _))|]. constructor; [exact sub_local|constructor].
Qed.
Hint Resolve sub_value sub_status sub_time : sub.
Lemma sub_entry : sub (entry false) (entry true).
Proof.
  intros [e b] bs t. unfold entry. refine (sub_structure _ _ _ _ _). repeat (apply Forall2_cons; [first [exact (sub1_refl _)|refine (sub1_opt _ _ _ _); solve [auto with sub nocore]|refine (sub1_lang _ _ _ _); solve [auto with sub nocore]|idtac]|]); [|apply Forall2_nil].
  intros bs' t' [X E]. split; [|exact E]. revert X. apply sub_optional, sub_value.
Qed.
Lemma sub_list : sub (value_list false) (value_list true).
Proof. intros l bs t [X|(raw & X & E)]; [left; exact X|]. right. exists raw. split; [|exact E]. revert X. apply sub_sequence, sub_entry. Qed.
Lemma sub_tupel : sub (tupel false) (tupel true). Proof. intros u bs t. unfold tupel. subs. Qed.
Lemma sub_period : sub (period false) (period true). Proof. intros u bs t. unfold period. subs. Qed.
Hint Resolve sub_list sub_tupel sub_period : sub.
Lemma sub_ppv_content tag : sub (ppv_content false tag) (ppv_content true tag).
Proof.
  intros d bs t [(E & o & X & D)|[(E & o & X & D)|[(E & o & X & D)|(E & o & X & D)]]].
  - left. split; [auto|]. exists o. split; [|auto]. revert X. apply sub_optional, sub_value.
  - right; left. split; [auto|]. exists o. split; [|auto]. revert X. apply sub_optional, sub_period.
  - right; right; left. split; [auto|]. exists o. split; [|auto]. revert X. apply sub_optional, sub_tupel.
  - right; right; right. split; [auto|]. exists o. split; [|auto]. now apply sub_time.
Qed.
Hint Resolve sub_ppv_content : sub.
Lemma sub_ppv : sub (proc_par_value false) (proc_par_value true).
Proof.
  intros o bs t [X|[(m & d & X & E)|[E _]]]; [left; exact X| |discriminate]. right; left. exists m, d. split; [|auto]. revert X. subs.
Qed.
Hint Resolve sub_ppv : sub.
Lemma sub_upto d : sub (tree_upto false d) (tree_upto true d).
Proof.
  induction d as [|d IH]; intros [name v ch] bs t; [auto|]. cbn [tree_upto]. refine (sub_structure _ _ _ _ _).
  constructor; [exact (sub1_refl _)|]. constructor; [refine (sub1_lang _ _ _ sub_ppv)|]. constructor; [|constructor].
  intros bs' t' [X|(l & X & E)]; [left; exact X|]. right. exists l. split; [|exact E]. revert X. apply sub_sequence, sub_optional, IH.
Qed.
Lemma sub_tree : sub (tree false) (tree true).
Proof. intros v bs t (d & X). exists d. now apply sub_upto. Qed.
Hint Resolve sub_tree : sub.
Lemma sub_header_entry : sub (header_entry false) (header_entry true). Proof. intros u bs t. unfold header_entry. subs. Qed.
Lemma sub_value_entry : sub (value_entry false) (value_entry true). Proof. intros u bs t. unfold value_entry. subs. Qed.
Lemma sub_list_of {A} (W W' : lang A) : sub W W' -> sub (list_of W) (list_of W').
Proof. intros HW. now apply sub_required, sub_sequence, sub_required. Qed.
Lemma sub_values : sub (list_of (value_entry false)) (list_of (value_entry true)). Proof. apply sub_list_of, sub_value_entry. Qed.
Lemma sub_headers : sub (list_of (header_entry false)) (list_of (header_entry true)). Proof. apply sub_list_of, sub_header_entry. Qed.
Hint Resolve sub_values sub_headers : sub.
Lemma sub_objects : sub (period_of_objects false) (period_of_objects true). Proof. intros u bs t. unfold period_of_objects. subs. Qed.
Lemma sub_periods : sub (list_of (period_of_objects false)) (list_of (period_of_objects true)). Proof. apply sub_list_of, sub_objects. Qed.
Lemma sub_periods2 : sub (sequence_of (optional (period false))) (sequence_of (optional (period true))). Proof. apply sub_sequence, sub_optional, sub_period. Qed.
Hint Resolve sub_periods sub_periods2 : sub.
Lemma sub_open_request : sub (open_request false) (open_request true). Proof. intros u bs t. unfold open_request. subs. Qed.
Lemma sub_open_response : sub (open_response false) (open_response true). Proof. intros u bs t. unfold open_response. subs. Qed.
Lemma sub_profile_request : sub (profile_request false) (profile_request true). Proof. intros u bs t. unfold profile_request. subs. Qed.
Lemma sub_pack_response : sub (profile_pack_response false) (profile_pack_response true). Proof. intros u bs t. unfold profile_pack_response. subs. Qed.
Lemma sub_profile_list : sub (profile_list_response false) (profile_list_response true). Proof. intros u bs t. unfold profile_list_response. subs. Qed.
Lemma sub_proc_response : sub (proc_parameter_response false) (proc_parameter_response true). Proof. intros u bs t. unfold proc_parameter_response. subs. Qed.
Lemma sub_set : sub (set_proc_parameter_request false) (set_proc_parameter_request true). Proof. intros u bs t. unfold set_proc_parameter_request. subs. Qed.
Lemma sub_list_response : sub (list_response false) (list_response true). Proof. intros u bs t. unfold list_response. subs. Qed.
Lemma sub_attention : sub (attention false) (attention true). Proof. intros u bs t. unfold attention. subs. Qed.
Lemma sub_content tag : sub (body_content false tag) (body_content true tag).
Proof.
  intros d bs t X. unfold body_content in *.
  repeat (destruct X as [X|X]; [left; destruct X as (E & m & X & D); split; [exact E|]; exists m; split; [|exact D]; revert X;
    first [exact (fun x => x)|apply sub_open_request|apply sub_open_response|apply sub_profile_request|apply sub_pack_response|apply sub_profile_list|
      apply sub_proc_response|apply sub_set|apply sub_list_response|apply sub_attention]|right]). destruct X as [E _]. discriminate.
Qed.
Hint Resolve sub_content : sub.
Lemma sub_body : sub (body false) (body true).
Proof. intros o bs t [(m & d & X & E)|[E _]]; [|discriminate]. left. exists m, d. split; [|auto]. revert X. subs. Qed.
Lemma sub_message : sub (message false) (message true).
Proof.
  intros m bs t (tl & b & cb & e & c & -> & Hh & X & EC & X1 & HL & HC & [->|[E _]]); [|discriminate].
  exists tl, b, cb, [0], c. split; [auto|]. split; [auto|]. split; [|split; [auto|split; [now apply sub_unsigned|auto]]].
  revert X. refine (sub_fields _ _ _ _ _). constructor; [exact (sub1_refl _)|]. repeat (constructor; [refine (sub1_opt _ _ _ (sub_unsigned _))|]). constructor; [refine (sub1_lang _ _ _ sub_body)|constructor].
Qed.
Lemma sub_file ms bs t : file false ms bs t -> file true ms bs t.
Proof. induction 1; [constructor|now constructor|constructor; auto; now apply sub_message|discriminate]. Qed.

(** *** Files *)
Lemma damaged_iff bs t : message_or_bad None bs t <-> damaged true bs t.
Proof.
  unfold message_or_bad, damaged. split.
  - intros ([[[ti gi] ab] mb] & hb & b2 & -> & (tl & b & -> & Hh & X) & c & cb & e & -> & X1 & HL & -> & HC). rewrite !app_nil_r in *. cbn [app] in *.
    exists tl, b, cb, c, ti, gi, ab, mb. rewrite <- !app_assoc in *. auto 8.
  - intros (tl & b & cb & c & ti & gi & ab & mb & -> & Hh & X & X1 & HL & HC). exists (ti, gi, ab, mb), (tl ++ b), cb.
    rewrite <- app_assoc. split; [auto|]. split; [exists tl, b; auto|]. exists c, cb, []. rewrite app_nil_r. cbn [app]. auto.
Qed.
(** No message, be it damaged, starts here. *)
Definition stuck (t : list Z) : Prop := t <> [] /\ hd 0 t <> 0 /\
  forall b u, t = b ++ u -> (forall m, ~ message true m b u) /\ ~ damaged true b u.
Lemma accepted_hd r bs t : message_or_bad r bs t -> exists b u, bs = b :: u /\ b <> 0.
Proof.
  intros ([[[ti gi] ab] mb] & hb & b2 & -> & (tl & b & -> & Hh & X) & _). destruct (header_type _ _ _ [] Hh) as (c & u & -> & _ & HT). exists c. eexists. split; [reflexivity|].
  intros ->. revert HT. vm_compute. discriminate.
Qed.
Lemma file_ovf fuel : forall msgs s r s', okbuf s -> file_loop fuel msgs s = Ret (r, s') -> ovf s = true -> ovf s' = true.
Proof.
  induction fuel as [|fuel IH]; intros msgs s r s' Hs E Ho; cbn [file_loop] in E; unfold bind at 1, at_end in E; destruct (_ <=? _)%nat eqn:Ae; try (injection E as <- <-; auto); [discriminate|].
  apply Nat.leb_gt in Ae. apply bind_inv in E. destruct E as (b & s1 & E1 & E). unfold sml_buf_get_current_byte in E1. destruct (nth_error _ _); [|discriminate]. injection E1 as <- <-.
  destruct (_ =? _).
  - apply bind_inv in E. destruct E as ([] & s2 & E1 & E). rewrite (update_eq 1) in E1. injection E1 as <-. eapply IH; [|exact E|exact Ho].
    destruct Hs. split; cbn; auto. unfold buffer_len in *. cbn. lia.
  - apply bind_inv in E. destruct E as (m & s2 & E1 & E). destruct (message_adv _ _ _ Hs E1) as [St _]. pose proof (st_ovf _ _ St Ho) as Ho2. pose proof (step_ok _ _ Hs St) as Hs2.
    unfold bind at 1, sml_buf_has_errors in E. destruct (error s2); [injection E as <- <-; auto|]. destruct m as [m|]; [|eapply IH; eauto].
    unfold bind at 1, sml_file_add_message in E. destruct (_ <=? _); [|discriminate]. eapply IH; [exact Hs2|exact E|exact Ho2].
Qed.
(** what the loop does is described by the language of files *)
Lemma file_loop_lang fuel : forall msgs s r s', good s -> file_loop fuel msgs s = Ret (r, s') -> ovf s' = false ->
  exists ms bs t, r = msgs ++ ms /\ rest s = bs ++ t /\ file true ms bs t /\
    if error s' then stuck t else t = [] /\ s' = at_ s (length bs) false.
Proof.
  induction fuel as [|fuel IH]; intros msgs s r s' G E Ho; destruct (rest s) as [|b u] eqn:R; cbn [file_loop] in E; unfold bind at 1 in E;
    try rewrite (at_end_nil _ R) in E; try rewrite (at_end_cons _ _ _ R) in E.
  1, 3: injection E as <- <-; exists [], [], []; nil0; rewrite app_nil_r; split; [auto|]; split; [auto|]; split; [constructor|]; destruct G as (_ & _ & -> & _); auto.
  { discriminate. }
  unfold bind at 1 in E. rewrite (current_cons _ _ _ R) in E. change SML_MESSAGE_END with 0 in E. destruct (Z.eqb_spec b 0) as [Hb|Hb]; [subst b|].
  - unfold bind at 1 in E. rewrite (update_eq 1) in E.
    assert (EQ : set_cursor (cursor s + 1) s = at_ s (length [0]) false) by (destruct s; unfold at_, set_ovf, set_cursor; cbn; now rewrite orb_false_r). rewrite EQ in E.
    assert (R1 : rest s = [0] ++ u) by exact R. destruct (IH _ _ _ _ (good_at _ _ _ G R1) E Ho) as (ms & bs & t & -> & R2 & X & Y).
    rewrite (at_app _ _ _ _ R1) in R2. exists ms, (0 :: bs), t. split; [auto|]. split; [cbn [app]; now rewrite R2|]. split; [now constructor|].
    destruct (error s'); [exact Y|]. destruct Y as (-> & ->). split; [auto|]. now rewrite at_at.
  - apply bind_inv in E. destruct E as (m & s2 & E1 & E). destruct (message_adv _ _ _ (proj1 G) E1) as [St _]. pose proof (step_ok _ _ (proj1 G) St) as Hs2.
    unfold bind at 1, sml_buf_has_errors in E. destruct (error s2) eqn:He.
    + injection E as <- <-. exists [], [], (b :: u). rewrite app_nil_r, He. split; [auto|]. split; [auto|]. split; [constructor|]. split; [discriminate|]. split; [exact Hb|].
      assert (HN : forall x bs t, b :: u = bs ++ t -> ~ message_or_bad x bs t).
      { intros x bs t EQ X. destruct (proj2 (acc_message s G x (at_ s (length bs) false))) as (E2 & He2 & _); [exists bs, t; rewrite R; auto|]. rewrite E2 in E1. injection E1 as <- <-. congruence. }
      intros bs t EQ. split; [intros m' X; apply message_iff in X|intros X; apply damaged_iff in X]; eapply HN; eauto.
    + assert (Ho2 : ovf s2 = false).
      { destruct (ovf s2) eqn:Ho2; [|auto]. rewrite <- Ho. symmetry. destruct m as [m|]; [|eapply file_ovf; eauto].
        unfold bind at 1, sml_file_add_message in E. destruct (_ <=? _); [|discriminate]. eapply file_ovf; [exact Hs2|exact E|exact Ho2]. }
      destruct (proj1 (acc_message s G m s2)) as (b1 & t1 & R1 & X1 & ->); [auto|].
      assert (HI : exists msgs', file_loop fuel msgs' (at_ s (length b1) false) = Ret (r, s') /\ msgs' = msgs ++ match m with Some x => [x] | None => [] end).
      { destruct m as [m|]; [|exists msgs; now rewrite app_nil_r]. unfold bind at 1, sml_file_add_message in E. destruct (_ <=? _); [|discriminate]. now exists (msgs ++ [m]). }
      destruct HI as (msgs' & E2 & ->). destruct (IH _ _ _ _ (good_at _ _ _ G R1) E2 Ho) as (ms & bs & t & -> & R2 & X & Y). rewrite (at_app _ _ _ _ R1) in R2. subst t1.
      exists (match m with Some x => [x] | None => [] end ++ ms), (b1 ++ bs), t. rewrite <- !app_assoc. split; [auto|]. split; [now rewrite <- R|].
      split; [destruct m; [constructor; auto; now apply message_iff|apply file_damaged; auto; now apply damaged_iff]|].
      destruct (error s'); [exact Y|]. destruct Y as (-> & ->). split; [auto|]. now rewrite at_at, app_length.
Qed.
(** and the loop does what the language says *)
Lemma file_lang_loop ms bs t : file true ms bs t -> forall msgs s fuel, good s -> rest s = bs ++ t -> (length (bs ++ t) <= fuel)%nat ->
  Z.of_nat (length msgs + length ms) <= 32767 ->
  exists fuel', (length t <= fuel')%nat /\ file_loop fuel msgs s = file_loop fuel' (msgs ++ ms) (at_ s (length bs) false).
Proof.
  induction 1 as [t|ms bs t _ IH|m ms b bs t X _ IH|ms b bs t _ X _ IH]; intros msgs s fuel G R HF HL.
  - exists fuel. rewrite app_nil_r. nil0. auto.
  - cbn [app length] in HF. destruct fuel as [|fuel]; [lia|]. assert (R1 : rest s = [0] ++ bs ++ t) by exact R.
    destruct (IH msgs (at_ s (length [0]) false) fuel (good_at _ _ _ G R1)) as (f' & HF' & E); [now rewrite (at_app _ _ _ _ R1)|lia|auto|].
    exists f'. split; [auto|]. rewrite at_at in E. cbn [length orb Nat.add] in *. rewrite <- E. cbn [file_loop]. cbn [app] in R. unfold bind at 1. rewrite (at_end_cons _ _ _ R).
    unfold bind at 1. rewrite (current_cons _ _ _ R). cbn [Z.eqb SML_MESSAGE_END]. unfold bind at 1. rewrite (update_eq 1). f_equal.
    destruct s; unfold at_, set_ovf, set_cursor; cbn; now rewrite orb_false_r.
  - assert (Y : message_or_bad (Some m) b (bs ++ t)) by (now apply message_iff). rewrite <- app_assoc in *.
    destruct (accepted_hd _ _ _ Y) as (c & u & EQ & Hc). rewrite app_length in HF. destruct fuel as [|fuel]; [subst b; cbn in HF; lia|].
    destruct (proj2 (acc_message s G (Some m) (at_ s (length b) false))) as (E2 & He2 & _); [eauto|].
    cbn [length] in HL. destruct (IH (msgs ++ [m]) (at_ s (length b) false) fuel (good_at _ _ _ G R)) as (f' & HF' & E).
    { now rewrite (at_app _ _ _ _ R). } { subst b. cbn in HF. lia. } { rewrite app_length. cbn [length]. lia. }
    exists f'. split; [auto|]. rewrite at_at, <- app_length, <- app_assoc in E. change ([m] ++ ms) with (m :: ms) in E. cbn [orb] in E. rewrite <- E. cbn [file_loop].
    assert (R3 : rest s = c :: u ++ bs ++ t) by (rewrite R, EQ; reflexivity). unfold bind at 1. rewrite (at_end_cons _ _ _ R3). unfold bind at 1. rewrite (current_cons _ _ _ R3).
    change SML_MESSAGE_END with 0. rewrite (proj2 (Z.eqb_neq c 0) Hc). unfold bind at 1. rewrite E2. unfold bind at 1, sml_buf_has_errors. rewrite He2.
    unfold bind at 1, sml_file_add_message. rewrite (proj2 (Z.leb_le _ _)) by lia. reflexivity.
  - assert (Y : message_or_bad None b (bs ++ t)) by (now apply damaged_iff). rewrite <- app_assoc in *.
    destruct (accepted_hd _ _ _ Y) as (c & u & EQ & Hc). rewrite app_length in HF. destruct fuel as [|fuel]; [subst b; cbn in HF; lia|].
    destruct (proj2 (acc_message s G None (at_ s (length b) false))) as (E2 & He2 & _); [eauto|].
    destruct (IH msgs (at_ s (length b) false) fuel (good_at _ _ _ G R)) as (f' & HF' & E).
    { now rewrite (at_app _ _ _ _ R). } { subst b. cbn in HF. lia. } { auto. }
    exists f'. split; [auto|]. rewrite at_at, <- app_length in E. cbn [orb] in E. rewrite <- E. cbn [file_loop].
    assert (R3 : rest s = c :: u ++ bs ++ t) by (rewrite R, EQ; reflexivity). unfold bind at 1. rewrite (at_end_cons _ _ _ R3). unfold bind at 1. rewrite (current_cons _ _ _ R3).
    change SML_MESSAGE_END with 0. rewrite (proj2 (Z.eqb_neq c 0) Hc). unfold bind at 1. rewrite E2. unfold bind at 1, sml_buf_has_errors. now rewrite He2.
Qed.
Lemma good_start l : bytes_ok l -> fits l -> good (start l).
Proof. intros HB HF. split; [now apply start_ok|]. split; [exact HF|auto]. Qed.
End WithHost.
