(** The workaround for DZG meters (C45-C47). *)
From Coq Require Import SpecFloat.
From Verif Require Import Base Buf Crc16 Number OctetString Boolean Value Time SList Lib Wf Safe Safe2 Ctx Spec TL Inv FileFacts Reads NumFacts PropsNumber Double PropsDouble Dzg.

(** *** Specification: the list parser without the workaround *)
Section Plain.
Context {H : Host}.
Definition rest_here : P (list Z) := fun s => Ret (rest s, s).
(** An entry as the field parsers return it, and the bytes from the value field
    to the end of the input. *)
Definition plain_entry : P (option (list_entry * list Z)) :=
  error_label (
  expect_list 7 (
  obj_name <-? sml_octet_string_parse ;;
  status <-? sml_status_parse ;;
  val_time <-? sml_time_parse ;;
  unit <-? sml_u8_parse ;;
  scaler <-? sml_i8_parse ;;
  value_field <- rest_here ;;
  e <- at_end ;;
  if (e : bool) then ret None else
  value <-? sml_value_parse ;;
  value_signature <-? sml_octet_string_parse ;;
  ret (Some (mkEntry obj_name status val_time unit scaler value value_signature, value_field)))).
Fixpoint plain_loop (fuel : nat) (elems : Z) : P (option (list (list_entry * list Z))) :=
  if elems <=? 0 then ret (Some []) else
  match fuel with
  | O => out_of_fuel
  | S fuel' =>
      r <- plain_entry ;;
      e <- sml_buf_has_errors ;;
      if (e : bool) then ret None else
      match r with
      | None => fail NullDeref
      | Some l => t <- plain_loop fuel' (elems - 1) ;; ret (match t with None => None | Some t => Some (l :: t) end)
      end
  end.
Definition plain_list : P (list (list_entry * list Z)) :=
  sk <- sml_buf_optional_is_skipped ;;
  if negb (sk =? 0) then ret [] else
  t <- sml_buf_get_next_type ;;
  if negb (t =? SML_TYPE_LIST) then set_error ;;; ret [] else
  elems <- sml_buf_get_next_length ;;
  r <- with_fuel (fun fuel => plain_loop fuel elems) ;;
  match r with
  | Some l => ret l
  | None => set_error ;;; ret []
  end.
(** A type made unsigned, keeping the width. *)
Definition as_unsigned (e : list_entry) : list_entry :=
  mkEntry (le_obj_name e) (le_status e) (le_val_time e) (le_unit e) (le_scaler e)
    (match le_value e with None => None | Some v => Some (mkValue (96 + v_type v mod 16) (v_data v)) end) (le_value_signature e).
(** Entry number [i] follows an affected serial number, is the power object, and
    its value field starts with a byte 0xX1, 0xX2 or 0xX3 with X < 8. *)
Definition corrected (raw : list (list_entry * list Z)) (i : nat) : Prop :=
  (exists j e f, (j < i)%nat /\ nth_error raw j = Some (e, f) /\ affected e) /\
  exists e f, nth_error raw i = Some (e, f) /\ le_obj_name e = Some power_name /\ hd 0 f < 128 /\ 1 <= hd 0 f mod 16 <= 3.

(** *** The parser is the plain parser followed by the adjustment *)
Definition omap {A B} (g : A -> B) (o : outcome (A * sbuf)) : outcome (B * sbuf) :=
  match o with Ret (a, s) => Ret (g a, s) | Fault f => Fault f | NoFuel => NoFuel end.
Definition sim {A B} (g : A -> B) (p : P B) (q : P A) : Prop := forall s, okbuf s -> p s = omap g (q s).
Definition smallb (f : list Z) : bool := let v := Z.land (hd 0 f) (Z.lor SML_ANOTHER_TL SML_LENGTH_FIELD) in (v =? 1) || (v =? 2) || (v =? 3).
Definition some_map {A B} (g : A -> B) (o : option A) : option B := match o with None => None | Some x => Some (g x) end.

Lemma sim_field {A B C} n (p : P A) (Q1 : A -> Prop) (k : A -> P (option B)) (k' : A -> P (option C)) g : safe n p Q1 ->
  (forall v, Q1 v -> sim (some_map g) (k v) (k' v)) -> sim (some_map g) (field p k) (field p k').
Proof.
  intros HS HK s Hs. specialize (HS s Hs). unfold field, wp, bind, sml_buf_has_errors, ret in *.
  destruct (p s) as [[v s1]| |]; [|contradiction|contradiction]. destruct HS as [St Po]. pose proof (step_ok _ _ Hs St) as Hs1.
  destruct (error s1) eqn:Er; [reflexivity|]. apply (HK v (proj2 (Po eq_refl)) s1 Hs1).
Qed.
Lemma sim_label {A B} (p : P (option B)) (q : P (option A)) g : sim (some_map g) p q -> sim (some_map g) (error_label p) (error_label q).
Proof.
  intros HS s Hs. unfold error_label, bind. rewrite (HS s Hs). destruct (q s) as [[[x|] s']| |]; reflexivity.
Qed.
Lemma sim_expect {A B} n (p : P (option B)) (q : P (option A)) g : sim (some_map g) p q -> sim (some_map g) (expect_list n p) (expect_list n q).
Proof.
  intros HS s Hs. unfold expect_list, bind. 
  assert (HT : wp sml_buf_get_next_type (fun _ s' => okbuf s') s).
  { apply wp_next_type; intros; auto. }
  unfold wp in HT. destruct (sml_buf_get_next_type s) as [[t s1]| |]; [|contradiction|contradiction].
  destruct (negb (t =? SML_TYPE_LIST)); [reflexivity|]. pose proof (next_length_safe s1 HT) as HL. unfold wp in HL.
  destruct (sml_buf_get_next_length s1) as [[l s2]| |]; [|contradiction|contradiction].
  destruct (negb (l =? n)); [reflexivity|]. apply HS. eapply step_ok; [exact HT|apply HL].
Qed.
Definition adjust1 (w : bool) (r : list_entry * list Z) : list_entry * bool := worked w (smallb (snd r)) (fst r).
Lemma entry_sim w : sim (some_map (adjust1 w)) (sml_list_entry_parse w) plain_entry.
Proof.
  apply sim_label, sim_expect.
  eapply sim_field; [apply octet_safe|intros obj_name H1].
  eapply sim_field; [apply status_safe|intros status H2].
  eapply sim_field; [apply time_safe|intros val_time H3].
  eapply sim_field; [apply u8_safe|intros unit H4].
  eapply sim_field; [apply i8_safe|intros scaler H5].
  intros s Hs. unfold bind at 4, rest_here. cbv beta iota. destruct (rest s) as [|b f] eqn:R.
  - unfold bind. rewrite (at_end_nil _ R). reflexivity.
  - unfold bind at 1 4. rewrite (at_end_cons _ _ _ R). unfold bind at 1. rewrite (current_cons _ _ _ R). revert s Hs R.
    match goal with |- forall s, okbuf s -> rest s = _ -> ?p s = omap ?g (?q s) => cut (sim g p q); [intros HC s Hs _; now apply HC|] end.
    eapply sim_field; [apply value_safe|intros value H6].
    eapply sim_field; [apply octet_safe|intros value_signature H7].
    intros s Hs. unfold bind. rewrite apply_eq by exact H6. reflexivity.
Qed.
Fixpoint adjust (w : bool) (l : list (list_entry * list Z)) : sml_list :=
  match l with
  | [] => []
  | r :: t => fst (adjust1 w r) :: adjust (snd (adjust1 w r)) t
  end.
Lemma loop_sim fuel : forall n w, sim (some_map (adjust w)) (list_loop fuel n w) (plain_loop fuel n).
Proof.
  induction fuel as [|fuel IH]; intros n w s Hs; cbn [list_loop plain_loop]; destruct (n <=? 0); try reflexivity.
  unfold bind at 1 4. pose proof (list_entry_safe w s Hs) as HS. pose proof (entry_sim w s Hs) as E. unfold wp in HS. rewrite E in *.
  destruct (plain_entry s) as [[o s1]| |]; [|contradiction|contradiction]. cbn [omap] in *.
  unfold bind at 1 3, sml_buf_has_errors. destruct (error s1) eqn:Er; [reflexivity|]. destruct HS as [St Po].
  destruct o as [r|]; [|reflexivity]. cbn [some_map] in *. destruct (adjust1 w r) as [l' w'] eqn:EA.
  unfold bind. rewrite (IH (n - 1) w' s1) by (eapply step_ok; eauto). destruct (plain_loop fuel (n - 1) s1) as [[[t|] s2]| |]; try reflexivity.
  cbn [omap some_map ret]. unfold ret. cbn [omap some_map adjust]. rewrite EA. reflexivity.
Qed.
Lemma list_sim : sim (adjust false) sml_list_parse plain_list.
Proof.
  intros s Hs. unfold sml_list_parse, plain_list, bind at 1 7.
  assert (HO : wp sml_buf_optional_is_skipped (fun _ s' => okbuf s') s).
  { apply wp_optional; intros; auto. eapply step_ok; [exact Hs|apply step_adv; auto; lia]. }
  unfold wp in HO. destruct (sml_buf_optional_is_skipped s) as [[k s0]| |]; [|contradiction|contradiction].
  destruct (negb (k =? 0)); [reflexivity|].
  assert (HT : wp sml_buf_get_next_type (fun _ s' => okbuf s') s0) by (apply wp_next_type; intros; auto).
  unfold bind at 1 6. unfold wp in HT. destruct (sml_buf_get_next_type s0) as [[t s1]| |]; [|contradiction|contradiction].
  destruct (negb (t =? SML_TYPE_LIST)); [reflexivity|]. pose proof (next_length_safe s1 HT) as HL. unfold wp in HL.
  unfold bind at 1 4. destruct (sml_buf_get_next_length s1) as [[l s2]| |]; [|contradiction|contradiction].
  assert (Hs2 : okbuf s2) by (eapply step_ok; [exact HT|apply HL]).
  unfold bind, with_fuel. rewrite (loop_sim _ l false s2 Hs2). destruct (plain_loop _ l s2) as [[[t'|] s3]| |]; reflexivity.
Qed.

(** Every plain entry comes with the parse of its value field. *)
Definition value_read (r : list_entry * list Z) : Prop := exists s s', okbuf s /\ small s /\ error s = false /\ rest s = snd r /\
  sml_value_parse s = Ret (le_value (fst r), s') /\ error s' = false.
Lemma entry_read s r s' : okbuf s -> small s -> error s = false -> plain_entry s = Ret (Some r, s') -> error s' = false -> value_read r.
Proof.
  intros Hs Sm He E Er. unfold plain_entry, error_label in E. apply bind_inv in E. destruct E as (o & s1 & E & EL).
  destruct o as [r'|]; [|apply err_null_inv in EL; congruence]. injection EL as -> ->.
  unfold expect_list in E. apply bind_inv in E. destruct E as (ty & s1 & Et & E).
  assert (Hs1 : okbuf s1 /\ small s1).
  { assert (HT : wp sml_buf_get_next_type (fun _ s' => okbuf s' /\ small s') s) by (apply wp_next_type; intros; auto). unfold wp in HT. now rewrite Et in HT. }
  destruct (negb _); [apply err_null_inv in E; congruence|].
  apply bind_inv in E. destruct E as (l & s2 & El & E). destruct (negb _); [apply err_null_inv in E; congruence|].
  assert (K : forall s s', step s s' -> okbuf s /\ small s -> okbuf s' /\ small s').
  { intros x y St [O1 S1]. split; [eapply step_ok; eauto|]. unfold small, buffer_len in *. now rewrite (st_buf _ _ St). }
  pose proof (K _ _ (step_of _ _ _ _ _ _ next_length_safe (proj1 Hs1) El) Hs1) as Hs2.
  apply field_inv in E; auto. destruct E as (v1 & s3 & E3 & Er3 & E). pose proof (K _ _ (step_of _ _ _ _ _ _ octet_safe (proj1 Hs2) E3) Hs2) as Hs3.
  apply field_inv in E; auto. destruct E as (v2 & s4 & E4 & Er4 & E). pose proof (K _ _ (step_of _ _ _ _ _ _ status_safe (proj1 Hs3) E4) Hs3) as Hs4.
  apply field_inv in E; auto. destruct E as (v3 & s5 & E5 & Er5 & E). pose proof (K _ _ (step_of _ _ _ _ _ _ time_safe (proj1 Hs4) E5) Hs4) as Hs5.
  apply field_inv in E; auto. destruct E as (v4 & s6 & E6 & Er6 & E). pose proof (K _ _ (step_of _ _ _ _ _ _ u8_safe (proj1 Hs5) E6) Hs5) as Hs6.
  apply field_inv in E; auto. destruct E as (v5 & s7 & E7 & Er7 & E). pose proof (K _ _ (step_of _ _ _ _ _ _ i8_safe (proj1 Hs6) E7) Hs6) as Hs7.
  apply bind_inv in E. destruct E as (f & s8 & E8 & E). unfold rest_here in E8. injection E8 as <- <-.
  apply bind_inv in E. destruct E as (b & s8 & E8 & E). assert (s8 = s7) as -> by (unfold at_end in E8; injection E8; congruence).
  destruct b; [discriminate|].
  apply field_inv in E; auto. destruct E as (v6 & s8 & E9 & Er8 & E).
  apply field_inv in E; auto. destruct E as (v7 & s9 & E10 & Er9 & E). injection E as <- <-.
  exists s7, s8. cbn [fst snd le_value]. destruct Hs7. auto 10.
Qed.
Lemma loop_read fuel : forall n s l s', okbuf s -> small s -> error s = false -> plain_loop fuel n s = Ret (Some l, s') -> error s' = false -> Forall value_read l.
Proof.
  induction fuel as [|fuel IH]; intros n s l s' Hs Sm He E Er; cbn [plain_loop] in E; destruct (n <=? 0); try discriminate; try (injection E as <- <-; constructor).
  apply bind_inv in E. destruct E as (o & s1 & E1 & E). unfold bind at 1, sml_buf_has_errors in E. destruct (error s1) eqn:Er1; [discriminate|].
  destruct o as [r|]; [|discriminate]. apply bind_inv in E. destruct E as (t & s2 & E2 & E). destruct t as [t|]; [|discriminate]. injection E as <- <-.
  constructor; [eapply entry_read; eauto|].
  pose proof (list_entry_safe false s Hs) as HS. unfold wp in HS. rewrite (entry_sim false s Hs), E1 in HS. cbn [omap] in HS. destruct HS as [St _].
  apply (IH (n - 1) s1 t s2); auto.
  - eapply step_ok; eauto.
  - unfold small, buffer_len in *. now rewrite (st_buf _ _ St).
Qed.
Lemma list_read s l s' : okbuf s -> small s -> error s = false -> plain_list s = Ret (l, s') -> error s' = false -> Forall value_read l.
Proof.
  intros Hs Sm He E Er. unfold plain_list in E. apply bind_inv in E. destruct E as (k & s0 & E0 & E).
  destruct (negb (k =? 0)); [injection E as <- <-; constructor|].
  assert (HO : wp sml_buf_optional_is_skipped (fun k s' => k = 0 -> s' = s) s) by (apply wp_optional; intros; auto; discriminate).
  apply bind_inv in E. destruct E as (t & s1 & E1 & E). destruct (negb (t =? _)); [unfold bind in E; cbn in E; injection E as <- <-; constructor|].
  apply bind_inv in E. destruct E as (n & s2 & E2 & E). apply bind_inv in E. destruct E as (o & s3 & E3 & E).
  destruct o as [l'|]; [|unfold bind in E; cbn in E; injection E as <- <-; constructor]. injection E as -> ->.
  assert (K : forall s s', step s s' -> okbuf s /\ small s -> okbuf s' /\ small s').
  { intros x y St [O1 S1]. split; [eapply step_ok; eauto|]. unfold small, buffer_len in *. now rewrite (st_buf _ _ St). }
  assert (H0 : (okbuf s0 /\ small s0)).
  { assert (HW : wp sml_buf_optional_is_skipped (fun _ s' => okbuf s' /\ small s') s).
    { apply wp_optional; intros; auto. apply (K s); auto. apply step_adv; auto; lia. }
    unfold wp in HW. now rewrite E0 in HW. }
  assert (H1 : okbuf s1 /\ small s1).
  { assert (HT : wp sml_buf_get_next_type (fun _ s' => okbuf s' /\ small s') s0) by (apply wp_next_type; intros; auto; destruct H0; auto). unfold wp in HT. now rewrite E1 in HT. }
  pose proof (K _ _ (step_of _ _ _ _ _ _ next_length_safe (proj1 H1) E2) H1) as [H2 Sm2].
  unfold with_fuel in E3.
  eapply loop_read; eauto. 
  pose proof (loop_sim (fuel_of s2) n false s2 H2) as SL. rewrite E3 in SL. cbn [omap] in SL.
  pose proof (list_loop_safe (fuel_of s2) n false s2 H2 (fuel_of_gt s2)) as SF. unfold wp in SF. rewrite SL in SF.
  eapply step_noerr; [apply SF|exact Er].
Qed.
End Plain.

Section Facts.
Context {H : Host}.
Lemma power_unaffected e : is_power e = true -> affectedb e = false.
Proof.
  unfold is_power, affectedb. destruct (le_obj_name e) as [n|]; [|reflexivity]. intros E. apply list_eqb_eq in E. subst n.
  destruct (le_value e) as [[t [|b| |]]|]; reflexivity.
Qed.
Lemma adjust_nth raw : forall w i, nth_error (adjust w raw) i = match nth_error raw i with
  | None => None
  | Some (e, f) => Some (if (w || existsb (fun r => affectedb (fst r)) (firstn i raw)) && is_power e && smallb f then forced e else e)
  end.
Proof.
  induction raw as [|[e f] raw IH]; intros w [|i]; try reflexivity; cbn [nth_error adjust firstn existsb]; unfold adjust1, worked; cbn [fst snd].
  - rewrite orb_false_r. destruct (affectedb e) eqn:EA; [|destruct (w && _ && _); reflexivity].
    destruct (is_power e) eqn:EP; [now rewrite (power_unaffected _ EP) in EA|]. rewrite andb_false_r. reflexivity.
  - rewrite IH. destruct (nth_error raw i) as [[e' f']|]; [|reflexivity]. do 2 f_equal. destruct (affectedb e).
    + cbn [snd orb]. rewrite orb_true_r. reflexivity.
    + cbn [orb]. destruct (w && is_power e && smallb f); reflexivity.
Qed.
Lemma smallb_iff f : bytes_ok f -> smallb f = true <-> hd 0 f < 128 /\ 1 <= hd 0 f mod 16 <= 3.
Proof.
  intros HB. assert (Hb : 0 <= hd 0 f < 256) by (destruct f as [|b f]; [cbn; lia|inversion HB; assumption]).
  set (b := hd 0 f) in *. unfold smallb. fold b.
  pose proof (byte_cases (fun b => Bool.eqb (let v := Z.land b (Z.lor SML_ANOTHER_TL SML_LENGTH_FIELD) in (v =? 1) || (v =? 2) || (v =? 3)) ((b <? 128) && (1 <=? b mod 16) && (b mod 16 <=? 3))) eq_refl b Hb) as E.
  cbv zeta in *. apply eqb_prop in E. rewrite E, !andb_true_iff, Z.ltb_lt, !Z.leb_le. tauto.
Qed.
Lemma corrected_iff raw i e f : nth_error raw i = Some (e, f) -> bytes_ok f ->
  (existsb (fun r => affectedb (fst r)) (firstn i raw) && is_power e && smallb f = true <-> corrected raw i).
Proof.
  intros HN HB. rewrite !andb_true_iff, (smallb_iff f HB), existsb_exists. unfold corrected, is_power. split.
  - intros (((r & HI & HA) & HP) & HS). split.
    + apply In_nth_error in HI. destruct HI as (j & Hj). assert (HL : (j < length (firstn i raw))%nat) by (apply nth_error_Some; congruence).
      rewrite firstn_length in HL. exists j, (fst r), (snd r). split; [lia|]. split; [|now apply affectedb_iff].
      rewrite <- surjective_pairing, <- Hj. rewrite <- (firstn_skipn i raw) at 1. apply nth_error_app1. rewrite firstn_length. lia.
    + exists e, f. split; auto. split; auto. destruct (le_obj_name e) as [n|]; [|discriminate]. apply list_eqb_eq in HP. now subst.
  - intros ((j & e0 & f0 & Hj & E0 & A0) & e1 & f1 & E1 & P1 & HS). rewrite HN in E1. injection E1 as <- <-. split; [split|exact HS].
    + exists (e0, f0). split; [|now apply affectedb_iff]. apply nth_error_In with j. 
      assert (HL : (i < length raw)%nat) by (apply nth_error_Some; congruence).
      rewrite <- (firstn_skipn i raw) in E0. rewrite nth_error_app1 in E0; auto. rewrite firstn_length. lia.
    + rewrite P1. now apply list_eqb_eq.
Qed.
Lemma forced_unsigned e : opt wf_value (le_value e) -> forced e = as_unsigned e.
Proof.
  intros HV. unfold forced, as_unsigned. destruct (le_value e) as [v|]; [|reflexivity]. do 2 f_equal. unfold force_unsigned. f_equal.
  cbn [opt] in HV. inversion HV as [b [HB HL]|b Hb|w m Hw Hm|w m Hw Hm|m Hm|m Hm]; subst; cbn [v_type]; try reflexivity;
  destruct Hw as [->|[->|[->| ->]]]; reflexivity.
Qed.
Lemma rest_bytes s : okbuf s -> bytes_ok (rest s).
Proof. intros [_ HB]. unfold rest. now apply Forall_skipn. Qed.
Lemma read_wf r : value_read r -> opt wf_value (le_value (fst r)) /\ bytes_ok (snd r).
Proof.
  intros (s & s' & Hs & Sm & He & R & E & Er). pose proof (value_safe s Hs) as HW. unfold wp in HW. rewrite E in HW. destruct HW as [_ Po].
  split; [apply Po, Er|]. rewrite <- R. now apply rest_bytes.
Qed.
End Facts.

(** ** C45 *)
Theorem C45_only_power_entries_change (H : Host) s l s' : (cursor s <= buffer_len s)%nat -> bytes_ok (buffer s) ->
  Z.of_nat (buffer_len s) < 2147483648 -> error s = false -> sml_list_parse s = Ret (l, s') -> error s' = false ->
  exists raw, plain_list s = Ret (raw, s') /\ length l = length raw /\
    forall i e f, nth_error raw i = Some (e, f) ->
      (corrected raw i -> nth_error l i = Some (as_unsigned e)) /\ (~ corrected raw i -> nth_error l i = Some e).
Proof.
  intros HC HB Sm He E Er. assert (Hs : okbuf s) by now split. pose proof (list_sim s Hs) as SL. rewrite E in SL.
  destruct (plain_list s) as [[raw s1]| |] eqn:EP; try discriminate. cbn [omap] in SL. injection SL as -> ->.
  pose proof (list_read s raw s1 Hs Sm He EP Er) as HR. exists raw. split; [reflexivity|]. split.
  - generalize false. clear. induction raw as [|r raw IH]; intros w; [reflexivity|]. cbn [adjust length]. now rewrite IH.
  - intros i e f HN. rewrite adjust_nth, HN. cbn [orb]. rewrite Forall_forall in HR. pose proof (HR (e, f) (nth_error_In _ _ HN)) as HV.
    destruct (read_wf _ HV) as [HW HF]. cbn [fst snd] in *. pose proof (corrected_iff raw i e f HN HF) as HI.
    rewrite <- (forced_unsigned e HW). destruct (_ && _ && _); split; intros HX; auto.
    + exfalso. apply HX. now apply HI.
    + exfalso. apply HI in HX. discriminate.
Qed.
Print Assumptions C45_only_power_entries_change.
Theorem C45_other_meters_unchanged (H : Host) s l s' : (cursor s <= buffer_len s)%nat -> bytes_ok (buffer s) ->
  Z.of_nat (buffer_len s) < 2147483648 -> error s = false -> sml_list_parse s = Ret (l, s') -> error s' = false ->
  exists raw, plain_list s = Ret (raw, s') /\ (Forall (fun r => ~ affected (fst r)) raw -> l = map fst raw).
Proof.
  intros HC HB Sm He E Er. destruct (C45_only_power_entries_change H s l s' HC HB Sm He E Er) as (raw & EP & HL & HA).
  exists raw. split; [exact EP|]. intros HN. apply nth_ext with (d := mkEntry None None None None None None None) (d' := mkEntry None None None None None None None).
  { now rewrite map_length. }
  intros i Hi. rewrite HL in Hi. destruct (nth_error raw i) as [[e f]|] eqn:Ei; [|apply nth_error_None in Ei; lia].
  destruct (HA i e f Ei) as [_ HU]. assert (HNC : ~ corrected raw i).
  { intros [(j & e0 & f0 & _ & E0 & A0) _]. rewrite Forall_forall in HN. apply (HN (e0, f0)); auto. eapply nth_error_In; eauto. }
  rewrite (nth_error_nth l i _ (HU HNC)). symmetry. apply nth_error_nth. rewrite nth_error_map, Ei. reflexivity.
Qed.
Print Assumptions C45_other_meters_unchanged.

(** ** C46 *)
(** The value field of the corrected entry: a TL byte for [n] = 1 or 2 data bytes
    of a signed or unsigned integer, and the data. *)
Theorem C46_power_is_unsigned (H : Host) s l s' : (cursor s <= buffer_len s)%nat -> bytes_ok (buffer s) ->
  Z.of_nat (buffer_len s) < 2147483648 -> error s = false -> sml_list_parse s = Ret (l, s') -> error s' = false ->
  exists raw, plain_list s = Ret (raw, s') /\ length l = length raw /\
    forall j i ej fj e tl data t, (j < i)%nat -> nth_error raw j = Some (ej, fj) -> affected ej ->
      nth_error raw i = Some (e, tl :: data ++ t) -> le_obj_name e = Some power_name ->
      (length data = 1%nat \/ length data = 2%nat) -> tl = 81 + Z.of_nat (length data) \/ tl = 97 + Z.of_nat (length data) ->
      exists e' f, nth_error l i = Some e' /\ le_obj_name e' = Some power_name /\
        sml_value_to_double (le_value e') = Ret f /\ denotes f (be_unsigned data).
Proof.
  intros HC HB Sm He E Er. assert (Hs : okbuf s) by now split.
  destruct (C45_only_power_entries_change H s l s' HC HB Sm He E Er) as (raw & EP & HL & HA).
  pose proof (list_read s raw s' Hs Sm He EP Er) as HR. exists raw. split; [exact EP|]. split; [exact HL|].
  intros j i ej fj e tl data t Hj Ej Aj Ei Pi HD HT. destruct (HA i e _ Ei) as [HU _]. 
  rewrite Forall_forall in HR. destruct (HR _ (nth_error_In _ _ Ei)) as (s5 & s6 & O5 & S5 & E5 & R5 & V5 & E6). cbn [fst snd] in *.
  assert (HBd : bytes_ok data).
  { pose proof (rest_bytes s5 O5) as HB5. rewrite R5 in HB5. inversion HB5 as [|? ? _ HB6]; subst. now apply Forall_app in HB6. }
  assert (exists signed, tl = tl_kind signed + 1 + Z.of_nat (length data)) as (signed & ET).
  { destruct HT as [->| ->]; [exists true|exists false]; cbn [tl_kind]; lia. }
  rewrite ET in R5. change ((tl_kind signed + 1 + Z.of_nat (length data)) :: data ++ t) with ([tl_kind signed + 1 + Z.of_nat (length data)] ++ data ++ t) in R5.
  destruct (value_number signed data t s5 S5 E5 R5 ltac:(lia)) as (m & Em & V & _). rewrite V in V5. injection V5 as V5 _.
  assert (HW : Z.to_nat (width (length data)) = length data) by (destruct HD as [->| ->]; reflexivity).
  rewrite HW, Nat.sub_diag in Em. cbn [repeat app] in Em.
  destruct (tl_kind_type signed) as (_ & _ & _ & TK).
  assert (HTy : 96 + to_u8 (Z.lor (to_u8 (tl_kind signed)) (width (length data))) mod 16 = 96 + Z.of_nat (length data)).
  { destruct HD as [->| ->], TK as [->| ->]; reflexivity. }
  assert (HCo : corrected raw i).
  { split; [exists j, ej, fj; auto|]. exists e, (tl :: data ++ t). split; [exact Ei|]. split; [exact Pi|]. cbn [hd].
    destruct HT as [->| ->], HD as [->| ->]; (split; [lia|]); split; vm_compute; discriminate. }
  exists (as_unsigned e). pose proof (HU HCo) as HN.
  destruct (C15_number_types H (96 + Z.of_nat (length data)) false (length data) m) as (f & r & F1 & F2 & F3 & F4).
  { destruct HD as [->| ->]; cbn; auto 10. }
  { rewrite Em. now rewrite host_length. }
  { rewrite Em. now apply host_ok. }
  exists f. split; [exact HN|]. split; [exact Pi|]. unfold as_unsigned. cbn [le_value]. rewrite <- V5. cbn [v_type v_data]. rewrite HTy. split; [exact F1|].
  assert (EV : mem_value false m = be_unsigned data) by (rewrite Em; cbn [mem_value]; now rewrite mem_u_host).
  rewrite <- EV. rewrite <- F4; [exact F2|]. rewrite EV. pose proof (be_range data HBd) as HBR. destruct HD as [HD|HD]; rewrite HD in HBR; vm_compute (256 ^ _) in HBR; change (2 ^ 53) with 9007199254740992; lia.
Qed.
Print Assumptions C46_power_is_unsigned.

(** ** C47 *)
(** An octet string of one or two bytes gets a number type (0x60) although its
    data is an octet string; sml_value_to_double gives 0 and writing the value
    writes an empty integer. *)
Theorem C47_type_confusion (H : Host) s l s' : (cursor s <= buffer_len s)%nat -> bytes_ok (buffer s) ->
  Z.of_nat (buffer_len s) < 2147483648 -> error s = false -> sml_list_parse s = Ret (l, s') -> error s' = false ->
  exists raw, plain_list s = Ret (raw, s') /\ length l = length raw /\
    forall j i ej fj e tl data t, (j < i)%nat -> nth_error raw j = Some (ej, fj) -> affected ej ->
      nth_error raw i = Some (e, tl :: data ++ t) -> le_obj_name e = Some power_name ->
      (length data = 1%nat \/ length data = 2%nat) -> tl = 1 + Z.of_nat (length data) ->
      le_value e = Some (mkValue 0 (VBytes data)) /\
      exists e' f, nth_error l i = Some e' /\ le_value e' = Some (mkValue 96 (VBytes data)) /\
        sml_value_to_double (le_value e') = Ret f /\ denotes f 0 /\
        forall pre b post er o, bytes_ok (pre ++ b :: post) -> exists o',
          sml_value_write (le_value e') (mkBuf (pre ++ b :: post) (length pre) er o) = Ret (tt, mkBuf (pre ++ 97 :: post) (length pre + 1) er o').
Proof.
  intros HC HB Sm He E Er. assert (Hs : okbuf s) by now split.
  destruct (C45_only_power_entries_change H s l s' HC HB Sm He E Er) as (raw & EP & HL & HA).
  pose proof (list_read s raw s' Hs Sm He EP Er) as HR. exists raw. split; [exact EP|]. split; [exact HL|].
  intros j i ej fj e tl data t Hj Ej Aj Ei Pi HD HT. destruct (HA i e _ Ei) as [HU _]. 
  rewrite Forall_forall in HR. destruct (HR _ (nth_error_In _ _ Ei)) as (s5 & s6 & O5 & S5 & E5 & R5 & V5 & E6). cbn [fst snd] in *.
  assert (HCo : corrected raw i).
  { split; [exists j, ej, fj; auto|]. exists e, (tl :: data ++ t). split; [exact Ei|]. split; [exact Pi|]. cbn [hd].
    subst tl. destruct HD as [->| ->]; (split; [lia|]); split; vm_compute; discriminate. }
  assert (HV : le_value e = Some (mkValue 0 (VBytes data))).
  { assert (R6 : rest s5 = [tl] ++ data ++ t) by exact R5. 
    assert (T0 : tl_field [tl] /\ tl_type [tl] = 0 /\ tl_nibbles [tl] = 1 + Z.of_nat (length data) /\ tl_length [tl] = Z.of_nat (length data) /\ tl <> 1).
    { subst tl. clear R6. destruct HD as [HD|HD]; rewrite HD.
      - change (1 + Z.of_nat 1) with 2. split; [exists [], 2; split; [reflexivity|]; split; [constructor|lia]|]. repeat split; discriminate.
      - change (1 + Z.of_nat 2) with 3. split; [exists [], 3; split; [reflexivity|]; split; [constructor|lia]|]. repeat split; discriminate. }
    destruct T0 as (T1 & T2 & T3 & T4 & T5). unfold sml_value_parse in V5. rewrite (unless_noskip _ _ _ _ R5 T5) in V5. unfold bind at 1 in V5. rewrite (type_fwd _ _ _ R6 T1), T2 in V5.
    unfold bind at 1 in V5. rewrite (current_cons _ _ _ R5) in V5. change (0 =? SML_TYPE_OCTET_STRING) with true in V5. cbv iota in V5. unfold bind in V5.
    destruct t as [|x t].
    - rewrite app_nil_r in R6. destruct (octet_end s5 [tl] data S5 R6 T1 T5 T2 ltac:(lia) T4) as (s7 & E7 & Er7). rewrite E7 in V5. unfold ret, sml_buf_has_errors in V5. rewrite Er7 in V5.
      injection V5 as _ <-. congruence.
    - rewrite (octet_fwd s5 [tl] data (x :: t) S5 R6 ltac:(discriminate) T1 T5 T2 ltac:(lia) T4) in V5. unfold ret, sml_buf_has_errors in V5. rewrite at_error, E5 in V5.
      injection V5 as V5 _. now rewrite <- V5. }
  split; [exact HV|]. exists (as_unsigned e). 
  assert (EU : le_value (as_unsigned e) = Some (mkValue 96 (VBytes data))) by (unfold as_unsigned; cbn [le_value]; now rewrite HV).
  destruct (C15_other_types H (mkValue 96 (VBytes data))) as (f & F1 & F2).
  { intros sg n HI. cbn [v_type typed_numbers In] in HI. repeat (destruct HI as [HI|HI]; [discriminate|]). exact HI. }
  exists f. split; [apply HU, HCo|]. rewrite EU. split; [reflexivity|]. split; [exact F1|]. split; [exact F2|].
  pose proof (writes_number true 96 [] ltac:(auto) ltac:(constructor) ltac:(cbn; lia)) as HWr. replace (host_order []) with (@nil Z) in HWr by (destruct H; reflexivity).
  intros pre b post er o HBB. destruct (proj1 (HWr pre [b] post er o HBB) eq_refl) as (out & o' & EW & _ & _ & HO).
  rewrite (HO (or_introl eq_refl)) in EW. exists o'. exact EW.
Qed.
Print Assumptions C47_type_confusion.

(** A list of three entries: the serial number of an affected meter, the power as
    a two byte signed integer, the power as an octet string. *)
Definition dzg_list : list Z :=
  [115] ++ [119; 7] ++ serial_name ++ [1; 1; 1; 1; 11; 10; 1; 68; 90; 71; 0; 2; 155; 241; 0; 1]
        ++ [119; 7] ++ power_name ++ [1; 1; 1; 1; 83; 128; 37; 1]
        ++ [119; 7] ++ power_name ++ [1; 1; 1; 1; 3; 128; 37; 1; 0].
Example dzg_example : let H : Host := LittleEndian in exists l s' raw e0 e1 e2 f0 t1 t2 f,
  sml_list_parse (mkBuf dzg_list 0 false false) = Ret (l, s') /\ error s' = false /\
  plain_list (mkBuf dzg_list 0 false false) = Ret (raw, s') /\ raw = [(e0, f0); (e1, 83 :: [128; 37] ++ t1); (e2, 3 :: [128; 37] ++ t2)] /\
  affected e0 /\ le_obj_name e1 = Some power_name /\ le_obj_name e2 = Some power_name /\
  map (fun e => sml_value_to_double (le_value e)) (skipn 1 l) = [Ret f; Ret (double_of_Z 0)] /\ f = double_of_Z 32805.
Proof.
  intros H. eexists _, _, _, _, _, _, _, _, _, _. split; [vm_compute; reflexivity|]. split; [reflexivity|].
  split; [vm_compute; reflexivity|]. split; [reflexivity|]. split.
  { split; [reflexivity|]. eexists. split; [reflexivity|]. split; [reflexivity|]. left. vm_compute. split; discriminate. }
  repeat split; vm_compute; reflexivity.
Qed.
