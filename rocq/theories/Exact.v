(** The converse of Round.v - Round3.v: if the parser returns what was written,
    then every element was readable. *)
From Verif Require Import Base Buf Crc16 Number OctetString Boolean Value Time SList Tree Bodies Message File
  Lib Wf Safe Safe2 Safe3 Ctx Spec TL Inv MinSize Reads Write TLWrite TLRound NumFacts PropsString Item Enc Dzg Round Round2 Round3.

Definition ne (t : list Z) : Prop := t <> [].
(** [t] goes on with a string, an omitted element or a list *)
Definition fol (t : list Z) : Prop := exists b u, t = b :: u /\ (b / 16 mod 8 * 16 = 0 \/ b / 16 mod 8 * 16 = 112).
Lemma fol_ne t : fol t -> ne t. Proof. intros (b & u & -> & _). discriminate. Qed.
(** [p] returns [v] from [enc i] only if [i] is readable; it then stops behind it. *)
Definition exact_on {A} (C : list Z -> Prop) (p : P A) (i : item) (v : A) : Prop :=
  forall s t s1, rest s = enc i ++ t -> C t -> error s = false -> small s -> p s = Ret (v, s1) -> error s1 = false ->
  every readable i /\ rest s1 = t /\ small s1.
Lemma ex_of {A} (C : list Z -> Prop) (p : P A) i v : (forall t, C t -> ne t) -> (every readable i -> reads p (enc i) v) ->
  (forall s t s1, rest s = enc i ++ t -> C t -> error s = false -> small s -> p s = Ret (v, s1) -> error s1 = false -> every readable i) ->
  exact_on C p i v.
Proof.
  intros HC HR HX s t s1 R Ct He Sm E Er. assert (HI : every readable i) by (eapply HX; eauto).
  rewrite (HR HI s t R (HC _ Ct) He Sm) in E. injection E as <-. split; [exact HI|]. split; [now apply at_app|now apply at_small].
Qed.
Lemma ex_reads {A} (p : P A) i v : every readable i -> reads p (enc i) v -> exact_on ne p i v.
Proof. intros HI HR. apply ex_of; auto. Qed.
Lemma ex_weaken {A} (C C' : list Z -> Prop) (p : P A) i v : (forall t, C' t -> C t) -> exact_on C p i v -> exact_on C' p i v.
Proof. intros HC HE s t s1 R Ct. apply HE; auto. Qed.

Lemma expect_go {B} n (k : P (option B)) s items t : 0 <= n <= 15 -> rest s = enc (IList n items) ++ t -> small s ->
  expect_list n k s = k (at_ s 1 false) /\ rest (at_ s 1 false) = flat_map enc items ++ t.
Proof.
  intros Hn R Sm. rewrite enc_list, count_text, <- app_assoc in R by lia. destruct (list_header n Hn) as (TF & TT & TN & TL).
  unfold expect_list. unfold bind at 1. rewrite (type_fwd _ _ _ R TF), TT. change (112 =? SML_TYPE_LIST) with true. cbn [negb].
  unfold bind at 1. rewrite (length_fwd _ _ _ Sm R TF) by lia. rewrite TL, Z.eqb_refl. cbn [negb]. split; [reflexivity|exact (at_app _ _ _ false R)].
Qed.
Lemma expect_step {B} n (k : P (option B)) s items t r s1 : 0 <= n <= 15 -> rest s = enc (IList n items) ++ t -> small s -> error s = false ->
  expect_list n k s = Ret (r, s1) -> exists s0, k s0 = Ret (r, s1) /\ rest s0 = flat_map enc items ++ t /\ small s0 /\ error s0 = false.
Proof. intros Hn R Sm He E. destruct (expect_go n k s items t Hn R Sm) as [EX R1]. rewrite EX in E. eauto 6 using at_small. Qed.
(** a list type where something else is expected *)
Lemma expect_not {B} n (k : P (option B)) s b t r s1 : rest s = b :: t -> b / 16 mod 8 * 16 <> 112 -> expect_list n k s = Ret (r, s1) -> error s1 = true.
Proof.
  intros R Hb E. unfold expect_list in E. unfold bind at 1 in E. rewrite (next_type_eq _ _ _ R) in E.
  destruct (Z.eqb_spec (b / 16 mod 8 * 16) SML_TYPE_LIST) as [HE|_]; [contradiction|]. cbn [negb] in E. now apply err_null_inv in E.
Qed.
Lemma expect_other {B} n k0 (k : P (option B)) s t r s1 : 0 <= k0 <= 15 -> k0 <> n -> rest s = (112 + k0) :: t -> small s -> expect_list n k s = Ret (r, s1) -> error s1 = true.
Proof.
  intros Hk Hn R Sm E. destruct (list_header k0 Hk) as (TF & TT & TN & TL). change ((112 + k0) :: t) with ([112 + k0] ++ t) in R.
  unfold expect_list in E. unfold bind at 1 in E. rewrite (type_fwd _ _ _ R TF), TT in E. change (112 =? SML_TYPE_LIST) with true in E. cbn [negb] in E.
  unfold bind at 1 in E. rewrite (length_fwd _ _ _ Sm R TF) in E by lia. rewrite TL in E. destruct (Z.eqb_spec k0 n); [contradiction|]. cbn [negb] in E. now apply err_null_inv in E.
Qed.
Lemma label_inv {A} (p : P (option A)) s v s1 : error_label p s = Ret (v, s1) -> error s1 = false -> exists x, v = Some x /\ p s = Ret (Some x, s1).
Proof.
  intros E Er. unfold error_label in E. apply bind_inv in E. destruct E as ([x|] & s2 & E1 & E2).
  - injection E2 as <- <-. eauto.
  - apply err_null_inv in E2. congruence.
Qed.
Lemma unless_go {A} (k : P (option A)) s b t r s1 : rest s = b :: t -> unless_skipped k s = Ret (r, s1) ->
  (b = 1 /\ r = None /\ s1 = at_ s 1 false) \/ (b <> 1 /\ k s = Ret (r, s1)).
Proof.
  intros R E. destruct (Z.eq_dec b 1) as [->|Hb].
  - rewrite (unless_skip _ _ _ R) in E. injection E as <- <-. auto.
  - rewrite (unless_noskip _ _ _ _ R Hb) in E. now right.
Qed.
Lemma app_cons_eq {A} (l : list A) t : l <> [] -> exists b u, l = b :: u /\ l ++ t = b :: u ++ t.
Proof. destruct l as [|b u]; [congruence|]. eauto. Qed.

Section WithHost.
Context {H : Host}.

(** *** octet strings and numbers *)
Lemma octet_1 s t : rest s = 1 :: t -> sml_octet_string_parse s = Ret (None, at_ s 1 false).
Proof. intros R. unfold sml_octet_string_parse. now rewrite (unless_skip _ _ _ R). Qed.
Lemma octet_not s b t r s1 : rest s = b :: t -> b / 16 mod 8 * 16 <> 0 -> sml_octet_string_parse s = Ret (r, s1) -> error s1 = true.
Proof.
  intros R Hb E. unfold sml_octet_string_parse in E. rewrite (unless_noskip _ _ _ _ R) in E by (intros ->; apply Hb; reflexivity).
  unfold bind at 1 in E. rewrite (next_type_eq _ _ _ R) in E. destruct (Z.eqb_spec (b / 16 mod 8 * 16) SML_TYPE_OCTET_STRING); [contradiction|]. cbn [negb] in E. now apply err_null_inv in E.
Qed.
Lemma text_hd n : 1 <= n -> hd 0 (tl_text 0 n) <> 1.
Proof.
  intros Hn. assert (HT : In 0 tl_types) by (unfold tl_types; cbn [In]; tauto). destruct (Z.le_gt_cases n 14).
  - rewrite text_one by (auto; unfold count; cbn; lia). cbn [hd]. unfold count. change (0 =? 112) with false. cbv iota. lia.
  - assert (length (tl_text 0 n) > 1)%nat.
    { rewrite text_length. unfold count. change (0 =? 112) with false. cbv iota. cbn [extra]. destruct (Z.leb_spec (n + 1) 15); lia. }
    destruct (text_field 0 n HT) as (i & x & E & Hi & Hx). rewrite E in *. destruct i as [|y i]; [cbn in *; lia|]. cbn [app hd]. apply Forall_cons_iff in Hi. lia.
Qed.
(** What the octet string parser makes of one written element. *)
Lemma octet_at_string v s t r s1 : every (size_ok false) (IOctets v) -> rest s = enc (IOctets v) ++ t -> ne t -> error s = false -> small s ->
  sml_octet_string_parse s = Ret (r, s1) -> error s1 = false ->
  (v = [] /\ r = None /\ s1 = at_ s 1 false /\ rest s1 = t) \/ (v <> [] /\ readable (IOctets v) /\ r = Some v /\ rest s1 = t /\ small s1).
Proof.
  intros HS R Ht He Sm E Er. apply every_here in HS. destruct HS as [HS _]. destruct v as [|x v].
  - left. cbn in R. rewrite (octet_1 _ _ R) in E. injection E as <- <-. repeat split. exact (at_app s [1] t false R).
  - right. split; [discriminate|]. set (w := x :: v) in *. change (2 ^ 28) with 268435456 in HS. set (n := Z.of_nat (length w)) in *.
    assert (HD : ~ lost_length n \/ lost_length n) by (unfold lost_length; lia). destruct HD as [HD|HD].
    + assert (HR : readable (IOctets w)) by (split; [discriminate|split; [change (2 ^ 28) with 268435456; exact HS|exact HD]]).
      split; [exact HR|]. rewrite (reads_oct (Some w) (conj HR I) s t R Ht He Sm) in E. injection E as <- <-. split; [reflexivity|]. split; [now apply at_app|now apply at_small].
    + exfalso. cbn [enc] in R. rewrite <- app_assoc in R. assert (HT : In 0 tl_types) by (unfold tl_types; cbn [In]; tauto).
      assert (Hn : 1 <= n) by (unfold n, w; cbn [length]; lia).
      destruct (text_read 0 n HT ltac:(lia) ltac:(lia) ltac:(change (16 ^ 7) with 268435456; lia)) as [T1 T2].
      assert (HN : tl_length (tl_text 0 n) < 0).
      { apply lost_negative; auto; try lia. apply lost_crossing; [change (2 ^ 28) with 268435456; lia|exact HD]. }
      destruct (octet_negative s (tl_text 0 n) (w ++ t) Sm R (text_field 0 n HT)) as (s2 & E2 & Er2); auto.
      * now apply text_hd.
      * now apply text_type.
      * congruence.
Qed.
Lemma ex_oct o : every (size_ok false) (oct_item o) -> exact_on ne sml_octet_string_parse (oct_item o) o.
Proof.
  intros HS. apply ex_of; auto; [apply reads_oct|]. intros s t s1 R Ct He Sm E Er. destruct o as [v|]; [|exact (conj I I)].
  destruct (octet_at_string v s t _ s1 HS R Ct He Sm E Er) as [(_ & E0 & _)|(_ & HR & _)]; [discriminate|exact (conj HR I)].
Qed.
Lemma num_readable ty o : every readable (num_item ty o).
Proof. destruct o; exact (conj I I). Qed.
Lemma ex_u8 o : opt (wf_num 1) o -> exact_on ne sml_u8_parse (num_item 96 o) o.
Proof. intros HW. apply ex_reads; [apply num_readable|now apply reads_u8]. Qed.
Lemma ex_u32 o : opt (wf_num 4) o -> exact_on ne sml_u32_parse (num_item 96 o) o.
Proof. intros HW. apply ex_reads; [apply num_readable|now apply reads_u32]. Qed.
Lemma ex_u64 o : opt (wf_num 8) o -> exact_on ne sml_u64_parse (num_item 96 o) o.
Proof. intros HW. apply ex_reads; [apply num_readable|now apply reads_u64]. Qed.
Lemma ex_i8 o : opt (wf_num 1) o -> exact_on ne sml_i8_parse (num_item 80 o) o.
Proof. intros HW. apply ex_reads; [apply num_readable|now apply reads_i8]. Qed.
Lemma ex_bool o : opt wf_bool o -> exact_on ne sml_boolean_parse (bool_item o) o.
Proof. intros HW. apply ex_reads; [destruct o; exact (conj I I)|now apply reads_bool]. Qed.

(** Going through the fields of a structure. *)
Ltac fields E Er := repeat (apply field_inv in E; [|exact Er]; let v := fresh "v" in let s' := fresh "s" in let E1 := fresh "E" in let Er1 := fresh "Er" in destruct E as (v & s' & E1 & Er1 & E)).
Lemma nn_app {A} (a b : list A) : b <> [] -> a ++ b <> [].
Proof. apply app_nonnil. Qed.

(** *** times *)
Lemma time_lost tg s t r s1 : opt (wf_num 1) tg -> rest s = enc (time_item (Some (mkTime tg None))) ++ t -> ne t -> error s = false -> small s ->
  sml_time_parse s = Ret (r, s1) -> r = None /\ s1 = at_ s (1 + length (enc (num_item 96 tg))) false /\ rest s1 = 1 :: t.
Proof.
  intros HW R Ct He Sm E. unfold sml_time_parse in E. assert (R0 := R). cbn [time_item tm_tag tm_data] in R0. rewrite enc_list, count_text in R0 by lia. cbn [app] in R0.
  rewrite (unless_noskip _ _ _ _ R0) in E by lia. unfold bind at 1 in E. rewrite (current_cons _ _ _ R0) in E.
  change (112 + 2 =? Z.lor SML_TYPE_UNSIGNED 5) with false in E. cbv iota in E.
  destruct (expect_go 2 (field sml_u8_parse sml_time_value) s [num_item 96 tg; IWrong [1]] t ltac:(lia) R Sm) as [E1 R1]. rewrite E1 in E.
  cbn [flat_map] in R1. rewrite app_nil_r, <- app_assoc in R1. cbn [enc app] in R1.
  unfold field in E. unfold bind at 1 in E. rewrite (reads_u8 tg HW (at_ s 1 false) _ R1) in E; auto; [|discriminate].
  unfold bind at 1, sml_buf_has_errors in E. rewrite !at_error, He in E. rewrite at_at in E. set (s2 := at_ s (1 + length (enc (num_item 96 tg))) (false || false)) in *.
  assert (R2 : rest s2 = 1 :: t). { unfold s2. rewrite <- at_at. apply (at_app (at_ s 1 false) (enc (num_item 96 tg)) _ false R1). }
  unfold sml_time_value in E. unfold bind at 1 in E. rewrite (next_type_eq _ _ _ R2) in E. change (1 / 16 mod 8 * 16) with 0 in E. cbn in E. injection E as <- <-. auto.
Qed.
Lemma ex_time o : opt wf_time o -> exact_on ne sml_time_parse (time_item o) o.
Proof.
  intros HW. apply ex_of; auto; [now apply reads_time|]. intros s t s1 R Ct He Sm E Er. destruct o as [[tg [m|]]|]; [| |exact (conj I I)].
  - cbn [time_item tm_tag tm_data]. apply every_list. split; [split; [reflexivity|lia]|]. constructor; [apply num_readable|]. constructor; [exact (conj I I)|constructor].
  - exfalso. destruct HW as [HW _]. destruct (time_lost tg s t _ s1 HW R Ct He Sm E) as [E0 _]. discriminate.
Qed.

(** *** status and values *)
Lemma ex_status o : opt wf_status o -> exact_on ne sml_status_parse (status_item o) o.
Proof.
  intros HW. apply ex_of; auto; [now apply reads_status|]. intros s t s1 R Ct He Sm E Er. destruct o as [v|]; [|exact (conj I I)].
  cbn [opt] in HW. inversion HW as [w m Hw [HL HB]|m [HL HB]]; subst.
  - destruct (land_type 96 _ (or_intror eq_refl) Hw) as [E1 E2]. pose proof (width_cases _ Hw).
    unfold status_item. cbn [st_type st_data]. rewrite E1, E2. destruct (Z.eqb_spec (96 + Z.of_nat (length m)) 112); [lia|].
    rewrite Nat2Z.id, firstn_all, number_bytes_num by (destruct m; [cbn in *; lia|discriminate]). exact (conj I I).
  - exfalso. cbn [status_item st_type Z.eqb] in R. change (enc (if 112 =? 112 then IWrong [112] else _)) with [112] in R. cbn [app] in R.
    unfold sml_status_parse in E. rewrite (unless_noskip _ _ _ _ R) in E by lia. unfold bind at 1 in E. rewrite (next_type_eq _ _ _ R) in E.
    unfold bind at 1 in E. rewrite (current_cons _ _ _ R) in E. change (112 / 16 mod 8 * 16 =? SML_TYPE_UNSIGNED) with false in E. cbn in E. discriminate.
Qed.
(** The type a parsed value gets from the first byte. *)
Lemma value_first s b t raw s1 : rest s = b :: t -> sml_value_parse s = Ret (Some raw, s1) -> error s1 = false ->
  b <> 1 /\ (b / 16 mod 8 * 16 = 0 -> v_type raw = 0) /\ b / 16 mod 8 * 16 <> 112 /\ (b = 81 \/ b = 97 -> v_type raw = b).
Proof.
  intros R E Er. unfold sml_value_parse in E. destruct (unless_go _ _ _ _ _ _ R E) as [(_ & E0 & _)|[Hb E0]]; [discriminate|]. clear E. split; [exact Hb|].
  unfold bind at 1 in E0. rewrite (next_type_eq _ _ _ R) in E0. unfold bind at 1 in E0. rewrite (current_cons _ _ _ R) in E0.
  apply bind_inv in E0. destruct E0 as (value & s2 & E1 & E2). unfold bind at 1, sml_buf_has_errors in E2. destruct (error s2) eqn:Er2; [discriminate|]. injection E2 as -> ->.
  split; [|split].
  - intros Ht. rewrite Ht in E1. change (0 =? SML_TYPE_OCTET_STRING) with true in E1. cbv iota in E1. apply bind_inv in E1. destruct E1 as (d & s3 & _ & E1). now injection E1 as <- _.
  - intros Ht. rewrite Ht in E1. cbn in E1. injection E1 as _ <-. discriminate.
  - intros [-> | ->].
    + change (81 / 16 mod 8 * 16) with 80 in E1.
      change (80 =? SML_TYPE_OCTET_STRING) with false in E1. change (80 =? SML_TYPE_BOOLEAN) with false in E1. change ((80 =? SML_TYPE_UNSIGNED) || (80 =? SML_TYPE_INTEGER)) with true in E1. cbv iota in E1.
      unfold bind at 1 in E1. change (number_width 81 s) with (@Ret (Z * sbuf) (1, s)) in E1. cbv iota in E1.
      apply bind_inv in E1. destruct E1 as (d & s3 & _ & E1). unfold ret in E1. inversion E1. reflexivity.
    + change (97 / 16 mod 8 * 16) with 96 in E1.
      change (96 =? SML_TYPE_OCTET_STRING) with false in E1. change (96 =? SML_TYPE_BOOLEAN) with false in E1. change ((96 =? SML_TYPE_UNSIGNED) || (96 =? SML_TYPE_INTEGER)) with true in E1. cbv iota in E1.
      unfold bind at 1 in E1. change (number_width 97 s) with (@Ret (Z * sbuf) (1, s)) in E1. cbv iota in E1.
      apply bind_inv in E1. destruct E1 as (d & s3 & _ & E1). unfold ret in E1. inversion E1. reflexivity.
Qed.
Lemma value_back v s t raw s1 : wf_entry_value v -> every (size_ok false) (value_item (Some v)) -> rest s = enc (value_item (Some v)) ++ t -> fol t ->
  error s = false -> small s -> sml_value_parse s = Ret (Some raw, s1) -> error s1 = false -> raw = v \/ force_unsigned raw = v -> every readable (value_item (Some v)).
Proof.
  intros HV HS R (c & u & -> & Hc) He Sm E Er Hraw.
  assert (HN : forall a w m, a = 80 \/ a = 96 -> width_ok w -> wf_num w m -> every readable (value_item (Some (mkValue (a + Z.of_nat w) (VNum m))))).
  { intros a w m Ha Hw Hm. rewrite (num_value_item a w m Ha Hw Hm). exact (conj I I). }
  assert (HT : v_type raw = 97 -> v_type v <> 96). { intros H0. destruct Hraw as [<- | <-]; [congruence|]. cbn [force_unsigned v_type]. rewrite H0. discriminate. }
  assert (H97 : forall d, d <> VNull -> v <> mkValue 96 d).
  { intros d Hd ->. replace (enc (value_item (Some (mkValue 96 d)))) with [97] in R by (destruct d as [| | |m]; try reflexivity; congruence).
    destruct (value_first _ _ _ _ _ R E Er) as (_ & _ & _ & HF). apply HT; [now apply HF; right|reflexivity]. }
  destruct HV as [HV|(v0 & HV & ->)]; inversion HV; subst; clear HV.
  - assert (HI : every readable (IOctets s0)); [|exact HI].
    change (value_item (Some (mkValue 0 (VBytes s0)))) with (IOctets s0) in *. destruct s0 as [|x l].
    + cbn in R. destruct (value_first _ _ _ _ _ R E Er) as [HX _]. congruence.
    + set (w := x :: l) in *. assert (HT0 : In 0 tl_types) by (unfold tl_types; cbn [In]; tauto).
      destruct (app_cons_eq (tl_text 0 (Z.of_nat (length w))) (w ++ c :: u) (text_nonnil _ _ HT0)) as (b & l' & EB & EA).
      assert (RB : rest s = b :: l' ++ w ++ c :: u) by (rewrite R; cbn [enc]; rewrite <- app_assoc; exact EA).
      pose proof (text_type 0 (Z.of_nat (length w)) HT0) as TT. rewrite EB in TT. cbn [tl_type] in TT.
      unfold sml_value_parse in E. destruct (unless_go _ _ _ _ _ _ RB E) as [(_ & E0 & _)|[Hb E0]]; [discriminate|].
      unfold bind at 1 in E0. rewrite (next_type_eq _ _ _ RB) in E0. unfold bind at 1 in E0. rewrite (current_cons _ _ _ RB) in E0. rewrite TT in E0.
      change (0 =? SML_TYPE_OCTET_STRING) with true in E0. cbv iota in E0. apply bind_inv in E0. destruct E0 as (value & s2 & E1 & E2).
      unfold bind at 1, sml_buf_has_errors in E2. destruct (error s2) eqn:Er2; [discriminate|]. apply bind_inv in E1. destruct E1 as (d & s3 & E1 & E3). injection E3 as _ ->.
      destruct (octet_at_string w s (c :: u) d s2 HS R ltac:(discriminate) He Sm E1 Er2) as [(E0 & _)|(_ & HR & _)]; [discriminate|exact (conj HR I)].
  - exact (conj I I).
  - apply HN; auto.
  - apply HN; auto.
  - exfalso. change (enc (value_item (Some (mkValue 80 (VNum m))))) with [81] in R. destruct (value_first _ _ _ _ _ R E Er) as (_ & _ & _ & HF). specialize (HF (or_introl eq_refl)).
    destruct Hraw as [-> |EF]; [discriminate|]. apply (f_equal v_type) in EF. cbn [force_unsigned v_type] in EF. rewrite HF in EF. discriminate.
  - exfalso. change (enc (value_item (Some (mkValue 112 (VNum m))))) with (@nil Z) in R. cbn [app] in R. destruct (value_first _ _ _ _ _ R E Er) as (_ & HF & HN' & _).
    destruct Hc as [Hc|Hc]; [|contradiction]. specialize (HF Hc).
    destruct Hraw as [-> |EF]; [discriminate|]. apply (f_equal v_type) in EF. cbn [force_unsigned v_type] in EF. rewrite HF in EF. discriminate.
  - exfalso. apply (H97 (VBytes s0)); [discriminate|reflexivity].
  - exfalso. apply (H97 (VBool b)); [discriminate|reflexivity].
  - replace (force_unsigned (mkValue (80 + Z.of_nat w) (VNum m))) with (mkValue (96 + Z.of_nat w) (VNum m)).
    + apply HN; auto.
    + unfold force_unsigned. cbn [v_type v_data]. f_equal. destruct H0 as [->|[->|[->| ->]]]; reflexivity.
  - replace (force_unsigned (mkValue (96 + Z.of_nat w) (VNum m))) with (mkValue (96 + Z.of_nat w) (VNum m)).
    + apply HN; auto.
    + unfold force_unsigned. cbn [v_type v_data]. f_equal. destruct H0 as [->|[->|[->| ->]]]; reflexivity.
  - exfalso. apply (H97 (VNum m)); [discriminate|reflexivity].
  - exfalso. apply (H97 (VNum m)); [discriminate|reflexivity].
Qed.
Lemma ex_value o : opt wf_value o -> every (size_ok false) (value_item o) -> exact_on fol sml_value_parse (value_item o) o.
Proof.
  intros HW HS. apply ex_of; [apply fol_ne|now apply reads_value'|]. intros s t s1 R Ct He Sm E Er. destruct o as [v|]; [|exact (conj I I)].
  apply (value_back v s t v s1); auto. left. exact HW.
Qed.

(** *** list headers *)
Lemma header_go n s t : 0 <= n < 2 ^ 28 -> rest s = tl_text 112 n ++ t -> error s = false -> small s ->
  exists b u k s2, rest s = b :: u /\ b <> 1 /\ b / 16 mod 8 * 16 = 112 /\ sml_buf_get_next_type s = Ret (112, s) /\ sml_buf_get_next_length s = Ret (k, s2) /\
    rest s2 = t /\ error s2 = false /\ small s2 /\ 0 <= k /\ (k = n <-> n <= 15) /\ (15 < n -> n < k \/ k <= 15).
Proof.
  intros Hn R He Sm. change (2 ^ 28) with 268435456 in Hn. assert (HT : In 112 tl_types) by (unfold tl_types; cbn [In]; tauto).
  destruct (app_cons_eq (tl_text 112 n) t (text_nonnil _ _ HT)) as (b & l' & EB & EA). rewrite EA in R.
  pose proof (text_type 112 n HT) as TT. pose proof (text_field 112 n HT) as TF.
  assert (HB : b / 16 mod 8 * 16 = 112) by (rewrite EB in TT; exact TT).
  assert (HK : tl_nibbles (tl_text 112 n) < 2147483648 /\ 0 <= tl_length (tl_text 112 n) /\ (tl_length (tl_text 112 n) = n <-> n <= 15) /\ (15 < n -> n < tl_length (tl_text 112 n) \/ tl_length (tl_text 112 n) <= 15)).
  { destruct (Z.eq_dec n 0) as [->|Hz]; [cbn; lia|]. destruct (list_read n ltac:(lia) ltac:(change (16 ^ 7) with 268435456; lia)) as [L1 L2]. split; [exact L1|].
    unfold tl_length in *. rewrite TT in *. change (112 =? 112) with true in *. cbv iota in *. split; [apply (horner_ge _ 0); lia|]. split; [exact L2|].
    intros Hb. pose proof (text_nibbles 112 n HT) as HN. change (count 112 n) with n in HN. change (16 ^ 7) with 268435456 in HN. specialize (HN ltac:(lia)). rewrite HN.
    destruct (crossing n); [|left; cbn [extra]; destruct (Z.leb_spec n 15); lia]. right. pose proof (Z.mod_pos_bound (n + Z.of_nat (extra 8 n) + 1) 16). lia. }
  destruct HK as (K1 & K2 & K3 & K4). rewrite <- EA in R. exists b, (l' ++ t), (tl_length (tl_text 112 n)). eexists.
  split; [rewrite R, EB; reflexivity|]. split; [intros ->; discriminate|]. split; [exact HB|]. split; [rewrite (type_fwd _ _ _ R TF), TT; reflexivity|].
  split; [now rewrite (length_fwd _ _ _ Sm R TF)|]. split; [now apply at_app|]. repeat split; auto; apply K3.
Qed.

(** *** value lists *)
Lemma oct_fol o t : ne t -> fol (enc (oct_item o) ++ t).
Proof.
  intros Ht. destruct o as [v|]; cbn [oct_item enc]; [|exists 1, t; auto]. assert (HT : In 0 tl_types) by (unfold tl_types; cbn [In]; tauto).
  rewrite <- app_assoc. destruct (app_cons_eq (tl_text 0 (Z.of_nat (length v))) (v ++ t) (text_nonnil _ _ HT)) as (b & l' & EB & EA). rewrite EA.
  exists b, (l' ++ v ++ t). split; [reflexivity|]. left. pose proof (text_type 0 (Z.of_nat (length v)) HT) as TT. rewrite EB in TT. exact TT.
Qed.
Lemma workaround_inv w n l0 s e w' s1 : apply_workaround w n l0 s = Ret ((e, w'), s1) -> s1 = s /\
  le_obj_name e = le_obj_name l0 /\ le_status e = le_status l0 /\ le_val_time e = le_val_time l0 /\ le_unit e = le_unit l0 /\ le_scaler e = le_scaler l0 /\
  le_value_signature e = le_value_signature l0 /\
  (le_value e = le_value l0 \/ exists v, le_value l0 = Some v /\ le_value e = Some (force_unsigned v)).
Proof.
  intros E. unfold apply_workaround in E. apply bind_inv in E. destruct E as (d & s2 & E1 & E2).
  assert (s2 = s) as ->.
  { unfold detect_buggy_dzg_dvs74 in E1. destruct (negb _); [now injection E1|]. destruct (SList.le_value l0) as [v|]; [|now injection E1]. destruct (negb _); [now injection E1|].
    apply bind_inv in E1. destruct E1 as (d0 & s3 & E3 & E4). assert (s3 = s) as -> by (destruct (v_data v); cbn in E3; try discriminate; now injection E3).
    destruct d0 as [val|]; [|discriminate]. destruct (negb _); [now injection E4|]. destruct (negb _); now injection E4. }
  destruct d; [injection E2 as <- _ <-; intuition|]. destruct (SList.le_value l0) as [v|] eqn:EV; [|injection E2 as <- _ <-; intuition].
  destruct (_ && _); injection E2 as <- _ <-; cbn; rewrite ?EV; intuition eauto.
Qed.
(** One step of going through a structure: [E] is the call on the first item. *)
Lemma go {A} C (p : P A) i v s t s1 : exact_on C p i v -> rest s = enc i ++ t -> C t -> error s = false -> small s -> p s = Ret (v, s1) -> error s1 = false ->
  every readable i /\ rest s1 = t /\ small s1.
Proof. intros HE. apply HE. Qed.
Ltac ctx := first [apply oct_fol; unfold ne in *; repeat apply nn_app; assumption | unfold ne in *; repeat apply nn_app; first [assumption | discriminate]].
Ltac g L := match goal with
  | R : rest ?s = enc ?i ++ ?t, He : error ?s = false, Sm : small ?s, E : _ ?s = Ret (_, ?s1), Er : error ?s1 = false |- _ =>
    let HC := fresh in let HR := fresh "HR" in let R' := fresh "R" in let Sm' := fresh "Sm" in
    match type of L with exact_on ?C _ _ _ => assert (HC : C t) by ctx end;
    destruct (go _ _ _ _ _ _ _ L R HC He Sm E Er) as (HR & R' & Sm'); clear R E HC He Sm
  end.
Ltac splice R := cbn [flat_map] in R; rewrite ?app_nil_r, <- ?app_assoc in R.
Ltac all_readable := apply every_list; (split; [split; [reflexivity|lia]|]); repeat (apply Forall_cons; [assumption|]); apply Forall_nil.

Lemma entry_back w e w' s t s1 : wf_entry e -> every (size_ok false) (entry_item e) -> rest s = enc (entry_item e) ++ t -> ne t -> error s = false -> small s ->
  sml_list_entry_parse w s = Ret (Some (e, w'), s1) -> error s1 = false -> every readable (entry_item e) /\ rest s1 = t /\ small s1.
Proof.
  intros HW HS R Ht He Sm E Er. unfold sml_list_entry_parse in E. destruct (label_inv _ _ _ _ E Er) as (x & Ex & E0). injection Ex as <-. clear E.
  destruct (expect_step 7 _ _ _ _ _ _ ltac:(lia) R Sm He E0) as (s0 & E & R1 & Sm0 & He0). clear E0 R Sm He. rename E into E0, Sm0 into Sm, He0 into He.
  apply every_list in HS. destruct HS as [_ HS]. repeat rewrite Forall_cons_iff in HS. destruct HS as (S1 & S2 & S3 & S4 & S5 & S6 & S7 & _). destruct HW as [W1 W2 W3 W4 W5 W6 W7].
  fields E0 Er. apply bind_inv in E0. destruct E0 as (eb & sx & EB & E0). unfold at_end in EB. injection EB as <- <-. destruct (_ <=? _)%nat; [discriminate|].
  apply bind_inv in E0. destruct E0 as (vt & sy & EB & E0). unfold sml_buf_get_current_byte in EB. destruct (nth_error _ _); [|discriminate]. injection EB as <- <-.
  cbv zeta in E0. fields E0 Er. apply bind_inv in E0. destruct E0 as (r & sz & E0 & EZ). injection EZ as -> ->.
  destruct (workaround_inv _ _ _ _ _ _ _ E0) as (-> & N1 & N2 & N3 & N4 & N5 & N7 & N6). cbn in N1, N2, N3, N4, N5, N6, N7. subst v v0 v1 v2 v3 v5.
  splice R1. g (ex_oct _ S1). g (ex_status _ W2). g (ex_time _ W3). g (ex_u8 _ W4). g (ex_i8 _ W5).
  assert (HV : every readable (value_item (SList.le_value e)) /\ v4 = SList.le_value e /\ rest s7 = enc (oct_item (le_value_signature e)) ++ t /\ small s7).
  { assert (HV : every readable (value_item (SList.le_value e))).
    { destruct (SList.le_value e) as [v|]; [|exact (conj I I)]. destruct v4 as [raw|]; [|destruct N6 as [N6|(x & N6 & _)]; discriminate].
      eapply value_back; eauto; [apply oct_fol; exact Ht|]. destruct N6 as [N6|(x & N6 & N6')]; [left|right]; congruence. }
    split; [exact HV|]. assert (HE := E5). match goal with R : rest s6 = _ |- _ => rewrite (reads_value _ W6 HV s6 _ R) in E5; auto; [|apply nn_app, Ht] end. injection E5 as <- <-. split; [reflexivity|].
    split; [now apply at_app|now apply at_small]. }
  destruct HV as (HV & -> & R6 & Sm6). g (ex_oct _ S7). split; [|auto]. unfold entry_item. all_readable.
Qed.
Lemma list_loop_back l : forall fuel k w s t s1, Forall wf_entry l -> Forall (fun e => every (size_ok false) (entry_item e)) l ->
  rest s = flat_map enc (map entry_item l) ++ t -> ne t -> error s = false -> small s -> k = Z.of_nat (length l) ->
  list_loop fuel k w s = Ret (Some l, s1) -> error s1 = false -> Forall (fun e => every readable (entry_item e)) l.
Proof.
  induction l as [|e l IH]; intros fuel k w s t s1 HW HS R Ht He Sm Hk E Er; [constructor|]. inversion HW; inversion HS; subst.
  cbn [map flat_map] in R. rewrite <- app_assoc in R. destruct fuel; cbn [list_loop length] in E; destruct (Z.leb_spec (Z.of_nat (S (length l))) 0); try lia; [discriminate|].
  apply bind_inv in E. destruct E as (r & s2 & E1 & E). unfold bind at 1, sml_buf_has_errors in E. destruct (error s2) eqn:Er2; [discriminate|].
  destruct r as [[e' w']|]; [|discriminate]. apply bind_inv in E. destruct E as (r2 & s3 & E2 & E). injection E as EE ->. destruct r2 as [l'|]; [|discriminate]. injection EE as -> ->.
  assert (Hn : ne (flat_map enc (map entry_item l) ++ t)) by (apply nn_app, Ht).
  destruct (entry_back w e w' s _ s2 ltac:(assumption) ltac:(assumption) R Hn He Sm E1 Er2) as (HR & R2 & Sm2). constructor; [exact HR|]. apply (IH fuel (Z.of_nat (S (length l)) - 1) w' s2 t s1); auto. lia.
Qed.
Lemma list_loop_length fuel : forall k w s l s1, 0 <= k -> list_loop fuel k w s = Ret (Some l, s1) -> Z.of_nat (length l) = k.
Proof.
  induction fuel as [|fuel IH]; intros k w s l s1 Hk E; cbn [list_loop] in E; destruct (Z.leb_spec k 0); try discriminate; try (injection E as <- <-; cbn; lia).
  apply bind_inv in E. destruct E as (r & s2 & E1 & E). unfold bind at 1, sml_buf_has_errors in E. destruct (error s2); [discriminate|].
  destruct r as [[e' w']|]; [|discriminate]. apply bind_inv in E. destruct E as (r2 & s3 & E2 & E). injection E as EE ->. destruct r2 as [l'|]; [|discriminate]. injection EE as <-.
  apply IH in E2; [|lia]. cbn [length]. lia.
Qed.
(** The value list comes back only if it is readable and the workaround leaves
    it alone. *)
Lemma entries_back l s t s1 : Forall wf_entry l -> every (size_ok false) (entries_item l) -> rest s = enc (entries_item l) ++ t -> ne t -> error s = false -> small s ->
  sml_list_parse s = Ret (l, s1) -> error s1 = false -> every readable (entries_item l) /\ dzg_run false l = l /\ rest s1 = t /\ small s1.
Proof.
  intros HW HS R Ht He Sm E Er.
  assert (HR : every readable (entries_item l)).
  { destruct l as [|e l0]; [exact (conj I I)|]. set (l := e :: l0) in *. change (entries_item l) with (list_of entry_item l) in *. unfold list_of in *.
    apply every_list in HS. destruct HS as [[HS _] HF]. rewrite enc_list, <- app_assoc in R.
    destruct (header_go (Z.of_nat (length l)) s _ (conj (Nat2Z.is_nonneg _) HS) R He Sm) as (b & u & k & s2 & RB & Hb & HB & ET & EL & R2 & He2 & Sm2 & K0 & K1 & K2).
    unfold sml_list_parse in E. unfold bind at 1 in E. rewrite (noskip_fwd _ _ _ RB Hb) in E. change (negb (0 =? 0)) with false in E. cbv iota in E.
    unfold bind at 1 in E. rewrite ET in E. change (112 =? SML_TYPE_LIST) with true in E. cbn [negb] in E. unfold bind at 1 in E. rewrite EL in E.
    apply bind_inv in E. destruct E as (r & s3 & E1 & E). destruct r as [l'|]; [|unfold bind, set_error in E; injection E as _ <-; discriminate]. injection E as -> ->.
    unfold with_fuel in E1. pose proof (list_loop_length _ _ _ _ _ _ K0 E1) as HL. symmetry in HL. pose proof (proj1 K1 HL) as Hn.
    rewrite Forall_map in HF. pose proof (list_loop_back l _ _ _ _ _ _ HW HF R2 Ht He2 Sm2 HL E1 Er) as HA.
    apply every_list. split; [|now rewrite Forall_map]. split; [now rewrite map_length|exact Hn]. }
  split; [exact HR|]. rewrite (reads_entries l HW HR s t R Ht He Sm) in E. injection E as E <-. split; [exact E|]. split; [now apply at_app|now apply at_small].
Qed.
End WithHost.
