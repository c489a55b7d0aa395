(** The parsers read back what the writers wrote. *)
From Verif Require Import Base Buf Crc16 Number OctetString Boolean Value Time SList Tree Bodies Message File
  Lib Wf Ctx Spec TL Inv Reads Write TLWrite TLRound NumFacts PropsString Item Enc Dzg.

Section WithHost.
Context {H : Host}.

Lemma reads_fld {A B} (p : P A) (k : A -> P (option B)) b1 b2 v r : reads p b1 v -> reads (k v) b2 r ->
  reads (field p k) (b1 ++ b2) r.
Proof.
  intros Hp Hk s t R Ht He Sm. rewrite <- app_assoc in R. unfold field. unfold bind at 1.
  rewrite (Hp s (b2 ++ t)) by (auto using app_nonnil). unfold bind, sml_buf_has_errors.
  rewrite at_error, He. rewrite (Hk _ t) by (auto; now apply at_app). rewrite at_at. now rewrite app_length.
Qed.
Lemma reads_ext {A} (p q : P A) bs v : (forall s, p s = q s) -> reads p bs v -> reads q bs v.
Proof. intros E Hp s t R Ht He Sm. rewrite <- E. now apply (Hp s t). Qed.
Lemma reads_then {A B} (p : P A) (k : A -> P B) bs v r : reads p bs v -> (forall s, k v s = Ret (r, s)) -> reads (bind p k) bs r.
Proof. intros Hp Hk s t R Ht He Sm. unfold bind. rewrite (Hp s t) by auto. apply Hk. Qed.
Lemma reads_label {A} (p : P (option A)) bs v : reads p bs (Some v) -> reads (error_label p) bs (Some v).
Proof. intros Hp. unfold error_label. apply (reads_then _ _ _ _ _ Hp). reflexivity. Qed.

Lemma reads_oct o : every readable (oct_item o) -> reads sml_octet_string_parse (enc (oct_item o)) o.
Proof.
  destruct o as [s|]; cbn [oct_item]; intros HR; [|apply unless_reads_none]. apply every_here in HR. destruct HR as (HN & HS & HL).
  intros b t R Ht He Sm. cbn [enc] in *. rewrite <- app_assoc in R. change (2 ^ 28) with 268435456 in HS.
  assert (HT : In 0 tl_types) by (unfold tl_types; cbn [In]; tauto). set (n := Z.of_nat (length s)) in *.
  destruct (text_read 0 n HT ltac:(lia) ltac:(lia) ltac:(change (16 ^ 7) with 268435456; lia)) as [T1 T2].
  pose proof (text_field 0 n HT) as TF. pose proof (text_type 0 n HT) as TT.
  rewrite (octet_fwd b (tl_text 0 n) s t); auto.
  - now rewrite app_length.
  - assert (1 <= length s)%nat by (destruct s; [congruence|cbn; lia]). destruct (Nat.le_gt_cases (length s) 14).
    + unfold n. rewrite text_one by (auto; unfold count; cbn; lia). cbn [hd]. unfold count. change (0 =? 112) with false. cbv iota. lia.
    + assert (length (tl_text 0 n) > 1)%nat.
      { rewrite text_length. unfold count. change (0 =? 112) with false. cbv iota. cbn [extra]. destruct (Z.leb_spec (n + 1) 15); lia. }
      destruct TF as (i & x & E & Hi & Hx). rewrite E in *. destruct i as [|y i]; [cbn in *; lia|]. cbn [app hd]. apply Forall_cons_iff in Hi. lia.
  - apply T2. rewrite lost_crossing in HL by (change (2 ^ 28) with 268435456; lia). destruct (crossing (n + 1)); [exfalso; auto|reflexivity].
Qed.
Lemma reads_num type n (o : option mem) : type = 80 \/ type = 96 -> (1 <= n <= 14)%nat -> opt (wf_num n) o ->
  reads (sml_number_parse type (Z.of_nat n)) (enc (num_item type o)) o.
Proof.
  intros HT Hn HW. destruct o as [m|]; cbn [num_item enc opt] in *.
  - destruct HW as [HL HB]. pose proof (reads_number type (Z.of_nat n) (host_order m) ltac:(lia) HT) as HR.
    rewrite host_length, HL in *. specialize (HR ltac:(lia) ltac:(lia)). rewrite Nat2Z.id, Nat.sub_diag in HR. cbn [repeat app] in HR.
    now rewrite host_twice in HR.
  - apply unless_reads_none.
Qed.
Lemma reads_u8 o : opt (wf_num 1) o -> reads sml_u8_parse (enc (num_item 96 o)) o.
Proof. apply (reads_num 96 1); [tauto|lia]. Qed.
Lemma reads_u16 o : opt (wf_num 2) o -> reads sml_u16_parse (enc (num_item 96 o)) o.
Proof. apply (reads_num 96 2); [tauto|lia]. Qed.
Lemma reads_u32 o : opt (wf_num 4) o -> reads sml_u32_parse (enc (num_item 96 o)) o.
Proof. apply (reads_num 96 4); [tauto|lia]. Qed.
Lemma reads_u64 o : opt (wf_num 8) o -> reads sml_u64_parse (enc (num_item 96 o)) o.
Proof. apply (reads_num 96 8); [tauto|lia]. Qed.
Lemma reads_i8 o : opt (wf_num 1) o -> reads sml_i8_parse (enc (num_item 80 o)) o.
Proof. apply (reads_num 80 1); [tauto|lia]. Qed.
Lemma reads_i64 o : opt (wf_num 8) o -> reads sml_i64_parse (enc (num_item 80 o)) o.
Proof. apply (reads_num 80 8); [tauto|lia]. Qed.

Lemma reads_bool o : opt wf_bool o -> reads sml_boolean_parse (enc (bool_item o)) o.
Proof.
  destruct o as [b|]; cbn [opt bool_item enc]; intros HB; [|apply unless_reads_none].
  intros s t R Ht He Sm. unfold sml_boolean_parse.
  assert (TF : tl_field [66]) by (exists [], 66; split; [reflexivity|split; [constructor|lia]]).
  rewrite (unless_noskip _ _ _ _ R) by lia. unfold bind at 1. rewrite (type_fwd _ [66] _ R TF). change (tl_type [66]) with 64.
  change (64 =? SML_TYPE_BOOLEAN) with true. cbn [negb]. unfold bind at 1. rewrite (length_fwd s [66] _ Sm R TF) by (cbn; lia).
  change (tl_length [66]) with 1. change (1 =? 1) with true. cbn [negb].
  assert (R1 : rest (at_ s (length [66]) false) = (if negb (b =? 0) then 255 else 0) :: t) by exact (at_app s [66] _ false R).
  unfold bind at 1. rewrite (at_end_cons _ _ _ R1). unfold bind at 1. rewrite (current_cons _ _ _ R1).
  unfold bind, ret, sml_buf_update_bytes_read. change (1 <? 0) with false. cbv iota.
  f_equal. f_equal.
  - destruct HB as [->| ->]; reflexivity.
  - unfold at_, set_ovf, set_cursor. cbn. destruct s as [bu cu er ov]; cbn. f_equal; try lia; now rewrite !orb_false_r.
Qed.
Lemma reads_time_value tag m : wf_num 4 m -> reads (sml_time_value tag) (enc (INum 96 (host_order m))) (Some (mkTime tag (Some m))).
Proof.
  intros HM s t R Ht He Sm. unfold sml_time_value. cbn [enc] in R. rewrite host_length in R. destruct HM as [HL HB]. rewrite HL in R.
  assert (TF : tl_field [96 + 1 + Z.of_nat 4]) by (exists [], 101; split; [reflexivity|split; [constructor|lia]]).
  unfold bind at 1. rewrite <- app_assoc in R. rewrite (type_fwd _ _ _ R TF). change (tl_type [96 + 1 + Z.of_nat 4]) with 96. change (96 =? SML_TYPE_UNSIGNED) with true. cbv iota.
  apply (reads_last _ _ _ _ _ (reads_u32 (Some m) (conj HL HB)) (fun _ _ => eq_refl) s t); auto.
  cbn [num_item enc]. rewrite host_length, HL. now rewrite <- app_assoc.
Qed.
Lemma reads_time o : opt wf_time o -> every readable (time_item o) -> reads sml_time_parse (enc (time_item o)) o.
Proof.
  destruct o as [[tag data]|]; intros HW HR; [|apply unless_reads_none]. destruct HW as [W1 W2]. cbn [tm_tag tm_data time_item] in *.
  apply every_list in HR. destruct HR as [_ HR]. apply Forall_cons_iff in HR. destruct HR as [_ HR]. apply Forall_cons_iff in HR. destruct HR as [HR _].
  destruct data as [m|]; [|apply every_here in HR; contradiction]. rewrite enc_list, flat_cons, flat_one. change (tl_text 112 2) with [112 + 2].
  apply unless_reads; [cbn; lia|]. intros s t R Ht He Sm. unfold bind at 1. rewrite (current_cons s _ _ R). 
  change (112 + 2 =? Z.lor SML_TYPE_UNSIGNED 5) with false. cbv iota.
  apply (reads_expect 2 _ _ (Some (mkTime tag (Some m))) ltac:(lia)) with (t := t); auto.
  apply (reads_fld _ _ _ _ tag); [now apply reads_u8|]. now apply reads_time_value.
Qed.

(** *** values *)
Lemma number_width_eq a w : a = 80 \/ a = 96 -> width_ok w -> forall s : sbuf, number_width (a + 1 + Z.of_nat w) s = Ret (Z.of_nat w, s).
Proof. intros [->| ->] [->|[->|[->| ->]]] s; reflexivity. Qed.
Lemma num_tl a w : a = 80 \/ a = 96 -> width_ok w -> tl_field [a + 1 + Z.of_nat w] /\ tl_type [a + 1 + Z.of_nat w] = a.
Proof.
  intros Ha Hw. split; [|destruct Ha as [->| ->], Hw as [->|[->|[->| ->]]]; reflexivity].
  exists [], (a + 1 + Z.of_nat w). split; [reflexivity|]. split; [constructor|]. apply width_cases in Hw. lia.
Qed.
Lemma reads_num_value a w m : a = 80 \/ a = 96 -> width_ok w -> wf_num w m ->
  reads sml_value_parse (enc (INum a (host_order m))) (Some (mkValue (a + Z.of_nat w) (VNum m))).
Proof.
  intros Ha Hw Hm. pose proof (width_cases _ Hw) as Hw'. destruct Hm as [HL HB].
  intros s t R Ht He Sm. destruct (num_tl a w Ha Hw) as [TF TT].
  pose proof (reads_num a w (Some m) Ha ltac:(lia) (conj HL HB) s t) as HN. cbn [num_item] in HN. specialize (HN R Ht He Sm).
  cbn [enc] in *. rewrite host_length, HL in *. rewrite <- app_assoc in R.
  unfold sml_value_parse. rewrite (unless_noskip _ _ _ _ R) by lia. unfold bind at 1. rewrite (type_fwd _ _ _ R TF), TT.
  unfold bind at 1. rewrite (current_cons s _ _ R).
  assert (E1 : (a =? SML_TYPE_OCTET_STRING) = false) by (destruct Ha as [->| ->]; reflexivity).
  assert (E2 : (a =? SML_TYPE_BOOLEAN) = false) by (destruct Ha as [->| ->]; reflexivity).
  assert (E3 : (a =? SML_TYPE_UNSIGNED) || (a =? SML_TYPE_INTEGER) = true) by (destruct Ha as [->| ->]; reflexivity).
  rewrite E1, E2, E3. unfold bind at 1. unfold bind at 1. rewrite (number_width_eq a w Ha Hw). unfold bind at 1. rewrite HN.
  unfold ret at 1. unfold bind, sml_buf_has_errors. rewrite at_error, He. cbn [data_of_num].
  replace (to_u8 (Z.lor (to_u8 a) (Z.of_nat w))) with (a + Z.of_nat w) by (destruct Ha as [->| ->], Hw as [->|[->|[->| ->]]]; reflexivity).
  reflexivity.
Qed.
Lemma hd_oct s : every readable (IOctets s) -> exists b l, tl_text 0 (Z.of_nat (length s)) = b :: l /\ b <> 1 /\ b / 16 mod 8 * 16 = 0.
Proof.
  intros HR. apply every_here in HR. destruct HR as (HN & HS & HL). set (n := Z.of_nat (length s)) in *.
  assert (HT : In 0 tl_types) by (unfold tl_types; cbn [In]; tauto).
  pose proof (text_field 0 n HT) as TF. pose proof (text_type 0 n HT) as TT.
  assert (1 <= length s)%nat by (destruct s; [congruence|cbn; lia]).
  destruct (tl_hd _ TF) as (b & l & E). exists b, l. split; [exact E|]. split; [|rewrite E in TT; exact TT].
  destruct (Nat.le_gt_cases (length s) 14).
  + unfold n in E. rewrite text_one in E by (auto; unfold count; cbn; lia). unfold count in E. change (0 =? 112) with false in E. cbv iota in E.
    injection E as <- _. lia.
  + assert (length (tl_text 0 n) > 1)%nat.
    { rewrite text_length. unfold count. change (0 =? 112) with false. cbv iota. cbn [extra]. destruct (Z.leb_spec (n + 1) 15); lia. }
    destruct TF as (i & x & E' & Hi & Hx). rewrite E in E'. destruct i as [|y i]; cbn [app] in E'; [injection E' as -> ->; rewrite E in *; cbn in *; lia|].
    injection E' as -> _. apply Forall_cons_iff in Hi. lia.
Qed.
Lemma reads_value_some v : wf_entry_value v -> every readable (value_item (Some v)) ->
  wf_value v /\ reads sml_value_parse (enc (value_item (Some v))) (Some v).
Proof.
  assert (HF : forall d, every readable (value_item (Some (mkValue 96 d))) -> False).
  { intros d HR. apply every_here in HR. destruct d as [|b|b|m]; exact HR. }
  assert (HN : forall a w m, a = 80 \/ a = 96 -> width_ok w -> wf_num w m ->
    wf_value (mkValue (a + Z.of_nat w) (VNum m)) /\
    reads sml_value_parse (enc (value_item (Some (mkValue (a + Z.of_nat w) (VNum m))))) (Some (mkValue (a + Z.of_nat w) (VNum m)))).
  { intros a w m Ha Hw Hm. rewrite (num_value_item a w m Ha Hw Hm). split; [|now apply reads_num_value].
    destruct Ha as [->| ->]; [now apply wfv_int|now apply wfv_uns]. }
  intros [HV|(v0 & HV & ->)] HR; inversion HV as [b Hb|b Hb|w m Hw Hm|w m Hw Hm|m Hm|m Hm]; subst.
  - split; [assumption|]. change (value_item (Some (mkValue 0 (VBytes b)))) with (oct_item (Some b)) in *.
    pose proof (reads_oct (Some b) HR) as HO. destruct (hd_oct b HR) as (x & l & E & Hx & HT).
    intros s t R Ht He Sm. specialize (HO s t R Ht He Sm). cbn [oct_item enc] in R. rewrite E, <- app_assoc in R. cbn [app] in R.
    unfold sml_value_parse. rewrite (unless_noskip _ _ _ _ R Hx). unfold bind at 1. rewrite (next_type_eq _ _ _ R), HT.
    unfold bind at 1. rewrite (current_cons s _ _ R). change (0 =? SML_TYPE_OCTET_STRING) with true. cbv iota.
    unfold bind at 1. unfold bind at 1. rewrite HO. unfold ret at 1. unfold bind, sml_buf_has_errors. rewrite at_error, He. reflexivity.
  - split; [assumption|]. change (value_item (Some (mkValue 64 (VBool b)))) with (bool_item (Some b)) in *.
    pose proof (reads_bool (Some b) Hb) as HO.
    intros s t R Ht He Sm. specialize (HO s t R Ht He Sm). cbn [bool_item enc] in R. cbn [app] in R.
    unfold sml_value_parse. rewrite (unless_noskip _ _ _ _ R) by lia. unfold bind at 1. rewrite (next_type_eq _ _ _ R). change (66 / 16 mod 8 * 16) with 64.
    unfold bind at 1. rewrite (current_cons s _ _ R). change (64 =? SML_TYPE_OCTET_STRING) with false. change (64 =? SML_TYPE_BOOLEAN) with true. cbv iota.
    unfold bind at 1. unfold bind at 1. rewrite HO. unfold ret at 1. unfold bind, sml_buf_has_errors. rewrite at_error, He. reflexivity.
  - apply HN; auto.
  - apply HN; auto.
  - exfalso. apply every_here in HR. exact HR.
  - exfalso. apply every_here in HR. exact HR.
  - destruct (HF (VBytes b)). exact HR.
  - destruct (HF (VBool b)). exact HR.
  - replace (force_unsigned (mkValue (80 + Z.of_nat w) (VNum m))) with (mkValue (96 + Z.of_nat w) (VNum m)); [apply HN; auto|].
    unfold force_unsigned. cbn [v_type v_data]. f_equal. destruct Hw as [->|[->|[->| ->]]]; reflexivity.
  - replace (force_unsigned (mkValue (96 + Z.of_nat w) (VNum m))) with (mkValue (96 + Z.of_nat w) (VNum m)); [apply HN; auto|].
    unfold force_unsigned. cbn [v_type v_data]. f_equal. destruct Hw as [->|[->|[->| ->]]]; reflexivity.
  - destruct (HF (VNum m)). exact HR.
  - destruct (HF (VNum m)). exact HR.
Qed.
Lemma reads_value o : opt wf_entry_value o -> every readable (value_item o) -> reads sml_value_parse (enc (value_item o)) o.
Proof. destruct o as [v|]; intros HW HR; [now apply reads_value_some|apply unless_reads_none]. Qed.
Lemma reads_value' o : opt wf_value o -> every readable (value_item o) -> reads sml_value_parse (enc (value_item o)) o.
Proof. intros HW. apply reads_value. destruct o; [left; exact HW|exact I]. Qed.
Lemma reads_status o : opt wf_status o -> every readable (status_item o) -> reads sml_status_parse (enc (status_item o)) o.
Proof.
  destruct o as [v|]; intros HW HR; [|apply unless_reads_none]. cbn [opt] in HW. inversion HW as [w m Hw [HL HB]|m Hm]; subst.
  - destruct (land_type 96 _ (or_intror eq_refl) Hw) as [E1 E2]. pose proof (width_cases _ Hw).
    unfold status_item in *. cbn [st_type st_data] in *. rewrite E1, E2 in *.
    destruct (Z.eqb_spec (96 + Z.of_nat (length m)) 112); [lia|]. rewrite Nat2Z.id, firstn_all, number_bytes_num in * by (destruct m; [cbn in *; lia|discriminate]).
    intros s t R Ht He Sm. destruct (num_tl 96 _ (or_intror eq_refl) Hw) as [TF TT].
    pose proof (reads_num 96 (length m) (Some m) (or_intror eq_refl) ltac:(lia) (conj eq_refl HB) s t R Ht He Sm) as HN. cbn [num_item] in HN.
    cbn [enc] in *. rewrite host_length in *. rewrite <- app_assoc in R.
    unfold sml_status_parse. rewrite (unless_noskip _ _ _ _ R) by lia. unfold bind at 1. rewrite (type_fwd _ _ _ R TF), TT.
    unfold bind at 1. rewrite (current_cons s _ _ R). change (96 =? SML_TYPE_UNSIGNED) with true. cbv iota.
    unfold bind at 1. unfold bind at 1. rewrite (number_width_eq 96 _ (or_intror eq_refl) Hw). unfold bind at 1. change SML_TYPE_UNSIGNED with 96. rewrite HN.
    unfold ret at 1. unfold bind, sml_buf_has_errors. rewrite at_error, He.
    replace (to_u8 (Z.lor (to_u8 96) (Z.of_nat (length m)))) with (96 + Z.of_nat (length m)) by (destruct Hw as [->|[->|[->| ->]]]; reflexivity).
    reflexivity.
  - apply every_here in HR. contradiction.
Qed.
End WithHost.
