(** The DZG workaround of the list parser, as a pure function. *)
From Verif Require Import Base Buf Crc16 Number OctetString Boolean Value Time SList Lib Wf Spec TL Inv NumFacts PropsString.

(** OBIS names 1-0:96.1.0*255 and 1-0:16.7.0*255. *)
Definition serial_name : list Z := [1; 0; 96; 1; 0; 255].
Definition power_name : list Z := [1; 0; 16; 7; 0; 255].

(** The entry that carries the serial number of an affected meter: ten bytes,
    0A 01 'D' 'Z' 'G' and a big endian number in one of two ranges. *)
Definition affected (e : list_entry) : Prop :=
  le_obj_name e = Some serial_name /\
  exists serial, le_value e = Some (mkValue 0 (VBytes ([10; 1; 68; 90; 71] ++ serial))) /\ length serial = 5%nat /\
    (42000000 <= be_unsigned serial <= 48999999 \/ 55000000 <= be_unsigned serial <= 58999999).

Definition list_eqb (a b : list Z) : bool := if list_eq_dec Z.eq_dec a b then true else false.
Definition affectedb (e : list_entry) : bool :=
  match le_obj_name e, le_value e with
  | Some n, Some (mkValue t (VBytes b)) =>
      list_eqb n serial_name && (t =? 0) && (length b =? 10)%nat && list_eqb (firstn 5 b) [10; 1; 68; 90; 71] &&
      let s := be_unsigned (skipn 5 b) in
      ((42000000 <=? s) && (s <=? 48999999)) || ((55000000 <=? s) && (s <=? 58999999))
  | _, _ => false
  end.
Lemma list_eqb_eq a b : list_eqb a b = true <-> a = b.
Proof. unfold list_eqb. destruct (list_eq_dec Z.eq_dec a b); split; intros; congruence. Qed.
Lemma affectedb_iff e : affectedb e = true <-> affected e.
Proof.
  unfold affectedb, affected. split.
  - destruct (le_obj_name e) as [n|]; [|discriminate]. destruct (le_value e) as [[t [|b| |]]|]; try discriminate.
    cbv zeta. rewrite !andb_true_iff, orb_true_iff, !andb_true_iff, !list_eqb_eq, Nat.eqb_eq, Z.eqb_eq, !Z.leb_le.
    intros ((((-> & ->) & HL) & HF) & HR). split; [reflexivity|]. exists (skipn 5 b). rewrite <- HF, firstn_skipn, skipn_length.
    split; [reflexivity|]. split; [lia|exact HR].
  - intros (-> & serial & -> & HL & HR). cbv zeta.
    assert (E1 : list_eqb serial_name serial_name = true) by now apply list_eqb_eq.
    rewrite E1. change (0 =? 0) with true. rewrite app_length, HL.
    change (firstn 5 ([10; 1; 68; 90; 71] ++ serial)) with [10; 1; 68; 90; 71]. change (skipn 5 ([10; 1; 68; 90; 71] ++ serial)) with serial.
    change (list_eqb [10; 1; 68; 90; 71] [10; 1; 68; 90; 71]) with true. cbn [andb].
    cbn [length Nat.add Nat.eqb andb]. rewrite orb_true_iff, !andb_true_iff, !Z.leb_le. exact HR.
Qed.
Lemma name_is_eq o n : name_is o n = match o with None => false | Some s => list_eqb s n end.
Proof.
  destruct o as [s|]; [|reflexivity]. unfold name_is. destruct (list_eqb s n) eqn:E.
  - apply list_eqb_eq in E. subst. rewrite Z.eqb_refl. cbn [andb]. apply Z.eqb_eq. now apply memcmp_zero.
  - apply andb_false_iff. destruct (Z.eqb_spec (Z.of_nat (length s)) (Z.of_nat (length n))) as [HL|HL]; [right|now left].
    apply Z.eqb_neq. intros HM. apply memcmp_zero in HM; [|lia]. apply list_eqb_eq in HM. congruence.
Qed.
Lemma be_snoc l b : be_unsigned (l ++ [b]) = be_unsigned l * 256 + b.
Proof. unfold be_unsigned. rewrite fold_left_app. reflexivity. Qed.
Lemma serial_fold l : bytes_ok l -> fold_left (fun serial b => Z.lor (Z.shiftl serial 8) b) l 0 = be_unsigned l.
Proof.
  intros HB. induction l as [|b l IH] using rev_ind; [reflexivity|]. apply Forall_app in HB. destruct HB as [HL HB]. inversion HB as [|? ? Hb]; subst.
  rewrite fold_left_app, be_snoc. cbn [fold_left]. rewrite IH by auto. pose proof (be_range l HL) as HR.
  rewrite Z.shiftl_mul_pow2 by lia. change (2 ^ 8) with 256.
  assert (E : Z.land (be_unsigned l * 256) b = 0).
  { apply Z.bits_inj'. intros n Hn. rewrite Z.land_spec, Z.bits_0. destruct (Z.lt_ge_cases n 8).
    - change 256 with (2 ^ 8). now rewrite Z.mul_pow2_bits_low.
    - unfold byte_ok in Hb. rewrite (Z.bits_above_log2 b n); [apply andb_false_r|lia|].
      destruct (Z.eq_dec b 0) as [->|]; [cbn; lia|]. assert (Z.log2 b < 8) by (apply Z.log2_lt_pow2; lia). lia. }
  now rewrite <- (Z.lxor_lor _ _ E), <- Z.add_nocarry_lxor.
Qed.
Lemma detect_eq e s : opt wf_value (le_value e) -> detect_buggy_dzg_dvs74 e s = Ret (affectedb e, s).
Proof.
  intros HV. unfold detect_buggy_dzg_dvs74, affectedb. rewrite name_is_eq. change dzg_serial_oid with serial_name.
  destruct (le_obj_name e) as [n|]; [|reflexivity]. destruct (list_eqb n serial_name); cbn [negb andb].
  2:{ destruct (le_value e) as [[t [|b| |]]|]; reflexivity. }
  destruct (le_value e) as [v|]; [|reflexivity]. cbn [opt] in HV.
  inversion HV as [b [HB HL]|b Hb|w m Hw Hm|w m Hw Hm|m Hm|m Hm]; subst; cbn [v_type v_data]; try reflexivity.
  - change (0 =? SML_TYPE_OCTET_STRING) with true. change (0 =? 0) with true. cbn [negb]. unfold as_bytes, bind, ret.
    change DZG_SERIAL_LENGTH with (Z.of_nat 10).
    destruct (Nat.eqb_spec (length b) 10) as [E|E].
    2:{ destruct (Z.eqb_spec (Z.of_nat (length b)) (Z.of_nat 10)); [lia|]. reflexivity. }
    rewrite E, Z.eqb_refl. cbn [negb andb]. unfold dzg_serial_start.
    assert (L5 : length (firstn 5 b) = 5%nat) by (rewrite firstn_length; lia).
    destruct (list_eqb (firstn 5 b) [10; 1; 68; 90; 71]) eqn:E5.
    + apply list_eqb_eq in E5. rewrite E5. change (memcmp [10; 1; 68; 90; 71] [10; 1; 68; 90; 71]) with 0. change (0 =? 0) with true.
      cbn [negb andb existsb broken_dvs74_ranges fst snd]. rewrite orb_false_r. unfold serial_of.
      assert (L6 : length (skipn 5 b) = 5%nat) by (rewrite skipn_length; lia).
      rewrite (firstn_all2 (skipn 5 b)) by lia. rewrite serial_fold; [reflexivity|].
      apply Forall_forall. intros x Hx. unfold bytes_ok in HB. rewrite Forall_forall in HB. apply HB.
      rewrite <- (firstn_skipn 5 b). apply in_or_app. now right.
    + destruct (Z.eqb_spec (memcmp (firstn 5 b) [10; 1; 68; 90; 71]) 0) as [EM|EM]; [|reflexivity].
      apply memcmp_zero in EM; [|exact L5]. apply list_eqb_eq in EM. congruence.
  - destruct Hw as [->|[->|[->| ->]]]; reflexivity.
  - destruct Hw as [->|[->|[->| ->]]]; reflexivity.
Qed.
(** What the workaround makes of an entry: [after] says whether an affected
    serial number was seen before, [small] whether the value was encoded with
    one length byte and at most two data bytes. *)
Definition forced (e : list_entry) : list_entry :=
  mkEntry (le_obj_name e) (le_status e) (le_val_time e) (le_unit e) (le_scaler e)
    (match le_value e with None => None | Some v => Some (force_unsigned v) end) (le_value_signature e).
Definition is_power (e : list_entry) : bool := match le_obj_name e with None => false | Some n => list_eqb n power_name end.
Definition worked (after small : bool) (e : list_entry) : list_entry * bool :=
  if affectedb e then (e, true)
  else if after && is_power e && small then (forced e, after) else (e, after).
Lemma apply_eq w vlm e s : opt wf_value (le_value e) ->
  apply_workaround w vlm e s = Ret (worked w ((vlm =? 1) || (vlm =? 2) || (vlm =? 3)) e, s).
Proof.
  intros HV. unfold apply_workaround, bind. rewrite (detect_eq e s HV). unfold worked, is_power. destruct (affectedb e); [reflexivity|].
  rewrite name_is_eq. change dzg_power_name with power_name. unfold forced.
  destruct (le_value e) as [v|] eqn:EV.
  - destruct (w && _ && _); reflexivity.
  - destruct (w && _ && _); [|reflexivity]. unfold ret. destruct e; cbn in *. subst. reflexivity.
Qed.
