(** The elements of messages, and what their parsers accept. *)
From Verif Require Import Base Buf Crc16 Number OctetString Boolean Value Time SList Tree Bodies
  Message File Lib Wf Safe Safe2 Safe3 Ctx Ctx2 Ctx3 Scan Spec TL Inv Reads NumFacts Dzg Exact Grammar Accept.

Lemma header_nibbles ty l tl : header ty l tl -> tl_nibbles tl <= Z.max 0 l + Z.of_nat (length tl).
Proof. intros (_ & _ & <-). unfold tl_length. destruct (_ =? 112); lia. Qed.
Lemma header_hd ty l tl : header ty l tl -> ty <> 0 -> hd 0 tl <> 1.
Proof. intros (TF & <- & _). now apply tl_type_1. Qed.
Lemma tl_one tl : tl_field tl -> hd 0 tl = 1 -> tl = [1].
Proof.
  intros (i & la & -> & Hc & Hl) E. destruct i as [|x i]; cbn in *; [now subst|]. apply Forall_cons_iff in Hc. destruct Hc as [Hc _].
  unfold cont in Hc. lia.
Qed.
Lemma starts_ne {A} (W : lang A) v bs t : (forall v bs t, W v bs t -> bs <> []) -> W v bs t -> bs <> []. Proof. eauto. Qed.
Lemma hd_starts (bs t : list Z) : bs <> [] -> hd 0 bs <> 1 -> exists b u, bs ++ t = b :: u /\ b <> 1.
Proof. destruct bs as [|b u]; [congruence|]. cbn. eauto. Qed.

Section WithHost.
Context {H : Host}.

(** *** Strings *)
Lemma octets_hd s bs t : octets s bs t -> bs <> [] /\ hd 0 bs <> 1.
Proof.
  intros (tl & -> & (TF & _) & N & _). destruct (tl_hd _ TF) as (b & u & ->). split; [discriminate|]. cbn. intros ->. apply N. now apply (tl_one (1 :: u)).
Qed.
Lemma acc_octets : acc sml_octet_string_parse (optional octets).
Proof.
  intros s G v s1. pose proof G as (Ok & Sm & He & Ho). split.
  - intros (E & He1 & Ho1). destruct (octet_inv _ _ _ Ok Sm He E He1) as [(t & R & -> & _)|(tl & data & t & R & Hh & TF & TT & TL & Ht & -> & _)].
    + exists [1], t. split; [exact R|]. split; [reflexivity|]. rewrite (octet_1 _ _ R) in E. now injection E.
    + assert (TN : tl_nibbles tl < 2147483648).
      { destruct (Z.lt_ge_cases (tl_nibbles tl) 2147483648) as [|HB]; auto. exfalso.
        (* the flag ovf would be set *)
        destruct (tl_hd _ TF) as (b & u & El). assert (R0 : rest s = b :: u ++ data ++ t) by (rewrite R, El; reflexivity).
        unfold sml_octet_string_parse in E. rewrite (unless_noskip _ _ _ _ R0) in E by (rewrite El in Hh; exact Hh).
        apply bind_inv in E. destruct E as (ty & s2 & E1 & E). rewrite (next_type_eq _ _ _ R0) in E1. injection E1 as <- <-.
        destruct (negb _); [apply err_null_inv in E; congruence|]. apply bind_inv in E. destruct E as (l & s2 & E1 & E).
        destruct (next_length_closed s tl (data ++ t) Sm R TF) as (l0 & E0 & _). rewrite E1 in E0. injection E0 as -> ->.
        revert E. match goal with |- ?k _ = _ -> _ => assert (Mk : mon k) by mon end. intros E. apply Mk in E. destruct E as [_ E].
        cbn [ovf at_ set_ovf set_cursor] in E. unfold big in E. destruct (Z.leb_spec 2147483648 (tl_nibbles tl)); [|lia]. rewrite orb_true_r in E.
        rewrite E in Ho1; [discriminate|reflexivity]. }
      exists (tl ++ data), t. split; [now rewrite <- app_assoc|].
      rewrite (octet_fwd s tl data t Sm R Ht TF Hh TT TN (eq_sym (TL TN))) in E. injection E as <-. rewrite app_length. split; [|reflexivity].
      destruct (good_bytes s (tl ++ data) t G) as [HB _]; [now rewrite <- app_assoc|]. rewrite <- app_assoc in HB.
      apply Forall_app in HB. destruct HB as [_ HB]. apply Forall_app in HB. exists tl. split; [auto|]. split; [split; [auto|]; split; [auto|symmetry; auto]|].
      split; [intros ->; now apply Hh|]. tauto.
  - intros (bs & t & R & X & ->). destruct v as [data|]; cbn in X.
    + pose proof (octets_hd _ _ _ X) as (_ & Hh). destruct X as (tl & -> & Hd & N & HB & Ht).
      pose proof (good_bytes _ _ _ G R) as [_ HL]. rewrite <- app_assoc in R. pose proof (header_nibbles _ _ _ Hd) as TN. rewrite !app_length in HL.
      destruct Hd as (TF & TT & TL).
      rewrite (octet_fwd s tl data t Sm R Ht TF) by (auto; try lia; destruct (tl_hd _ TF) as (? & ? & ->); exact Hh).
      rewrite app_length. auto using at_flags.
    + subst bs. rewrite (octet_1 _ _ R). auto using at_flags.
Qed.

(** *** Numbers *)
Lemma le_inj a : forall b, length a = length b -> bytes_ok a -> bytes_ok b -> Base.le_value a = Base.le_value b -> a = b.
Proof.
  induction a as [|x a IH]; intros [|y b] HL Ha Hb E; try discriminate; auto. inversion Ha as [|? ? H1 H2]; subst. inversion Hb as [|? ? H3 H4]; subst.
  cbn [Base.le_value] in E. unfold byte_ok in *. assert (x = y) by lia. subst. f_equal. apply IH; auto; lia.
Qed.
Lemma le_range a : bytes_ok a -> 0 <= Base.le_value a < 256 ^ Z.of_nat (length a).
Proof.
  induction 1 as [|x a Hx Ha IH]; cbn [Base.le_value length]; [cbn; lia|]. rewrite Nat2Z.inj_succ, Z.pow_succ_r by lia. unfold byte_ok in Hx. lia.
Qed.
Lemma mem_u_inj a b : length a = length b -> bytes_ok a -> bytes_ok b -> mem_u a = mem_u b -> a = b.
Proof.
  unfold mem_u. destruct host_endian; intros HL Ha Hb E; [|now apply le_inj]. apply le_inj in E.
  - now rewrite <- (rev_involutive a), E, rev_involutive.
  - now rewrite !rev_length.
  - now apply Forall_rev.
  - now apply Forall_rev.
Qed.
Lemma mem_u_range a : bytes_ok a -> 0 <= mem_u a < 256 ^ Z.of_nat (length a).
Proof. intros Ha. unfold mem_u. destruct host_endian; [|now apply le_range]. rewrite <- (rev_length a). apply le_range. now apply Forall_rev. Qed.
Lemma mem_i_inj a b : length a = length b -> bytes_ok a -> bytes_ok b -> mem_i a = mem_i b -> a = b.
Proof.
  intros HL Ha Hb E. apply mem_u_inj; auto. pose proof (mem_u_range a Ha) as R1. pose proof (mem_u_range b Hb) as R2.
  unfold mem_i in E. rewrite HL in *. rewrite pow256 in E. destruct (_ && _), (_ && _); lia.
Qed.
Definition number_lang (ty : Z) (n : nat) : lang mem := if ty =? 80 then signed true n else unsigned true n.
Lemma host_bytes l : bytes_ok l -> bytes_ok (host_order l).
Proof. intros Hl. unfold host_order. destruct sml_number_endian; auto. rewrite swap_rev. now apply Forall_rev. Qed.
Lemma fill_ok ty b n : bytes_ok (repeat (fill_byte ty b) n).
Proof. apply Forall_forall. intros x Hx. apply repeat_spec in Hx. subst. unfold fill_byte, byte_ok. destruct (_ && _); lia. Qed.
Lemma be_fill_nil b n : be_signed (repeat (fill_byte 80 b) n) = if (0 <? Z.of_nat n) && negb (Z.land b 128 =? 0) then -1 else 0.
Proof.
  unfold fill_byte. change (80 =? SML_TYPE_INTEGER) with true. cbn [andb]. destruct (negb (Z.land b 128 =? 0)).
  - rewrite andb_true_r. unfold be_signed. rewrite repeat_length.
    assert (E : be_unsigned (repeat 255 n) = 256 ^ Z.of_nat n - 1).
    { rewrite <- (app_nil_r (repeat 255 n)), be_ff. cbn [length]. change (be_unsigned []) with 0. change (256 ^ Z.of_nat 0) with 1. lia. }
    rewrite E, ?pow256. assert (0 < 256 ^ Z.of_nat n) by (apply Z.pow_pos_nonneg; lia). destruct (Z.ltb_spec 0 (Z.of_nat n)).
    + replace (Z.of_nat n) with (Z.succ (Z.of_nat n - 1)) in * by lia. rewrite Z.pow_succ_r in * by lia.
      match goal with |- context [?a <=? ?b] => destruct (Z.leb_spec a b) end; lia.
    + replace n with 0%nat by lia. reflexivity.
  - rewrite andb_false_r. unfold be_signed. rewrite <- (app_nil_r (repeat 0 n)), be_zeros. rewrite app_nil_r, repeat_length, ?pow256.
    change (be_unsigned []) with 0. assert (0 < 256 ^ Z.of_nat n) by (apply Z.pow_pos_nonneg; lia).
    destruct n; [reflexivity|]. rewrite Nat2Z.inj_succ, Z.pow_succ_r in * by lia. match goal with |- context [?a <=? ?b] => destruct (Z.leb_spec a b) end; lia.
Qed.

(** what the parser makes of the transmitted bytes *)
Definition decoded (ty : Z) (n : nat) (data t : list Z) : mem :=
  host_order (repeat (fill_byte ty (hd 0 (data ++ t))) (n - length data) ++ data).
Lemma decoded_ok ty n data t : bytes_ok data -> (length data <= n)%nat -> length (decoded ty n data t) = n /\ bytes_ok (decoded ty n data t).
Proof.
  intros Hd HL. unfold decoded. rewrite host_length, app_length, repeat_length. split; [lia|]. apply host_bytes, Forall_app. split; [apply fill_ok|auto].
Qed.
Lemma unsigned_iff n m bs t : (1 <= n)%nat -> bytes_ok (bs ++ t) -> unsigned true n m bs t <->
  exists tl data, bs = tl ++ data /\ header 96 (Z.of_nat (length data)) tl /\ (length data <= n)%nat /\ data ++ t <> [] /\ m = decoded 96 n data t.
Proof.
  intros Hn HB. split.
  - intros (tl & data & -> & Hd & Bd & HL & Lm & Bm & E & Q). exists tl, data. split; [auto|]. split; [auto|]. split; [auto|]. split.
    + destruct data; [destruct (Q eq_refl) as [_ Q']; destruct t; [congruence|discriminate]|discriminate].
    + destruct (decoded_ok 96 n data t Bd HL). apply mem_u_inj; auto; [congruence|]. rewrite E. unfold decoded, fill_byte. change (96 =? SML_TYPE_INTEGER) with false.
      cbn [andb]. now rewrite mem_u_host, be_zeros.
  - intros (tl & data & -> & Hd & HL & N & ->). rewrite <- app_assoc in HB. apply Forall_app in HB. destruct HB as [_ HB]. apply Forall_app in HB. destruct HB as [Bd _].
    destruct (decoded_ok 96 n data t Bd HL). exists tl, data. split; [auto|]. split; [auto|]. split; [auto|]. split; [auto|]. split; [auto|]. split; [auto|]. split.
    + unfold decoded, fill_byte. change (96 =? SML_TYPE_INTEGER) with false. cbn [andb]. now rewrite mem_u_host, be_zeros.
    + intros ->. split; auto.
Qed.
Lemma signed_iff n m bs t : (1 <= n)%nat -> bytes_ok (bs ++ t) -> signed true n m bs t <->
  exists tl data, bs = tl ++ data /\ header 80 (Z.of_nat (length data)) tl /\ (length data <= n)%nat /\ data ++ t <> [] /\ m = decoded 80 n data t.
Proof.
  intros Hn HB.
  assert (HV : forall data, bytes_ok (data ++ t) -> data ++ t <> [] -> mem_i (decoded 80 n data t) =
    match data with [] => if 128 <=? hd 0 t then -1 else 0 | _ => be_signed data end).
  { intros data Bd N. unfold decoded. rewrite mem_i_host. destruct data as [|b data].
    - cbn [app length]. rewrite app_nil_r, be_fill_nil, land_128.
      + replace (0 <? Z.of_nat (n - 0)) with true by (symmetry; apply Z.ltb_lt; lia). cbn [andb]. reflexivity.
      + destruct t as [|c u]; [now cbn in N|]. cbn in *. now inversion Bd.
    - cbn [app hd]. apply be_signed_fill. apply Forall_app in Bd. tauto. }
  split.
  - intros (tl & data & -> & Hd & Bd & HL & Lm & Bm & Q). exists tl, data. rewrite <- app_assoc in HB. apply Forall_app in HB. destruct HB as [_ HB].
    assert (N : data ++ t <> []).
    { destruct data; [|discriminate]. destruct Q as (_ & Q & _). exact Q. }
    split; [auto|]. split; [auto|]. split; [auto|]. split; [auto|].
    destruct (decoded_ok 80 n data t Bd HL). apply mem_i_inj; auto; [congruence|]. rewrite (HV _ HB N). destruct data; [apply Q|exact Q].
  - intros (tl & data & -> & Hd & HL & N & ->). rewrite <- app_assoc in HB. apply Forall_app in HB. destruct HB as [_ HB]. pose proof HB as HB'. apply Forall_app in HB. destruct HB as [Bd _].
    destruct (decoded_ok 80 n data t Bd HL). exists tl, data. split; [auto|]. split; [auto|]. split; [auto|]. split; [auto|]. split; [auto|]. split; [auto|].
    rewrite (HV _ HB' N). destruct data; auto.
Qed.
Lemma number_iff ty n m bs t : ty = 80 \/ ty = 96 -> (1 <= n)%nat -> bytes_ok (bs ++ t) -> number_lang ty n m bs t <->
  exists tl data, bs = tl ++ data /\ header ty (Z.of_nat (length data)) tl /\ (length data <= n)%nat /\ data ++ t <> [] /\ m = decoded ty n data t.
Proof. intros [->| ->]; [apply signed_iff|apply unsigned_iff]. Qed.

Lemma acc_number ty n : ty = 80 \/ ty = 96 -> 1 <= n <= 16 -> acc (sml_number_parse ty n) (optional (number_lang ty (Z.to_nat n))).
Proof.
  intros Hty Hn s G v s1. pose proof G as (Ok & Sm & He & Ho). split.
  - intros (E & He1 & Ho1). destruct (number_inv _ _ _ _ _ Hn Ok Sm He E He1) as [(t & R & -> & _)|(tl & data & t & m & R & Hh & TF & TT & HL & TL & N & -> & Em & _)].
    + exists [1], t. split; [exact R|]. split; [reflexivity|]. unfold sml_number_parse in E. rewrite (unless_skip _ _ _ R) in E. now injection E.
    + assert (TN : tl_nibbles tl < 2147483648).
      { destruct (Z.lt_ge_cases (tl_nibbles tl) 2147483648) as [|HB]; auto. exfalso.
        destruct (tl_hd _ TF) as (b & u & El). assert (R0 : rest s = b :: u ++ data ++ t) by (rewrite R, El; reflexivity).
        unfold sml_number_parse in E. rewrite (unless_noskip _ _ _ _ R0) in E by (rewrite El in Hh; exact Hh).
        unfold bind at 1 in E. rewrite (at_end_cons _ _ _ R0) in E.
        apply bind_inv in E. destruct E as (ty' & s2 & E1 & E). rewrite (next_type_eq _ _ _ R0) in E1. injection E1 as <- <-.
        destruct (negb _); [apply err_null_inv in E; congruence|]. apply bind_inv in E. destruct E as (l & s2 & E1 & E).
        destruct (next_length_closed s tl (data ++ t) Sm R TF) as (l0 & E0 & _). rewrite E1 in E0. injection E0 as -> ->.
        revert E. match goal with |- (if ?b then ?x else ?y) _ = _ -> _ => assert (Mk : mon (if b then x else y)) by mon end. intros E. apply Mk in E. destruct E as [_ E].
        cbn [ovf at_ set_ovf set_cursor] in E. unfold big in E. destruct (Z.leb_spec 2147483648 (tl_nibbles tl)); [|lia]. rewrite orb_true_r in E.
        rewrite E in Ho1; [discriminate|reflexivity]. }
      exists (tl ++ data), t. split; [now rewrite <- app_assoc|].
      rewrite (number_fwd ty n s tl data t Sm R N TF Hh TT TN (eq_sym (TL TN)) HL) in E. injection E as _ <-. rewrite app_length. split; [|reflexivity].
      destruct (good_bytes s (tl ++ data) t G) as [HB _]; [now rewrite <- app_assoc|]. cbn [optional]. apply number_iff; [auto|lia|auto|].
      exists tl, data. split; [auto|]. split; [split; [auto|]; split; [auto|symmetry; auto]|]. split; [lia|]. auto.
  - intros (bs & t & R & X & ->). destruct v as [m|]; cbn in X.
    + pose proof (good_bytes _ _ _ G R) as [HB HL]. apply number_iff in X; [|auto|lia|auto]. destruct X as (tl & data & -> & Hd & HLd & N & ->).
      rewrite <- app_assoc in R. pose proof (header_nibbles _ _ _ Hd) as TN. rewrite !app_length in HL.
      assert (Hh : hd 0 tl <> 1) by (apply (header_hd _ _ _ Hd); lia). destruct Hd as (TF & TT & TL).
      rewrite (number_fwd ty n s tl data t Sm R N TF) by (auto; lia). rewrite app_length. split; [reflexivity|]. now apply at_flags.
    + subst bs. unfold sml_number_parse. rewrite (unless_skip _ _ _ R). auto using at_flags.
Qed.
Lemma acc_u8 : acc sml_u8_parse (optional (unsigned true 1)). Proof. apply (acc_number 96 1); lia. Qed.
Lemma acc_u16 : acc sml_u16_parse (optional (unsigned true 2)). Proof. apply (acc_number 96 2); lia. Qed.
Lemma acc_u32 : acc sml_u32_parse (optional (unsigned true 4)). Proof. apply (acc_number 96 4); lia. Qed.
Lemma acc_u64 : acc sml_u64_parse (optional (unsigned true 8)). Proof. apply (acc_number 96 8); lia. Qed.
Lemma acc_i8 : acc sml_i8_parse (optional (signed true 1)). Proof. apply (acc_number 80 1); lia. Qed.
Lemma acc_i16 : acc sml_i16_parse (optional (signed true 2)). Proof. apply (acc_number 80 2); lia. Qed.
Lemma acc_i64 : acc sml_i64_parse (optional (signed true 8)). Proof. apply (acc_number 80 8); lia. Qed.
Lemma number_hd ty n m bs t : ty = 80 \/ ty = 96 -> number_lang ty n m bs t -> exists b u, bs = b :: u /\ byte_type b = ty.
Proof.
  intros [->| ->] X; destruct X as (tl & data & -> & Hd & _); destruct (header_type _ _ _ data Hd) as (b & u & _ & E & Hty); eauto.
Qed.

(** *** Booleans *)
Lemma boolean_hd v bs t : boolean v bs t -> exists b u, bs = b :: u /\ byte_type b = 64.
Proof. intros (tl & x & -> & Hd & _). destruct (header_type _ _ _ [x] Hd) as (b & u & _ & E & Hty); eauto. Qed.
Lemma acc_boolean : acc sml_boolean_parse (optional boolean).
Proof.
  unfold sml_boolean_parse. apply acc_optional; [mon| |].
  - eapply acc_ext.
    + apply (acc_header 64 _ (fun l : Z => if negb (l =? 1) then fun _ _ _ => False else
        then_ (fun e bs t => bs = [] /\ (e = true <-> t = [])) (fun e : bool => if e then fun _ _ _ => False else
          fun r bs t => exists b, bs = [b] /\ r = Some (if b =? 0 then 0 else 255)))); [mon| |mon|apply acc_null].
      intros l. destruct (negb (l =? 1)); [apply acc_null|]. apply acc_bind; [mon|apply acc_at_end|]. intros [|]; [apply acc_null|].
      (* one byte *)
      intros s G v s1. pose proof G as (Ok & Sm & He & Ho). split.
      * intros (E & He1 & Ho1). apply bind_inv in E. destruct E as (b & s2 & E1 & E).
        destruct (proj1 (acc_current s G b s2)) as (bs & t & R & (-> & u & ->) & ->).
        { split; [auto|]. revert E. match goal with |- ?k _ = _ -> _ => assert (Mk : mon k) by mon end. intros E. apply Mk in E.
          destruct (error s2); [rewrite (proj1 E) in He1 by auto; discriminate|]. destruct (ovf s2); [rewrite (proj2 E) in Ho1 by auto; discriminate|]. auto. }
        nil0. unfold bind in E. rewrite (update_eq 1) in E. injection E as <- <-. exists [b], u. split; [exact R|]. split.
        -- exists b. split; [auto|]. destruct (b =? 0); reflexivity.
        -- unfold at_, set_ovf, set_cursor. cbn [buffer cursor error ovf]. now rewrite orb_false_r.
      * intros (bs & t & R & (b & -> & ->) & ->). unfold bind. rewrite (current_cons _ _ _ R), (update_eq 1). split; [|now apply at_flags].
        unfold ret. f_equal. f_equal; [destruct (b =? 0); reflexivity|]. unfold at_, set_ovf, set_cursor. cbn [buffer cursor error ovf]. now rewrite orb_false_r.
    + intros r bs t HB HS. split.
      * intros (tl & b & l & -> & Hd & TN & X). destruct (Z.eqb_spec l 1) as [->|]; [|contradiction]. cbn [negb] in X.
        destruct X as (e & b1 & b2 & -> & (-> & _) & X). destruct e; [contradiction|]. destruct X as (x & -> & ->). cbn [app] in *.
        exists tl, x. split; [auto|]. split; [auto|]. split; [|auto]. apply Forall_app in HB. destruct HB as [HB _]. apply Forall_app in HB. destruct HB as [_ HB]. now inversion HB.
      * intros X. destruct r as [v|]; [|destruct X]. destruct X as (tl & x & -> & Hd & Bx & ->). exists tl, [x], 1. split; [auto|]. split; [auto|].
        pose proof (header_nibbles _ _ _ Hd). split.
        { destruct Hd as (TF & TT & TL). unfold tl_length in TL. rewrite TT in TL. change (64 =? 112) with false in TL. cbv iota in TL.
          rewrite !app_length in HS. cbn [length] in HS. lia. }
        rewrite Z.eqb_refl. cbn [negb]. exists false, [], [x]. split; [auto|]. split; [split; [auto|split; discriminate]|]. eauto.
  - intros v bs t X. destruct (boolean_hd _ _ _ X) as (b & u & -> & Hty). exists b, (u ++ t). split; [auto|]. intros ->. discriminate.
Qed.
End WithHost.
