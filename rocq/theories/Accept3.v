(** Values, status words and times. *)
From Verif Require Import Base Buf Crc16 Number OctetString Boolean Value Time SList Tree Bodies
  Message File Lib Wf Safe Safe2 Safe3 Ctx Ctx2 Ctx3 Scan Spec TL Inv Reads NumFacts Dzg Exact Grammar Accept Accept2.

Lemma acc_unless0 {A} (k : P (option A)) W : mon k -> acc k W ->
  acc (unless_skipped k) (fun v bs t => (v = None /\ bs = [1]) \/ (W v bs t /\ exists b u, bs ++ t = b :: u /\ b <> 1)).
Proof.
  intros Mk Hk. unfold unless_skipped. eapply acc_ext.
  - apply acc_bind with (W2 := fun sk : Z => if negb (sk =? 0) then (fun r bs t => r = None /\ bs = []) else W); [mon|apply acc_skip|].
    intros sk. destruct (negb (sk =? 0)); [apply acc_ret|exact Hk].
  - intros v bs t _ _. split.
    + intros (sk & b1 & b2 & -> & [(-> & ->)|(-> & -> & Y)] & X); cbn in X |- *; [left|right; auto]. destruct X as [-> ->]. auto.
    + intros [(-> & ->)|(X & b & u & E & Hb)]; [exists 1, [1], []; cbn; auto 6|]. unfold then_. exists 0. exists (@nil Z). exists bs. cbn [app Z.eqb negb].
      split; [auto|]. split; [|exact X]. right. eauto 8.
Qed.
(** a result computed from the one before *)
Lemma acc_map {A B} (p : P A) (f : A -> B) W : acc p W -> acc (x <- p ;; ret (f x)) (fun v bs t => exists x, W x bs t /\ v = f x).
Proof.
  intros Hp. eapply acc_ext; [apply acc_bind with (W2 := fun x r bs t => r = f x /\ bs = []); [mon|exact Hp|intros; apply acc_ret]|].
  intros v bs t _ _. split.
  - intros (x & b1 & b2 & -> & X & -> & ->). rewrite app_nil_r. eauto.
  - intros (x & X & ->). exists x, bs, []. rewrite app_nil_r. auto.
Qed.
(** the next byte decides *)
Lemma acc_peek {A} (k : Z -> Z -> P A) W : (forall ty b, mon (k ty b)) -> (forall ty b, acc (k ty b) (W ty b)) ->
  acc (ty <- sml_buf_get_next_type ;; b <- sml_buf_get_current_byte ;; k ty b)
    (fun v bs t => exists b u, bs ++ t = b :: u /\ W (byte_type b) b v bs t).
Proof.
  intros Mk Hk. eapply acc_ext.
  - apply acc_bind with (W2 := fun ty => then_ (fun b bs t => bs = [] /\ exists u, t = b :: u) (W ty)); [mon|apply acc_type|].
    intros ty. apply acc_bind; [mon|apply acc_current|auto].
  - intros v bs t _ _. split.
    + intros (ty & b1 & b2 & -> & (-> & b & u & E & ->) & b' & b3 & b4 & -> & (-> & u' & E') & X). cbn [app] in *.
      rewrite E in E'. injection E' as <- <-. eauto.
    + intros (b & u & E & X). exists (byte_type b), [], bs. split; [auto|]. split; [eauto 6|]. exists b, [], bs. split; [auto|]. split; [eauto|auto].
Qed.
Lemma acc_noerr {A} (p : P A) W : acc p W -> acc (v <- p ;; e <- sml_buf_has_errors ;; if (e : bool) then ret None else ret (Some v))
  (fun r bs t => exists v, W v bs t /\ r = Some v).
Proof.
  intros Hp. eapply acc_ext.
  - apply (acc_field p (fun v => ret (Some v)) W (fun v r bs t => r = Some v /\ bs = [])); [mon|exact Hp|]. intros; apply acc_ret.
  - intros r bs t _ _. split.
    + intros (x & b1 & b2 & -> & X & -> & ->). rewrite app_nil_r. eauto.
    + intros (x & X & ->). exists x, bs, []. rewrite app_nil_r. auto.
Qed.
Lemma acc_pure {A} (p : P A) (v : A) : (forall s, p s = Ret (v, s)) -> acc p (fun v' bs t => v' = v /\ bs = []).
Proof.
  intros E s G v' s1. rewrite E. apply (acc_ret v s G v' s1).
Qed.
(** a pure step first *)
Lemma acc_bind_pure {A B} (p : P A) (v : A) (k : A -> P B) W : (forall s, p s = Ret (v, s)) -> acc (k v) W -> acc (bind p k) W.
Proof. intros E Hk s G v' s1. unfold bind. rewrite E. apply Hk, G. Qed.

Section WithHost.
Context {H : Host}.

Lemma width_eq b s : number_width b s = Ret (Z.of_nat (width_for (b mod 16 - 1)), s).
Proof.
  unfold number_width. change SML_LENGTH_FIELD with (Z.ones 4). rewrite Z.land_ones by lia. change (2 ^ 4) with 16.
  assert (HR : 0 <= b mod 16 < 16) by (apply Z.mod_pos_bound; lia). set (n := b mod 16) in *. clearbody n.
  assert (HC : forallb (fun k : nat => match max_loop 5 1 (Z.of_nat k - 1) s with Ret (w, _) => w =? Z.of_nat (width_for (Z.of_nat k - 1)) | _ => false end) (seq 0 16) = true).
  { cbn [seq forallb]. reflexivity. }
  rewrite forallb_forall in HC. specialize (HC (Z.to_nat n)). rewrite Z2Nat.id in HC by lia. specialize (HC ltac:(apply in_seq; lia)).
  destruct (max_loop 5 1 (n - 1) s) as [[w s1]| |] eqn:E; try discriminate. apply Z.eqb_eq in HC. rewrite HC. do 2 f_equal.
  revert E. generalize 1 at 1. generalize 5%nat. intros k. induction k as [|k IH]; intros m E; cbn [max_loop] in E; [discriminate|].
  destruct (_ <? _); [eauto|]. now injection E.
Qed.
Lemma width_range n : (1 <= width_for n <= 16)%nat.
Proof. unfold width_for. repeat destruct (_ <=? _); lia. Qed.
Lemma width_type ty n : ty = 80 \/ ty = 96 -> to_u8 (Z.lor (to_u8 ty) (Z.of_nat (width_for n))) = Z.lor ty (Z.of_nat (width_for n)).
Proof. intros [->| ->]; unfold width_for; repeat destruct (_ <=? _); reflexivity. Qed.

Definition value_in (b : Z) : lang sml_value := fun v bs t =>
  (byte_type b = 0 /\ exists d, optional octets d bs t /\ v = mkValue 0 (data_of_bytes d)) \/
  (byte_type b = 64 /\ exists d, optional boolean d bs t /\ v = mkValue 64 (data_of_bool d)) \/
  ((byte_type b = 80 \/ byte_type b = 96) /\ exists d, optional (number_lang (byte_type b) (width_for (b mod 16 - 1))) d bs t /\
     v = mkValue (Z.lor (byte_type b) (Z.of_nat (width_for (b mod 16 - 1)))) (data_of_num d)).
Lemma value_in_iff b v bs t u : bs ++ t = b :: u -> b <> 1 -> value_in b v bs t <-> value true v bs t.
Proof.
  intros E Hb. assert (HN : bs <> [1]) by (intros ->; injection E as <- _; now apply Hb).
  assert (HH : bs <> [] -> hd 0 bs = b) by (destruct bs; [congruence|]; intros _; now injection E).
  split.
  - intros [(Ht & d & X & ->)|[(Ht & d & X & ->)|(Ht & d & X & ->)]].
    + left. destruct d as [x|]; [|contradiction]. exists x. auto.
    + right; left. destruct d as [x|]; [|contradiction]. exists x. auto.
    + destruct d as [m|]; [|contradiction]. cbn [optional] in X. destruct (number_hd _ _ _ _ _ Ht X) as (b0 & u0 & E0 & Hty).
      assert (Eb : hd 0 bs = b) by (apply HH; rewrite E0; discriminate).
      destruct Ht as [Ht|Ht]; rewrite Ht in X; [right; right; left|right; right; right]; exists (width_for (b mod 16 - 1)), m;
        (split; [exact X|]); (split; [split; [now rewrite Eb|now left]|]); now rewrite Ht.
  - intros [(s & X & ->)|[(d & X & ->)|[(w & m & X & (-> & _) & ->)|(w & m & X & (-> & _) & ->)]]].
    + left. pose proof X as (tl & E1 & Hd & _). destruct (header_type _ _ _ s Hd) as (b0 & u0 & _ & E2 & Hty). rewrite E1, E2 in E. injection E as <- _.
      split; [exact Hty|]. exists (Some s). auto.
    + right; left. destruct (boolean_hd _ _ _ X) as (b0 & u0 & E1 & Hty). rewrite E1 in E. injection E as <- _. split; [exact Hty|]. exists (Some d). auto.
    + right; right. destruct (number_hd 80 _ _ _ _ (or_introl eq_refl) X) as (b0 & u0 & E1 & Hty). rewrite E1 in E. injection E as <- _. rewrite Hty. split; [auto|].
      exists (Some m). rewrite E1 in *. auto.
    + right; right. destruct (number_hd 96 _ _ _ _ (or_intror eq_refl) X) as (b0 & u0 & E1 & Hty). rewrite E1 in E. injection E as <- _. rewrite Hty. split; [auto|].
      exists (Some m). rewrite E1 in *. auto.
Qed.
Lemma acc_value : acc sml_value_parse (optional (value true)).
Proof.
  unfold sml_value_parse. eapply acc_ext.
  - apply acc_unless0; [mon|]. apply (acc_peek _ (fun ty b r bs t => exists v,
      (if ty =? 0 then exists d, optional octets d bs t /\ v = mkValue 0 (data_of_bytes d)
       else if ty =? 64 then exists d, optional boolean d bs t /\ v = mkValue 64 (data_of_bool d)
       else if (ty =? 96) || (ty =? 80) then exists d, optional (number_lang ty (width_for (b mod 16 - 1))) d bs t /\
          v = mkValue (Z.lor ty (Z.of_nat (width_for (b mod 16 - 1)))) (data_of_num d)
       else False) /\ r = Some v)); [mon|]. intros ty b.
    apply (acc_noerr _ (fun v bs t => if ty =? 0 then exists d, optional octets d bs t /\ v = mkValue 0 (data_of_bytes d)
       else if ty =? 64 then exists d, optional boolean d bs t /\ v = mkValue 64 (data_of_bool d)
       else if (ty =? 96) || (ty =? 80) then exists d, optional (number_lang ty (width_for (b mod 16 - 1))) d bs t /\
          v = mkValue (Z.lor ty (Z.of_nat (width_for (b mod 16 - 1)))) (data_of_num d)
       else False)).
    change SML_TYPE_OCTET_STRING with 0. change SML_TYPE_BOOLEAN with 64. change SML_TYPE_UNSIGNED with 96. change SML_TYPE_INTEGER with 80.
    destruct (Z.eqb_spec ty 0) as [->|]; [apply (acc_map _ (fun d => mkValue 0 (data_of_bytes d))), acc_octets|].
    destruct (Z.eqb_spec ty 64) as [->|]; [apply (acc_map _ (fun d => mkValue 64 (data_of_bool d))), acc_boolean|].
    destruct ((ty =? 96) || (ty =? 80)) eqn:Hty.
    + assert (Hty' : ty = 80 \/ ty = 96) by (apply orb_true_iff in Hty; rewrite !Z.eqb_eq in Hty; tauto).
      eapply acc_bind_pure; [apply width_eq|]. rewrite width_type by auto.
      apply (acc_map _ (fun d => mkValue (Z.lor ty (Z.of_nat (width_for (b mod 16 - 1)))) (data_of_num d))).
      pose proof (width_range (b mod 16 - 1)) as WR. pose proof (acc_number ty (Z.of_nat (width_for (b mod 16 - 1))) Hty') as HA.
      rewrite Nat2Z.id in HA. apply HA. lia.
    + apply acc_set. mon.
  - intros r bs t _ _. split.
    + intros [(-> & ->)|((b & u & E & v & X & ->) & b' & u' & E' & Hb)]; [reflexivity|]. rewrite E in E'. injection E' as <- <-. cbn [optional].
      apply (value_in_iff b v bs t u E Hb). unfold value_in.
      destruct (Z.eqb_spec (byte_type b) 0); [now left|]. destruct (Z.eqb_spec (byte_type b) 64); [right; now left|].
      destruct (_ || _) eqn:HO; [|contradiction]. right; right. apply orb_true_iff in HO. rewrite !Z.eqb_eq in HO. split; [tauto|exact X].
    + intros X. destruct r as [v|]; cbn [optional] in X; [right|now left].
      assert (HS : exists b u, bs ++ t = b :: u /\ b <> 1).
      { destruct X as [(s & X & _)|[(d & X & _)|[(w & m & X & _)|(w & m & X & _)]]].
        - destruct (octets_hd _ _ _ X). now apply hd_starts.
        - destruct (boolean_hd _ _ _ X) as (b & u & -> & Hty). exists b, (u ++ t). split; [auto|]. intros ->. discriminate.
        - destruct (number_hd 80 _ _ _ _ (or_introl eq_refl) X) as (b & u & -> & Hty). exists b, (u ++ t). split; [auto|]. intros ->. discriminate.
        - destruct (number_hd 96 _ _ _ _ (or_intror eq_refl) X) as (b & u & -> & Hty). exists b, (u ++ t). split; [auto|]. intros ->. discriminate. }
      split; [|exact HS]. destruct HS as (b & u & E & Hb). exists b, u. split; [exact E|]. exists v. split; [|reflexivity].
      apply (value_in_iff b v bs t u E Hb) in X. destruct X as [(-> & X)|[(-> & X)|([Hty|Hty] & X)]]; try exact X; rewrite Hty in *; exact X.
Qed.
Lemma acc_status : acc sml_status_parse (optional (status true)).
Proof.
  unfold sml_status_parse. eapply acc_ext.
  - apply acc_unless0; [mon|]. apply (acc_peek _ (fun ty b r bs t => exists v,
      (if ty =? 96 then exists d, optional (number_lang ty (width_for (b mod 16 - 1))) d bs t /\
          v = mkStatus (Z.lor ty (Z.of_nat (width_for (b mod 16 - 1)))) d
       else False) /\ r = Some v)); [mon|]. intros ty b.
    apply (acc_noerr _ (fun v bs t => if ty =? 96 then exists d, optional (number_lang ty (width_for (b mod 16 - 1))) d bs t /\
          v = mkStatus (Z.lor ty (Z.of_nat (width_for (b mod 16 - 1)))) d
       else False)).
    change SML_TYPE_UNSIGNED with 96. destruct (Z.eqb_spec ty 96) as [->|].
    + eapply acc_bind_pure; [apply width_eq|]. rewrite width_type by auto.
      apply (acc_map _ (fun d => mkStatus (Z.lor 96 (Z.of_nat (width_for (b mod 16 - 1)))) d)).
      pose proof (width_range (b mod 16 - 1)) as WR. pose proof (acc_number 96 (Z.of_nat (width_for (b mod 16 - 1))) (or_intror eq_refl)) as HA.
      rewrite Nat2Z.id in HA. apply HA. lia.
    + apply acc_set. mon.
  - intros r bs t _ _. split.
    + intros [(-> & ->)|((b & u & E & v & X & ->) & b' & u' & E' & Hb)]; [reflexivity|]. rewrite E in E'. injection E' as <- <-. cbn [optional].
      destruct (Z.eqb_spec (byte_type b) 96) as [Hty|]; [|contradiction]. destruct X as ([m|] & X & ->).
      * rewrite Hty in *. exists (width_for (b mod 16 - 1)), m. split; [exact X|]. split; [|reflexivity].
        destruct (number_hd 96 _ _ _ _ (or_intror eq_refl) X) as (b0 & u0 & E1 & _). rewrite E1 in *. injection E as <- _. split; [auto|now left].
      * exfalso. cbn in X. subst bs. injection E as <- _. now apply Hb.
    + intros X. destruct r as [v|]; cbn [optional] in X; [right|now left]. destruct X as (w & m & X & (-> & _) & ->).
      destruct (number_hd 96 _ _ _ _ (or_intror eq_refl) X) as (b & u & E & Hty). rewrite E in *. split.
      * exists b, (u ++ t). split; [reflexivity|]. rewrite Hty. eexists. split; [|reflexivity]. change (96 =? 96) with true. cbv iota. exists (Some m). auto.
      * exists b, (u ++ t). split; [auto|]. intros ->. discriminate.
Qed.

Lemma unsigned_hd q n m bs t : unsigned q n m bs t -> exists b u, bs = b :: u /\ byte_type b = 96.
Proof. intros (tl & data & -> & Hd & _); destruct (header_type _ _ _ data Hd) as (b & u & _ & E & Hty); eauto. Qed.
Lemma signed_hd q n m bs t : signed q n m bs t -> exists b u, bs = b :: u /\ byte_type b = 80.
Proof. intros (tl & data & -> & Hd & _); destruct (header_type _ _ _ data Hd) as (b & u & _ & E & Hty); eauto. Qed.
Lemma local_hd q bs t : local_time q bs t -> exists b u, bs = b :: u /\ byte_type b = 112.
Proof. intros (tl & b0 & n & o1 & o2 & o3 & -> & Hd & _); destruct (header_type _ _ _ b0 Hd) as (b & u & _ & E & Hty); eauto. Qed.

Definition time_tail (tag : option mem) : lang (option sml_time) := fun r bs t =>
  (exists m, unsigned true 4 m bs t /\ r = Some (mkTime tag (Some m))) \/ (local_time true bs t /\ r = Some (mkTime tag None)) \/
  (r = None /\ bs = [] /\ exists c u, t = c :: u /\ byte_type c <> 96 /\ byte_type c <> 112).
Lemma acc_local {A} (v : A) : acc (sml_buf_get_next_length ;;; t1 <-? sml_u32_parse ;; t2 <-? sml_i16_parse ;; t3 <-? sml_i16_parse ;; ret (Some v))
  (fun r bs t => r = Some v /\ exists tl b n o1 o2 o3, bs = tl ++ b /\ tl_field tl /\ tl_length tl = n /\ tl_nibbles tl < 2147483648 /\
     fields [optional (unsigned true 4) o1; optional (signed true 2) o2; optional (signed true 2) o3] b t).
Proof.
  eapply acc_ext.
  - apply acc_bind with (W2 := fun _ => then_ (optional (unsigned true 4)) (fun _ => then_ (optional (signed true 2)) (fun _ => then_ (optional (signed true 2)) (fun _ r bs t => r = Some v /\ bs = []))));
      [mon|apply acc_length|]. intros _. apply acc_field; [mon|apply acc_u32|]. intros _. apply acc_field; [mon|apply acc_i16|].
    intros _. apply acc_field; [mon|apply acc_i16|]. intros _. apply acc_ret.
  - intros r bs t _ _. split.
    + intros (l & tl & b & -> & (TF & TN & ->) & o1 & b1 & b2 & -> & X1 & o2 & b3 & b4 & -> & X2 & o3 & b5 & b6 & -> & X3 & -> & ->). split; [auto|].
      exists tl, (b1 ++ b3 ++ b5 ++ []), (tl_length tl), o1, o2, o3. split; [auto|]. split; [auto|]. split; [auto|]. split; [auto|]. cbn [fields].
      exists b1, (b3 ++ b5 ++ []). split; [auto|]. split; [auto|]. exists b3, (b5 ++ []). split; [auto|]. split; [auto|]. exists b5, []. auto.
    + intros (-> & tl & b & n & o1 & o2 & o3 & -> & TF & <- & TN & b1 & b2 & -> & X1 & b3 & b4 & -> & X2 & b5 & b6 & -> & X3 & E). cbn in E. subst b6.
      exists (tl_length tl), tl, (b1 ++ b3 ++ b5 ++ []). split; [auto|]. split; [auto|]. exists o1, b1, (b3 ++ b5 ++ []). split; [auto|]. split; [auto|].
      exists o2, b3, (b5 ++ []). split; [auto|]. split; [auto|]. exists o3, b5, []. auto.
Qed.
Lemma acc_time_value tag : acc (sml_time_value tag) (time_tail tag).
Proof.
  unfold sml_time_value. eapply acc_ext.
  - apply acc_bind with (W2 := fun ty : Z => if ty =? 96 then then_ (optional (unsigned true 4)) (fun d r bs t => r = Some (mkTime tag d) /\ bs = [])
       else if ty =? 112 then (fun r bs t => r = Some (mkTime tag None) /\ exists tl b n o1 o2 o3, bs = tl ++ b /\ tl_field tl /\ tl_length tl = n /\ tl_nibbles tl < 2147483648 /\
           fields [optional (unsigned true 4) o1; optional (signed true 2) o2; optional (signed true 2) o3] b t)
       else fun r bs t => r = None /\ bs = []); [mon|apply acc_type|].
    intros ty. change SML_TYPE_UNSIGNED with 96. change SML_TYPE_LIST with 112. destruct (ty =? 96).
    + apply acc_field; [mon|apply acc_u32|]. intros; apply acc_ret.
    + destruct (ty =? 112); [apply acc_local|apply acc_ret].
  - intros r bs t _ _. split.
    + intros (ty & b1 & bs' & -> & (-> & b & u & E & ->) & X). cbn [app] in *. destruct (Z.eqb_spec (byte_type b) 96) as [Hty|N96].
      * destruct X as (d & b2 & b3 & -> & X & -> & ->). rewrite app_nil_r in *. destruct d as [m|]; cbn [optional] in X; [left; eauto|]. subst b2. injection E as <- _. discriminate.
      * destruct (Z.eqb_spec (byte_type b) 112) as [Hty|N112].
        -- right; left. destruct X as (-> & tl & b0 & n & o1 & o2 & o3 & -> & TF & HL & TN & X). split; [|auto]. exists tl, b0, n, o1, o2, o3.
           assert (Hd : header 112 n tl). { split; [auto|]. split; [|auto]. rewrite <- Hty. apply (tl_type_hd tl b u (b0 ++ t) TF). now rewrite app_assoc. }
           split; [auto|]. split; [auto|]. split; [|auto]. right. split; [auto|]. now rewrite <- (list_nibbles _ _ Hd).
        -- destruct X as (-> & ->). right; right. cbn in E. eauto 8.
    + intros [(m & X & ->)|[(X & ->)|(-> & -> & c & u & -> & N1 & N2)]].
      * destruct (unsigned_hd _ _ _ _ _ X) as (b & u & E & Hty). exists 96, [], bs. split; [auto|]. split; [split; [auto|]; exists b, (u ++ t); now rewrite E|].
        change (96 =? 96) with true. cbv iota. exists (Some m), bs, []. rewrite app_nil_r. auto.
      * destruct (local_hd _ _ _ X) as (b & u & E & Hty). exists 112, [], bs. split; [auto|]. split; [split; [auto|]; exists b, (u ++ t); now rewrite E|].
        change (112 =? 96) with false. change (112 =? 112) with true. cbv iota. split; [auto|]. destruct X as (tl & b0 & n & o1 & o2 & o3 & E1 & Hd & HN & X).
        pose proof (list_nibbles _ _ Hd). destruct Hd as (TF & _ & HL). exists tl, b0, n, o1, o2, o3. split; [auto|]. split; [auto|]. split; [auto|]. split; [|auto]. lia.
      * exists (byte_type c), [], []. split; [auto|]. split; [split; [auto|]; exists c, u; auto|]. destruct (Z.eqb_spec (byte_type c) 96); [contradiction|]. destruct (Z.eqb_spec (byte_type c) 112); [contradiction|]. auto.
Qed.
Lemma acc_time : acc sml_time_parse (time true).
Proof.
  unfold sml_time_parse. eapply acc_ext.
  - apply acc_unless0; [mon|]. apply acc_bind with (W2 := fun b : Z => if b =? 101 then time_tail (Some [1]) else
      (fun r bs t => exists tl b, bs = tl ++ b /\ header 112 2 tl /\ then_ (optional (unsigned true 1)) time_tail r b t)); [mon|apply acc_current|].
    intros b. change (Z.lor SML_TYPE_UNSIGNED 5) with 101. destruct (b =? 101); [apply acc_time_value|]. apply acc_expect; [mon| |lia].
    apply acc_field; [mon|apply acc_u8|apply acc_time_value].
  - intros r bs t _ _. unfold time. split.
    + intros [(-> & ->)|((b & b1 & bs' & -> & (-> & u & E) & X) & b0 & u0 & E0 & Hb)]; [now left|]. right. cbn [app] in *. destruct (Z.eqb_spec b 101) as [->|N].
      * destruct X as [(m & X & ->)|[(X & _)|(_ & -> & c & u' & E' & N1 & _)]].
        -- left. exists m. split; [exact X|]. split; [|reflexivity]. destruct (unsigned_hd _ _ _ _ _ X) as (b & u1 & E1 & _). rewrite E1 in *. now injection E.
        -- exfalso. destruct (local_hd _ _ _ X) as (b & u1 & -> & Hty). injection E as -> _. discriminate.
        -- exfalso. cbn in E. rewrite E in E'. injection E' as <- _. now apply N1.
      * right. destruct X as (tl & b1 & -> & Hd & tag & b2 & b3 & -> & X1 & [(m & X & ->)|[(X & ->)|(-> & -> & c & u' & -> & N1 & N2)]]).
        -- left. exists tag, m. split; [|reflexivity]. exists tl, (b2 ++ b3). split; [auto|]. split; [auto|]. exists b2, b3. split; [auto|]. split; [auto|]. exists b3, []. rewrite app_nil_r. cbn [app fields]. auto.
        -- right; left. exists tag. split; [|reflexivity]. exists tl, (b2 ++ b3). split; [auto|]. split; [auto|]. exists b2, b3. split; [auto|]. split; [auto|]. exists b3, []. rewrite app_nil_r. cbn [app fields]. auto.
        -- right; right. split; [auto|]. rewrite app_nil_r in *. exists tl, b2, tag, c, u'. auto 10.
    + assert (HL : forall tl b, header 112 2 tl -> forall R : Z -> Prop, R 0 \/ True ->
         forall r t, then_ (optional (unsigned true 1)) time_tail r b t ->
         (then_ (fun (b : Z) (bs t : list Z) => bs = [] /\ (exists u : list Z, t = b :: u))
           (fun b : Z => if b =? 101 then time_tail (Some [1]) else fun r bs t => exists tl b0, bs = tl ++ b0 /\ header 112 2 tl /\ then_ (optional (unsigned true 1)) time_tail r b0 t)
           r (tl ++ b) t /\ (exists (b0 : Z) (u : list Z), (tl ++ b) ++ t = b0 :: u /\ b0 <> 1))).
      { intros tl b Hd _ _ r0 t0 X. destruct (header_type _ _ _ (b ++ t0) Hd) as (c & u & E1 & E & Hty). split.
        - exists c, [], (tl ++ b). split; [auto|]. split; [split; [auto|]; exists (u ++ b ++ t0); now rewrite <- app_assoc|].
          destruct (Z.eqb_spec c 101) as [->|]; [discriminate|]. exists tl, b. auto.
        - exists c, (u ++ b ++ t0). split; [now rewrite <- app_assoc|]. intros ->. discriminate. }
      intros [(-> & ->)|[(m & X & Eh & ->)|[(tag & m & (tl & b & -> & Hd & X) & ->)|[(tag & (tl & b & -> & Hd & X) & ->)|(_ & tl & b & tag & c & u & -> & Hd & X & -> & -> & N1 & N2)]]]]; [now left|right..].
      * destruct (unsigned_hd _ _ _ _ _ X) as (b & u & E & Hty). rewrite E in Eh. cbn in Eh. subst b. split.
        -- exists 101, [], bs. split; [auto|]. split; [split; [auto|]; exists (u ++ t); now rewrite E|]. change (101 =? 101) with true. cbv iota. left. eauto.
        -- exists 101, (u ++ t). split; [now rewrite E|lia].
      * apply (HL tl b Hd (fun _ => True)); [now left|]. destruct X as (b1 & b2 & -> & X1 & b3 & b4 & -> & X2 & E). cbn in E. subst b4. rewrite app_nil_r in *. cbn [app] in X2.
        exists tag, b1, b3. split; [auto|]. split; [auto|]. left. eauto.
      * apply (HL tl b Hd (fun _ => True)); [now left|]. destruct X as (b1 & b2 & -> & X1 & b3 & b4 & -> & X2 & E). cbn in E. subst b4. rewrite app_nil_r in *. cbn [app] in X2.
        exists tag, b1, b3. split; [auto|]. split; [auto|]. right; left. auto.
      * apply (HL tl b Hd (fun _ => True)); [now left|]. exists tag, b, []. rewrite app_nil_r. split; [auto|]. split; [auto|]. right; right. eauto 8.
Qed.
Lemma time_ne q v bs t : time q v bs t -> bs <> [].
Proof.
  intros [(-> & ->)|[(m & X & _)|[(tag & m & X & _)|[(tag & X & _)|(_ & tl & b & tag & c & u & -> & Hd & _)]]]]; [discriminate|..].
  - destruct (unsigned_hd _ _ _ _ _ X) as (b & u & -> & _). discriminate.
  - destruct X as (tl & b & -> & Hd & _). destruct (header_type _ _ _ b Hd) as (c & u & _ & -> & _). discriminate.
  - destruct X as (tl & b & -> & Hd & _). destruct (header_type _ _ _ b Hd) as (c & u & _ & -> & _). discriminate.
  - destruct (header_type _ _ _ b Hd) as (c' & u' & _ & -> & _). discriminate.
Qed.
End WithHost.
