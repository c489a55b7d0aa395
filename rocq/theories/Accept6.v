(** Lists of values, and the entries of profile responses. *)
From Verif Require Import Base Buf Crc16 Number OctetString Boolean Value Time SList Tree Bodies
  Message File Lib Wf Safe Safe2 Safe3 Ctx Ctx2 Ctx3 Scan Spec TL Inv Reads NumFacts Dzg PropsDzg Exact Grammar Accept Accept2 Accept3 Accept4 Accept5.

Lemma acc_label_required {A} (k : P (option A)) W : acc k (required W) -> acc (error_label k) (required W).
Proof.
  intros Hk. eapply acc_ext; [exact (acc_label k _ Hk)|]. intros [v|] bs t _ _; cbn; split; try tauto. intros X. split; [discriminate|exact X].
Qed.
Lemma set_again s : error s = true -> set_error s = Ret (tt, s).
Proof. destruct s. cbn. intros ->. reflexivity. Qed.
Lemma label_null {A} s : error_label (err_null : P (option A)) s = err_null s.
Proof. reflexivity. Qed.
Lemma bind_cong {A B} (p : P A) (k k' : A -> P B) s : (forall a s', k a s' = k' a s') -> bind p k s = bind p k' s.
Proof. intros E. unfold bind. destruct (p s) as [[a s1]| |]; auto. Qed.
Lemma label_field {A B} (p : P A) (k : A -> P (option B)) s : error_label (field p k) s = field p (fun a => error_label (k a)) s.
Proof.
  unfold field. rewrite label_bind. apply bind_cong. intros a s1. rewrite label_bind. unfold bind at 1 2, sml_buf_has_errors.
  destruct (error s1) eqn:E; [|reflexivity]. unfold error_label, err_null, bind, ret. now rewrite (set_again _ E).
Qed.
Lemma label_expect {B} n (k : P (option B)) s : error_label (expect_list n k) s = expect_list n (error_label k) s.
Proof.
  unfold expect_list. rewrite label_bind. apply bind_cong. intros t s1. destruct (negb (t =? SML_TYPE_LIST)); [reflexivity|].
  rewrite label_bind. apply bind_cong. intros l s2. destruct (negb (l =? n)); reflexivity.
Qed.
Lemma acc_label_rec {B} (k : P (option B)) C ws : acc k (rec C ws) -> acc (error_label k) (rec C ws).
Proof.
  intros Hk. eapply acc_ext; [exact (acc_label k _ Hk)|]. intros v bs t _ _; split; [tauto|]. intros (m & -> & X). split; [discriminate|]. exists m. auto.
Qed.
Lemma acc_label_fld {A B} (p : P A) (k : A -> P (option B)) (W1 : lang A) (C : B -> Prop) (f : B -> A) ws :
  (forall a, mon (k a)) -> acc p W1 -> (forall a, acc (error_label (k a)) (rec (fun m => C m /\ f m = a) ws)) ->
  acc (error_label (field p k)) (rec C (fun m => W1 (f m) :: ws m)).
Proof.
  intros Mk Hp Hk. eapply acc_eq; [intros s; symmetry; apply label_field|]. apply acc_fld; auto. intros a. apply mon_label, Mk.
Qed.
Lemma acc_label_structure {B} n (k : P (option B)) (ws : B -> list (list Z -> list Z -> Prop)) : mon k -> acc (error_label k) (rec (fun _ => True) ws) ->
  n < 2147483648 -> (forall m, Z.of_nat (length (ws m)) = n) -> acc (error_label (expect_list n k)) (required (fun m => structure (ws m))).
Proof.
  intros Mk Hk Hn HL. eapply acc_eq; [intros s; symmetry; apply label_expect|]. apply acc_structure; auto. now apply mon_label.
Qed.
Lemma fields_required {A} (W : lang A) l : forall bs t, fields (map (required W) l) bs t <-> exists r, l = map Some r /\ fields (map W r) bs t.
Proof.
  induction l as [|x l IH]; intros bs t; cbn [map fields].
  - split; [intros ->; exists []; split; reflexivity|]. intros (r & E & X). destruct r; [exact X|discriminate].
  - split.
    + intros (b1 & b2 & -> & X1 & X2). destruct x as [x|]; [|destruct X1]. apply IH in X2. destruct X2 as (r & -> & X2). exists (x :: r). cbn [map fields]. eauto 8.
    + intros (r & E & X). destruct r as [|y r]; [discriminate|]. cbn [map] in E. injection E as -> ->. cbn [map fields] in X. destruct X as (b1 & b2 & -> & X1 & X2).
      exists b1, b2. split; [auto|]. split; [exact X1|]. apply IH. eauto.
Qed.
Lemma somes_map {A} (r : list A) : somes (map Some r) = r.
Proof. induction r; cbn; congruence. Qed.

Section WithHost.
Context {H : Host}.
(** entries with all that follows from the value on *)
Definition entry_at : lang (list_entry * list Z) := fun m => structure
  [optional octets (le_obj_name (fst m)); optional (status true) (le_status (fst m)); time true (le_val_time (fst m)); optional (unsigned true 1) (le_unit (fst m));
   optional (signed true 1) (le_scaler (fst m)); (fun bs t => optional (value true) (le_value (fst m)) bs t /\ snd m = bs ++ t);
   optional octets (le_value_signature (fst m))].
Lemma value_ne q : nonempty (value q).
Proof.
  intros v bs t [(s & X & _)|[(b & (tl & x & -> & Hh & _) & _)|[(w & m & X & _)|(w & m & X & _)]]]; [now apply octets_ne in X| | |].
  - destruct tl; discriminate.
  - destruct (signed_hd _ _ _ _ _ X) as (b & u & -> & _). discriminate.
  - destruct (unsigned_hd _ _ _ _ _ X) as (b & u & -> & _). discriminate.
Qed.
Lemma mon_rest : mon rest_here. Proof. apply mon_fun. Qed.
Lemma acc_rest : acc rest_here (fun v bs t => bs = [] /\ v = t).
Proof.
  intros s G v s1. split.
  - intros (E & _). injection E as <- <-. exists [], (rest s). nil0. auto.
  - intros (bs & t & R & (-> & ->) & ->). nil0. subst t. split; [reflexivity|]. apply G.
Qed.
Lemma acc_plain_entry : acc plain_entry (required entry_at).
Proof.
  unfold plain_entry. apply (acc_label_structure _ _ _); [repeat first [apply mon_rest|mon_step]| |lia|reflexivity].
  assert (HM : forall k : list Z -> P (option (list_entry * list Z)), (forall a, mon (k a)) -> mon (v <- rest_here ;; k v)) by (intros k Hk; apply mon_bind; [apply mon_rest|exact Hk]).
  refine (acc_label_fld _ _ _ _ (fun m => le_obj_name (fst m)) _ _ _ _); [repeat first [apply mon_rest|mon_step]|exact acc_octets|intros n].
  refine (acc_label_fld _ _ _ _ (fun m => le_status (fst m)) _ _ _ _); [repeat first [apply mon_rest|mon_step]|exact acc_status|intros st].
  refine (acc_label_fld _ _ _ _ (fun m => le_val_time (fst m)) _ _ _ _); [repeat first [apply mon_rest|mon_step]|exact acc_time|intros vt].
  refine (acc_label_fld _ _ _ _ (fun m => le_unit (fst m)) _ _ _ _); [repeat first [apply mon_rest|mon_step]|exact acc_u8|intros un].
  refine (acc_label_fld _ _ _ _ (fun m => le_scaler (fst m)) _ _ _ _); [repeat first [apply mon_rest|mon_step]|exact acc_i8|intros sc].
  match goal with |- acc (error_label (bind rest_here (fun vf => bind at_end (fun e => if e then ret None else @?K vf)))) (rec ?C ?ws) =>
    apply (acc_eq (vf <- rest_here ;; e <- at_end ;; if (e : bool) then err_null else error_label (K vf))) end.
  { intros s. rewrite label_bind. apply bind_cong. intros vf s1. rewrite label_bind. apply bind_cong. intros [] s2; reflexivity. }
  set (C := fun m : list_entry * list Z => _).
  eapply acc_ext.
  - apply acc_bind with (W2 := fun vf => then_ (fun e bs t => bs = [] /\ (e = true <-> t = [])) (fun e : bool => if e then fun _ _ _ => False else
      rec (fun m => C m /\ snd m = vf) (fun m => [optional (value true) (le_value (fst m)); optional octets (le_value_signature (fst m))]))); [mon|apply acc_rest|].
    intros vf. apply acc_bind; [mon|apply acc_at_end|]. intros []; [apply acc_null|].
    refine (acc_label_fld _ _ _ _ (fun m => le_value (fst m)) _ _ _ _); [mon|exact acc_value|intros v].
    refine (acc_label_fld _ _ _ _ (fun m => le_value_signature (fst m)) _ _ _ _); [mon|exact acc_octets|intros sg]. apply acc_label_rec.
    apply acc_done. unfold C. intros [e f]. cbn [fst snd]. split.
    + destruct e; cbn. intuition congruence.
    + intros E. injection E as -> ->. cbn. tauto.
  - intros r bs t _ _. split.
    + intros (vf & b1 & b2 & -> & (-> & ->) & e & b3 & b4 & -> & (-> & _) & X). destruct e; [destruct X|]. cbn [app] in *.
      destruct X as (m & -> & (HC & HV) & b5 & b6 & -> & X5 & X6). exists m. split; [auto|]. split; [exact HC|]. exists b5, b6. split; [auto|]. split; [|exact X6].
      split; [exact X5|]. now rewrite HV, <- app_assoc.
    + intros (m & -> & HC & b5 & b6 & -> & (X5 & HV) & X6). exists (snd m), [], (b5 ++ b6). split; [auto|]. split; [split; [auto|]; now rewrite HV, <- app_assoc|].
      exists false, [], (b5 ++ b6). split; [auto|]. split.
      * split; [auto|]. split; [discriminate|]. intros E. apply (optional_ne _ (value_ne true)) in X5. destruct b5; [congruence|discriminate].
      * exists m. split; [auto|]. split; [auto|]. exists b5, b6. auto.
Qed.
Lemma label_none {A} (k : P (option A)) s s1 : error_label k s = Ret (None, s1) -> error s1 = true.
Proof.
  intros E. apply bind_inv in E. destruct E as ([v|] & s2 & _ & E); [discriminate|]. injection E as <-. reflexivity.
Qed.
Lemma plain_elems fuel : forall n s, plain_loop fuel n s = omap (fun o => match o with None => None | Some l => Some (somes l) end) (elems_loop fuel n plain_entry s).
Proof.
  induction fuel as [|fuel IH]; intros n s; cbn [plain_loop elems_loop]; destruct (n <=? 0); try reflexivity.
  unfold bind at 1 4. destruct (plain_entry s) as [[r s1]| |] eqn:E; auto. unfold bind at 1 3, sml_buf_has_errors. destruct (error s1) eqn:E1; auto.
  destruct r as [x|]; [|unfold plain_entry in E; apply label_none in E; congruence]. unfold bind. rewrite IH. destruct (elems_loop fuel (n - 1) plain_entry s1) as [[[l|] s2]| |]; reflexivity.
Qed.
Lemma entry_at_ne : nonempty (required entry_at).
Proof. intros [v|] bs t X; [now apply structure_ne in X|destruct X]. Qed.
Lemma entry_at_ne' : nonempty entry_at.
Proof. intros v bs t X. now apply structure_ne in X. Qed.
Lemma mon_plain_entry : mon plain_entry.
Proof. unfold plain_entry. repeat first [apply mon_rest|mon_step]. Qed.
Lemma mon_plain_loop fuel : forall n, mon (plain_loop fuel n).
Proof.
  induction fuel; intros n; cbn [plain_loop]; destruct (n <=? 0); try apply mon_ret; try apply mon_fuel.
  apply mon_bind; [apply mon_plain_entry|]. intros r. apply mon_bind; [apply mon_has|]. intros []; [apply mon_ret|]. destruct r; [|apply mon_fail]. apply mon_bind; [apply IHfuel|]. intros; apply mon_ret.
Qed.
Lemma acc_plain_items n : acc (with_fuel (fun fuel => plain_loop fuel n))
  (fun v bs t => exists l, v = Some l /\ length l = Z.to_nat n /\ fields (map entry_at l) bs t).
Proof.
  eapply acc_ext.
  - apply (acc_eq (x <- with_fuel (fun fuel => elems_loop fuel n plain_entry) ;; ret (match x with None => None | Some l => Some (somes l) end))).
    + intros s. unfold bind, with_fuel. rewrite plain_elems. destruct (elems_loop _ n plain_entry s) as [[x s1]| |]; reflexivity.
    + apply acc_map. apply acc_items; [apply mon_plain_entry|exact acc_plain_entry|exact entry_at_ne].
  - intros v bs t _ _. split.
    + intros (x & (l & -> & HL & X) & ->). apply fields_required in X. destruct X as (r & -> & X). rewrite map_length in HL. rewrite somes_map. eauto.
    + intros (l & -> & HL & X). exists (Some (map Some l)). rewrite somes_map. split; [|reflexivity]. exists (map Some l). rewrite map_length. split; [auto|]. split; [auto|].
      apply fields_required. eauto.
Qed.
Lemma acc_plain_list : acc plain_list (fun v bs t => (v = [] /\ bs = [1]) \/ sequence_of entry_at v bs t).
Proof.
  unfold plain_list. eapply acc_ext.
  - apply acc_bind with (W2 := fun sk : Z => if negb (sk =? 0) then fun r bs t => r = [] /\ bs = []
      else fun r bs t => exists tl b n, bs = tl ++ b /\ header 112 n tl /\ tl_nibbles tl < 2147483648 /\ length r = Z.to_nat n /\ fields (map entry_at r) b t);
      [repeat first [apply mon_plain_loop|mon_step]|apply acc_skip|].
    intros sk. destruct (negb (sk =? 0)); [apply acc_ret|].
    apply (acc_header 112 _ (fun n r b t => length r = Z.to_nat n /\ fields (map entry_at r) b t)); [repeat first [apply mon_plain_loop|mon_step]| |mon|apply acc_set; mon].
    intros n. eapply acc_ext; [apply acc_bind with (W2 := fun o => match o with None => fun _ _ _ => False | Some l => fun r bs t => r = l /\ bs = [] end);
      [mon|exact (acc_plain_items n)|intros [l|]; [apply acc_ret|apply acc_set; mon]]|].
    intros r bs t _ _. split.
    + intros (o & b1 & b2 & -> & (l & -> & HL & X) & -> & ->). rewrite app_nil_r. eauto.
    + intros (HL & X). exists (Some r), bs, []. rewrite app_nil_r. eauto 8.
  - intros r bs t _ HL. split.
    + intros (sk & b1 & b2 & -> & [(-> & ->)|(-> & -> & _)] & X); cbn [Z.eqb negb] in X.
      * destruct X as (-> & ->). left. auto.
      * destruct X as (tl & b & n & -> & Hh & TN & HX & X). right. cbn [app] in *. apply items_structure; [exact entry_at_ne'|exact HL|]. exists tl, b, n. auto.
    + intros [(-> & ->)|X].
      * exists 1, [1], []. cbn. auto.
      * apply items_structure in X; [|exact entry_at_ne'|exact HL]. destruct X as (tl & b & n & -> & Hh & TN & HX & X). exists 0, [], (tl ++ b). split; [auto|].
        destruct (starts_header _ _ b t Hh) as (c0 & u & E0 & Hc). split; [right; eauto 8|]. cbn [Z.eqb negb]. exists tl, b, n. auto.
Qed.

Definition cut (r : list_entry * list Z) : list_entry * Z := (fst r, hd 0 (snd r)).
Lemma fields_two {A B} (W : lang A) (W' : lang B) (R : A -> B -> Prop) :
  (forall a bs t, W a bs t -> exists b, W' b bs t /\ R a b) -> forall l bs t, fields (map W l) bs t -> exists l', fields (map W' l') bs t /\ Forall2 R l l'.
Proof.
  intros HW. induction l as [|a l IH]; intros bs t X; cbn [map fields] in X; [exists []; split; [exact X|constructor]|]. destruct X as (b1 & b2 & -> & X1 & X2).
  apply HW in X1. destruct X1 as (b & X1 & HR). apply IH in X2. destruct X2 as (l' & X2 & HF). exists (b :: l'). split; [|now constructor]. cbn [map fields]. eauto 6.
Qed.
Lemma entry_iff1 m bs t : entry_at m bs t -> entry true (cut m) bs t.
Proof.
  intros (tl & b & -> & Hh & X). exists tl, b. split; [auto|]. split; [exact Hh|]. cbn [fields cut] in *.
  destruct X as (b1 & b2 & -> & X1 & b3 & b4 & -> & X2 & b5 & b6 & -> & X3 & b7 & b8 & -> & X4 & b9 & b10 & -> & X5 & b11 & b12 & -> & (X6 & HV) & X7).
  repeat (eexists; eexists; split; [reflexivity|]; split; [eassumption|]). eexists; eexists; split; [reflexivity|]. split; [|exact X7]. split; [exact X6|].
  unfold cut. cbn [snd]. rewrite HV. apply (optional_ne _ (value_ne true)) in X6. destruct b11; [congruence|reflexivity].
Qed.
Lemma entry_iff2 p bs t : entry true p bs t -> exists m, entry_at m bs t /\ p = cut m.
Proof.
  destruct p as [e c]. intros (tl & b & -> & Hh & X). cbn [fields] in X.
  destruct X as (b1 & b2 & -> & X1 & b3 & b4 & -> & X2 & b5 & b6 & -> & X3 & b7 & b8 & -> & X4 & b9 & b10 & -> & X5 & b11 & b12 & -> & (X6 & HV) & X7).
  exists (e, b11 ++ b12 ++ t). split.
  - exists tl. eexists. split; [reflexivity|]. split; [exact Hh|]. cbn [fields fst snd].
    repeat (eexists; eexists; split; [reflexivity|]; split; [eassumption|]). eexists; eexists; split; [reflexivity|]. split; [|exact X7]. split; [exact X6|reflexivity].
  - unfold cut. cbn [fst snd]. apply (optional_ne _ (value_ne true)) in X6. destruct b11; [congruence|]. cbn in *. now subst.
Qed.
Lemma value_type_unsigned q v bs t : value q v bs t -> force_unsigned v = mkValue (96 + v_type v mod 16) (v_data v).
Proof.
  intros [(s & _ & ->)|[(b & _ & ->)|[(w & m & _ & (-> & _) & ->)|(w & m & _ & (-> & _) & ->)]]]; unfold force_unsigned; cbn [v_type v_data]; try reflexivity;
    unfold width_for; repeat destruct (_ <=? _); reflexivity.
Qed.
Definition fine (m : list_entry * list Z) : Prop := bytes_ok (snd m) /\ match le_value (fst m) with None => True | Some v => force_unsigned v = mkValue (96 + v_type v mod 16) (v_data v) end.
Lemma entry_fine m bs t : entry_at m bs t -> bytes_ok (bs ++ t) -> fine m.
Proof.
  intros (tl & b & -> & Hh & X) HB. cbn [fields] in X.
  destruct X as (b1 & b2 & -> & X1 & b3 & b4 & -> & X2 & b5 & b6 & -> & X3 & b7 & b8 & -> & X4 & b9 & b10 & -> & X5 & b11 & b12 & -> & (X6 & HV) & X7). split.
  - rewrite HV. unfold bytes_ok in *. rewrite !Forall_app in *. tauto.
  - destruct (le_value (fst m)) as [v|]; [|auto]. exact (value_type_unsigned _ _ _ _ X6).
Qed.
Lemma entries_fine l : forall bs t, fields (map entry_at l) bs t -> bytes_ok (bs ++ t) -> Forall fine l.
Proof.
  induction l as [|m l IH]; intros bs t X HB; [constructor|]. cbn [map fields] in X. destruct X as (b1 & b2 & -> & X1 & X2). rewrite <- app_assoc in HB. constructor.
  - now apply entry_fine in X1.
  - apply IH in X2; auto. apply Forall_app in HB. apply HB.
Qed.
Lemma adjust_dzg l : Forall fine l -> forall w, adjust w l = Grammar.dzg_list w (map cut l).
Proof.
  induction 1 as [|[e f] l (HB & HV) _ IH]; intros w; [reflexivity|]. cbn [adjust map Grammar.dzg_list]. unfold cut at 1. cbn [fst snd] in *. unfold adjust1, worked. cbn [fst snd].
  assert (ES : smallb f = (hd 0 f <? 128) && (1 <=? hd 0 f mod 16) && (hd 0 f mod 16 <=? 3)).
  { apply eq_true_iff_eq. rewrite (smallb_iff _ HB), !andb_true_iff, Z.ltb_lt, !Z.leb_le. tauto. }
  assert (EF : forced e = unsigned_value e).
  { unfold forced, unsigned_value. destruct (le_value e) as [v|]; [|reflexivity]. now rewrite HV. }
  fold (is_power e). rewrite ES, EF. destruct (affectedb e); cbn [fst snd negb andb orb].
  - rewrite andb_false_r, orb_true_r, IH. reflexivity.
  - rewrite andb_true_r, orb_false_r, <- !andb_assoc. destruct (w && (is_power e && _)); cbn [fst snd]; now rewrite IH.
Qed.
Lemma acc_list : acc sml_list_parse (value_list true).
Proof.
  eapply acc_ext.
  - intros s G v s1. instantiate (1 := fun v bs t => exists raw, ((raw = [] /\ bs = [1]) \/ sequence_of entry_at raw bs t) /\ v = adjust false raw).
    rewrite (list_sim s (proj1 G)). rewrite <- (acc_map _ (adjust false) _ acc_plain_list s G v s1). unfold bind, ret.
    destruct (plain_list s) as [[x s2]| |]; reflexivity.
  - intros v bs t HB HL. split.
    + intros (raw & [(-> & ->)|X] & ->); [left; auto|right]. destruct X as (tl & b & -> & Hh & X). exists (map cut raw). split.
      * exists tl, b. rewrite !map_length in *. split; [auto|]. split; [auto|]. clear - X. revert b X. induction raw as [|m raw IH]; intros b X; [exact X|].
        cbn [map fields] in *. destruct X as (b1 & b2 & -> & X1 & X2). exists b1, b2. split; [auto|]. split; [now apply entry_iff1|auto].
      * apply adjust_dzg. apply entries_fine in X; auto. rewrite <- app_assoc in HB. apply Forall_app in HB. apply HB.
    + intros [(-> & ->)|(raw & (tl & b & -> & Hh & X) & ->)]; [exists []; auto|].
      destruct (fields_two _ entry_at (fun p m => p = cut m) (fun p bs t => entry_iff2 p bs t) _ _ _ X) as (l & X' & HF).
      assert (E : raw = map cut l) by (clear - HF; induction HF; cbn; congruence). subst raw. exists l. split.
      * right. exists tl, b. rewrite !map_length in *. auto.
      * symmetry. apply adjust_dzg. apply entries_fine in X'; auto. rewrite <- app_assoc in HB. apply Forall_app in HB. apply HB.
Qed.
End WithHost.
