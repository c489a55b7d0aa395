(** Context independence of a whole message, and the scan that
    sml_file_parse performs, independent of buffers and cursors. *)
From Verif Require Import Base Buf Crc16 Number OctetString Boolean Value Time SList Tree Bodies
  Message File Lib Wf Safe Safe2 Safe3 Ctx Ctx2.

Section WithHost.
Context {H : Host}.

(** The message parser cut in front of the crc field. *)
Definition msg_head : P (option (option octet_string * option mem * option mem * option sml_message_body)) :=
  expect_list 6 (
  transaction_id <-? sml_octet_string_parse ;;
  group_id <-? sml_u8_parse ;;
  abort_on_error <-? sml_u8_parse ;;
  message_body <-? sml_message_body_parse ;;
  ret (Some (transaction_id, group_id, abort_on_error, message_body))).

Definition msg_tail (st : Z) (h : option octet_string * option mem * option mem * option sml_message_body)
  : P (option sml_message) :=
  let '(transaction_id, group_id, abort_on_error, message_body) := h in
  len <- cursor_int st ;;
  few <- (fun s => Ret (size_sub (buffer_len s) (cursor s) <? 3, s)) ;;
  if (few : bool) then err_null else
  crc <- sml_u16_parse ;;
  e <- sml_buf_has_errors ;;
  match (if (e : bool) then None else crc) with
  | None => err_null
  | Some c =>
      bs <- buffer_slice st len ;;
      if negb (mem_u c =? sml_crc16_calculate bs) && negb (mem_u c =? sml_crc16kermit_calculate bs)
      then ret None
      else
        e <- at_end ;;
        if (e : bool) then err_null else
        b <- sml_buf_get_current_byte ;;
        (if b =? SML_MESSAGE_END then sml_buf_update_bytes_read 1 else ret tt) ;;;
        ret (Some (mkMsg transaction_id group_id abort_on_error message_body crc))
  end.

Lemma bind_assoc {S A B C} (p : M S A) (f : A -> M S B) (g : B -> M S C) s :
  bind (bind p f) g s = bind p (fun a => bind (f a) g) s.
Proof. unfold bind. destruct (p s) as [[a s']| |]; auto. Qed.
Lemma bind_ext {S A B} (p : M S A) (f g : A -> M S B) s :
  (forall a s', f a s' = g a s') -> bind p f s = bind p g s.
Proof. intros E. unfold bind. destruct (p s) as [[a s']| |]; auto. Qed.

Lemma field_bind {A B C} (p : P A) (k : A -> P (option B)) (g : option B -> P (option C)) s :
  g None = ret None -> bind (field p k) g s = field p (fun a => bind (k a) g) s.
Proof.
  intros Eg. unfold field, bind, sml_buf_has_errors. destruct (p s) as [[a s']| |]; auto.
  destruct (error s'); auto. cbn. now rewrite Eg.
Qed.
Lemma field_ext {A B} (p : P A) (k k' : A -> P (option B)) s :
  (forall a s', k a s' = k' a s') -> field p k s = field p k' s.
Proof.
  intros E. unfold field, bind, sml_buf_has_errors. destruct (p s) as [[a s']| |]; auto.
  destruct (error s'); auto.
Qed.

Lemma message_split s : sml_message_parse s =
  bind msg_head (fun o => match o with None => ret None
    | Some h => msg_tail (wrap32 (Z.of_nat (cursor s))) h end) s.
Proof.
  unfold sml_message_parse, msg_head.
  unfold bind at 1, cursor_int at 1. rewrite Z.sub_0_r.
  match goal with |- _ = bind _ ?f s => set (g := f) end. assert (Eg : g None = ret None) by reflexivity.
  unfold expect_list. rewrite bind_assoc. apply bind_ext. intros t s1.
  destruct (negb _); [reflexivity|]. rewrite bind_assoc. apply bind_ext. intros l s2.
  destruct (negb _); [reflexivity|].
  rewrite field_bind by exact Eg. apply field_ext. intros ti s3.
  rewrite field_bind by exact Eg. apply field_ext. intros gi s4.
  rewrite field_bind by exact Eg. apply field_ext. intros ab s5.
  rewrite field_bind by exact Eg. apply field_ext. intros mb s6.
  reflexivity.
Qed.

Lemma cx_head : cx msg_head.
Proof.
  intros N. apply rel_expect. apply rel_field; [apply cx_octet|intros ?].
  apply rel_field; [apply cx_u8|intros ?]. apply rel_field; [apply cx_u8|intros ?].
  apply rel_field; [apply cx_body|intros ?]. apply rel_ret.
Qed.

Lemma size_sub_ok a b : (b <= a)%nat -> Z.of_nat a < 2147483648 -> size_sub a b = Z.of_nat a - Z.of_nat b.
Proof. intros. unfold size_sub, to_size. apply Z.mod_small. lia. Qed.
Lemma cursor_of_ok (s : sbuf) : okbuf s -> small s -> wrap32 (Z.of_nat (cursor s)) = Z.of_nat (cursor s).
Proof. intros [Hc _] Hs. apply wrap32_ok. unfold small in Hs. unfold int_ok. lia. Qed.
Lemma firstn_rest k s1 s2 n : fitting n s1 s2 -> (k <= n + 1)%nat -> (k <= length (rest s1))%nat ->
  firstn k (rest s2) = firstn k (rest s1).
Proof.
  intros Hf Hk Hl. rewrite <- (prefix_firstn k _ _ Hf).
  - rewrite firstn_firstn. f_equal. lia.
  - rewrite firstn_length. lia.
Qed.

Definition crc_bad (c : mem) (bs : list Z) : bool :=
  negb (mem_u c =? sml_crc16_calculate bs) && negb (mem_u c =? sml_crc16kermit_calculate bs).
Lemma few_ok s : okbuf s -> small s -> (size_sub (buffer_len s) (cursor s) <? 3) = (length (rest s) <? 3)%nat.
Proof.
  intros [Hc _] Hs. rewrite size_sub_ok; auto. rewrite rest_length.
  destruct (Nat.ltb_spec (buffer_len s - cursor s) 3); [apply Z.ltb_lt|apply Z.ltb_ge]; lia.
Qed.

Definition fitting2 (k : nat) (s1 s2 : sbuf) : Prop := prefix (firstn (k + 2) (rest s1)) (rest s2).
Lemma fitting2_1 k s1 s2 : fitting2 k s1 s2 -> fitting k s1 s2.
Proof. intros Hf. eapply prefix_trans; [|exact Hf]. apply prefix_firstn_le. lia. Qed.

(** A message that was read without an error is read in the same way from any
    other buffer in which the same bytes (and the two that follow them) stand. *)
Lemma message_ctx s1 r s1' : okbuf s1 -> small s1 -> sml_message_parse s1 = Ret (r, s1') ->
  error s1' = false -> forall s2, okbuf s2 -> small s2 -> error s2 = false ->
  fitting2 (cursor s1' - cursor s1) s1 s2 ->
  exists s2', sml_message_parse s2 = Ret (r, s2') /\ adv s2 (cursor s1' - cursor s1) s2'.
Proof.
  intros O1 S1 E1 Er s2 O2 S2 Er2 Hf2. pose proof (fitting2_1 _ _ _ Hf2) as Hf. rewrite message_split in *.
  apply bind_ret_inv in E1. destruct E1 as (h & s1a & Eh & Et).
  destruct (cx_head (length (rest s2)) s1 h s1a O1 S1 Eh) as [M1 R1].
  pose proof (mono_ok _ _ O1 M1) as O1a. pose proof (mono_small _ _ S1 M1) as S1a.
  destruct h as [[[[ti gi] ab] mb]|].
  2: { injection Et as <- <-. destruct (R1 Er eq_refl s2 O2 S2 Er2 (le_n _) Hf) as (s2' & P2 & A2).
       exists s2'. split; auto. unfold bind. now rewrite P2. }
  unfold msg_tail in Et. unfold bind at 1, cursor_int at 1 in Et.
  unfold bind at 1 in Et. rewrite few_ok in Et by auto.
  destruct (length (rest s1a) <? 3)%nat eqn:Few; [now inversion Et; subst|]. apply Nat.ltb_ge in Few.
  apply bind_ret_inv in Et. destruct Et as (crc & s1b & Ec & Et).
  destruct (cx_u16 (length (rest s2)) s1a crc s1b O1a S1a Ec) as [M2 R2].
  pose proof (mono_ok _ _ O1a M2) as O1b. pose proof (mono_small _ _ S1a M2) as S1b.
  unfold bind at 1, sml_buf_has_errors in Et.
  destruct (error s1b) eqn:Erb; [now inversion Et; subst|].
  destruct crc as [c|]; [|now inversion Et; subst].
  apply bind_ret_inv in Et. destruct Et as (bs & s1c & Eb & Et).
  fold (crc_bad c bs) in Et.
  pose proof (mo_cur _ _ M1) as C1. pose proof (mo_cur _ _ M2) as C2.
  pose proof (mo_buf _ _ M1) as B1. pose proof (mo_buf _ _ M2) as B2.
  assert (BL1 : buffer_len s1a = buffer_len s1) by (unfold buffer_len; congruence).
  assert (BL2 : buffer_len s1b = buffer_len s1) by (unfold buffer_len; congruence).
  assert (Hbs : s1c = s1b /\ bs = firstn (cursor s1a - cursor s1) (rest s1)).
  { clear Et. unfold buffer_slice in Eb. rewrite (cursor_of_ok s1 O1 S1) in Eb.
    unfold small in S1.
    rewrite wrap32_ok in Eb by (unfold int_ok; qlia).
    destruct (_ <? 0); [discriminate|]. destruct (_ <? 0); [discriminate|].
    destruct (_ <=? _)%nat; [|discriminate]. injection Eb as <- <-. split; auto.
    unfold rest. rewrite B2, B1. f_equal; [qlia|]. f_equal. qlia. }
  destruct Hbs as [-> Hbs].
  assert (HT : (cursor s1b <= cursor s1')%nat /\
    (cursor s1' = cursor s1b \/ cursor s1' = S (cursor s1b)) /\
    (if crc_bad c bs
     then r = None /\ cursor s1' = cursor s1b
     else r = Some (mkMsg ti gi ab mb (Some c)) /\ exists b, nth_error (rest s1b) 0 = Some b /\
       cursor s1' = (cursor s1b + if (b =? 0)%Z then 1 else 0)%nat)).
  { destruct (crc_bad c bs).
    - injection Et as <- <-. split; [qlia|]. auto.
    - unfold bind at 1, at_end in Et. destruct (_ <=? _)%nat eqn:Ae; [now inversion Et; subst|].
      apply bind_ret_inv in Et. destruct Et as (b & s1c & Eg & Et).
      unfold sml_buf_get_current_byte in Eg.
      destruct (nth_error (buffer s1b) (cursor s1b)) eqn:En; [|discriminate]. injection Eg as <- <-.
      apply bind_ret_inv in Et. destruct Et as ([] & s1d & Eu & Et). injection Et as <- <-.
      assert (cursor s1d = (cursor s1b + if (z =? 0)%Z then 1 else 0)%nat) as Hcd.
      { unfold SML_MESSAGE_END in Eu. destruct (z =? 0)%Z.
        - unfold sml_buf_update_bytes_read in Eu. cbn in Eu. injection Eu as <-. cbn. qlia.
        - injection Eu as <-. qlia. }
      split; [destruct (z =? 0)%Z; qlia|]. split; [destruct (z =? 0)%Z; qlia|]. split; auto.
      exists z. split; auto. unfold rest. now rewrite <- nth_error_skipn_hd. }
  destruct HT as (HC & HC' & HT).
  assert (Cend : (cursor s1' <= buffer_len s1)%nat).
  { destruct (crc_bad c bs); [destruct HT; qlia|]. destruct HT as (_ & b & Eb' & ->).
    assert (cursor s1b < buffer_len s1)%nat; [|destruct (b =? 0)%Z; qlia].
    assert (nth_error (rest s1b) 0 <> None) as X by congruence. apply nth_error_Some in X.
    rewrite rest_length in X. qlia. }
  clear Et.
  (* the second run *)
  pose proof (rest_length s1) as L1. 
  destruct (R1 (mono_noerr _ _ M2 Erb) eq_refl s2 O2 S2 Er2 (le_n _)) as (s2a & P2a & A2a).
  { eapply fitting_le; [|exact Hf]. qlia. }
  assert (HL : (cursor s1a - cursor s1 <= length (rest s2))%nat).
  { eapply fitting_len; [eapply fitting_le; [|exact Hf]; qlia|]. qlia. }
  pose proof (adv_ok _ _ _ O2 A2a HL) as O2a. pose proof (adv_small _ _ _ S2 A2a) as S2a.
  assert (Hfa : fitting (cursor s1' - cursor s1a) s1a s2a).
  { eapply fitting_shift; eauto. replace (_ + _)%nat with (cursor s1' - cursor s1)%nat by qlia. auto. }
  destruct (R2 eq_refl eq_refl s2a O2a S2a (ad_err _ _ _ A2a)) as (s2b & P2b & A2b).
  { rewrite (adv_rest _ _ _ A2a), skipn_length. qlia. }
  { eapply fitting_le; [|exact Hfa]. qlia. }
  assert (HLb : (cursor s1b - cursor s1a <= length (rest s2a))%nat).
  { eapply fitting_len; [eapply fitting_le; [|exact Hfa]; qlia|]. rewrite rest_length. qlia. }
  pose proof (adv_ok _ _ _ O2a A2b HLb) as O2b. pose proof (adv_small _ _ _ S2a A2b) as S2b.
  assert (Hfb : fitting (cursor s1' - cursor s1b) s1b s2b).
  { eapply fitting_shift; eauto. replace (_ + _)%nat with (cursor s1' - cursor s1a)%nat by qlia. auto. }
  assert (Prog : (cursor s1a < cursor s1b)%nat).
  { pose proof (u16_safe s1a O1a) as HU. unfold wp in HU. rewrite Ec in HU. destruct HU as [_ HU].
    destruct (HU Erb) as [HU' _]. qlia. }
  assert (Few2 : (3 <= length (rest s2a))%nat).
  { unfold fitting2 in Hf2. apply prefix_length in Hf2. rewrite firstn_length in Hf2.
    rewrite (adv_rest _ _ _ A2a), skipn_length. pose proof (rest_length s1a). qlia. }
  pose proof (ad_buf _ _ _ A2a) as B2a. pose proof (ad_buf _ _ _ A2b) as B2b.
  pose proof (ad_cur _ _ _ A2a) as C2a. pose proof (ad_cur _ _ _ A2b) as C2b.
  assert (Hrun : bind msg_head (fun o => match o with None => ret None
    | Some h => msg_tail (wrap32 (Z.of_nat (cursor s2))) h end) s2 =
    (if crc_bad c bs
     then ret None
     else
        e <- at_end ;;
        if (e : bool) then err_null else
        b <- sml_buf_get_current_byte ;;
        (if b =? SML_MESSAGE_END then sml_buf_update_bytes_read 1 else ret tt) ;;;
        ret (Some (mkMsg ti gi ab mb (Some c)))) s2b).
  { unfold bind at 1. rewrite P2a. unfold msg_tail. unfold bind at 1, cursor_int at 1.
    unfold bind at 1. rewrite few_ok by auto.
    replace (_ <? 3)%nat with false by (symmetry; apply Nat.ltb_ge; qlia).
    unfold bind at 1. rewrite P2b. unfold bind at 1, sml_buf_has_errors at 1.
    rewrite (ad_err _ _ _ A2b). unfold bind at 1, buffer_slice at 1.
    rewrite (cursor_of_ok s2 O2 S2). pose proof (proj1 O2a) as Oc. unfold small in S2.
    assert (BL2a : buffer_len s2a = buffer_len s2) by (unfold buffer_len; congruence).
    rewrite rest_length in HL.
    rewrite wrap32_ok by (unfold int_ok; qlia).
    replace (Z.of_nat (cursor s2) <? 0) with false by (symmetry; apply Z.ltb_ge; qlia).
    replace (_ - _ <? 0) with false by (symmetry; apply Z.ltb_ge; qlia).
    replace (_ <=? _)%nat with true.
    2: { symmetry. apply Nat.leb_le. unfold buffer_len in *. rewrite B2b, B2a. qlia. }
    replace (firstn _ _) with bs; [reflexivity|].
    rewrite Hbs. rewrite <- (firstn_rest _ s1 s2 _ Hf); [|qlia|qlia].
    unfold rest. rewrite B2b, B2a. f_equal; [qlia|]. f_equal. qlia. }
  rewrite Hrun. clear Hrun.
  destruct (crc_bad c bs).
  - destruct HT as [-> HC2]. exists s2b. split; [reflexivity|].
    replace (cursor s1' - cursor s1)%nat with ((cursor s1a - cursor s1) + (cursor s1b - cursor s1a))%nat by qlia.
    eapply adv_trans; eauto.
  - destruct HT as (-> & b & Eb' & HC2).
    assert (En : nth_error (rest s2b) 0 = Some b).
    { eapply prefix_nth; [exact Hfb|]. rewrite nth_error_firstn_lt; auto. qlia. }
    assert (HX : nth_error (rest s2b) 0 <> None) by congruence. apply nth_error_Some in HX.
    rewrite rest_length in HX.
    unfold bind at 1, at_end. replace (_ <=? _)%nat with false by (symmetry; apply Nat.leb_gt; qlia).
    unfold bind at 1, sml_buf_get_current_byte.
    unfold rest in En. rewrite <- nth_error_skipn_hd in En. rewrite En.
    change SML_MESSAGE_END with 0.
    assert (HA : adv s2 (cursor s1b - cursor s1) s2b).
    { replace (cursor s1b - cursor s1)%nat with ((cursor s1a - cursor s1) + (cursor s1b - cursor s1a))%nat by qlia.
      eapply adv_trans; eauto. }
    destruct HA as [HB HCu HE].
    destruct (b =? 0)%Z.
    + unfold bind at 1, sml_buf_update_bytes_read. cbn [Z.ltb Z.compare].
      eexists. split; [reflexivity|]. split; cbn; auto. qlia.
    + eexists. split; [reflexivity|]. split; cbn; auto. qlia.
Qed.
End WithHost.
