(** Messages. *)
From Verif Require Import Base Buf Crc16 Number OctetString Boolean Value Time SList Tree Bodies
  Message File Lib Wf Safe Safe2 Safe3 Ctx Ctx2 Ctx3 Scan Spec TL Inv Reads NumFacts CrcProof FileFacts Dzg Exact Grammar Accept Accept2 Accept3 Accept4 Accept5 Accept6 Accept7.

Section WithHost.
Context {H : Host}.

Lemma acc_from {A} (p : P (option A)) (W : lang A) (f : A -> body_data) : acc p (required W) ->
  acc (d <- p ;; ret (from_opt BNull f d)) (fun d bs t => exists m, W m bs t /\ d = f m).
Proof.
  intros Hp. eapply acc_ext; [exact (acc_map _ _ _ Hp)|]. intros v bs t _ _. split.
  - intros ([m|] & X & ->); [|destruct X]. eauto.
  - intros (m & X & ->). exists (Some m). auto.
Qed.
Local Ltac pick lem := eapply acc_ext; [exact (acc_from _ _ _ lem)|];
  intros d bs t _ _; unfold body_content; split; intros Y;
  [repeat first [left; split; [reflexivity|exact Y]|right]
  |repeat (destruct Y as [Y|Y]); destruct Y as (E & Y); try discriminate E; try exact Y; exfalso; destruct Y as (N & _); apply N; cbn; tauto].
Lemma acc_body_data tag : acc (body_data_parse tag) (body_content true tag).
Proof.
  unfold body_data_parse.
  change SML_MESSAGE_OPEN_REQUEST with 256. change SML_MESSAGE_OPEN_RESPONSE with 257. change SML_MESSAGE_CLOSE_REQUEST with 512.
  change SML_MESSAGE_CLOSE_RESPONSE with 513. change SML_MESSAGE_GET_PROFILE_PACK_REQUEST with 768. change SML_MESSAGE_GET_PROFILE_PACK_RESPONSE with 769.
  change SML_MESSAGE_GET_PROFILE_LIST_REQUEST with 1024. change SML_MESSAGE_GET_PROFILE_LIST_RESPONSE with 1025.
  change SML_MESSAGE_GET_PROC_PARAMETER_REQUEST with 1280. change SML_MESSAGE_GET_PROC_PARAMETER_RESPONSE with 1281.
  change SML_MESSAGE_SET_PROC_PARAMETER_REQUEST with 1536. change SML_MESSAGE_GET_LIST_REQUEST with 1792. change SML_MESSAGE_GET_LIST_RESPONSE with 1793.
  change SML_MESSAGE_ATTENTION_RESPONSE with 65281.
  repeat match goal with |- acc (if tag =? ?n then _ else _) _ => destruct (Z.eqb_spec tag n) as [->|?] end;
  [pick acc_open_req|pick acc_open_res|pick acc_close_req|pick acc_close_res|pick acc_profile_req|pick acc_pack_res|pick acc_profile_req|pick acc_list_res_prof
  |pick acc_proc_req|pick acc_proc_res|pick acc_set_proc|pick acc_list_req|pick acc_list_res|pick acc_attention|].
  eapply acc_ext; [apply acc_ret|]. intros d bs t _ _. unfold body_content. split.
  - intros (-> & ->). do 14 right. split; [auto|]. split; [|auto]. cbn. intuition congruence.
  - intros Y. repeat (destruct Y as [(-> & _)|Y]; [congruence|]). tauto.
Qed.
Lemma acc_body : acc sml_message_body_parse (body true).
Proof.
  unfold sml_message_body_parse. eapply acc_ext.
  - apply acc_bind with (W2 := fun e : bool => if e then fun _ _ _ => False else fun r bs t => exists tl b, bs = tl ++ b /\ header 112 2 tl /\
      then_ (optional (unsigned true 4)) (fun tag r bs t => match tag with None => r = None /\ bs = [] | Some m => exists d, body_content true (mem_u m) d bs t /\ r = Some (mkBody (Some m) d) end) r b t);
      [mon|apply acc_at_end|].
    intros []; [apply acc_null|]. apply acc_expect; [mon| |lia]. apply acc_field; [mon|exact acc_u32|].
    intros [m|]; [|apply acc_ret]. exact (acc_map _ (fun d => Some (mkBody (Some m) d)) _ (acc_body_data _)).
  - intros v bs t _ _. unfold body. split.
    + intros (e & b0 & b' & -> & (-> & _) & X). destruct e; [destruct X|]. destruct X as (tl & b & -> & Hh & tag & b1 & b2 & -> & X1 & X2). cbn [app]. destruct tag as [m|].
      * destruct X2 as (d & X2 & ->). left. exists m, d. split; [|reflexivity]. exists tl, (b1 ++ b2). split; [auto|]. split; [exact Hh|].
        cbn [fields]. exists b1, b2. split; [auto|]. split; [exact X1|]. exists b2, []. rewrite app_nil_r. auto.
      * destruct X2 as (-> & ->). cbn in X1. subst b1. right. split; [auto|]. exists tl. rewrite app_nil_r. auto.
    + intros X. exists false, [], bs. split; [auto|]. 
      assert (Y : exists tl b, bs = tl ++ b /\ header 112 2 tl /\
        then_ (optional (unsigned true 4)) (fun tag r bs t => match tag with None => r = None /\ bs = [] | Some m => exists d, body_content true (mem_u m) d bs t /\ r = Some (mkBody (Some m) d) end) v b t).
      { destruct X as [(m & d & (tl & b & -> & Hh & b1 & b2 & -> & X1 & b3 & b4 & -> & X2 & E) & ->)|(_ & tl & -> & Hh & ->)]; exists tl.
        - cbn in E. subst b4. rewrite app_nil_r in *. exists (b1 ++ b3). split; [auto|]. split; [exact Hh|]. exists (Some m), b1, b3. split; [auto|]. split; [exact X1|]. eauto.
        - exists [1]. split; [auto|]. split; [exact Hh|]. exists None, [1], []. cbn. auto. }
      split; [|exact Y]. split; [auto|]. split; [discriminate|]. destruct Y as (tl & b & -> & Hh & _). destruct (starts_header _ _ b t Hh) as (c & u & -> & _). discriminate.
Qed.

(** the part up to the checksum *)
Definition head_lang : lang (option octet_string * option mem * option mem * option sml_message_body) := fun '(ti, gi, ab, mb) bs t =>
  exists tl b, bs = tl ++ b /\ header 112 6 tl /\
    fields [optional octets ti; optional (unsigned true 1) gi; optional (unsigned true 1) ab; body true mb] b t.
Lemma mon_body : mon sml_message_body_parse.
Proof. unfold sml_message_body_parse. mon. Qed.
Lemma mon_slice a b : mon (buffer_slice a b).
Proof. intros s v s1 E. unfold buffer_slice in E. destruct (_ <? _); [discriminate|]. destruct (_ <? _); [discriminate|]. destruct (_ <=? _)%nat; [|discriminate]. injection E as <- <-. auto. Qed.
Lemma mon_tail st h : mon (msg_tail st h).
Proof.
  destruct h as [[[ti gi] ab] mb]. unfold msg_tail. apply mon_bind; [apply mon_fun|intros len]. apply mon_bind; [apply mon_fun|intros few]. destruct few; [mon|].
  apply mon_bind; [mon|intros crc]. apply mon_bind; [mon|intros e]. destruct (if e then None else crc) as [c|]; [|mon]. apply mon_bind; [apply mon_slice|intros bs].
  destruct (_ && _); [mon|]. apply mon_bind; [mon|intros [|]; [mon|]]. apply mon_bind; [mon|intros b]. apply mon_bind; [destruct (_ =? _); [apply mon_upd|mon]|mon].
Qed.
Lemma acc_head : acc msg_head (required head_lang).
Proof.
  unfold msg_head. eapply acc_ext.
  - apply acc_expect; [repeat first [apply mon_body|mon_step]| |lia].
    refine (acc_fld _ _ _ (fun _ => True) (fun m => fst (fst (fst m))) _ _ acc_octets (fun ti => _)); [repeat first [apply mon_body|mon_step]|].
    refine (acc_fld _ _ _ _ (fun m => snd (fst (fst m))) _ _ acc_u8 (fun gi => _)); [repeat first [apply mon_body|mon_step]|].
    refine (acc_fld _ _ _ _ (fun m => snd (fst m)) _ _ acc_u8 (fun ab => _)); [repeat first [apply mon_body|mon_step]|].
    refine (acc_fld _ _ _ _ (fun m => snd m) _ _ acc_body (fun mb => _)); [repeat first [apply mon_body|mon_step]|].
    apply acc_done. intros [[[ti' gi'] ab'] mb']. cbn. intuition congruence.
  - intros r bs t _ _. split.
    + intros (tl & b & -> & Hh & m & -> & _ & X). destruct m as [[[ti gi] ab] mb]. cbn in X |- *. exists tl, b. auto.
    + intros X. destruct r as [[[[ti gi] ab] mb]|]; [|destruct X]. destruct X as (tl & b & -> & Hh & X). exists tl, b. split; [auto|]. split; [auto|].
      exists (ti, gi, ab, mb). auto.
Qed.
(** the rest, where [hb] are the bytes up to the checksum *)
Definition tail_lang (hb : list Z) (h : option octet_string * option mem * option mem * option sml_message_body) : lang (option sml_message) := fun r bs t =>
  exists c cb e, bs = cb ++ e /\ unsigned true 2 c cb (e ++ t) /\ (3 <= length (bs ++ t))%nat /\
    match r with
    | None => e = [] /\ ~ checksum_ok c hb
    | Some m => checksum_ok c hb /\ (e = [0] \/ (e = [] /\ t <> [] /\ hd 0 t <> 0)) /\
        m = (let '(ti, gi, ab, mb) := h in mkMsg ti gi ab mb (Some c))
    end.
Lemma slice_at s hb u n : good s -> rest s = hb ++ u ->
  forall s3, buffer s3 = buffer s -> buffer_slice (wrap32 (Z.of_nat (cursor s))) (wrap32 (Z.of_nat (cursor (at_ s (length hb) n)) - wrap32 (Z.of_nat (cursor s)))) s3 = Ret (hb, s3).
Proof.
  intros (Ok & Sm & _) R s3 B. pose proof (f_equal (@length Z) R) as L. rewrite rest_length, app_length in L. destruct Ok as (Hc & _). unfold small, buffer_len in *.
  rewrite (wrap32_ok (Z.of_nat (cursor s))) by (unfold int_ok; lia). cbn [cursor at_ set_ovf set_cursor].
  replace (Z.of_nat (cursor s + length hb) - Z.of_nat (cursor s)) with (Z.of_nat (length hb)) by lia.
  rewrite wrap32_ok by (unfold int_ok; lia). unfold buffer_slice, buffer_len. rewrite B. destruct (Z.ltb_spec (Z.of_nat (cursor s)) 0); [lia|]. destruct (Z.ltb_spec (Z.of_nat (length hb)) 0); [lia|].
  rewrite !Nat2Z.id. destruct (Nat.leb_spec (cursor s + length hb) (length (buffer s))); [|lia]. do 2 f_equal.
  fold (rest s). rewrite R. rewrite firstn_app, firstn_all, Nat.sub_diag. cbn. apply app_nil_r.
Qed.
Definition tail2 (hb : list Z) (h : option octet_string * option mem * option mem * option sml_message_body) : P (option sml_message) :=
  let '(transaction_id, group_id, abort_on_error, message_body) := h in
  few <- (fun s => Ret (size_sub (buffer_len s) (cursor s) <? 3, s)) ;;
  if (few : bool) then err_null else
  crc <- sml_u16_parse ;;
  e <- sml_buf_has_errors ;;
  if (e : bool) then err_null else
  match crc with
  | None => err_null
  | Some c =>
      if crc_bad c hb
      then ret None
      else
        e <- at_end ;;
        if (e : bool) then err_null else
        b <- sml_buf_get_current_byte ;;
        (if b =? 0 then sml_buf_update_bytes_read 1 else ret tt) ;;;
        ret (Some (mkMsg transaction_id group_id abort_on_error message_body (Some c)))
  end.
Lemma tail_eq s hb u h : good s -> rest s = hb ++ u ->
  msg_tail (wrap32 (Z.of_nat (cursor s))) h (at_ s (length hb) false) = tail2 hb h (at_ s (length hb) false).
Proof.
  intros G R. destruct h as [[[ti gi] ab] mb]. unfold msg_tail, tail2. unfold bind at 1, cursor_int. unfold bind at 1 8. destruct (_ <? 3); [reflexivity|].
  unfold bind at 1 7. pose proof (good_at _ _ _ G R) as G1. pose proof (u16_safe _ (proj1 G1)) as HS. unfold wp in HS.
  destruct (sml_u16_parse (at_ s (length hb) false)) as [[crc s3]| |]; [|contradiction|contradiction]. destruct HS as [St _].
  unfold bind at 1 6, sml_buf_has_errors. destruct (error s3); [reflexivity|]. destruct crc as [c|]; [|reflexivity].
  unfold bind at 1. rewrite (slice_at s hb u false G R) by apply (st_buf _ _ St). reflexivity.
Qed.
Lemma acc_few : acc (fun s => Ret (size_sub (buffer_len s) (cursor s) <? 3, s)) (fun f bs t => bs = [] /\ f = (length t <? 3)%nat).
Proof.
  intros s G v s1. split.
  - intros (E & _). injection E as <- <-. exists [], (rest s). nil0. rewrite few_ok by apply G. auto.
  - intros (bs & t & R & (-> & ->) & ->). nil0. subst t. rewrite few_ok by apply G. split; [reflexivity|]. apply G.
Qed.
Lemma acc_end (m : sml_message) : acc (e <- at_end ;; if (e : bool) then err_null else b <- sml_buf_get_current_byte ;;
    (if b =? 0 then sml_buf_update_bytes_read 1 else ret tt) ;;; ret (Some m))
  (fun r bs t => r = Some m /\ (bs = [0] \/ (bs = [] /\ t <> [] /\ hd 0 t <> 0))).
Proof.
  intros s G v s1. destruct (rest s) as [|b u] eqn:R.
  - split.
    + intros (E & He & _). unfold bind at 1 in E. rewrite (at_end_nil _ R) in E. injection E as <- <-. discriminate.
    + intros (bs & t & E & (_ & [->|(-> & N & _)]) & _); [discriminate|]. cbn in E. congruence.
  - unfold bind at 1. rewrite (at_end_cons _ _ _ R). unfold bind at 1. rewrite (current_cons _ _ _ R). destruct (Z.eqb_spec b 0) as [->|Hb].
    + unfold bind, ret. rewrite (update_eq 1). pose proof (at_flags s 1 G) as F.
      assert (EQ : set_cursor (cursor s + 1) s = at_ s 1 false) by (destruct s; unfold at_, set_ovf, set_cursor; cbn; now rewrite orb_false_r). rewrite EQ. split.
      * intros (E & _). injection E as <- <-. exists [0], u. auto.
      * intros (bs & t & E & (-> & [->|(-> & N & HN)]) & ->); [split; [reflexivity|exact F]|]. cbn in E. subst t. now cbn in HN.
    + unfold bind, ret. split.
      * intros (E & _). injection E as <- <-. exists [], (b :: u). nil0. split; [auto|]. split; [|reflexivity]. split; [auto|]. right. split; [auto|]. split; [discriminate|exact Hb].
      * intros (bs & t & E & (-> & [->|(-> & N & HN)]) & ->); [cbn in E; congruence|]. nil0. split; [reflexivity|]. apply G.
Qed.
Lemma unsigned_ne q n : nonempty (unsigned q n).
Proof. intros m bs t X. destruct (unsigned_hd _ _ _ _ _ X) as (b & u & -> & _). discriminate. Qed.
Lemma acc_tail hb h : bytes_ok hb -> acc (tail2 hb h) (tail_lang hb h).
Proof.
  intros HB. destruct h as [[[ti gi] ab] mb]. unfold tail2.
  assert (M0 : forall m : sml_message, mon (e <- at_end ;; if (e : bool) then err_null else b <- sml_buf_get_current_byte ;; (if b =? 0 then sml_buf_update_bytes_read 1 else ret tt) ;;; ret (Some m))).
  { intros m. apply mon_bind; [mon|intros [|]; [mon|]]. apply mon_bind; [mon|intros b]. apply mon_bind; [destruct (_ =? _); [apply mon_upd|mon]|mon]. }
  eapply acc_ext.
  - apply acc_bind with (W2 := fun few : bool => if few then fun _ _ _ => False else then_ (optional (unsigned true 2)) (fun crc => then_ (fun e bs t => e = false /\ bs = []) (fun e : bool => if e then fun _ _ _ => False else
      match crc with None => fun _ _ _ => False | Some c => if crc_bad c hb then fun r bs t => r = None /\ bs = [] else
        fun r bs t => r = Some (mkMsg ti gi ab mb (Some c)) /\ (bs = [0] \/ (bs = [] /\ t <> [] /\ hd 0 t <> 0)) end))).
    + intros [|]; [mon|]. apply mon_bind; [mon|intros crc]. apply mon_bind; [mon|intros [|]; [mon|]]. destruct crc; [|mon]. destruct (crc_bad _ _); [mon|apply M0].
    + apply acc_few.
    + intros [|]; [apply acc_null|]. apply acc_bind.
      * intros crc. apply mon_bind; [mon|intros [|]; [mon|]]. destruct crc; [|mon]. destruct (crc_bad _ _); [mon|apply M0].
      * exact acc_u16.
      * intros crc. apply acc_bind.
        -- intros [|]; [mon|]. destruct crc; [|mon]. destruct (crc_bad _ _); [mon|apply M0].
        -- apply acc_has.
        -- intros [|]; [apply acc_null|]. destruct crc as [c|]; [|apply acc_null]. destruct (crc_bad c hb); [apply acc_ret|apply acc_end].
  - intros r bs t _ _. unfold tail_lang. split.
    + intros (few & b0 & b' & -> & (-> & ->) & X). cbn [app] in *. destruct (Nat.ltb_spec (length (b' ++ t)) 3) as [|HL]; [destruct X|].
      destruct X as (crc & cb & e & -> & X1 & e0 & b1 & b2 & -> & (-> & ->) & X2). cbn [app] in *. destruct crc as [c|]; [|destruct X2]. exists c, cb, b2. split; [auto|]. split; [exact X1|]. split; [exact HL|].
      pose proof (crc_bad_spec c hb HB) as HC. fold (checksum_ok c hb) in HC. destruct (crc_bad c hb).
      * destruct X2 as (-> & ->). split; [auto|]. intros Y. apply HC in Y. discriminate.
      * destruct X2 as (-> & X2). split; [now apply HC|]. auto.
    + intros (c & cb & e & -> & X1 & HL & X2). exists false, [], (cb ++ e). split; [auto|]. split; [split; [auto|]; symmetry; now apply Nat.ltb_ge|].
      exists (Some c), cb, e. split; [auto|]. split; [exact X1|]. exists false, [], e. split; [auto|]. split; [auto|].
      pose proof (crc_bad_spec c hb HB) as HC. fold (checksum_ok c hb) in HC. destruct (crc_bad c hb).
      * destruct r as [m|]; [destruct X2 as (Y & _); apply HC in Y; discriminate|]. tauto.
      * destruct r as [m|]; [destruct X2 as (_ & HE & ->); auto|]. destruct X2 as (_ & N). exfalso. apply N. now apply HC.
Qed.
(** What the parser makes of a message: the message, or nothing if the checksum is wrong. *)
Definition message_or_bad : lang (option sml_message) := fun r bs t =>
  exists h hb b2, bs = hb ++ b2 /\ head_lang h hb (b2 ++ t) /\ tail_lang hb h r b2 t.
Lemma acc_message : acc sml_message_parse message_or_bad.
Proof.
  intros s G r s1. rewrite message_split. split.
  - intros (E & He & Ho). apply bind_inv in E. destruct E as (o & s2 & E1 & E2).
    assert (Mk : mon (match o with None => ret None | Some h => msg_tail (wrap32 (Z.of_nat (cursor s))) h end)) by (destruct o; [apply mon_tail|mon]).
    assert (He2 : error s2 = false) by (destruct (error s2) eqn:X; auto; rewrite (proj1 (Mk _ _ _ E2) X) in He; discriminate).
    assert (Ho2 : ovf s2 = false) by (destruct (ovf s2) eqn:X; auto; rewrite (proj2 (Mk _ _ _ E2) X) in Ho; discriminate).
    destruct (proj1 (acc_head s G o s2)) as (b1 & t1 & R1 & X1 & ->); auto. destruct o as [h|]; [|destruct X1].
    rewrite (tail_eq _ _ _ _ G R1) in E2. assert (HB : bytes_ok b1) by (destruct (good_bytes _ _ _ G R1) as (HB & _); apply Forall_app in HB; apply HB).
    destruct (proj1 (acc_tail b1 h HB _ (good_at _ _ _ G R1) r s1)) as (b2 & t2 & R2 & X2 & ->); auto.
    rewrite (at_app _ _ _ _ R1) in R2. subst t1. exists (b1 ++ b2), t2. split; [now rewrite <- app_assoc|].
    split; [exists h, b1, b2; auto|]. now rewrite at_at, app_length.
  - intros (bs & t & R & (h & b1 & b2 & -> & X1 & X2) & ->). rewrite <- app_assoc in R.
    assert (HB : bytes_ok b1) by (destruct (good_bytes _ _ _ G R) as (HB & _); apply Forall_app in HB; apply HB).
    destruct (proj2 (acc_head s G (Some h) (at_ s (length b1) false))) as (E1 & _); [eauto|].
    destruct (proj2 (acc_tail b1 h HB _ (good_at _ _ _ G R) r (at_ (at_ s (length b1) false) (length b2) false))) as (E2 & F).
    { exists b2, t. rewrite (at_app _ _ _ _ R). auto. }
    rewrite at_at, <- app_length in E2, F. split; [|exact F]. unfold bind. rewrite E1. rewrite (tail_eq _ _ _ _ G R). exact E2.
Qed.
Lemma message_iff m bs t : message_or_bad (Some m) bs t <-> message true m bs t.
Proof.
  unfold message_or_bad, message. split.
  - intros ([[[ti gi] ab] mb] & hb & b2 & -> & (tl & b & -> & Hh & X) & c & cb & e & -> & X1 & HL & HC & HE & ->). cbn [m_transaction_id m_group_id m_abort_on_error m_message_body m_crc].
    exists tl, b, cb, e, c. rewrite <- !app_assoc in *. split; [auto|]. split; [auto|]. split; [exact X|]. split; [auto|]. split; [auto|]. split; [auto|]. split; [auto|]. tauto.
  - intros (tl & b & cb & e & c & -> & Hh & X & EC & X1 & HL & HC & HE). exists (m_transaction_id m, m_group_id m, m_abort_on_error m, m_message_body m), (tl ++ b), (cb ++ e).
    rewrite <- !app_assoc. split; [auto|]. split; [exists tl, b; auto|]. exists c, cb, e. rewrite <- !app_assoc. split; [auto|]. split; [auto|]. split; [auto|]. split; [auto|]. split; [tauto|].
    destruct m; cbn in *. now subst.
Qed.
End WithHost.
