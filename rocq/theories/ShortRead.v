(** What the receiver makes of messages that were sent without their checksum (see
    ShortWrite.v), and the frame around them. *)
From Verif Require Import Base Buf Crc16 Number OctetString Boolean Value Time SList Tree Bodies Message File Transport
  Lib Wf Safe Safe2 Safe3 Ctx Spec TL Inv MinSize Reads Write TLWrite TLRound NumFacts PropsString Item Enc Dzg Round Round2 Round3 CrcProof PropsCrc PropsRound
  TransportFacts PropsTransport TransportWrite PropsSend ShortWrite.

Section WithHost.
Context {H : Host}.

Lemma unsealed_fwd_gen tid gid ab bb body s t : every readable (oct_item tid) -> opt (wf_num 1) gid -> opt (wf_num 1) ab ->
  reads sml_message_body_parse bb body ->
  let cb := [112 + 6] ++ enc (oct_item tid) ++ enc (num_item 96 gid) ++ enc (num_item 96 ab) ++ bb in
  rest s = (cb ++ [1; 0]) ++ t -> error s = false -> small s ->
  exists s', sml_message_parse s = Ret (None, s') /\ error s' = true.
Proof.
  intros HO W2 W3 HB cb R He Sm. assert (EC : cb = [112 + 6] ++ enc (oct_item tid) ++ enc (num_item 96 gid) ++ enc (num_item 96 ab) ++ bb) by reflexivity.
  clearbody cb.
  assert (LC : (1 <= length cb)%nat) by (rewrite EC; cbn [app length]; lia).
  pose proof (rest_length s) as RL. rewrite R in RL. rewrite !app_length in RL. change (length [1; 0]) with 2%nat in RL.
  assert (HS : Z.of_nat (buffer_len s) < 2147483648) by exact Sm.
  set (u := [1; 0] ++ t) in *. assert (Ru : u <> []) by (unfold u; discriminate). rewrite <- app_assoc in R. fold u in R.
  assert (R' := R). rewrite EC, <- !app_assoc in R'.
  unfold sml_message_parse. unfold bind at 1. unfold cursor_int at 1. rewrite Z.sub_0_r, wrap32_small by lia.
  unfold expect_list. destruct (list_header 6 ltac:(lia)) as (TF & TT & TN & TL).
  unfold bind at 1. rewrite (type_fwd _ _ _ R' TF), TT. change (112 =? SML_TYPE_LIST) with true. cbn [negb].
  unfold bind at 1. rewrite (length_fwd _ _ _ Sm R' TF) by lia. rewrite TL, Z.eqb_refl. cbn [negb].
  apply (at_app _ _ _ false) in R'.
  rewrite (field_step _ _ _ _ _ _ (reads_oct tid ltac:(assumption)) R') by auto using app_nonnil. apply (at_app _ _ _ false) in R'.
  rewrite (field_step _ _ _ _ _ _ (reads_u8 gid ltac:(assumption)) R') by auto using app_nonnil. apply (at_app _ _ _ false) in R'.
  rewrite (field_step _ _ _ _ _ _ (reads_u8 ab ltac:(assumption)) R') by auto using app_nonnil. apply (at_app _ _ _ false) in R'.
  rewrite (field_step _ _ _ _ _ _ HB R') by auto using app_nonnil. apply (at_app _ _ _ false) in R'.
  rewrite !at_at in *. cbn [orb] in *.
  match type of R' with rest (at_ s ?n false) = _ => assert (EN : n = length cb) by (rewrite EC, !app_length; lia); rewrite EN in * end.
  unfold bind at 1. unfold cursor_int at 1.
  unfold bind at 1. destruct (size_sub _ _ <? 3).
  { eexists. split; [reflexivity|]. reflexivity. }
  unfold bind at 1. rewrite (reads_u16 None I (at_ s (length cb) false) ([0] ++ t) R') by (auto; discriminate).
  unfold bind at 1, sml_buf_has_errors. rewrite !at_error, He.
  eexists. split; [reflexivity|]. reflexivity.
Qed.
Lemma unsealed_fwd m s t : writable m -> Forall (every readable) (message_items m) ->
  rest s = (checked_bytes m ++ [1; 0]) ++ t -> error s = false -> small s ->
  exists s', sml_message_parse s = Ret (None, s') /\ error s' = true.
Proof.
  intros HW HR R He Sm. destruct m as [tid gid ab body crc]. destruct HW as [W1 W2 W3 W4]. unfold message_items in HR.
  cbn [m_transaction_id m_group_id m_abort_on_error m_message_body m_crc] in *.
  repeat (apply Forall_cons_iff in HR; let h := fresh "R" in destruct HR as [h HR]).
  destruct W4 as (b & -> & Wb). set (cb := checked_bytes _) in *.
  assert (EC : cb = [112 + 6] ++ enc (oct_item tid) ++ enc (num_item 96 gid) ++ enc (num_item 96 ab) ++ enc (body_item (Some b))).
  { unfold cb, checked_bytes, message_items. cbn [m_transaction_id m_group_id m_abort_on_error m_message_body]. rewrite !flat_cons. cbn [flat_map]. now rewrite app_nil_r. }
  clearbody cb. rewrite EC in *. eapply (unsealed_fwd_gen tid gid ab (enc (body_item (Some b))) _ s t); auto. apply reads_body; auto.
Qed.

(** The messages before the first one without checksum; the error flag is raised. *)
Lemma file_loop_unsealed l m t : forall fuel msgs s, Forall round_trippable l -> round_trippable m -> (length (flat_map message_bytes l) < fuel)%nat ->
  rest s = flat_map message_bytes l ++ (checked_bytes m ++ [1; 0]) ++ t -> error s = false -> small s -> Z.of_nat (length msgs + length l) <= 32767 ->
  exists s', file_loop fuel msgs s = Ret (msgs ++ map sealed l, s') /\ error s' = true.
Proof.
  induction l as [|a l IH]; intros fuel msgs s HR HM Hf R He Sm HC.
  - cbn [flat_map app length map] in *. destruct fuel as [|fuel]; [lia|]. cbn [file_loop].
    assert (R0 : rest s = 118 :: (flat_map enc (message_items m) ++ [1; 0]) ++ t) by exact R.
    unfold bind at 1. rewrite (at_end_cons _ _ _ R0). unfold bind at 1. rewrite (current_cons _ _ _ R0). change (118 =? SML_MESSAGE_END) with false. cbv iota.
    destruct HM as (W & Rd & _). destruct (unsealed_fwd m s t W Rd R He Sm) as (s' & E & Er).
    unfold bind at 1. rewrite E. unfold bind at 1, sml_buf_has_errors. rewrite Er. rewrite app_nil_r. exists s'. now split.
  - apply Forall_cons_iff in HR. destruct HR as [(W & Rd & St) HR]. cbn [flat_map map] in *. rewrite app_length in *. rewrite <- app_assoc in R.
    destruct fuel as [|fuel]; [lia|]. cbn [file_loop]. destruct (message_hd a) as (q & EM).
    assert (R0 : rest s = 118 :: q ++ flat_map message_bytes l ++ (checked_bytes m ++ [1; 0]) ++ t) by (rewrite R, EM; reflexivity).
    unfold bind at 1. rewrite (at_end_cons _ _ _ R0). unfold bind at 1. rewrite (current_cons _ _ _ R0). change (118 =? SML_MESSAGE_END) with false. cbv iota.
    unfold bind at 1. rewrite (message_fwd a s _ W Rd R He Sm). rewrite sealed_stable by exact St.
    unfold bind at 1, sml_buf_has_errors. rewrite at_error, He. cbv iota.
    unfold bind at 1, sml_file_add_message. cbn [length] in HC. destruct (Z.leb_spec (Z.of_nat (length msgs) + 1) 32767); [|lia]. unfold ret at 1.
    assert (HL : (1 <= length (message_bytes a))%nat) by (rewrite EM; cbn [length]; lia).
    destruct (IH fuel (msgs ++ [sealed a]) (at_ s (length (message_bytes a)) false)) as (s' & E & Er); auto.
    + lia.
    + now apply at_app.
    + rewrite app_length. cbn [length]. lia.
    + exists s'. rewrite E, <- app_assoc. now split.
Qed.

(** How many messages from the first on have a checksum *)
Fixpoint leading (gs : list bool) : nat := match gs with true :: gs' => S (leading gs') | _ => O end.
Lemma leading_le gs : (leading gs <= length gs)%nat.
Proof. induction gs as [|[] gs IH]; cbn [leading length]; lia. Qed.
Lemma leading_split gs (l : list sml_message) : length gs = length l ->
  (leading gs = length l /\ flat_map bytes_as (combine gs l) = flat_map message_bytes l) \/
  (exists m t, (leading gs < length l)%nat /\ In m l /\ nth_error gs (leading gs) = Some false /\
    flat_map bytes_as (combine gs l) = flat_map message_bytes (firstn (leading gs) l) ++ (checked_bytes m ++ [1; 0]) ++ t).
Proof.
  revert l. induction gs as [|g gs IH]; intros [|a l] HL; try discriminate HL; [now left|]. cbn [length] in HL. injection HL as HL.
  destruct g; cbn [leading length combine flat_map firstn nth_error].
  - destruct (IH l HL) as [[EL EB]|(m & t & Lt & IN & EN & EB)].
    + left. split; [lia|]. rewrite EB. reflexivity.
    + right. exists m, t. split; [lia|]. split; [now right|]. split; [exact EN|]. rewrite EB. unfold bytes_as at 1. cbn [fst snd]. rewrite <- !app_assoc. reflexivity.
  - right. exists a. eexists. split; [lia|]. split; [now left|]. split; [reflexivity|]. reflexivity.
Qed.
Lemma file_parse_as gs l k : Forall round_trippable l -> (length l <= Z.to_nat 32767)%nat -> length gs = length l ->
  Z.of_nat (length (flat_map bytes_as (combine gs l)) + k) < 2147483648 ->
  exists g, sml_file_parse (flat_map bytes_as (combine gs l) ++ repeat 0 k) = Ret g /\
    f_messages g = map sealed (firstn (leading gs) l) /\ error (f_buf g) = (leading gs <? length l)%nat.
Proof.
  intros HR HC HL HS. pose proof (leading_le gs) as LL. unfold sml_file_parse.
  destruct (leading_split gs l HL) as [[EL EB]|(m & t & Lt & IN & EN & EB)]; rewrite EB in *.
  - destruct (file_loop_messages l (S (length (flat_map message_bytes l ++ repeat 0 k))) [] (mkBuf (flat_map message_bytes l ++ repeat 0 k) 0 false false) k HR) as (s' & E1 & Er & _); auto.
    + rewrite app_length, repeat_length. lia.
    + unfold small, buffer_len. cbn [buffer]. rewrite app_length, repeat_length. exact HS.
    + cbn [length]. lia.
    + rewrite E1. eexists. split; [reflexivity|]. cbn [f_messages f_buf app]. rewrite EL, firstn_all, Nat.ltb_irrefl. now split.
  - set (l1 := firstn (leading gs) l) in *.
    match goal with |- context [file_loop (S (length ?x))] => set (body := x) end.
    assert (EBd : body = flat_map message_bytes l1 ++ (checked_bytes m ++ [1; 0]) ++ (t ++ repeat 0 k)).
    { unfold body. now rewrite <- !app_assoc. }
    destruct (file_loop_unsealed l1 m (t ++ repeat 0 k) (S (length body)) [] (mkBuf body 0 false false)) as (s' & E1 & Er); auto.
    + unfold l1. rewrite Forall_forall in *. intros x Hx. apply HR. rewrite <- (firstn_skipn (leading gs) l). apply in_or_app. now left.
    + rewrite Forall_forall in HR. now apply HR.
    + rewrite EBd, app_length. lia.
    + unfold small, buffer_len. cbn [buffer]. unfold body. rewrite app_length, repeat_length. exact HS.
    + unfold l1. cbn [length]. pose proof (firstn_le_length (leading gs) l). lia.
    + rewrite E1. eexists. split; [reflexivity|]. cbn [f_messages f_buf app]. split; [reflexivity|]. rewrite Er. symmetry. now apply Nat.ltb_lt.
Qed.

(** The frame around these messages *)
Lemma as_shorter gs l : length gs = length l -> (length (flat_map bytes_as (combine gs l)) <= length (flat_map message_bytes l))%nat.
Proof.
  revert l. induction gs as [|g gs IH]; intros [|a l] HL; try discriminate HL; [apply le_n|]. cbn [length] in HL. injection HL as HL.
  specialize (IH l HL). cbn [combine flat_map]. rewrite !app_length.
  assert (EL : (length (bytes_as (g, a)) <= length (message_bytes a))%nat).
  { unfold bytes_as. cbn [fst snd]. destruct g; [apply le_n|]. unfold message_bytes. rewrite !app_length, seal_length. cbn [length]. lia. }
  lia.
Qed.
Lemma frame_as_sent l n c e o : Forall (fun x => round_trippable (snd x)) l ->
  (length (flat_map bytes_as l) + 19 <= n)%nat -> Z.of_nat n < 2147483648 ->
  exists sent b c1 c2 pad o', frame_as l (mkBuf (repeat 0 n) c e o) = Ret (map sealed_as l, mkBuf b (length sent) e o') /\ firstn (length sent) b = sent /\
    let body := flat_map bytes_as l ++ repeat 0 pad in
    sent = ([27; 27; 27; 27; 1; 1; 1; 1] ++ body ++ [27; 27; 27; 27; 26]) ++ [Z.of_nat pad; c1; c2] /\ bytes_ok sent /\ (length sent mod 4 = 0)%nat /\
    (pad <= 3)%nat /\ c1 + 256 * c2 = crc16_x25 (([27; 27; 27; 27; 1; 1; 1; 1] ++ body ++ [27; 27; 27; 27; 26]) ++ [Z.of_nat pad]) /\ byte_ok c1 /\ byte_ok c2 /\
    firstn (length sent - 16) (skipn 8 sent) = body.
Proof.
  intros HR Hn Hs. set (bs := flat_map bytes_as l) in *.
  assert (HW : Forall (fun x => writable (snd x)) l) by (eapply Forall_impl; [|exact HR]; intros m Hm; apply Hm).
  assert (HS : Forall (fun x => Forall (every (size_ok false)) (message_items (snd x))) l) by (eapply Forall_impl; [|exact HR]; intros m Hm; apply readable_sizes, Hm).
  pose proof (pad_bound (length bs)) as PB0.
  destruct (proj1 (frame_as_write false l (repeat 0 n) HW HS (zero_bytes n) ltac:(rewrite repeat_length; lia) c e o)) as (ms & payload & o' & E & LP & BP & Z).
  { rewrite repeat_length. unfold frame_size. fold bs. lia. }
  fold bs in E, LP, Z. destruct Z as [-> ->].
  { right. replace n with (8 + (length bs + (n - 8 - length bs)))%nat by lia. rewrite repeat_app, skipn_app, skipn_all2 by (rewrite repeat_length; lia).
    rewrite repeat_length, Nat.sub_diag. cbn [app skipn]. rewrite repeat_app, firstn_app, repeat_length, Nat.sub_diag, firstn_O, app_nil_r. apply firstn_all2. rewrite repeat_length. lia. }
  clear LP. set (pad := pad_of (length bs)) in *. set (body := bs ++ repeat 0 pad).
  assert (EF : frame_of bs = ([27; 27; 27; 27; 1; 1; 1; 1] ++ body ++ [27; 27; 27; 27; 26]) ++ Z.of_nat pad :: crc_bytes (frame_head bs)).
  { unfold frame_of, frame_head, body. fold pad. rewrite <- !app_assoc. reflexivity. }
  assert (EH : frame_head bs = ([27; 27; 27; 27; 1; 1; 1; 1] ++ body ++ [27; 27; 27; 27; 26]) ++ [Z.of_nat pad]).
  { unfold frame_head, body. fold pad. rewrite <- !app_assoc. reflexivity. }
  pose proof (frame_of_length bs) as LF. fold pad in LF.
  assert (HB : bytes_ok (frame_head bs)).
  { unfold frame_head. repeat (apply Forall_app; split); try apply start_bytes; try apply zero_bytes; try apply end_bytes; auto.
    apply Forall_cons; [|apply Forall_nil]. unfold byte_ok. lia. }
  assert (L4 : (length (frame_of bs) mod 4 = 0)%nat).
  { rewrite LF. unfold frame_size. fold pad. pose proof (pad_ok (length bs)) as HP. fold pad in HP. replace (16 + length bs + pad)%nat with (length bs + pad + 4 * 4)%nat by lia. rewrite Nat.mod_add by lia. exact HP. }
  assert (LB : length body = (length bs + pad)%nat) by (unfold body; rewrite app_length, repeat_length; reflexivity).
  assert (LS : (length (frame_of bs) - 16 = length body)%nat) by (rewrite LF, LB; unfold frame_size; fold pad; lia).
  destruct (swap_parts _ (x25_range (frame_head bs))) as [SP1 SP2]. rewrite <- (proj1 (C22_tables_are_published_crcs _ HB)) in SP1, SP2.
  assert (FL : firstn (frame_size (length bs)) (frame_of bs ++ skipn (frame_size (length bs)) (repeat 0 n)) = frame_of bs).
  { rewrite firstn_app, LF, Nat.sub_diag, firstn_O, app_nil_r. apply firstn_all2. lia. }
  pose proof (x25_range (frame_head bs)) as XR.
  exists (frame_of bs). eexists. exists (crc16_x25 (frame_head bs) mod 256), (crc16_x25 (frame_head bs) / 256), pad, o'. rewrite LF.
  split; [rewrite E; reflexivity|]. split; [exact FL|]. cbv zeta. fold body. rewrite LF in *.
  split; [rewrite EF; unfold crc_bytes; rewrite SP1, SP2; reflexivity|].
  split.
  { unfold frame_of. unfold crc_bytes. apply Forall_app. split; [exact HB|]. rewrite SP1, SP2.
    apply Forall_cons; [apply Z.mod_pos_bound; lia|]. apply Forall_cons; [split; [apply Z.div_pos; lia|apply Z.div_lt_upper_bound; lia]|constructor]. }
  split; [exact L4|]. split; [lia|].
  split; [rewrite <- EH; pose proof (Z.div_mod (crc16_x25 (frame_head bs)) 256); lia|].
  split; [apply Z.mod_pos_bound; lia|]. split; [split; [apply Z.div_pos; lia|apply Z.div_lt_upper_bound; lia]|].
  rewrite LS. rewrite EF, <- !app_assoc. cbn [app skipn]. rewrite firstn_app, Nat.sub_diag, firstn_O, app_nil_r, firstn_all. reflexivity.
Qed.
End WithHost.
