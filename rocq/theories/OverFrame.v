(** The frame over what was in the file's buffer before. *)
From Verif Require Import Base Buf Crc16 Number OctetString Boolean Value Time SList Tree Bodies Message File Transport
  Lib Wf Ctx Spec Write Item Enc CrcProof Round3 TransportWrite Cells EncCells.

Section WithHost.
Context {H : Host}.

Lemma frame_over l b : Forall writable l -> Forall (fun m => Forall (every (size_ok false)) (message_items m)) l ->
  bytes_ok b -> Z.of_nat (length b) < 2147483648 -> let bs := flat_map message_bytes l in
  (frame_size (length bs) <= length b)%nat -> let old := firstn (length bs) (skipn 8 b) in forall c e o, exists o',
  transport_frame l (mkBuf b c e o) = Ret (sealed_all_over old l,
    mkBuf (frame_of (messages_over old l) ++ skipn (frame_size (length bs)) b) (frame_size (length bs)) e o').
Proof.
  intros HW HS HB HL bs HR old c e o. subst old. rewrite frame_eq. cbn [set_cursor]. unfold set_cursor. cbn [buffer error ovf].
  set (n := length bs) in *.
  destruct (writes_use head_part start_seq [] b e o writes_head HB) as [U1 U2]. cbn [app length] in U1, U2. change (length start_seq) with 8%nat in *.
  unfold frame_size in *. pose proof (pad_bound n) as HP.
  assert (SB : forall k, bytes_ok (skipn k b)) by (intros k; apply Forall_forall; intros x Hx; unfold bytes_ok in HB; rewrite Forall_forall in HB; apply HB; rewrite <- (firstn_skipn k b); apply in_app_iff; now right).
  assert (FB : forall k, bytes_ok (firstn k b)) by (intros k; apply Forall_forall; intros x Hx; unfold bytes_ok in HB; rewrite Forall_forall in HB; apply HB; rewrite <- (firstn_skipn k b); apply in_app_iff; now left).
  destruct (Nat.lt_ge_cases (length b) 8) as [C1|C1].
  { lia. }
  destruct (U1 C1) as [o1 E1]. rewrite E1. clear U1 U2.
  assert (L8 : length (skipn 8 b) = (length b - 8)%nat) by apply skipn_length.
  destruct (Nat.lt_ge_cases (length (skipn 8 b)) n) as [C2|C2].
  { lia. }
  assert (E8 : skipn 8 b = firstn n (skipn 8 b) ++ skipn (8 + n) b).
  { rewrite <- (firstn_skipn n (skipn 8 b)) at 1. f_equal. rewrite skipn_skipn_add. reflexivity. }
  assert (LN : length (firstn n (skipn 8 b)) = n) by (rewrite firstn_length; lia).
  assert (HB1 : bytes_ok (start_seq ++ firstn n (skipn 8 b) ++ skipn (8 + n) b)).
  { rewrite <- E8. apply Forall_app. split; [apply start_bytes|apply SB]. }
  destruct (messages_are_over l start_seq (firstn n (skipn 8 b)) (skipn (8 + n) b) e o1 HW HS HB1 ltac:(rewrite <- E8, app_length; change (length start_seq) with 8%nat; lia) LN)
    as (Bout & Lout & o2 & E2). fold bs in Lout, E2. fold n in Lout, E2. set (out := messages_over (firstn n (skipn 8 b)) l) in *. rewrite <- E8 in E2. change (length start_seq) with 8%nat in E2. cbn [Nat.add]. rewrite E2. cbn [cursor].
  rewrite pad_8. set (t2 := skipn (8 + n) b) in *. set (pad := pad_of n) in *.
  assert (L2 : length t2 = (length b - (8 + n))%nat) by apply skipn_length.
  assert (HB2 : bytes_ok ((start_seq ++ out) ++ t2)) by (apply Forall_app; split; [apply Forall_app; split; [apply start_bytes|exact Bout]|apply SB]).
  destruct (writes_use (tail_part pad) _ (start_seq ++ out) t2 e o2 (writes_tail pad HP) HB2) as [U3 U4].
  rewrite <- app_assoc in U3, U4. rewrite !app_length, !repeat_length in U3, U4. rewrite Lout in U3, U4. change (length start_seq) with 8%nat in U3, U4. change (length end_seq) with 5%nat in U3, U4. cbn [length] in U3, U4.
  fold n in U3, U4. destruct (Nat.lt_ge_cases (length t2) (pad + 6)) as [C3|C3].
  { lia. }
  destruct (U3 ltac:(lia)) as [o3 E3]. rewrite E3. clear U3 U4. cbn [cursor].
  set (hd := start_seq ++ out ++ repeat 0 pad ++ end_seq ++ [Z.of_nat pad]).
  set (t3 := skipn (pad + (5 + 1)) t2) in *.
  assert (L3 : length t3 = (length t2 - (pad + 6))%nat) by (unfold t3; rewrite skipn_length; lia).
  assert (LH : length hd = (8 + n + (pad + (5 + 1)))%nat) by (unfold hd; rewrite !app_length, repeat_length, Lout; fold n; change (length start_seq) with 8%nat; change (length end_seq) with 5%nat; cbn [length]; lia).
  assert (EQ : (start_seq ++ out) ++ (repeat 0 pad ++ end_seq ++ [Z.of_nat pad]) ++ t3 = hd ++ t3) by (unfold hd; rewrite <- !app_assoc; reflexivity).
  rewrite EQ in *. rewrite Z.sub_0_r, wrap32_small by lia. unfold buffer_slice. cbn [Z.ltb Z.compare].
  destruct (Z.ltb_spec (Z.of_nat (8 + n + (pad + (5 + 1)))) 0) as [HX|_]; [lia|]. rewrite Nat2Z.id. change (Z.to_nat 0) with 0%nat. rewrite Nat.add_0_l, skipn_O.
  unfold buffer_len. cbn [buffer]. rewrite <- LH.
  destruct (Nat.leb_spec (length hd) (length (hd ++ t3))) as [_|HX]; [|rewrite app_length in HX; lia].
  rewrite firstn_app, Nat.sub_diag, firstn_O, app_nil_r, firstn_all.
  assert (HB3 : bytes_ok (hd ++ t3)).
  { unfold hd, t3. apply Forall_app. split.
    - apply Forall_app. split; [apply start_bytes|]. apply Forall_app. split; [exact Bout|]. apply Forall_app. split; [apply zero_bytes|].
      apply Forall_app. split; [apply end_bytes|]. apply Forall_cons; [unfold byte_ok; lia|apply Forall_nil].
    - apply Forall_forall. intros x Hx. specialize (SB (8 + n)%nat). unfold bytes_ok in SB. rewrite Forall_forall in SB. apply SB. fold t2.
      rewrite <- (firstn_skipn (pad + (5 + 1)) t2). apply in_app_iff. now right. }
  destruct (writes_use _ _ hd t3 e o3 (writes_crc hd) HB3) as [U5 U6]. change (length (crc_bytes hd)) with 2%nat in U5, U6.
  destruct (Nat.lt_ge_cases (length t3) 2) as [C4|C4].
  { lia. }
  destruct (U5 C4) as [o4 E4]. rewrite E4. clear U5 U6. exists o4.
  f_equal. f_equal. rewrite LH. f_equal; [|lia].
  unfold frame_of, frame_head. rewrite Lout. fold pad. fold hd. rewrite <- app_assoc. f_equal. f_equal.
  unfold t3, t2. rewrite !skipn_skipn_add. f_equal. lia.
Qed.
End WithHost.
