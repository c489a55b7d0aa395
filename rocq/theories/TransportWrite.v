(** What sml_transport_write puts into the file's buffer. *)
From Verif Require Import Base Buf Crc16 Number OctetString Boolean Value Time SList Tree Bodies Message File Transport
  Lib Wf Ctx Spec Write Item Enc CrcProof Round3.

Section WithHost.
Context {H : Host}.

(** number of padding bytes behind [n] bytes *)
Definition pad_of (n : nat) : nat := if (n mod 4 =? 0)%nat then O else (4 - n mod 4)%nat.
Lemma pad_bound n : (pad_of n <= 3)%nat.
Proof. unfold pad_of. destruct (Nat.eqb_spec (n mod 4) 0); lia. Qed.
Lemma pad_ok n : ((n + pad_of n) mod 4 = 0)%nat.
Proof.
  unfold pad_of. pose proof (Nat.div_mod n 4 ltac:(lia)) as HD. pose proof (Nat.mod_upper_bound n 4 ltac:(lia)).
  destruct (Nat.eqb_spec (n mod 4) 0); [rewrite Nat.add_0_r; assumption|].
  replace (n + (4 - n mod 4))%nat with ((n / 4 + 1) * 4)%nat by lia. apply Nat.mod_mul. lia.
Qed.
Definition head_part : P unit := write_current start_seq ;;; sml_buf_update_bytes_read (Z.of_nat (length start_seq)).
Definition tail_part (padding : nat) : P unit :=
  (if (padding =? 0)%nat then ret tt else write_current (repeat 0 padding) ;;; sml_buf_update_bytes_read (Z.of_nat padding)) ;;;
  (write_current end_seq ;;; sml_buf_update_bytes_read (Z.of_nat (length end_seq))) ;;;
  store_current (Z.of_nat padding) ;;; inc_cursor.
Definition crc_part (crc : Z) : P unit :=
  (store_current (Z.shiftr (Z.land crc 65280) 8) ;;; inc_cursor) ;;; (store_current (Z.land crc 255) ;;; inc_cursor).
Lemma frame_eq msgs s : transport_frame msgs s =
  match head_part (set_cursor 0 s) with
  | Ret (_, s1) =>
      match write_messages msgs s1 with
      | Ret (ms, s2) =>
          match tail_part (pad_of (cursor s2)) s2 with
          | Ret (_, s3) =>
              match buffer_slice 0 (wrap32 (Z.of_nat (cursor s3) - 0)) s3 with
              | Ret (bs, s4) =>
                  match crc_part (sml_crc16_calculate bs) s4 with
                  | Ret (_, s5) => Ret (ms, s5)
                  | Fault f => Fault f
                  | NoFuel => NoFuel
                  end
              | Fault f => Fault f
              | NoFuel => NoFuel
              end
          | Fault f => Fault f
          | NoFuel => NoFuel
          end
      | Fault f => Fault f
      | NoFuel => NoFuel
      end
  | Fault f => Fault f
  | NoFuel => NoFuel
  end.
Proof.
  unfold transport_frame, head_part, tail_part, crc_part, cursor_int. change (length end_seq) with 5%nat.
  change (Z.of_nat (length start_seq)) with 8. change (Z.of_nat 5) with 5. unfold bind.
  destruct (write_current start_seq (set_cursor 0 s)) as [[[] s1]| |]; auto.
  destruct (sml_buf_update_bytes_read 8 s1) as [[[] s2]| |]; auto.
  destruct (write_messages msgs s2) as [[ms s3]| |]; auto. fold (pad_of (cursor s3)).
  destruct (Nat.eqb_spec (pad_of (cursor s3)) 0) as [->|_].
  - unfold ret.
    destruct (write_current end_seq s3) as [[[] s4]| |]; auto. destruct (sml_buf_update_bytes_read 5 s4) as [[[] s5]| |]; auto.
    destruct (store_current _ s5) as [[[] s6]| |]; auto. destruct (inc_cursor s6) as [[[] s7]| |]; auto.
    destruct (buffer_slice _ _ s7) as [[bs s8]| |]; auto. destruct (store_current _ s8) as [[[] s9]| |]; auto.
    destruct (inc_cursor s9) as [[[] s10]| |]; auto. destruct (store_current _ s10) as [[[] s11]| |]; auto.
  - destruct (write_current _ s3) as [[[] s4]| |]; auto. destruct (sml_buf_update_bytes_read _ s4) as [[[] s5]| |]; auto.
    destruct (write_current end_seq s5) as [[[] s6]| |]; auto. destruct (sml_buf_update_bytes_read 5 s6) as [[[] s7]| |]; auto.
    destruct (store_current _ s7) as [[[] s8]| |]; auto. destruct (inc_cursor s8) as [[[] s9]| |]; auto.
    destruct (buffer_slice _ _ s9) as [[bs s10]| |]; auto. destruct (store_current _ s10) as [[[] s11]| |]; auto.
    destruct (inc_cursor s11) as [[[] s12]| |]; auto. destruct (store_current _ s12) as [[[] s13]| |]; auto.
Qed.
Lemma writes_use w bs pre tl e o : writes true w bs -> bytes_ok (pre ++ tl) ->
  ((length bs <= length tl)%nat -> exists o', w (mkBuf (pre ++ tl) (length pre) e o) = Ret (tt, mkBuf (pre ++ bs ++ skipn (length bs) tl) (length pre + length bs) e o')) /\
  ((length tl < length bs)%nat -> w (mkBuf (pre ++ tl) (length pre) e o) = Fault OobWrite).
Proof.
  intros HW HB. split; intros HL.
  - pose proof (firstn_skipn (length bs) tl) as ET. symmetry in ET. rewrite ET in HB.
    destruct (proj1 (HW pre (firstn (length bs) tl) (skipn (length bs) tl) e o HB)) as (out & o' & E & _ & _ & EB); [rewrite firstn_length; lia|].
    rewrite EB in E by auto. exists o'. rewrite <- E. rewrite <- ET. reflexivity.
  - assert (HB' : bytes_ok (pre ++ tl ++ [])) by now rewrite app_nil_r. pose proof (proj2 (HW pre tl [] e o HB')) as HF. rewrite app_nil_r in HF. apply HF; assumption.
Qed.
Lemma start_bytes : bytes_ok start_seq. Proof. unfold bytes_ok, start_seq. repeat (apply Forall_cons; [unfold byte_ok; lia|]). apply Forall_nil. Qed.
Lemma end_bytes : bytes_ok end_seq. Proof. unfold bytes_ok, end_seq. repeat (apply Forall_cons; [unfold byte_ok; lia|]). apply Forall_nil. Qed.
Lemma zero_bytes n : bytes_ok (repeat 0 n).
Proof. apply Forall_forall. intros x Hx. apply repeat_spec in Hx. unfold byte_ok. lia. Qed.
Lemma writes_head : writes true head_part start_seq.
Proof. apply writes_data, start_bytes. Qed.
Lemma writes_tail n : (n <= 3)%nat -> writes true (tail_part n) (repeat 0 n ++ end_seq ++ [Z.of_nat n]).
Proof.
  intros HN. unfold tail_part. apply writes_seq.
  - destruct (Nat.eqb_spec n 0) as [->|_]; [apply writes_ret|]. pose proof (writes_data true _ (zero_bytes n)) as HD. rewrite repeat_length in HD. exact HD.
  - apply writes_seq; [apply writes_data, end_bytes|]. apply writes_byte. unfold byte_ok. lia.
Qed.
Definition crc_bytes (bs : list Z) : list Z := [sml_crc16_calculate bs / 256; sml_crc16_calculate bs mod 256].
Lemma writes_crc bs : writes true (crc_part (sml_crc16_calculate bs)) (crc_bytes bs).
Proof.
  pose proof (crc_range bs) as HC. unfold crc_bytes, crc_part. set (c := sml_crc16_calculate bs) in *.
  assert (E1 : Z.shiftr (Z.land c 65280) 8 = c / 256).
  { change 65280 with (Z.shiftl 255 8). rewrite Z.shiftr_land, Z.shiftr_shiftl_l by lia. change (Z.shiftl 255 (8 - 8)) with (Z.ones 8).
    rewrite Z.land_ones by lia. rewrite Z.shiftr_div_pow2 by lia. change (2 ^ 8) with 256. apply Z.mod_small. split; [apply Z.div_pos; lia|apply Z.div_lt_upper_bound; lia]. }
  assert (E2 : Z.land c 255 = c mod 256) by (change 255 with (Z.ones 8); rewrite Z.land_ones by lia; reflexivity).
  rewrite E1, E2. apply (writes_seq true _ _ [c / 256] [c mod 256]); apply writes_byte; unfold byte_ok.
  - split; [apply Z.div_pos; lia|apply Z.div_lt_upper_bound; lia].
  - apply Z.mod_pos_bound. lia.
Qed.

(** The frame for a payload: the standard's frame, checksum included. *)
Definition frame_head (payload : list Z) : list Z :=
  start_seq ++ payload ++ repeat 0 (pad_of (length payload)) ++ end_seq ++ [Z.of_nat (pad_of (length payload))].
Definition frame_of (payload : list Z) : list Z := frame_head payload ++ crc_bytes (frame_head payload).
Definition frame_size (n : nat) : nat := (16 + n + pad_of n)%nat.
Lemma frame_of_length payload : length (frame_of payload) = frame_size (length payload).
Proof. unfold frame_of, frame_head, frame_size. rewrite !app_length, repeat_length. cbn. lia. Qed.
Lemma pad_8 n : pad_of (8 + n) = pad_of n.
Proof. unfold pad_of. replace ((8 + n) mod 4)%nat with (n mod 4)%nat; [reflexivity|]. rewrite <- (Nat.mod_add n 2) by lia. f_equal. lia. Qed.

Lemma frame_write any l b : Forall writable l -> Forall (fun m => Forall (every (size_ok any)) (message_items m)) l ->
  bytes_ok b -> Z.of_nat (length b) < 2147483648 -> let bs := flat_map message_bytes l in
  forall c e o,
  ((frame_size (length bs) <= length b)%nat -> exists ms payload o',
     transport_frame l (mkBuf b c e o) = Ret (ms, mkBuf (frame_of payload ++ skipn (frame_size (length bs)) b) (frame_size (length bs)) e o') /\
     length payload = length bs /\ bytes_ok payload /\ (any = true \/ firstn (length bs) (skipn 8 b) = repeat 0 (length bs) -> payload = bs /\ ms = map sealed l)) /\
  ((length b < frame_size (length bs))%nat -> transport_frame l (mkBuf b c e o) = Fault OobWrite).
Proof.
  intros HW HS HB HL bs c e o. rewrite frame_eq. cbn [set_cursor]. unfold set_cursor. cbn [buffer error ovf].
  pose proof (mwrites_messages any l HW HS) as HM. fold bs in HM. set (n := length bs) in *.
  destruct (writes_use head_part start_seq [] b e o writes_head HB) as [U1 U2]. cbn [app length] in U1, U2. change (length start_seq) with 8%nat in *.
  unfold frame_size. pose proof (pad_bound n) as HP.
  assert (SB : forall k, bytes_ok (skipn k b)) by (intros k; apply Forall_forall; intros x Hx; unfold bytes_ok in HB; rewrite Forall_forall in HB; apply HB; rewrite <- (firstn_skipn k b); apply in_app_iff; now right).
  assert (FB : forall k, bytes_ok (firstn k b)) by (intros k; apply Forall_forall; intros x Hx; unfold bytes_ok in HB; rewrite Forall_forall in HB; apply HB; rewrite <- (firstn_skipn k b); apply in_app_iff; now left).
  destruct (Nat.lt_ge_cases (length b) 8) as [C1|C1].
  { rewrite U2 by lia. split; [lia|reflexivity]. }
  destruct (U1 C1) as [o1 E1]. rewrite E1. clear U1 U2.
  assert (L8 : length (skipn 8 b) = (length b - 8)%nat) by apply skipn_length.
  destruct (Nat.lt_ge_cases (length (skipn 8 b)) n) as [C2|C2].
  { assert (HB' : bytes_ok (start_seq ++ skipn 8 b ++ [])) by (rewrite app_nil_r; apply Forall_app; split; [apply start_bytes|apply SB]).
    pose proof (proj2 (HM start_seq (skipn 8 b) [] e o1 HB' ltac:(rewrite app_nil_r, app_length; change (length start_seq) with 8%nat; lia))) as HF.
    rewrite app_nil_r in HF. change (length start_seq) with 8%nat in HF. cbn [Nat.add]. rewrite HF by exact C2. split; [lia|reflexivity]. }
  assert (E8 : skipn 8 b = firstn n (skipn 8 b) ++ skipn (8 + n) b).
  { rewrite <- (firstn_skipn n (skipn 8 b)) at 1. f_equal. rewrite skipn_skipn_add. reflexivity. }
  assert (LN : length (firstn n (skipn 8 b)) = n) by (rewrite firstn_length; lia).
  assert (HB1 : bytes_ok (start_seq ++ firstn n (skipn 8 b) ++ skipn (8 + n) b)).
  { rewrite <- E8. apply Forall_app. split; [apply start_bytes|apply SB]. }
  destruct (proj1 (HM start_seq (firstn n (skipn 8 b)) (skipn (8 + n) b) e o1 HB1 ltac:(rewrite <- E8, app_length; change (length start_seq) with 8%nat; lia)) LN)
    as (out & ms & o2 & E2 & Lout & Bout & Z2). rewrite <- E8 in E2. change (length start_seq) with 8%nat in E2. cbn [Nat.add]. rewrite E2. cbn [cursor]. fold n.
  rewrite pad_8. set (t2 := skipn (8 + n) b) in *. set (pad := pad_of n) in *.
  assert (L2 : length t2 = (length b - (8 + n))%nat) by apply skipn_length.
  assert (HB2 : bytes_ok ((start_seq ++ out) ++ t2)) by (apply Forall_app; split; [apply Forall_app; split; [apply start_bytes|exact Bout]|apply SB]).
  destruct (writes_use (tail_part pad) _ (start_seq ++ out) t2 e o2 (writes_tail pad HP) HB2) as [U3 U4].
  rewrite <- app_assoc in U3, U4. rewrite !app_length, !repeat_length in U3, U4. rewrite Lout in U3, U4. change (length start_seq) with 8%nat in U3, U4. change (length end_seq) with 5%nat in U3, U4. cbn [length] in U3, U4.
  fold n in U3, U4. destruct (Nat.lt_ge_cases (length t2) (pad + 6)) as [C3|C3].
  { rewrite U4 by lia. split; [lia|reflexivity]. }
  destruct (U3 ltac:(lia)) as [o3 E3]. rewrite E3. clear U3 U4. cbn [cursor].
  set (hd := start_seq ++ out ++ repeat 0 pad ++ end_seq ++ [Z.of_nat pad]).
  set (t3 := skipn (pad + (5 + 1)) t2) in *.
  assert (L3 : length t3 = (length t2 - (pad + 6))%nat) by (unfold t3; rewrite skipn_length; lia).
  assert (LH : length hd = (8 + n + (pad + (5 + 1)))%nat) by (unfold hd; rewrite !app_length, repeat_length, Lout; fold n; change (length start_seq) with 8%nat; change (length end_seq) with 5%nat; cbn [length]; lia).
  assert (EQ : (start_seq ++ out) ++ (repeat 0 pad ++ end_seq ++ [Z.of_nat pad]) ++ t3 = hd ++ t3) by (unfold hd; rewrite <- !app_assoc; reflexivity).
  rewrite EQ in *. rewrite Z.sub_0_r, wrap32_small by lia. unfold buffer_slice. cbn [Z.ltb Z.compare].
  destruct (Z.ltb_spec (Z.of_nat (8 + n + (pad + (5 + 1)))) 0) as [HX|_]; [lia|]. rewrite Nat2Z.id. change (Z.to_nat 0) with 0%nat. rewrite Nat.add_0_l, skipn_O.
  unfold buffer_len. cbn [buffer]. rewrite <- LH.
  destruct (Nat.leb_spec (length hd) (length (hd ++ t3))) as [_|HX]; [|rewrite app_length in HX; lia].
  rewrite firstn_app, Nat.sub_diag, firstn_O, app_nil_r, firstn_all.
  assert (HB3 : bytes_ok (hd ++ t3)).
  { unfold hd, t3. apply Forall_app. split.
    - apply Forall_app. split; [apply start_bytes|]. apply Forall_app. split; [exact Bout|]. apply Forall_app. split; [apply zero_bytes|].
      apply Forall_app. split; [apply end_bytes|]. apply Forall_cons; [unfold byte_ok; lia|apply Forall_nil].
    - apply Forall_forall. intros x Hx. specialize (SB (8 + n)%nat). unfold bytes_ok in SB. rewrite Forall_forall in SB. apply SB. fold t2.
      rewrite <- (firstn_skipn (pad + (5 + 1)) t2). apply in_app_iff. now right. }
  destruct (writes_use _ _ hd t3 e o3 (writes_crc hd) HB3) as [U5 U6]. change (length (crc_bytes hd)) with 2%nat in U5, U6.
  destruct (Nat.lt_ge_cases (length t3) 2) as [C4|C4].
  { rewrite U6 by lia. split; [lia|reflexivity]. }
  destruct (U5 C4) as [o4 E4]. rewrite E4. clear U5 U6. split; [|lia]. intros _. exists ms, out, o4. split.
  - f_equal. f_equal. rewrite LH. f_equal; [|lia].
    unfold frame_of, frame_head. rewrite Lout. fold n. fold pad. fold hd. rewrite <- app_assoc. f_equal. f_equal.
    unfold t3, t2. rewrite !skipn_skipn_add. f_equal. lia.
  - split; [exact Lout|]. split; [exact Bout|]. exact Z2.
Qed.
End WithHost.
