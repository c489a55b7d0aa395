(** What sml_message_write and sml_transport_write do when malloc refuses the memory for
    a checksum: the value-level model of Message.v and Transport.v once more, with a flag
    for each message that says whether its checksum gets memory. *)
From Verif Require Import Base Buf Crc16 Number OctetString Boolean Value Time SList Tree Bodies Message File Transport
  Lib Wf Safe Safe2 Safe3 Ctx Spec TL Inv MinSize Reads Write TLWrite TLRound NumFacts PropsString Item Enc Dzg Round Round2 Round3 PropsRound TransportFacts TransportWrite.

Section WithHost.
Context {H : Host}.

(** sml_message.c:129-145 when sml_u16_init returns NULL (sml_number.c:54-56) *)
Definition message_unsealed (msg : sml_message) : P sml_message :=
  msg_start <- cursor_int 0 ;;
  sml_buf_set_type_and_length SML_TYPE_LIST 6 ;;;
  sml_octet_string_write (m_transaction_id msg) ;;;
  sml_u8_write (m_group_id msg) ;;;
  sml_u8_write (m_abort_on_error msg) ;;;
  sml_message_body_write (m_message_body msg) ;;;
  len <- cursor_int msg_start ;;
  bs <- buffer_slice msg_start len ;;
  sml_u16_write None ;;;
  store_current 0 ;;;
  inc_cursor ;;;
  ret (mkMsg (m_transaction_id msg) (m_group_id msg) (m_abort_on_error msg) (m_message_body msg) None).
Definition message_as (x : bool * sml_message) : P sml_message := if fst x then sml_message_write (snd x) else message_unsealed (snd x).
(** sml_file.c:84-86 *)
Fixpoint write_as (l : list (bool * sml_message)) : P (list sml_message) :=
  match l with
  | [] => ret []
  | m :: t => m' <- message_as m ;; t' <- write_as t ;; ret (m' :: t')
  end.
(** sml_transport.c:131-156, everything up to the write() call, as a writer on
    the file's buffer.  crc is computed over the whole buffer so far. *)
Definition frame_as (msgs : list (bool * sml_message)) : P (list sml_message) :=
  (fun s => Ret (tt, set_cursor 0 s)) ;;;
  write_current start_seq ;;;
  sml_buf_update_bytes_read 8 ;;;
  ms <- write_as msgs ;;
  padding <- (fun s => Ret (if (cursor s mod 4 =? 0)%nat then O else (4 - cursor s mod 4)%nat, s)) ;;
  (if (padding =? 0)%nat then ret tt
   else write_current (repeat 0 padding) ;;; sml_buf_update_bytes_read (Z.of_nat padding)) ;;;
  write_current end_seq ;;;
  sml_buf_update_bytes_read 5 ;;;
  store_current (Z.of_nat padding) ;;; inc_cursor ;;;
  c <- cursor_int 0 ;;
  bs <- buffer_slice 0 c ;;
  let crc := sml_crc16_calculate bs in
  store_current (Z.shiftr (Z.land crc 65280) 8) ;;; inc_cursor ;;;
  store_current (Z.land crc 255) ;;; inc_cursor ;;;
  ret ms.


(** The bytes of a message: those of C34, or without the checksum *)
Definition bytes_as (x : bool * sml_message) : list Z := if fst x then message_bytes (snd x) else checked_bytes (snd x) ++ [1; 0].
Definition unsealed (m : sml_message) : sml_message := mkMsg (m_transaction_id m) (m_group_id m) (m_abort_on_error m) (m_message_body m) None.
Definition sealed_as (x : bool * sml_message) : sml_message := if fst x then sealed (snd x) else unsealed (snd x).

Lemma writes_unseal any : writes any (sml_u16_write None ;;; store_current 0 ;;; inc_cursor) [1; 0].
Proof.
  apply (writes_seq any _ _ [1] [0]); [|apply writes_byte; unfold byte_ok; lia]. exact (writes_u16 any None I).
Qed.
Lemma unsealed_eq m s : message_unsealed m s =
  match (sml_buf_set_type_and_length SML_TYPE_LIST 6 ;;; sml_octet_string_write (m_transaction_id m) ;;;
    sml_u8_write (m_group_id m) ;;; sml_u8_write (m_abort_on_error m) ;;; sml_message_body_write (m_message_body m)) s with
  | Ret (_, s1) =>
      let start := wrap32 (Z.of_nat (cursor s) - 0) in
      match buffer_slice start (wrap32 (Z.of_nat (cursor s1) - start)) s1 with
      | Ret (bs, s2) =>
          match (sml_u16_write (None) ;;; store_current 0 ;;; inc_cursor) s2 with
          | Ret (_, s3) => Ret (mkMsg (m_transaction_id m) (m_group_id m) (m_abort_on_error m) (m_message_body m) (None), s3)
          | Fault f => Fault f
          | NoFuel => NoFuel
          end
      | Fault f => Fault f
      | NoFuel => NoFuel
      end
  | Fault f => Fault f
  | NoFuel => NoFuel
  end.
Proof.
  unfold message_unsealed, cursor_int. unfold bind.
  destruct (sml_buf_set_type_and_length SML_TYPE_LIST 6 s) as [[[] s1]| |]; auto.
  destruct (sml_octet_string_write (m_transaction_id m) s1) as [[[] s2]| |]; auto.
  destruct (sml_u8_write (m_group_id m) s2) as [[[] s3]| |]; auto.
  destruct (sml_u8_write (m_abort_on_error m) s3) as [[[] s4]| |]; auto.
  destruct (sml_message_body_write (m_message_body m) s4) as [[[] s5]| |]; auto.
  cbv zeta. destruct (buffer_slice _ _ s5) as [[bs s6]| |]; auto.
  destruct (sml_u16_write _ s6) as [[[] s7]| |]; auto.
  destruct (store_current 0 s7) as [[[] s8]| |]; auto.
Qed.
Lemma mwrites_unsealed any m : writable m -> Forall (every (size_ok any)) (message_items m) ->
  mwrites any (message_unsealed m) (checked_bytes m ++ [1; 0]) (unsealed m).
Proof.
  intros HW HS pre old post e o HB HL. pose proof (writes_checked any m HW HS) as WC. set (bs := checked_bytes m) in *.
   rewrite !app_length; change (length [1; 0]) with 2%nat. rewrite !app_length in HL. split.
  - intros HO. destruct (split_at old (length bs) 2 HO) as (x & y & -> & Lx & Ly). rewrite <- app_assoc in *.
    destruct (proj1 (WC pre x (y ++ post) e o HB) Lx) as (out1 & o1 & E1 & L1 & B1 & Z1).
    rewrite unsealed_eq, E1. cbv zeta. cbn [cursor].
    rewrite Z.sub_0_r, !wrap32_small by (rewrite ?app_length in HL; lia).
    replace (Z.of_nat (length pre + length bs) - Z.of_nat (length pre)) with (Z.of_nat (length bs)) by lia.
    unfold buffer_slice. destruct (Z.ltb_spec (Z.of_nat (length pre)) 0); [lia|]. destruct (Z.ltb_spec (Z.of_nat (length bs)) 0); [lia|].
    rewrite !Nat2Z.id. unfold buffer_len. cbn [buffer].
    replace (length pre + length bs <=? length (pre ++ out1 ++ y ++ post))%nat with true by (symmetry; apply Nat.leb_le; rewrite !app_length; lia).
    assert (HB2 : bytes_ok ((pre ++ out1) ++ y ++ post)) by (unfold bytes_ok in *; rewrite !Forall_app in *; tauto).
    destruct (proj1 (writes_unseal any (pre ++ out1) y post e o1 HB2)) as (out2 & o2 & E2 & L2 & B2 & Z2); [exact Ly|].
    change (length [1; 0]) with 2%nat in *. rewrite <- !app_assoc, app_length, L1 in *. rewrite E2.
    exists (out1 ++ out2). eexists. exists o2. rewrite <- !app_assoc. split; [rewrite Nat.add_assoc; reflexivity|].
    split; [rewrite app_length; lia|]. split; [now apply Forall_app|].
    intros HZ. assert (EZ : out1 = bs /\ out2 = [1; 0]).
    { destruct HZ as [HZ|HZ]; [split; auto|]. rewrite repeat_add in HZ. apply app_eq_len in HZ; [|now rewrite repeat_length].
      destruct HZ as [Ex Ey]. split; auto. }
    destruct EZ as [-> ->]. split; reflexivity.
  - intros HO. rewrite unsealed_eq. destruct (Nat.lt_ge_cases (length (old ++ post)) (length bs)) as [Hlt|Hge].
    { now rewrite (proj2 (WC pre old post e o HB) Hlt). }
    destruct (split_at (old ++ post) (length bs) (length (old ++ post) - length bs)) as (x & y & E & Lx & Ly); [lia|].
    pose proof (f_equal (@length Z) E) as EL. rewrite !app_length in EL. rewrite E in *. destruct (proj1 (WC pre x y e o HB) Lx) as (out1 & o1 & E1 & L1 & B1 & _).
    assert (HL' : Z.of_nat (length pre + length bs + length y) < 2147483648) by lia.
    rewrite E1. cbv zeta. cbn [cursor].
    rewrite Z.sub_0_r, !wrap32_small by lia.
    replace (Z.of_nat (length pre + length bs) - Z.of_nat (length pre)) with (Z.of_nat (length bs)) by lia.
    unfold buffer_slice. destruct (Z.ltb_spec (Z.of_nat (length pre)) 0); [lia|]. destruct (Z.ltb_spec (Z.of_nat (length bs)) 0); [lia|].
    rewrite !Nat2Z.id. unfold buffer_len. cbn [buffer].
    replace (length pre + length bs <=? length (pre ++ out1 ++ y))%nat with true by (symmetry; apply Nat.leb_le; rewrite !app_length; lia).
    assert (HB2 : bytes_ok ((pre ++ out1) ++ y ++ [])) by (unfold bytes_ok in *; rewrite !Forall_app in *; repeat split; try tauto; constructor).
    pose proof (proj2 (writes_unseal any (pre ++ out1) y [] e o1 HB2)) as HF. rewrite !app_nil_r, <- app_assoc, app_length, L1 in HF.
    rewrite HF; [reflexivity|]. change (length [1; 0]) with 2%nat. lia.
Qed.
Lemma mwrites_one_as any x : writable (snd x) -> Forall (every (size_ok any)) (message_items (snd x)) -> mwrites any (message_as x) (bytes_as x) (sealed_as x).
Proof. destruct x as [[] m]; cbn [fst snd]; intros HW HS; [now apply mwrites_message|now apply mwrites_unsealed]. Qed.
Lemma mwrites_as any l : Forall (fun x => writable (snd x)) l -> Forall (fun x => Forall (every (size_ok any)) (message_items (snd x))) l ->
  mwrites any (write_as l) (flat_map bytes_as l) (map sealed_as l).
Proof.
  induction l as [|m l IH]; intros HW HS.
  - intros pre old post e o HB HL. split; intros Hl; [|cbn in Hl; lia]. destruct old; [|discriminate].
    exists [], [], o. cbn [length]. rewrite Nat.add_0_r. repeat split; auto. constructor.
  - apply Forall_cons_iff in HW. destruct HW as [W1 W2]. apply Forall_cons_iff in HS. destruct HS as [S1 S2]. specialize (IH W2 S2).
    pose proof (mwrites_one_as any m W1 S1) as WM. cbn [flat_map map write_as].
    intros pre old post e o Hb HL. rewrite app_length. set (b1 := bytes_as m) in *. set (b2 := flat_map bytes_as l) in *. split.
    + intros Hl. destruct (split_at old (length b1) (length b2) Hl) as (x & y & -> & Lx & Ly).
      rewrite <- app_assoc in *.
      destruct (proj1 (WM pre x (y ++ post) e o Hb HL) Lx) as (o1 & m1 & v1 & E1 & L1 & B1 & Z1).
      unfold bind. rewrite E1.
      assert (Hb2 : bytes_ok ((pre ++ o1) ++ y ++ post)) by (unfold bytes_ok in *; rewrite !Forall_app in *; tauto).
      assert (HL2 : Z.of_nat (length ((pre ++ o1) ++ y ++ post)) < 2147483648) by (rewrite !app_length in *; lia).
      destruct (proj1 (IH (pre ++ o1) y post e v1 Hb2 HL2) Ly) as (o2 & m2 & v2 & E2 & L2 & B2 & Z2).
      rewrite <- app_assoc in E2. rewrite app_length, L1 in E2. rewrite E2.
      exists (o1 ++ o2), (m1 :: m2), v2. rewrite <- !app_assoc, Nat.add_assoc, app_length. split; [reflexivity|]. split; [lia|].
      split; [now apply Forall_app|].
      intros HZ. assert (EZ : (o1 = b1 /\ m1 = sealed_as m) /\ o2 = b2 /\ m2 = map sealed_as l).
      { destruct HZ as [E|E]; [split; auto|]. rewrite repeat_add in E. apply app_eq_len in E; [|now rewrite repeat_length].
        destruct E as [Ea Eb]. split; auto. }
      destruct EZ as [[-> ->] [-> ->]]. auto.
    + intros Hl. destruct (Nat.lt_ge_cases (length (old ++ post)) (length b1)) as [Hlt|Hge].
      * unfold bind. now rewrite (proj2 (WM pre old post e o Hb HL) Hlt).
      * destruct (split_at (old ++ post) (length b1) (length (old ++ post) - length b1)) as (x & y & E & Lx & Ly); [lia|].
        rewrite E in *. destruct (proj1 (WM pre x y e o Hb HL) Lx) as (o1 & m1 & v1 & E1 & L1 & B1 & _).
        unfold bind. rewrite E1.
        assert (Hb2 : bytes_ok ((pre ++ o1) ++ y ++ [])) by (unfold bytes_ok in *; rewrite !Forall_app in *; repeat split; try tauto; constructor).
        assert (HL2 : Z.of_nat (length ((pre ++ o1) ++ y ++ [])) < 2147483648) by (rewrite !app_length in *; cbn [length]; lia).
        pose proof (proj2 (IH (pre ++ o1) y [] e v1 Hb2 HL2)) as HF. rewrite !app_nil_r in HF.
        rewrite <- app_assoc, app_length, L1 in HF. rewrite HF; [reflexivity|lia].
Qed.
Lemma frame_as_eq msgs s : frame_as msgs s =
  match head_part (set_cursor 0 s) with
  | Ret (_, s1) =>
      match write_as msgs s1 with
      | Ret (ms, s2) =>
          match tail_part (pad_of (cursor s2)) s2 with
          | Ret (_, s3) =>
              match buffer_slice 0 (wrap32 (Z.of_nat (cursor s3) - 0)) s3 with
              | Ret (bs, s4) =>
                  match crc_part (sml_crc16_calculate bs) s4 with
                  | Ret (_, s5) => Ret (ms, s5)
                  | Fault f => Fault f
                  | NoFuel => NoFuel
                  end
              | Fault f => Fault f
              | NoFuel => NoFuel
              end
          | Fault f => Fault f
          | NoFuel => NoFuel
          end
      | Fault f => Fault f
      | NoFuel => NoFuel
      end
  | Fault f => Fault f
  | NoFuel => NoFuel
  end.
Proof.
  unfold frame_as, head_part, tail_part, crc_part, cursor_int. change (length end_seq) with 5%nat.
  change (Z.of_nat (length start_seq)) with 8. change (Z.of_nat 5) with 5. unfold bind.
  destruct (write_current start_seq (set_cursor 0 s)) as [[[] s1]| |]; auto.
  destruct (sml_buf_update_bytes_read 8 s1) as [[[] s2]| |]; auto.
  destruct (write_as msgs s2) as [[ms s3]| |]; auto. fold (pad_of (cursor s3)).
  destruct (Nat.eqb_spec (pad_of (cursor s3)) 0) as [->|_].
  - unfold ret.
    destruct (write_current end_seq s3) as [[[] s4]| |]; auto. destruct (sml_buf_update_bytes_read 5 s4) as [[[] s5]| |]; auto.
    destruct (store_current _ s5) as [[[] s6]| |]; auto. destruct (inc_cursor s6) as [[[] s7]| |]; auto.
    destruct (buffer_slice _ _ s7) as [[bs s8]| |]; auto. destruct (store_current _ s8) as [[[] s9]| |]; auto.
    destruct (inc_cursor s9) as [[[] s10]| |]; auto. destruct (store_current _ s10) as [[[] s11]| |]; auto.
  - destruct (write_current _ s3) as [[[] s4]| |]; auto. destruct (sml_buf_update_bytes_read _ s4) as [[[] s5]| |]; auto.
    destruct (write_current end_seq s5) as [[[] s6]| |]; auto. destruct (sml_buf_update_bytes_read 5 s6) as [[[] s7]| |]; auto.
    destruct (store_current _ s7) as [[[] s8]| |]; auto. destruct (inc_cursor s8) as [[[] s9]| |]; auto.
    destruct (buffer_slice _ _ s9) as [[bs s10]| |]; auto. destruct (store_current _ s10) as [[[] s11]| |]; auto.
    destruct (inc_cursor s11) as [[[] s12]| |]; auto. destruct (store_current _ s12) as [[[] s13]| |]; auto.
Qed.
Lemma frame_as_write any l b : Forall (fun x => writable (snd x)) l -> Forall (fun x => Forall (every (size_ok any)) (message_items (snd x))) l ->
  bytes_ok b -> Z.of_nat (length b) < 2147483648 -> let bs := flat_map bytes_as l in
  forall c e o,
  ((frame_size (length bs) <= length b)%nat -> exists ms payload o',
     frame_as l (mkBuf b c e o) = Ret (ms, mkBuf (frame_of payload ++ skipn (frame_size (length bs)) b) (frame_size (length bs)) e o') /\
     length payload = length bs /\ bytes_ok payload /\ (any = true \/ firstn (length bs) (skipn 8 b) = repeat 0 (length bs) -> payload = bs /\ ms = map sealed_as l)) /\
  ((length b < frame_size (length bs))%nat -> frame_as l (mkBuf b c e o) = Fault OobWrite).
Proof.
  intros HW HS HB HL bs c e o. rewrite frame_as_eq. cbn [set_cursor]. unfold set_cursor. cbn [buffer error ovf].
  pose proof (mwrites_as any l HW HS) as HM. fold bs in HM. set (n := length bs) in *.
  destruct (writes_use head_part start_seq [] b e o writes_head HB) as [U1 U2]. cbn [app length] in U1, U2. change (length start_seq) with 8%nat in *.
  unfold frame_size. pose proof (pad_bound n) as HP.
  assert (SB : forall k, bytes_ok (skipn k b)) by (intros k; apply Forall_forall; intros x Hx; unfold bytes_ok in HB; rewrite Forall_forall in HB; apply HB; rewrite <- (firstn_skipn k b); apply in_app_iff; now right).
  assert (FB : forall k, bytes_ok (firstn k b)) by (intros k; apply Forall_forall; intros x Hx; unfold bytes_ok in HB; rewrite Forall_forall in HB; apply HB; rewrite <- (firstn_skipn k b); apply in_app_iff; now left).
  destruct (Nat.lt_ge_cases (length b) 8) as [C1|C1].
  { rewrite U2 by lia. split; [lia|reflexivity]. }
  destruct (U1 C1) as [o1 E1]. rewrite E1. clear U1 U2.
  assert (L8 : length (skipn 8 b) = (length b - 8)%nat) by apply skipn_length.
  destruct (Nat.lt_ge_cases (length (skipn 8 b)) n) as [C2|C2].
  { assert (HB' : bytes_ok (start_seq ++ skipn 8 b ++ [])) by (rewrite app_nil_r; apply Forall_app; split; [apply start_bytes|apply SB]).
    pose proof (proj2 (HM start_seq (skipn 8 b) [] e o1 HB' ltac:(rewrite app_nil_r, app_length; change (length start_seq) with 8%nat; lia))) as HF.
    rewrite app_nil_r in HF. change (length start_seq) with 8%nat in HF. cbn [Nat.add]. rewrite HF by exact C2. split; [lia|reflexivity]. }
  assert (E8 : skipn 8 b = firstn n (skipn 8 b) ++ skipn (8 + n) b).
  { rewrite <- (firstn_skipn n (skipn 8 b)) at 1. f_equal. rewrite skipn_skipn_add. reflexivity. }
  assert (LN : length (firstn n (skipn 8 b)) = n) by (rewrite firstn_length; lia).
  assert (HB1 : bytes_ok (start_seq ++ firstn n (skipn 8 b) ++ skipn (8 + n) b)).
  { rewrite <- E8. apply Forall_app. split; [apply start_bytes|apply SB]. }
  destruct (proj1 (HM start_seq (firstn n (skipn 8 b)) (skipn (8 + n) b) e o1 HB1 ltac:(rewrite <- E8, app_length; change (length start_seq) with 8%nat; lia)) LN)
    as (out & ms & o2 & E2 & Lout & Bout & Z2). rewrite <- E8 in E2. change (length start_seq) with 8%nat in E2. cbn [Nat.add]. rewrite E2. cbn [cursor]. fold n.
  rewrite pad_8. set (t2 := skipn (8 + n) b) in *. set (pad := pad_of n) in *.
  assert (L2 : length t2 = (length b - (8 + n))%nat) by apply skipn_length.
  assert (HB2 : bytes_ok ((start_seq ++ out) ++ t2)) by (apply Forall_app; split; [apply Forall_app; split; [apply start_bytes|exact Bout]|apply SB]).
  destruct (writes_use (tail_part pad) _ (start_seq ++ out) t2 e o2 (writes_tail pad HP) HB2) as [U3 U4].
  rewrite <- app_assoc in U3, U4. rewrite !app_length, !repeat_length in U3, U4. rewrite Lout in U3, U4. change (length start_seq) with 8%nat in U3, U4. change (length end_seq) with 5%nat in U3, U4. cbn [length] in U3, U4.
  fold n in U3, U4. destruct (Nat.lt_ge_cases (length t2) (pad + 6)) as [C3|C3].
  { rewrite U4 by lia. split; [lia|reflexivity]. }
  destruct (U3 ltac:(lia)) as [o3 E3]. rewrite E3. clear U3 U4. cbn [cursor].
  set (hd := start_seq ++ out ++ repeat 0 pad ++ end_seq ++ [Z.of_nat pad]).
  set (t3 := skipn (pad + (5 + 1)) t2) in *.
  assert (L3 : length t3 = (length t2 - (pad + 6))%nat) by (unfold t3; rewrite skipn_length; lia).
  assert (LH : length hd = (8 + n + (pad + (5 + 1)))%nat) by (unfold hd; rewrite !app_length, repeat_length, Lout; fold n; change (length start_seq) with 8%nat; change (length end_seq) with 5%nat; cbn [length]; lia).
  assert (EQ : (start_seq ++ out) ++ (repeat 0 pad ++ end_seq ++ [Z.of_nat pad]) ++ t3 = hd ++ t3) by (unfold hd; rewrite <- !app_assoc; reflexivity).
  rewrite EQ in *. rewrite Z.sub_0_r, wrap32_small by lia. unfold buffer_slice. cbn [Z.ltb Z.compare].
  destruct (Z.ltb_spec (Z.of_nat (8 + n + (pad + (5 + 1)))) 0) as [HX|_]; [lia|]. rewrite Nat2Z.id. change (Z.to_nat 0) with 0%nat. rewrite Nat.add_0_l, skipn_O.
  unfold buffer_len. cbn [buffer]. rewrite <- LH.
  destruct (Nat.leb_spec (length hd) (length (hd ++ t3))) as [_|HX]; [|rewrite app_length in HX; lia].
  rewrite firstn_app, Nat.sub_diag, firstn_O, app_nil_r, firstn_all.
  assert (HB3 : bytes_ok (hd ++ t3)).
  { unfold hd, t3. apply Forall_app. split.
    - apply Forall_app. split; [apply start_bytes|]. apply Forall_app. split; [exact Bout|]. apply Forall_app. split; [apply zero_bytes|].
      apply Forall_app. split; [apply end_bytes|]. apply Forall_cons; [unfold byte_ok; lia|apply Forall_nil].
    - apply Forall_forall. intros x Hx. specialize (SB (8 + n)%nat). unfold bytes_ok in SB. rewrite Forall_forall in SB. apply SB. fold t2.
      rewrite <- (firstn_skipn (pad + (5 + 1)) t2). apply in_app_iff. now right. }
  destruct (writes_use _ _ hd t3 e o3 (writes_crc hd) HB3) as [U5 U6]. change (length (crc_bytes hd)) with 2%nat in U5, U6.
  destruct (Nat.lt_ge_cases (length t3) 2) as [C4|C4].
  { rewrite U6 by lia. split; [lia|reflexivity]. }
  destruct (U5 C4) as [o4 E4]. rewrite E4. clear U5 U6. split; [|lia]. intros _. exists ms, out, o4. split.
  - f_equal. f_equal. rewrite LH. f_equal; [|lia].
    unfold frame_of, frame_head. rewrite Lout. fold n. fold pad. fold hd. rewrite <- app_assoc. f_equal. f_equal.
    unfold t3, t2. rewrite !skipn_skipn_add. f_equal. lia.
  - split; [exact Lout|]. split; [exact Bout|]. exact Z2.
Qed.
End WithHost.
