(** Properties of sml_transport_write (C35, C43). *)
From Verif Require Import Base Buf Crc16 Number OctetString Boolean Value Time SList Tree Bodies Message File Transport
  Lib Wf Safe Safe2 Safe3 Ctx MinSize Spec Write Item Enc CrcProof PropsCrc Round3 PropsRound TransportFacts PropsTransport TransportWrite.

Lemma swap_parts x : 0 <= x < 65536 -> swap16 x / 256 = x mod 256 /\ swap16 x mod 256 = x / 256.
Proof.
  intros HX. unfold swap16. assert (HD : 0 <= x / 256 < 256) by (split; [apply Z.div_pos; lia|apply Z.div_lt_upper_bound; lia]).
  split.
  - rewrite Z.div_add_l by lia. rewrite (Z.div_small (x / 256)) by lia. lia.
  - rewrite Z.add_comm, Z.mod_add by lia. apply Z.mod_small. lia.
Qed.

(** ** C43 *)
Lemma round_trip_exact (H : Host) l n c e o wr : Forall round_trippable l -> (length l <= Z.to_nat 32767)%nat ->
  (frame_size (length (flat_map message_bytes l)) <= n)%nat -> Z.of_nat n < 2147483648 ->
  exists r sent f body pad c1 c2, sml_transport_write wr (mkFile l (mkBuf (repeat 0 n) c e o)) = Ret (r, sent, f) /\
    (* one frame, padded to a multiple of four, with the X.25 checksum of all that precedes it *)
    sent = ([27; 27; 27; 27; 1; 1; 1; 1] ++ body ++ [27; 27; 27; 27; 26]) ++ [pad; c1; c2] /\ bytes_ok sent /\ (length sent mod 4 = 0)%nat /\
    0 <= pad <= 3 /\ c1 + 256 * c2 = crc16_x25 (([27; 27; 27; 27; 1; 1; 1; 1] ++ body ++ [27; 27; 27; 27; 26]) ++ [pad]) /\ byte_ok c1 /\ byte_ok c2 /\
    (wr (length sent) = Z.of_nat (length sent) -> r = Z.of_nat (length sent)) /\
    (* the messages are not changed, except for their checksums *)
    map m_message_body (f_messages f) = map m_message_body l /\ map m_transaction_id (f_messages f) = map m_transaction_id l /\
    (* the reader returns the frame if no aligned escape sequence occurs in it *)
    (unescaped body -> forall d noise rest max_len, ~ In 27 noise -> (length sent < max_len)%nat -> delivered d = map Some (noise ++ sent) ++ rest ->
       exists d', sml_transport_read max_len d = Ret (length sent, sent, d') /\ delivered d' = rest) /\
    (* and what is between the start and the end sequence parses to the messages *)
    exists g, sml_file_parse (firstn (length sent - 16) (skipn 8 sent)) = Ret g /\ f_messages g = f_messages f /\ error (f_buf g) = false.
Proof.
  intros HR HC Hn Hs. set (bs := flat_map message_bytes l) in *. unfold frame_size in Hn.
  assert (HW : Forall writable l) by (eapply Forall_impl; [|exact HR]; intros m Hm; apply Hm).
  assert (HS : Forall (fun m => Forall (every (size_ok false)) (message_items m)) l) by (eapply Forall_impl; [|exact HR]; intros m Hm; apply readable_sizes, Hm).
  destruct (proj1 (frame_write false l (repeat 0 n) HW HS (zero_bytes n) ltac:(rewrite repeat_length; lia) c e o)) as (ms & payload & o' & E & LP & BP & Z).
  { rewrite repeat_length. unfold frame_size. fold bs. pose proof (pad_bound (length bs)). lia. }
  fold bs in E, LP, Z. destruct Z as [-> ->].
  { right. replace n with (8 + (length bs + (n - 8 - length bs)))%nat by lia. rewrite repeat_app, skipn_app, skipn_all2 by (rewrite repeat_length; lia).
    rewrite repeat_length, Nat.sub_diag. cbn [app skipn]. rewrite repeat_app, firstn_app, repeat_length, Nat.sub_diag, firstn_O, app_nil_r. apply firstn_all2. rewrite repeat_length. lia. }
  clear LP. set (pad := pad_of (length bs)) in *. set (body := bs ++ repeat 0 pad).
  assert (EF : frame_of bs = ([27; 27; 27; 27; 1; 1; 1; 1] ++ body ++ [27; 27; 27; 27; 26]) ++ Z.of_nat pad :: crc_bytes (frame_head bs)).
  { unfold frame_of, frame_head, body. fold pad. rewrite <- !app_assoc. reflexivity. }
  assert (EH : frame_head bs = ([27; 27; 27; 27; 1; 1; 1; 1] ++ body ++ [27; 27; 27; 27; 26]) ++ [Z.of_nat pad]).
  { unfold frame_head, body. fold pad. rewrite <- !app_assoc. reflexivity. }
  pose proof (frame_of_length bs) as LF. fold pad in LF.
  assert (HB : bytes_ok (frame_head bs)).
  { unfold frame_head. repeat (apply Forall_app; split); try apply start_bytes; try apply zero_bytes; try apply end_bytes; auto.
    apply Forall_cons; [|apply Forall_nil]. pose proof (pad_bound (length bs)) as HP. fold pad in HP. unfold byte_ok. lia. }
  assert (L4 : (length (frame_of bs) mod 4 = 0)%nat).
  { rewrite LF. unfold frame_size. fold pad. pose proof (pad_ok (length bs)) as HP. fold pad in HP. replace (16 + length bs + pad)%nat with (length bs + pad + 4 * 4)%nat by lia. rewrite Nat.mod_add by lia. exact HP. }
  assert (LB : length body = (length bs + pad)%nat) by (unfold body; rewrite app_length, repeat_length; reflexivity).
  assert (LS : (length (frame_of bs) - 16 = length body)%nat) by (rewrite LF, LB; unfold frame_size; fold pad; lia).
  destruct (swap_parts _ (x25_range (frame_head bs))) as [SP1 SP2]. rewrite <- (proj1 (C22_tables_are_published_crcs _ HB)) in SP1, SP2.
  assert (FL : firstn (frame_size (length bs)) (frame_of bs ++ skipn (frame_size (length bs)) (repeat 0 n)) = frame_of bs).
  { rewrite firstn_app, LF, Nat.sub_diag, firstn_O, app_nil_r. apply firstn_all2. lia. }
  pose proof (pad_bound (length bs)) as PB. fold pad in PB.
  destruct (file_loop_messages l (S (length body)) [] (mkBuf body 0 false false) pad HR) as (s' & E1 & Er & _); auto.
  { fold bs. lia. }
  { unfold small, buffer_len. cbn [buffer]. lia. }
  { cbn [length]. lia. }
  eexists _, (frame_of bs), _, body, (Z.of_nat pad), (crc16_x25 (frame_head bs) mod 256), (crc16_x25 (frame_head bs) / 256).
  split; [unfold sml_transport_write; cbn [f_messages f_buf]; rewrite E; cbn [cursor buffer]; rewrite FL; reflexivity|].
  split; [rewrite EF; unfold crc_bytes; rewrite SP1, SP2; reflexivity|].
  split.
  { unfold frame_of. unfold crc_bytes. apply Forall_app. split; [exact HB|]. rewrite SP1, SP2. pose proof (x25_range (frame_head bs)) as XR.
    apply Forall_cons; [apply Z.mod_pos_bound; lia|]. apply Forall_cons; [split; [apply Z.div_pos; lia|apply Z.div_lt_upper_bound; lia]|constructor]. }
  split; [exact L4|]. split; [lia|].
  split; [rewrite <- EH; pose proof (Z.div_mod (crc16_x25 (frame_head bs)) 256); lia|].
  pose proof (x25_range (frame_head bs)) as XR.
  split; [apply Z.mod_pos_bound; lia|]. split; [split; [apply Z.div_pos; lia|apply Z.div_lt_upper_bound; lia]|]. cbn [f_messages].
  split.
  { intros HWr. rewrite LF in HWr. rewrite HWr, LF. unfold to_size. rewrite Z.mod_small by (unfold frame_size; fold pad; lia). rewrite Z.eqb_refl.
    apply wrap32_small. unfold frame_size. fold pad. lia. }
  rewrite !map_map. split; [now apply map_ext|]. split; [now apply map_ext|]. split.
  - intros HU d noise rest max_len HN HL HD. apply (C39_frame_found_after_noise max_len d noise); auto.
    exists body, (Z.of_nat pad), (crc16_x25 (frame_head bs) mod 256), (crc16_x25 (frame_head bs) / 256).
    split; [rewrite EF; unfold crc_bytes; rewrite SP1, SP2, <- !app_assoc; reflexivity|]. split; [|exact HU].
    rewrite LB. unfold pad. apply pad_ok.
  - rewrite LS. replace (firstn (length body) (skipn 8 (frame_of bs))) with body.
    + unfold sml_file_parse. rewrite E1. eexists. split; [reflexivity|]. cbn [f_messages f_buf]. auto.
    + rewrite EF, <- !app_assoc. cbn [app skipn]. rewrite firstn_app, Nat.sub_diag, firstn_O, app_nil_r, firstn_all. reflexivity.
Qed.
(** The file's buffer is zeroed memory of any sufficient size; its cursor is
    anywhere.  [wr n] is the answer of write() for [n] bytes. *)
Theorem C43_transport_round_trip (H : Host) l n c e o wr : Forall round_trippable l -> (length l <= Z.to_nat 32767)%nat ->
  (length (flat_map message_bytes l) + 19 <= n)%nat -> Z.of_nat n < 2147483648 ->
  exists r sent f body pad c1 c2, sml_transport_write wr (mkFile l (mkBuf (repeat 0 n) c e o)) = Ret (r, sent, f) /\
    (* one frame, padded to a multiple of four, with the X.25 checksum of all that precedes it *)
    sent = ([27; 27; 27; 27; 1; 1; 1; 1] ++ body ++ [27; 27; 27; 27; 26]) ++ [pad; c1; c2] /\ bytes_ok sent /\ (length sent mod 4 = 0)%nat /\
    0 <= pad <= 3 /\ c1 + 256 * c2 = crc16_x25 (([27; 27; 27; 27; 1; 1; 1; 1] ++ body ++ [27; 27; 27; 27; 26]) ++ [pad]) /\ byte_ok c1 /\ byte_ok c2 /\
    (wr (length sent) = Z.of_nat (length sent) -> r = Z.of_nat (length sent)) /\
    (* the messages are not changed, except for their checksums *)
    map m_message_body (f_messages f) = map m_message_body l /\ map m_transaction_id (f_messages f) = map m_transaction_id l /\
    (* the reader returns the frame if no aligned escape sequence occurs in it *)
    (unescaped body -> forall d noise rest max_len, ~ In 27 noise -> (length sent < max_len)%nat -> delivered d = map Some (noise ++ sent) ++ rest ->
       exists d', sml_transport_read max_len d = Ret (length sent, sent, d') /\ delivered d' = rest) /\
    (* and what is between the start and the end sequence parses to the messages *)
    exists g, sml_file_parse (firstn (length sent - 16) (skipn 8 sent)) = Ret g /\ f_messages g = f_messages f /\ error (f_buf g) = false.
Proof.
  intros HR HC Hn Hs. apply round_trip_exact; auto. unfold frame_size. pose proof (pad_bound (length (flat_map message_bytes l))). lia.
Qed.
Print Assumptions C43_transport_round_trip.
Definition esc_message (H : Host) : sml_message :=
  mkMsg (Some [1; 2]) None None (Some (mkBody (Some (sml_u32_init 512)) (BCloseReq (mkCloseReq (Some (repeat 27 8)))))) None.
Example esc_message_ok : round_trippable (H := LittleEndian) (esc_message LittleEndian).
Proof. unfold esc_message. sample. exact I. Qed.
(** Without the proviso: a message with 0x1b bytes is sent as a frame which the
    reader does not return. *)
Theorem C43_unescaped_payload_refuted : let H : Host := LittleEndian in exists m, round_trippable m /\ exists r sent f,
  sml_transport_write (fun n => Z.of_nat n) (mkFile [m] (sml_buffer_init 512)) = Ret (r, sent, f) /\ r = Z.of_nat (length sent) /\
  exists d', sml_transport_read MC_SML_BUFFER_LEN [Chunk sent] = Ret (0%nat, [], d').
Proof.
  intros H. exists (esc_message LittleEndian). split; [exact esc_message_ok|]. eexists _, _, _. split; [vm_compute; reflexivity|]. split; [reflexivity|].
  eexists. vm_compute. reflexivity.
Qed.
Print Assumptions C43_unescaped_payload_refuted.
Example C43_example : let H : Host := LittleEndian in exists r sent f,
  sml_transport_write (fun n => Z.of_nat n) (mkFile [sample_list H; sample_list H] (sml_buffer_init 512)) = Ret (r, sent, f) /\ r = 276 /\
  exists d', sml_transport_read MC_SML_BUFFER_LEN [Chunk sent] = Ret (length sent, sent, d').
Proof.
  intros H. eexists _, _, _. split; [vm_compute; reflexivity|]. split; [reflexivity|]. eexists. vm_compute. reflexivity.
Qed.

(** ** C35 *)
(** A parsed file has a buffer of exactly the size of the input. *)
Theorem C35_sending_parsed_file_overflows (H : Host) bytes f wr : bytes_ok bytes -> Z.of_nat (length bytes) < 2147483648 ->
  sml_file_parse bytes = Ret f -> sized H false (f_messages f) ->
  let n := length (flat_map message_bytes (f_messages f)) in
  let pad := ((4 - n mod 4) mod 4)%nat in
  ((length bytes < n + pad + 16)%nat -> sml_transport_write wr f = Fault OobWrite) /\
  ((n + pad + 16 <= length bytes)%nat -> exists r sent f', sml_transport_write wr f = Ret (r, sent, f') /\ length sent = (n + pad + 16)%nat).
Proof.
  intros HB HL E [HW HS] n pad. pose proof (file_parse_safe 7 bytes min_size_7 HB) as HP. rewrite E in HP. destruct HP as (EB & _).
  destruct f as [ms s]. cbn [f_messages f_buf] in *. destruct s as [b c er ov]. cbn [buffer] in EB. subst b.
  assert (EP : pad_of n = pad).
  { unfold pad, pad_of. pose proof (Nat.mod_upper_bound n 4 ltac:(lia)) as HM. destruct (Nat.eqb_spec (n mod 4) 0) as [->|HN]; [reflexivity|].
    symmetry. apply Nat.mod_small. lia. }
  destruct (frame_write false ms bytes HW HS HB HL c er ov) as [F1 F2]. fold n in F1, F2. unfold frame_size in F1, F2. rewrite EP in F1, F2.
  unfold sml_transport_write. cbn [f_messages f_buf]. split; intros HX.
  - rewrite F2 by lia. reflexivity.
  - destruct F1 as (ms' & payload & o' & E1 & L1 & _); [lia|]. rewrite E1. cbn [cursor buffer]. eexists _, _, _. split; [reflexivity|].
    rewrite firstn_length, app_length, frame_of_length, L1. unfold frame_size. rewrite EP. lia.
Qed.
Print Assumptions C35_sending_parsed_file_overflows.
(** In particular a file the library wrote, followed by fewer than 16 zeros. *)
Theorem C35_written_file_overflows (H : Host) l k wr : Forall round_trippable l -> (length l <= Z.to_nat 32767)%nat -> (k < 16)%nat ->
  Z.of_nat (length (flat_map message_bytes l) + k) < 2147483648 ->
  exists f, sml_file_parse (flat_map message_bytes l ++ repeat 0 k) = Ret f /\ length (f_messages f) = length l /\ error (f_buf f) = false /\
    sml_transport_write wr f = Fault OobWrite.
Proof.
  intros HR HC HK HL. set (bs := flat_map message_bytes l) in *. set (body := bs ++ repeat 0 k).
  assert (LB : length body = (length bs + k)%nat) by (unfold body; rewrite app_length, repeat_length; reflexivity).
  destruct (file_loop_messages l (S (length body)) [] (mkBuf body 0 false false) k HR) as (s' & E1 & Er & Eb & _); auto.
  { fold bs. lia. }
  { unfold small, buffer_len. cbn [buffer]. lia. }
  { cbn [length]. lia. }
  assert (EP : sml_file_parse body = Ret (mkFile (map sealed l) s')) by (unfold sml_file_parse; rewrite E1; reflexivity).
  exists (mkFile (map sealed l) s'). split; [exact EP|]. cbn [f_messages f_buf]. split; [apply map_length|]. split; [exact Er|].
  assert (EM : flat_map message_bytes (map sealed l) = bs).
  { unfold bs. clear. induction l as [|m l IH]; [reflexivity|]. cbn [map flat_map]. rewrite IH. reflexivity. }
  assert (HW : sized H false (map sealed l)).
  { split; apply Forall_forall; intros x Hx; apply in_map_iff in Hx; destruct Hx as (m & <- & Hm); rewrite Forall_forall in HR; destruct (HR m Hm) as (W & Rd & _).
    - destruct W as [W1 W2 W3 W4]. constructor; [exact W1|exact W2|exact W3|exact W4].
    - exact (readable_sizes _ Rd). }
  assert (HBB : bytes_ok body).
  { apply Forall_app. split; [|apply zero_bytes]. assert (HW1 : Forall writable l) by (eapply Forall_impl; [|exact HR]; intros m Hm; apply Hm).
    assert (HS1 : Forall (fun m => Forall (every (size_ok false)) (message_items m)) l) by (eapply Forall_impl; [|exact HR]; intros m Hm; apply readable_sizes, Hm).
    destruct (proj1 (mwrites_messages false l HW1 HS1 [] (repeat 0 (length bs)) [] false false
      ltac:(rewrite app_nil_r; apply zero_bytes) ltac:(rewrite app_nil_r; cbn [app]; rewrite repeat_length; lia)) (repeat_length _ _)) as (out & v & o' & _ & _ & BO & HZ).
    destruct HZ as [HZ _]; [now right|]. fold bs in HZ. now rewrite <- HZ. }
  apply (C35_sending_parsed_file_overflows H body _ wr HBB); auto.
  - lia.
  - cbn [f_messages]. rewrite EM, LB. lia.
Qed.
Print Assumptions C35_written_file_overflows.
Example C35_example : let H : Host := LittleEndian in exists f, sml_file_parse (flat_map message_bytes [sample_list H]) = Ret f /\ length (f_messages f) = 1%nat /\ sml_transport_write (fun n => Z.of_nat n) f = Fault OobWrite.
Proof. intros H. eexists. split; [vm_compute; reflexivity|]. split; vm_compute; reflexivity. Qed.
