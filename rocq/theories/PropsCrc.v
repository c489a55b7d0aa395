(** Properties C22 - C24: the checksums. *)
From Verif Require Import Base Buf Crc16 Number OctetString Boolean Value Time SList Tree Bodies
  Message File Lib Spec CrcProof Scan Inv FileFacts PropsParse.

(** *** C22 *)
Theorem C22_tables_are_published_crcs bytes : bytes_ok bytes ->
  sml_crc16_calculate bytes = swap16 (crc16_x25 bytes) /\
  sml_crc16kermit_calculate bytes = crc16_kermit bytes.
Proof. intros Hb. split; [now apply x25_ok|now apply kermit_ok]. Qed.
Print Assumptions C22_tables_are_published_crcs.
(** catalogue check values, through the table driven code *)
Example C22_example : sml_crc16_calculate [49; 50; 51; 52; 53; 54; 55; 56; 57] = 28304 (* 0x6e90 *) /\
  sml_crc16kermit_calculate [49; 50; 51; 52; 53; 54; 55; 56; 57] = 8585 (* 0x2189 *).
Proof. split; vm_compute; reflexivity. Qed.

(** *** C23.  Bits are taken in the order in which the serial line sends them. *)
Definition flipped (m1 m2 : list Z) : nat :=
  length (filter (fun b => b) (xor_bits (message_bits m1) (message_bits m2))).

Lemma bits_inj m1 : forall m2, bytes_ok m1 -> bytes_ok m2 -> message_bits m1 = message_bits m2 -> m1 = m2.
Proof.
  induction m1 as [|x m1 IH]; destruct m2 as [|y m2]; intros H1 H2 E; try discriminate; auto.
  inv H1. inv H2. unfold message_bits in E. cbn [flat_map] in E.
  assert (byte_bits x = byte_bits y /\ flat_map byte_bits m1 = flat_map byte_bits m2) as [E1 E2].
  { split; [exact (f_equal (firstn 8) E)|exact (f_equal (skipn 8) E)]. }
  f_equal; [|now apply IH]. rewrite <- (byte_value x), <- (byte_value y) by auto. now rewrite E1.
Qed.
Lemma message_bits_length m : length (message_bits m) = (8 * length m)%nat.
Proof. induction m as [|x m IH]; auto. unfold message_bits in *. cbn [flat_map]. rewrite app_length, IH. cbn [length byte_bits map]. lia. Qed.
Lemma count_parity l : Nat.odd (length (filter (fun b : bool => b) l)) = parity l.
Proof.
  induction l as [|b l IH]; auto. cbn [filter parity]. rewrite <- IH. destruct b; cbn [length]; [|now destruct (Nat.odd _)].
  rewrite Nat.odd_succ, <- Nat.negb_odd. now destruct (Nat.odd _).
Qed.
Lemma parity_init : parity (repeat false 16) = false /\ parity (repeat true 16) = false.
Proof. split; reflexivity. Qed.

Theorem C23_burst_detected m1 m2 a w1 w2 c : bytes_ok m1 -> bytes_ok m2 -> m1 <> m2 ->
  message_bits m1 = a ++ w1 ++ c -> message_bits m2 = a ++ w2 ++ c ->
  length w1 = length w2 -> (length w1 <= 16)%nat ->
  sml_crc16_calculate m1 <> sml_crc16_calculate m2 /\
  sml_crc16kermit_calculate m1 <> sml_crc16kermit_calculate m2.
Proof.
  intros B1 B2 Hne E1 E2 Hl Hw. rewrite !x25_ok, !kermit_ok by auto.
  split; intros E; apply Hne, bits_inj; auto; rewrite E1, E2; f_equal; f_equal.
  - apply same_x25 in E. rewrite E1, E2 in E. apply burst in E; auto.
  - apply same_kermit in E. rewrite E1, E2 in E. apply burst in E; auto.
Qed.
Print Assumptions C23_burst_detected.

Theorem C23_odd_detected m1 m2 : bytes_ok m1 -> bytes_ok m2 -> length m1 = length m2 ->
  Nat.odd (flipped m1 m2) = true ->
  sml_crc16_calculate m1 <> sml_crc16_calculate m2 /\
  sml_crc16kermit_calculate m1 <> sml_crc16kermit_calculate m2.
Proof.
  intros B1 B2 Hl Ho. rewrite !x25_ok, !kermit_ok by auto. unfold flipped in Ho.
  rewrite count_parity, parity_xor in Ho by (rewrite !message_bits_length; lia).
  split; intros E.
  - apply same_x25 in E. apply (f_equal parity) in E. rewrite !parity_register in E by reflexivity.
    destruct (parity (message_bits m1)), (parity (message_bits m2)); discriminate.
  - apply same_kermit in E. apply (f_equal parity) in E. rewrite !parity_register in E by reflexivity.
    destruct (parity (message_bits m1)), (parity (message_bits m2)); discriminate.
Qed.
Print Assumptions C23_odd_detected.
Example C23_example :
  bytes_ok [1; 27; 3] /\ bytes_ok [1; 228; 131] /\ [1; 27; 3] <> [1; 228; 131] /\
  message_bits [1; 27; 3] = message_bits [1] ++ message_bits [27; 3] ++ [] /\
  message_bits [1; 228; 131] = message_bits [1] ++ message_bits [228; 131] ++ [] /\
  flipped [1; 27; 3] [1; 228; 131] = 9%nat.
Proof. repeat split; try discriminate; repeat constructor; lia. Qed.

(** *** C24: sml_message_parse accepts either checksum *)
Definition accepted_crc (body : list Z) (hi lo : Z) : Prop :=
  hi * 256 + lo = sml_crc16_calculate body \/ hi * 256 + lo = sml_crc16kermit_calculate body.

Lemma bits_of_lsb l : length l = 8%nat -> byte_bits (lsb_value l) = l.
Proof.
  intros Hl. do 8 (destruct l as [|? l]; [discriminate|]). destruct l; [|discriminate].
  unfold byte_bits, map. repeat match goal with |- context [Z.testbit ?z ?n] =>
    let k := constr:(Z.to_nat n) in let k := eval compute in k in
    replace (Z.testbit z n) with (Z.testbit z (Z.of_nat k)) by reflexivity; rewrite (lsb_testbit _ k) end. reflexivity.
Qed.
Lemma parity_bytes r hi lo : length r = 16%nat -> 0 <= hi < 256 -> 0 <= lo < 256 ->
  hi * 256 + lo = lsb_value r \/ hi * 256 + lo = swap16 (lsb_value r) ->
  parity (message_bits [hi; lo]) = parity r.
Proof.
  intros Hr Hh Hl E. rewrite <- (firstn_skipn 8 r) in E |- *. set (a := firstn 8 r) in *. set (b := skipn 8 r) in *.
  assert (La : length a = 8%nat) by (unfold a; rewrite firstn_length; lia).
  assert (Lb : length b = 8%nat) by (unfold b; rewrite skipn_length; lia).
  rewrite lsb_app, La in E. change (2 ^ Z.of_nat 8) with 256 in E.
  pose proof (lsb_range a) as Ra. pose proof (lsb_range b) as Rb. rewrite La in Ra. rewrite Lb in Rb.
  change (2 ^ Z.of_nat 8) with 256 in *. unfold message_bits. cbn [flat_map]. rewrite app_nil_r, !parity_app.
  destruct E as [E|E].
  - assert (hi = lsb_value b /\ lo = lsb_value a) as [-> ->] by lia. rewrite !bits_of_lsb by auto. apply xorb_comm.
  - unfold swap16 in E.
    assert (E1 : (lsb_value a + 256 * lsb_value b) mod 256 = lsb_value a).
    { rewrite Z.mul_comm, Z.mod_add by lia. apply Z.mod_small; lia. }
    assert (E2 : (lsb_value a + 256 * lsb_value b) / 256 = lsb_value b).
    { rewrite Z.mul_comm, Z.div_add by lia. rewrite Z.div_small by lia. lia. }
    rewrite E1, E2 in E. assert (hi = lsb_value a /\ lo = lsb_value b) as [-> ->] by lia. now rewrite !bits_of_lsb.
Qed.
Lemma parity_flip r : length r = 16%nat -> parity (xor_bits r (repeat true 16)) = parity r.
Proof. intros Hr. rewrite parity_xor by (rewrite Hr; reflexivity). now destruct (parity r). Qed.
Lemma accepted_parity body hi lo : bytes_ok body -> byte_ok hi -> byte_ok lo -> accepted_crc body hi lo ->
  parity (message_bits (body ++ [hi; lo])) = false.
Proof.
  intros Hb Hh Hl HA. unfold accepted_crc in HA. rewrite x25_ok, kermit_ok in HA by auto.
  assert (EM : message_bits (body ++ [hi; lo]) = message_bits body ++ message_bits [hi; lo]).
  { unfold message_bits. apply flat_map_app. }
  rewrite EM, parity_app. destruct HA as [E|E].
  - set (r := xor_bits (crc_register (repeat true 16) (message_bits body)) (repeat true 16)).
    assert (Lr : length (crc_register (repeat true 16) (message_bits body)) = 16%nat) by (apply register_length; reflexivity).
    rewrite (parity_bytes r); [| |exact Hh|exact Hl|].
    + unfold r. rewrite parity_flip by auto. rewrite parity_register by reflexivity.
      change (parity (repeat true 16)) with false. now destruct (parity (message_bits body)).
    + unfold r. now rewrite xor_bits_length.
    + right. unfold r. rewrite lsb_xor by auto. exact E.
  - rewrite (parity_bytes (crc_register (repeat false 16) (message_bits body)));
      [| apply register_length; reflexivity |exact Hh|exact Hl|now left].
    rewrite parity_register by reflexivity. change (parity (repeat false 16)) with false. now destruct (parity (message_bits body)).
Qed.

Lemma odd_not_accepted b1 hi1 lo1 b2 hi2 lo2 :
  bytes_ok (b1 ++ [hi1; lo1]) -> bytes_ok (b2 ++ [hi2; lo2]) -> length b1 = length b2 ->
  Nat.odd (flipped (b1 ++ [hi1; lo1]) (b2 ++ [hi2; lo2])) = true ->
  accepted_crc b1 hi1 lo1 -> ~ accepted_crc b2 hi2 lo2.
Proof.
  intros B1 B2 Hl Ho A1 A2. unfold flipped in Ho.
  rewrite count_parity, parity_xor in Ho by (rewrite !message_bits_length, !app_length; cbn; lia).
  apply Forall_app in B1, B2. destruct B1 as [B1 C1], B2 as [B2 C2]. 
  apply Forall_cons_iff in C1, C2. destruct C1 as [C1 D1], C2 as [C2 D2].
  apply Forall_cons_iff in D1, D2. destruct D1 as [D1 _], D2 as [D2 _].
  rewrite !accepted_parity in Ho by auto. discriminate.
Qed.
(** An odd number of flipped bits, in the message and the two bytes of its
    checksum, is still always detected: of two complete messages at most one is
    delivered ... *)
Theorem C24_odd_still_detected (H : Host) g1 g2 f1 f2 :
  complete g1 -> complete g2 -> bytes_ok (segment_text g1) -> bytes_ok (segment_text g2) ->
  Z.of_nat (length (segment_text g1)) <= 294912 -> Z.of_nat (length (segment_text g2)) <= 294912 ->
  length (g_body g1) = length (g_body g2) ->
  Nat.odd (flipped (g_body g1 ++ [g_hi g1; g_lo g1]) (g_body g2 ++ [g_hi g2; g_lo g2])) = true ->
  sml_file_parse (segment_text g1) = Ret f1 -> sml_file_parse (segment_text g2) = Ret f2 ->
  f_messages f1 <> [] -> f_messages f2 = [].
Proof.
  intros C1 C2 B1 B2 L1 L2 Hl Ho E1 E2 N.
  assert (K : forall g f, complete g -> bytes_ok (segment_text g) -> Z.of_nat (length (segment_text g)) <= 294912 ->
     sml_file_parse (segment_text g) = Ret f -> f_messages f <> [] ->
     bytes_ok (g_body g ++ [g_hi g; g_lo g]) /\ accepted_crc (g_body g) (g_hi g) (g_lo g)).
  { intros g f C B L E Nf. 
    destruct (C08_bad_checksum_dropped_alone H [g]) as (f' & E' & _ & M); cbn [flat_map]; rewrite ?app_nil_r; auto.
    cbn [flat_map] in E'. rewrite app_nil_r in E'. assert (f' = f) by congruence. subst f'.
    unfold segment_text in B. apply Forall_app in B. destruct B as [Bb Bt]. cbn [app] in Bt.
    apply Forall_cons_iff in Bt. destruct Bt as [_ Bt]. apply Forall_cons_iff in Bt. destruct Bt as [Bh Bt].
    apply Forall_cons_iff in Bt. destruct Bt as [Blo _].
    split. { apply Forall_app. split; auto. }
    rewrite M in Nf. cbn [filter] in Nf. unfold accepted_crc. rewrite x25_ok, kermit_ok by auto.
    destruct (intact g) eqn:Ei; [|cbn in Nf; congruence]. unfold intact in Ei. apply orb_true_iff in Ei.
    rewrite !Z.eqb_eq in Ei. exact Ei. }
  destruct (f_messages f2) as [|m ms] eqn:Em; auto. exfalso.
  assert (f_messages f2 <> []) by (rewrite Em; discriminate).
  destruct (K g1 f1) as [Bo1 A1]; auto. destruct (K g2 f2) as [Bo2 A2]; auto.
  exact (odd_not_accepted _ _ _ _ _ _ Bo1 Bo2 Hl Ho A1 A2).
Qed.
Print Assumptions C24_odd_still_detected.
Example C24_example : let H : Host := LittleEndian in exists fs fs',
  let g1 := mkSegment H body1 fs 138 77 0 in
  let g2 := mkSegment H ([118; 5; 0; 0; 0; 3] ++ skipn 6 body1) fs' 138 77 0 in
  complete g1 /\ complete g2 /\ bytes_ok (segment_text g1) /\ bytes_ok (segment_text g2) /\
  Nat.odd (flipped (g_body g1 ++ [g_hi g1; g_lo g1]) (g_body g2 ++ [g_hi g2; g_lo g2])) = true /\ intact g1 = true.
Proof.
  eexists _, _. split; [|split; [|split; [bytes|split; [bytes|split; vm_compute; reflexivity]]]];
  unfold complete, head_of; eexists; (split; [vm_compute; reflexivity|split; reflexivity]).
Qed.
(** ... but a burst is not: two flipped bits, nine apart, in a message with a good
    X.25 checksum, and the parser accepts the changed message. *)
Definition c24_tail : list Z := [2; 30; 98; 0; 98; 0; 114; 99; 2; 1; 113; 1].
Theorem C24_burst_guarantee_lost_refuted (H : Host) :
  let sent := [118; 5; 0; 0] ++ c24_tail in
  let got := [118; 5; 8; 16] ++ c24_tail in
  56 * 256 + 34 = swap16 (crc16_x25 sent) /\ flipped sent got = 2%nat /\
  exists m1 m2 s1 s2,
    sml_message_parse (mkBuf (sent ++ [99; 56; 34; 0]) 0 false false) = Ret (Some m1, s1) /\ error s1 = false /\
    sml_message_parse (mkBuf (got ++ [99; 56; 34; 0]) 0 false false) = Ret (Some m2, s2) /\ error s2 = false /\ m1 <> m2.
Proof.
  split; [vm_compute; reflexivity|]. split; [vm_compute; reflexivity|].
  destruct H; eexists _, _, _, _; (split; [vm_compute; reflexivity|]; split; [reflexivity|];
    split; [vm_compute; reflexivity|]; split; [reflexivity|]; discriminate).
Qed.
Print Assumptions C24_burst_guarantee_lost_refuted.
