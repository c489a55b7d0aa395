(** Property C58: errors of up to three bits. *)
From Verif Require Import Base Buf Crc16 Number OctetString Boolean Value Time SList Tree Bodies
  Message File Lib Spec CrcProof Scan Inv FileFacts PropsParse PropsCrc.

(** *** Two flipped bits: the period of the register *)

(** the register, run on zeros from [r], is not 1 in the first [n] steps *)
Fixpoint never_one (n : nat) (r : Z) : bool :=
  match n with O => true | S n' => negb (r =? 1) && never_one n' (zstep r false) end.
Lemma never_one_ok n : forall r k, never_one n r = true -> (k < n)%nat -> fold_left zstep (repeat false k) r <> 1.
Proof.
  induction n as [|n IH]; intros r k E L; [lia|]. cbn [never_one] in E. apply andb_prop in E as [E1 E2].
  destruct k as [|k]; cbn [repeat fold_left].
  - intros ->. discriminate.
  - apply IH; [exact E2|lia].
Qed.
Lemma period : never_one (Z.to_nat 32766) 33800 = true.
Proof. vm_compute. reflexivity. Qed.

Lemma zeros_stay k : crc_register (repeat false 16) (repeat false k) = repeat false 16.
Proof. induction k as [|k IH]; [reflexivity|]. exact IH. Qed.
Lemma two_flips a k c : (k < Z.to_nat 32766)%nat ->
  crc_register (repeat false 16) (repeat false a ++ true :: repeat false k ++ true :: repeat false c) <> repeat false 16.
Proof.
  intros Hk E. rewrite register_app, zeros_stay in E.
  change (true :: repeat false k ++ true :: repeat false c) with ([true] ++ repeat false k ++ [true] ++ repeat false c) in E.
  rewrite !register_app in E. set (r1 := crc_register (repeat false 16) [true]) in *.
  assert (L1 : length r1 = 16%nat) by reflexivity.
  set (r2 := crc_register r1 (repeat false k)) in *. assert (L2 : length r2 = 16%nat) by now apply register_length.
  rewrite <- (zeros_stay c) in E. apply register_inj in E; [|now apply register_length|reflexivity].
  apply window_zero in E; [|exact L2|cbn; lia].
  assert (EZ : lsb_value r2 = 1) by (rewrite E; reflexivity).
  unfold r2 in EZ. rewrite zstep_register in EZ by exact L1. revert EZ. apply never_one_ok with (n := Z.to_nat 32766); [|exact Hk].
  exact period.
Qed.

Lemma filter_split l : (1 <= length (filter (fun b : bool => b) l))%nat -> exists a t, l = repeat false a ++ true :: t.
Proof.
  induction l as [|b l IH]; cbn [filter length]; [lia|]. destruct b; intros HL.
  - now exists 0%nat, l.
  - destruct (IH HL) as (a & t & ->). now exists (S a), t.
Qed.
Lemma filter_zeros a t : filter (fun b : bool => b) (repeat false a ++ t) = filter (fun b : bool => b) t.
Proof. induction a; auto. Qed.
Lemma filter_none l : length (filter (fun b : bool => b) l) = 0%nat -> l = repeat false (length l).
Proof. induction l as [|[] l IH]; cbn; intros; try discriminate; auto. now rewrite <- IH. Qed.
Lemma two_shape l : length (filter (fun b : bool => b) l) = 2%nat ->
  exists a k c, l = repeat false a ++ true :: repeat false k ++ true :: repeat false c.
Proof.
  intros E. destruct (filter_split l) as (a & t & ->); [lia|]. rewrite filter_zeros in E. cbn [filter length] in E.
  destruct (filter_split t) as (k & u & ->); [lia|]. rewrite filter_zeros in E. cbn [filter length] in E.
  exists a, k, (length u). rewrite <- (filter_none u) by lia. reflexivity.
Qed.
(** no error pattern of one to three bits leaves the register as it was *)
Lemma few_flips l : (length l <= Z.to_nat 32767)%nat -> (1 <= length (filter (fun b : bool => b) l) <= 3)%nat ->
  crc_register (repeat false 16) l <> repeat false 16.
Proof.
  intros HL HF. destruct (Nat.odd (length (filter (fun b : bool => b) l))) eqn:EO.
  - rewrite count_parity in EO. intros E. apply (f_equal parity) in E. rewrite parity_register in E by reflexivity.
    change (parity (repeat false 16)) with false in E. rewrite EO in E. discriminate.
  - assert (E2 : length (filter (fun b : bool => b) l) = 2%nat).
    { destruct (length (filter (fun b : bool => b) l)) as [|[|[|[|n]]]]; [lia|discriminate|reflexivity|discriminate|lia]. }
    destruct (two_shape l E2) as (a & k & c & ->). apply two_flips. rewrite app_length in HL. cbn [length] in HL.
    rewrite !app_length, !repeat_length in HL. cbn [length] in HL. rewrite repeat_length in HL. lia.
Qed.
Lemma same_register init b1 b2 : length init = 16%nat -> length b1 = length b2 ->
  crc_register init b1 = crc_register init b2 -> crc_register (repeat false 16) (xor_bits b1 b2) = repeat false 16.
Proof.
  intros Hi Hl E. rewrite <- Hi at 1. rewrite <- xor_self, register_lin, E, xor_self by auto. f_equal. now apply register_length.
Qed.
Lemma byte_limit n : (n <= Z.to_nat 4095)%nat -> (8 * n <= Z.to_nat 32767)%nat.
Proof. lia. Qed.

(** *** C58 *)

(** Two messages of the same length, at most 4095 bytes, that differ in one, two or
    three bits have different checksums (of either kind). *)
Theorem C58_up_to_three_bits m1 m2 : bytes_ok m1 -> bytes_ok m2 -> length m1 = length m2 ->
  (length m1 <= Z.to_nat 4095)%nat -> (1 <= flipped m1 m2 <= 3)%nat ->
  sml_crc16_calculate m1 <> sml_crc16_calculate m2 /\
  sml_crc16kermit_calculate m1 <> sml_crc16kermit_calculate m2.
Proof.
  intros B1 B2 Hl HL HF. rewrite !x25_ok, !kermit_ok by auto.
  assert (HB : length (message_bits m1) = length (message_bits m2)) by (rewrite !message_bits_length; lia).
  assert (HN := few_flips (xor_bits (message_bits m1) (message_bits m2))).
  rewrite xor_bits_length, message_bits_length in HN by exact HB. specialize (HN (byte_limit _ HL) HF).
  split; intros E; apply HN.
  - apply same_x25 in E. eapply same_register; [|exact HB|exact E]. reflexivity.
  - apply same_kermit in E. eapply same_register; [|exact HB|exact E]. reflexivity.
Qed.
Print Assumptions C58_up_to_three_bits.

(** The same with the two bytes of the X.25 checksum, which are sent behind the
    message and can be hit as well: two messages with correct checksums, together
    at most 4095 bytes long each, never differ in one, two or three bits. *)
Definition correct_x25 (m : list Z) (hi lo : Z) : Prop := hi * 256 + lo = sml_crc16_calculate m.
Lemma run_out w : forall n, (length w <= n)%nat -> n = 16%nat ->
  crc_register (w ++ repeat false (n - length w)) w = repeat false 16.
Proof.
  induction w as [|b w IH]; intros n HL ->; [reflexivity|]. cbn [length app] in *.
  change (crc_register (b :: w ++ repeat false (16 - S (length w))) (b :: w)) with
    (crc_register (crc_shift (b :: w ++ repeat false (16 - S (length w))) b) w).
  assert (E : crc_shift (b :: w ++ repeat false (16 - S (length w))) b = w ++ repeat false (16 - length w)).
  { cbn [crc_shift]. replace (xorb b b) with false by (now destruct b). rewrite <- app_assoc. f_equal.
    replace (16 - length w)%nat with (S (16 - S (length w))) by lia. cbn [repeat]. now rewrite repeat_cons. }
  rewrite E. apply IH; lia.
Qed.
Lemma checksum_bits r hi lo : length r = 16%nat -> 0 <= hi < 256 -> 0 <= lo < 256 ->
  hi * 256 + lo = swap16 (lsb_value r) -> message_bits [hi; lo] = r.
Proof.
  intros Hr Hh Hl E. rewrite <- (firstn_skipn 8 r) in E |- *. set (a := firstn 8 r) in *. set (b := skipn 8 r) in *.
  assert (La : length a = 8%nat) by (unfold a; rewrite firstn_length; lia).
  assert (Lb : length b = 8%nat) by (unfold b; rewrite skipn_length; lia).
  rewrite lsb_app, La in E. change (2 ^ Z.of_nat 8) with 256 in E.
  pose proof (lsb_range a) as Ra. pose proof (lsb_range b) as Rb. rewrite La in Ra. rewrite Lb in Rb.
  change (2 ^ Z.of_nat 8) with 256 in *. unfold message_bits. cbn [flat_map]. rewrite app_nil_r.
  unfold swap16 in E.
  assert (E1 : (lsb_value a + 256 * lsb_value b) mod 256 = lsb_value a).
  { rewrite Z.mul_comm, Z.mod_add by lia. apply Z.mod_small; lia. }
  assert (E2 : (lsb_value a + 256 * lsb_value b) / 256 = lsb_value b).
  { rewrite Z.mul_comm, Z.div_add by lia. rewrite Z.div_small by lia. lia. }
  rewrite E1, E2 in E. assert (hi = lsb_value a /\ lo = lsb_value b) as [-> ->] by lia. now rewrite !bits_of_lsb.
Qed.
Lemma residue m hi lo : bytes_ok m -> byte_ok hi -> byte_ok lo -> correct_x25 m hi lo ->
  crc_register (repeat true 16) (message_bits (m ++ [hi; lo])) = crc_register (repeat false 16) (repeat true 16).
Proof.
  intros Hb Hh Hl E. unfold correct_x25 in E. rewrite x25_ok in E by auto.
  assert (EM : message_bits (m ++ [hi; lo]) = message_bits m ++ message_bits [hi; lo]) by apply flat_map_app.
  rewrite EM, register_app. set (r := crc_register (repeat true 16) (message_bits m)) in *.
  assert (Lr : length r = 16%nat) by (apply register_length; reflexivity).
  rewrite (checksum_bits (xor_bits r (repeat true 16))); [|now rewrite xor_bits_length|exact Hh|exact Hl|].
  - rewrite <- (xor_false r 16 Lr) at 1. rewrite register_lin by auto.
    pose proof (run_out r 16) as RO. rewrite Lr, Nat.sub_diag, app_nil_r in RO. cbn [repeat] in RO. rewrite RO by lia.
    set (z := crc_register _ _). change (xor_bits (repeat false 16) z = z).
    assert (Lz : length z = 16%nat) by reflexivity. vm_compute. reflexivity.
  - rewrite lsb_xor by auto. exact E.
Qed.
Theorem C58_with_checksum m1 hi1 lo1 m2 hi2 lo2 : bytes_ok (m1 ++ [hi1; lo1]) -> bytes_ok (m2 ++ [hi2; lo2]) ->
  length m1 = length m2 -> (length m1 + 2 <= Z.to_nat 4095)%nat ->
  correct_x25 m1 hi1 lo1 -> correct_x25 m2 hi2 lo2 ->
  m1 ++ [hi1; lo1] = m2 ++ [hi2; lo2] \/ (4 <= flipped (m1 ++ [hi1; lo1]) (m2 ++ [hi2; lo2]))%nat.
Proof.
  intros B1 B2 Hl HL C1 C2. set (w1 := m1 ++ [hi1; lo1]) in *. set (w2 := m2 ++ [hi2; lo2]) in *.
  assert (LW : length w1 = length w2) by (unfold w1, w2; rewrite !app_length; cbn; lia).
  assert (LB : (length w1 <= Z.to_nat 4095)%nat) by (unfold w1; rewrite app_length; cbn; lia).
  assert (HB : length (message_bits w1) = length (message_bits w2)) by (rewrite !message_bits_length; lia).
  destruct (le_lt_dec 4 (flipped w1 w2)) as [|HF]; [now right|left].
  assert (ER : crc_register (repeat true 16) (message_bits w1) = crc_register (repeat true 16) (message_bits w2)).
  { pose proof B1 as B1'. pose proof B2 as B2'. unfold w1, w2 in B1', B2'. apply Forall_app in B1', B2'.
    destruct B1' as [P1 Q1], B2' as [P2 Q2]. inversion_clear Q1 as [|? ? Q1a Q1']. inversion_clear Q1' as [|? ? Q1b _].
    inversion_clear Q2 as [|? ? Q2a Q2']. inversion_clear Q2' as [|? ? Q2b _].
    unfold w1, w2. now rewrite !residue by auto. }
  apply same_register in ER; [|reflexivity|exact HB].
  destruct (flipped w1 w2) as [|n] eqn:EF.
  - apply bits_inj; auto. apply xor_zero; auto. unfold flipped in EF. apply filter_none in EF. rewrite EF at 1. f_equal.
    now apply xor_bits_length.
  - exfalso. revert ER. apply few_flips.
    + rewrite xor_bits_length, message_bits_length by exact HB. now apply byte_limit.
    + fold (flipped w1 w2). lia.
Qed.
Print Assumptions C58_with_checksum.

(** 4095 bytes is the limit: two messages of 4096 bytes that differ in the first
    and the last bit have the same checksums. *)
Theorem C58_longer_refuted : exists m1 m2, bytes_ok m1 /\ bytes_ok m2 /\ length m1 = Z.to_nat 4096 /\ length m2 = Z.to_nat 4096 /\
  flipped m1 m2 = 2%nat /\
  sml_crc16_calculate m1 = sml_crc16_calculate m2 /\ sml_crc16kermit_calculate m1 = sml_crc16kermit_calculate m2.
Proof.
  exists (repeat 0 (Z.to_nat 4096)), (1 :: repeat 0 (Z.to_nat 4094) ++ [128]).
  assert (HZ : forall n, bytes_ok (repeat 0 n)) by (intros n; apply Forall_forall; intros x Hx; apply repeat_spec in Hx as ->; split; [discriminate|reflexivity]).
  split; [apply HZ|]. split.
  { constructor; [split; [discriminate|reflexivity]|]. apply Forall_app. split; [apply HZ|]. constructor; [split; [discriminate|reflexivity]|constructor]. }
  split; [apply repeat_length|]. split; [cbn [length]; rewrite app_length, repeat_length; cbn [length]; lia|].
  vm_compute. split; [reflexivity|]. split; reflexivity.
Qed.
Print Assumptions C58_longer_refuted.
(** Four bits can go unnoticed even in short messages: the generator itself. *)
Theorem C58_four_bits_refuted : exists m1 m2, bytes_ok m1 /\ bytes_ok m2 /\ length m1 = length m2 /\ length m1 = 3%nat /\
  flipped m1 m2 = 4%nat /\
  sml_crc16_calculate m1 = sml_crc16_calculate m2 /\ sml_crc16kermit_calculate m1 = sml_crc16kermit_calculate m2.
Proof.
  exists [0; 0; 0], [17; 8; 1]. split; [repeat constructor; discriminate|]. split; [repeat constructor; discriminate|].
  vm_compute. repeat (split; [reflexivity|]). reflexivity.
Qed.
Print Assumptions C58_four_bits_refuted.
Example C58_example : bytes_ok [1; 27; 3] /\ bytes_ok [1; 26; 131] /\ length [1; 27; 3] = length [1; 26; 131] /\
  (length [1; 27; 3] <= Z.to_nat 4095)%nat /\ flipped [1; 27; 3] [1; 26; 131] = 2%nat.
Proof. split; [bytes|]. split; [bytes|]. split; [reflexivity|]. split; [cbn [length]; lia|reflexivity]. Qed.
Example C58_example_checksum : bytes_ok ([118; 5; 1] ++ [252; 255]) /\ bytes_ok ([118; 5; 7] ++ [202; 154]) /\
  correct_x25 [118; 5; 1] 252 255 /\ correct_x25 [118; 5; 7] 202 154 /\ flipped ([118; 5; 1] ++ [252; 255]) ([118; 5; 7] ++ [202; 154]) = 10%nat.
Proof. split; [bytes|]. split; [bytes|]. vm_compute. repeat split; reflexivity. Qed.
