(** The table-driven checksums against the bit-by-bit specification, and what
    they detect. *)
From Verif Require Import Base Crc16 Spec Lib.

(** *** The register *)

Lemma xor_bits_length a b : length a = length b -> length (xor_bits a b) = length a.
Proof. revert b. induction a; destruct b; cbn; intros; try discriminate; auto. Qed.
Lemma shift_length reg b : length reg = 16%nat -> length (crc_shift reg b) = 16%nat.
Proof.
  intros Hr. destruct reg as [|t low]; [discriminate|]. cbn [length crc_shift] in *.
  assert (length (low ++ [false]) = 16%nat) by (rewrite app_length; cbn; lia).
  destruct (xorb t b); auto. now rewrite xor_bits_length.
Qed.
Lemma register_length bits : forall reg, length reg = 16%nat -> length (crc_register reg bits) = 16%nat.
Proof. induction bits; intros reg Hr; cbn; auto. apply IHbits, shift_length, Hr. Qed.

Lemma lsb_range l : 0 <= lsb_value l < 2 ^ Z.of_nat (length l).
Proof.
  induction l as [|b l IH]; cbn [lsb_value length]; [cbn; lia|].
  rewrite Nat2Z.inj_succ, Z.pow_succ_r by lia. destruct b; cbn [Z.b2z]; lia.
Qed.
Lemma lsb_inj a : forall b, length a = length b -> lsb_value a = lsb_value b -> a = b.
Proof.
  induction a as [|x a IH]; destruct b as [|y b]; cbn [length lsb_value]; intros Hl E; try discriminate; auto.
  assert (x = y) by (destruct x, y; cbn [Z.b2z] in E; auto; lia). subst y. f_equal. apply IH; lia.
Qed.
Lemma lsb_xor a : forall b, length a = length b -> lsb_value (xor_bits a b) = Z.lxor (lsb_value a) (lsb_value b).
Proof.
  induction a as [|x a IH]; destruct b as [|y b]; cbn [length lsb_value xor_bits]; intros Hl; try discriminate; auto.
  rewrite IH by lia. rewrite !(Z.add_comm (Z.b2z _)). apply Z.bits_inj'. intros n Hn.
  rewrite Z.lxor_spec. destruct (Z.eq_dec n 0) as [->|].
  - rewrite !Z.testbit_0_r. reflexivity.
  - replace n with (Z.succ (n - 1)) by lia. rewrite !Z.testbit_succ_r by lia. now rewrite Z.lxor_spec.
Qed.
Lemma lsb_app a b : lsb_value (a ++ b) = lsb_value a + 2 ^ Z.of_nat (length a) * lsb_value b.
Proof.
  induction a as [|x a IH]; cbn [app lsb_value length]; [change (2 ^ Z.of_nat 0) with 1; lia|].
  rewrite IH, Nat2Z.inj_succ, Z.pow_succ_r by lia. lia.
Qed.
Lemma lsb_app_false a : lsb_value (a ++ [false]) = lsb_value a.
Proof. rewrite lsb_app. cbn. lia. Qed.
Lemma lsb_repeat_false n : lsb_value (repeat false n) = 0.
Proof. induction n; cbn [repeat lsb_value]; rewrite ?IHn; auto. Qed.
Lemma lsb_testbit l : forall i, Z.testbit (lsb_value l) (Z.of_nat i) = nth i l false.
Proof.
  induction l as [|x l IH]; intros i; cbn [lsb_value].
  - rewrite Z.bits_0. destruct i; auto.
  - rewrite Z.add_comm. destruct i as [|i].
    + now rewrite Z.testbit_0_r.
    + rewrite Nat2Z.inj_succ, Z.testbit_succ_r by lia. apply IH.
Qed.

(** *** The same step on numbers *)

Definition zstep (r : Z) (b : bool) : Z :=
  Z.lxor (Z.shiftr r 1) (if xorb (Z.odd r) b then 33800 else 0).
Lemma zstep_shift reg b : length reg = 16%nat -> lsb_value (crc_shift reg b) = zstep (lsb_value reg) b.
Proof.
  intros Hr. destruct reg as [|t low]; [discriminate|]. cbn [length] in Hr. cbn [crc_shift lsb_value]. unfold zstep.
  assert (E1 : Z.odd (Z.b2z t + 2 * lsb_value low) = t) by (destruct t; cbn [Z.b2z]; rewrite Z.odd_add_mul_2; reflexivity).
  assert (E2 : Z.shiftr (Z.b2z t + 2 * lsb_value low) 1 = lsb_value low).
  { rewrite Z.shiftr_div_pow2 by lia. change (2 ^ 1) with 2. destruct t; cbn [Z.b2z];
      [symmetry; apply Z.div_unique with 1; lia|symmetry; apply Z.div_unique with 0; lia]. }
  rewrite E1, E2. destruct (xorb t b).
  - rewrite lsb_xor, lsb_app_false by (rewrite app_length; cbn; lia). reflexivity.
  - now rewrite lsb_app_false, Z.lxor_0_r.
Qed.
Lemma zstep_register bits : forall reg, length reg = 16%nat ->
  lsb_value (crc_register reg bits) = fold_left zstep bits (lsb_value reg).
Proof.
  induction bits as [|b bits IH]; intros reg Hr; cbn; auto.
  unfold crc_register in IH. rewrite IH by now apply shift_length. now rewrite zstep_shift.
Qed.

(** linearity *)
Lemma zstep_lin r r' b b' : zstep (Z.lxor r r') (xorb b b') = Z.lxor (zstep r b) (zstep r' b').
Proof.
  unfold zstep. rewrite Z.shiftr_lxor. 
  assert (E : Z.odd (Z.lxor r r') = xorb (Z.odd r) (Z.odd r')) by (rewrite <- !Z.bit0_odd; apply Z.lxor_spec).
  rewrite E. assert (X : forall x y p q, Z.lxor (Z.lxor x y) (Z.lxor p q) = Z.lxor (Z.lxor x p) (Z.lxor y q)).
  { intros. apply Z.bits_inj'. intros n _. rewrite !Z.lxor_spec.
    destruct (Z.testbit x n), (Z.testbit y n), (Z.testbit p n), (Z.testbit q n); reflexivity. }
  rewrite <- X. f_equal.
  destruct (Z.odd r), (Z.odd r'), b, b'; cbn [xorb]; rewrite ?Z.lxor_0_r, ?Z.lxor_0_l, ?Z.lxor_nilpotent; reflexivity.
Qed.

Definition zrun (r : Z) : Z := fold_left zstep (repeat false 8) r.
Lemma zrun_lin r r' : zrun (Z.lxor r r') = Z.lxor (zrun r) (zrun r').
Proof.
  unfold zrun. generalize 8%nat as n. intros n. revert r r'. induction n as [|n IH]; intros; cbn [repeat fold_left]; auto.
  now rewrite <- IH, <- zstep_lin.
Qed.
Lemma zstep_even r : zstep (2 * r) false = r.
Proof.
  unfold zstep. rewrite Z.odd_mul. cbn [Z.odd andb xorb]. rewrite Z.lxor_0_r.
  rewrite Z.shiftr_div_pow2 by lia. change (2 ^ 1) with 2. rewrite Z.mul_comm. now apply Z.div_mul.
Qed.
Lemma zrun_shift y : zrun (256 * y) = y.
Proof.
  unfold zrun. cbn [repeat fold_left].
  replace (256 * y) with (2 * (2 * (2 * (2 * (2 * (2 * (2 * (2 * y)))))))) by lia.
  now rewrite !zstep_even.
Qed.

(** feeding a byte is running on (register xor byte) *)
Lemma zstep_bit r b : zstep r b = zstep (Z.lxor r (Z.b2z b)) false.
Proof.
  assert (E : Z.b2z b = 0 \/ Z.b2z b = 1) by (destruct b; auto).
  unfold zstep. rewrite Z.shiftr_lxor.
  replace (Z.shiftr (Z.b2z b) 1) with 0 by (destruct b; reflexivity). rewrite Z.lxor_0_r. f_equal.
  assert (EO : Z.odd (Z.lxor r (Z.b2z b)) = xorb (Z.odd r) b).
  { rewrite <- !Z.bit0_odd, Z.lxor_spec. f_equal. now destruct b. }
  rewrite EO. now rewrite xorb_false_r.
Qed.
Lemma zstep_even_lin r y b : zstep (Z.lxor r (2 * y)) b = Z.lxor (zstep r b) y.
Proof. rewrite <- (xorb_false_r b) at 1. now rewrite zstep_lin, zstep_even. Qed.
Lemma zrun_bits bits : forall r, fold_left zstep bits r =
  fold_left zstep (repeat false (length bits)) (Z.lxor r (lsb_value bits)).
Proof.
  induction bits as [|b bits IH]; intros r; cbn [fold_left length repeat lsb_value].
  - now rewrite Z.lxor_0_r.
  - rewrite IH. f_equal.
    assert (E : Z.b2z b + 2 * lsb_value bits = Z.lxor (Z.b2z b) (2 * lsb_value bits)).
    { assert (X := lsb_xor (b :: repeat false (length bits)) (false :: bits)).
      cbn [lsb_value length xor_bits] in X. rewrite repeat_length in X. specialize (X eq_refl).
      rewrite lsb_repeat_false in X. cbn [Z.b2z] in X. rewrite !Z.add_0_r, Z.add_0_l in X.
      rewrite <- X, xorb_false_r. f_equal. f_equal. clear. induction bits; cbn; auto.
      rewrite <- IHbits. now destruct a. }
    rewrite E, <- Z.lxor_assoc, zstep_even_lin, <- zstep_bit. reflexivity.
Qed.

Lemma byte_value b : 0 <= b < 256 -> lsb_value (byte_bits b) = b.
Proof.
  intros Hb.
  assert (HA : forallb (fun n => lsb_value (byte_bits (Z.of_nat n)) =? Z.of_nat n) (seq 0 256) = true) by (vm_compute; reflexivity).
  rewrite forallb_forall in HA. specialize (HA (Z.to_nat b)). rewrite Z2Nat.id in HA by lia.
  apply Z.eqb_eq, HA, in_seq. lia.
Qed.
Lemma table_ok x : 0 <= x < 256 -> zrun x = nth (Z.to_nat x) crctab 0.
Proof.
  intros Hx.
  assert (HA : forallb (fun n => zrun (Z.of_nat n) =? nth n crctab 0) (seq 0 256) = true) by (vm_compute; reflexivity).
  rewrite forallb_forall in HA. specialize (HA (Z.to_nat x)). rewrite Z2Nat.id in HA by lia.
  apply Z.eqb_eq, HA, in_seq. lia.
Qed.

Lemma split_256 x : 0 <= x -> x = Z.lxor (Z.land x 255) (256 * Z.shiftr x 8).
Proof.
  intros Hx. apply Z.bits_inj'. intros n Hn. rewrite Z.lxor_spec, Z.land_spec.
  change 256 with (2 ^ 8). rewrite Z.mul_comm, <- Z.shiftl_mul_pow2 by lia.
  change 255 with (Z.ones 8). rewrite Z.testbit_ones by lia. rewrite Z.shiftl_spec by lia.
  destruct (Z.ltb_spec n 8).
  - rewrite Z.testbit_neg_r with (n := n - 8) by lia. destruct (Z.leb_spec 0 n); [|lia].
    cbn. now rewrite andb_true_r, xorb_false_r.
  - rewrite !andb_false_r. rewrite Z.shiftr_spec by lia. replace (n - 8 + 8) with n by lia. now destruct (Z.testbit x n).
Qed.

Lemma crc_step_bits r b : 0 <= r -> 0 <= b < 256 -> crc_step r b = fold_left zstep (byte_bits b) r.
Proof.
  intros Hr Hb. rewrite zrun_bits. change (length (byte_bits b)) with 8%nat. fold (zrun (Z.lxor r (lsb_value (byte_bits b)))).
  rewrite byte_value by auto. assert (Hx : 0 <= Z.lxor r b) by (apply Z.lxor_nonneg; lia).
  rewrite (split_256 (Z.lxor r b) Hx), zrun_lin, zrun_shift. unfold crc_step. rewrite Z.lxor_comm.
  f_equal.
  - rewrite table_ok; auto. change 255 with (Z.ones 8). rewrite Z.land_ones by lia. apply Z.mod_pos_bound. lia.
  - rewrite Z.shiftr_lxor. replace (Z.shiftr b 8) with 0; [now rewrite Z.lxor_0_r|].
    rewrite Z.shiftr_div_pow2 by lia. rewrite Z.div_small; lia.
Qed.
Lemma zstep_nonneg r b : 0 <= r -> 0 <= zstep r b.
Proof. intros. unfold zstep. apply Z.lxor_nonneg. split; intros _; [destruct (xorb _ _); lia|apply Z.shiftr_nonneg; auto]. Qed.
Lemma zsteps_nonneg bits : forall r, 0 <= r -> 0 <= fold_left zstep bits r.
Proof. induction bits; cbn; auto using zstep_nonneg. Qed.
Lemma crc_loop_bits bs : forall r, 0 <= r -> bytes_ok bs ->
  crc_loop r bs = fold_left zstep (message_bits bs) r.
Proof.
  induction bs as [|b bs IH]; intros r Hr Hb; auto. inv Hb.
  cbn [crc_loop message_bits flat_map fold_left]. unfold crc_loop in IH. rewrite fold_left_app.
  rewrite <- crc_step_bits by auto. apply IH; auto. rewrite crc_step_bits by auto. now apply zsteps_nonneg.
Qed.
Lemma crc_loop_register reg bs : length reg = 16%nat -> bytes_ok bs ->
  crc_loop (lsb_value reg) bs = lsb_value (crc_register reg (message_bits bs)).
Proof.
  intros Hr Hb. rewrite zstep_register by auto. apply crc_loop_bits; auto. apply lsb_range.
Qed.

Lemma range16 l : length l = 16%nat -> 0 <= lsb_value l < 65536.
Proof. intros E. pose proof (lsb_range l). rewrite E in *. now change (2 ^ Z.of_nat 16) with 65536 in *. Qed.
Lemma lxor_65535 z : 0 <= z < 65536 -> Z.lxor z 65535 = 65535 - z.
Proof.
  intros Hz. assert (E : Z.lnot z = -z - 1) by (unfold Z.lnot; lia).
  assert (X : Z.lxor z 65535 = Z.ldiff 65535 z).
  { apply Z.bits_inj'. intros n Hn. rewrite Z.lxor_spec, Z.ldiff_spec. change 65535 with (Z.ones 16).
    rewrite Z.testbit_ones by lia. destruct (Z.ltb_spec n 16).
    - destruct (Z.leb_spec 0 n); [|lia]. cbn. now destruct (Z.testbit z n).
    - rewrite andb_false_r. rewrite xorb_false_r. destruct (Z.eq_dec z 0) as [->|]; [apply Z.bits_0|].
      apply Z.bits_above_log2; [lia|]. assert (Z.log2 z < 16); [|lia]. apply Z.log2_lt_pow2; lia. }
  rewrite X. rewrite <- Z.sub_nocarry_ldiff; auto.
  apply Z.bits_inj'. intros n Hn. rewrite Z.ldiff_spec, Z.bits_0. change 65535 with (Z.ones 16).
  rewrite Z.testbit_ones by lia. destruct (Z.ltb_spec n 16).
  - destruct (Z.leb_spec 0 n); [|lia]. apply andb_false_r.
  - rewrite andb_false_r. cbn. rewrite andb_true_r. destruct (Z.eq_dec z 0) as [->|]; [apply Z.bits_0|].
    apply Z.bits_above_log2; [lia|]. assert (Z.log2 z < 16); [|lia]. apply Z.log2_lt_pow2; lia.
Qed.
Lemma swap_code z : 0 <= z < 65536 ->
  Z.lor (Z.shiftl (Z.land z 255) 8) (Z.shiftr (Z.land z 65280) 8) = swap16 z.
Proof.
  intros Hz. unfold swap16. change 255 with (Z.ones 8). rewrite Z.land_ones, Z.shiftl_mul_pow2 by lia.
  change (2 ^ 8) with 256.
  assert (E : Z.shiftr (Z.land z 65280) 8 = z / 256).
  { rewrite Z.shiftr_land. change (Z.shiftr 65280 8) with (Z.ones 8). rewrite Z.land_ones by lia.
    rewrite Z.shiftr_div_pow2 by lia. change (2 ^ 8) with 256. apply Z.mod_small. split; [apply Z.div_pos; lia|].
    apply Z.div_lt_upper_bound; lia. }
  rewrite E. rewrite <- Z.lxor_lor, <- Z.add_nocarry_lxor; auto.
  all: apply Z.bits_inj'; intros n Hn; rewrite Z.land_spec, Z.bits_0.
  all: change 256 with (2 ^ 8); rewrite <- Z.shiftl_mul_pow2, Z.shiftl_spec by lia; destruct (Z.ltb_spec n 8).
  all: try (rewrite Z.testbit_neg_r with (n := n - 8) by lia; reflexivity).
  all: replace (Z.testbit (z / 2 ^ 8) n) with false; [apply andb_false_r|].
  all: symmetry; rewrite <- Z.shiftr_div_pow2, Z.shiftr_spec by lia; destruct (Z.eq_dec z 0) as [->|]; [apply Z.bits_0|].
  all: apply Z.bits_above_log2; [lia|]; assert (Z.log2 z < 16); [|lia]; apply Z.log2_lt_pow2; lia.
Qed.

Lemma x25_range bs : 0 <= crc16_x25 bs < 65536.
Proof.
  unfold crc16_x25. rewrite lxor_65535; [|apply range16, register_length; reflexivity].
  pose proof (range16 (crc_register (repeat true 16) (message_bits bs))). rewrite register_length in H by reflexivity. lia.
Qed.
Lemma kermit_range bs : 0 <= crc16_kermit bs < 65536.
Proof. apply range16, register_length. reflexivity. Qed.

Lemma kermit_ok bs : bytes_ok bs -> sml_crc16kermit_calculate bs = crc16_kermit bs.
Proof. intros. apply (crc_loop_register (repeat false 16)); auto. Qed.
Lemma x25_ok bs : bytes_ok bs -> sml_crc16_calculate bs = swap16 (crc16_x25 bs).
Proof.
  intros Hb. unfold sml_crc16_calculate.
  rewrite (crc_loop_register (repeat true 16) bs eq_refl Hb : crc_loop 65535 bs = _).
  fold (crc16_x25 bs). apply swap_code, x25_range.
Qed.

(** *** Detection *)

Lemma swap16_inj a b : 0 <= a < 65536 -> 0 <= b < 65536 -> swap16 a = swap16 b -> a = b.
Proof.
  unfold swap16. intros Ha Hb E. pose proof (Z.div_mod a 256). pose proof (Z.div_mod b 256).
  pose proof (Z.mod_pos_bound a 256). pose proof (Z.mod_pos_bound b 256).
  assert (0 <= a / 256 < 256) by (split; [apply Z.div_pos|apply Z.div_lt_upper_bound]; lia).
  assert (0 <= b / 256 < 256) by (split; [apply Z.div_pos|apply Z.div_lt_upper_bound]; lia). lia.
Qed.

(** the register decides both checksums *)
Definition same_check (f : list Z -> Z) (init : list bool) : Prop := length init = 16%nat /\
  forall m1 m2, f m1 = f m2 -> crc_register init (message_bits m1) = crc_register init (message_bits m2).
Lemma same_kermit : same_check crc16_kermit (repeat false 16).
Proof.
  split; auto. intros m1 m2 E. apply lsb_inj; auto. now rewrite !register_length.
Qed.
Lemma same_x25 : same_check (fun m => swap16 (crc16_x25 m)) (repeat true 16).
Proof.
  split; auto. intros m1 m2 E. apply swap16_inj in E; auto using x25_range.
  unfold crc16_x25 in E. rewrite !lxor_65535 in E by (apply range16, register_length; reflexivity).
  apply lsb_inj; [now rewrite !register_length|lia].
Qed.

Lemma xor_bits_inj p : forall a b, length a = length p -> length b = length p -> xor_bits a p = xor_bits b p -> a = b.
Proof.
  induction p as [|z p IH]; destruct a as [|x a], b as [|y b]; cbn; intros; try discriminate; auto.
  injection H1 as E1 E2. f_equal; [destruct x, y, z; auto|]. apply IH; auto; lia.
Qed.
Lemma last_xor a b p q : length a = length p -> xor_bits (a ++ [b]) (p ++ [q]) = xor_bits a p ++ [xorb b q].
Proof. revert p. induction a; destruct p; cbn; intros; try discriminate; auto. rewrite IHa; auto. Qed.
Lemma shift_last t low b : length low = 15%nat -> exists l, crc_shift (t :: low) b = l ++ [xorb t b] /\
  l = (if xorb t b then xor_bits low (firstn 15 poly_1021) else low).
Proof.
  intros Hl. cbn [crc_shift]. eexists. split; [|reflexivity]. destruct (xorb t b) eqn:E; auto.
  change poly_1021 with (firstn 15 poly_1021 ++ [true]) at 1. now rewrite last_xor.
Qed.
Lemma shift_inj reg reg' b : length reg = 16%nat -> length reg' = 16%nat ->
  crc_shift reg b = crc_shift reg' b -> reg = reg'.
Proof.
  destruct reg as [|t low], reg' as [|t' low']; cbn [length]; try discriminate. intros Hl Hl' E.
  destruct (shift_last t low b) as (l & E1 & D1); [lia|]. destruct (shift_last t' low' b) as (l' & E2 & D2); [lia|].
  rewrite E1, E2 in E. apply app_inj_tail in E. destruct E as [E Eb].
  assert (t = t') as -> by (destruct t, t', b; auto). f_equal. rewrite D1, D2 in E.
  destruct (xorb t' b); auto. apply xor_bits_inj in E; auto; rewrite firstn_length; cbn; lia.
Qed.
Lemma register_inj bits : forall reg reg', length reg = 16%nat -> length reg' = 16%nat ->
  crc_register reg bits = crc_register reg' bits -> reg = reg'.
Proof.
  induction bits as [|b bits IH]; intros reg reg' Hl Hl' E; cbn in E; auto.
  apply IH in E; try now apply shift_length. apply shift_inj in E; auto.
Qed.

(** two different windows of at most 16 bits from the same register *)
Lemma window_zero w : forall reg, length reg = 16%nat -> (length w <= 16)%nat ->
  crc_register reg w = repeat false 16 -> reg = w ++ repeat false (16 - length w).
Proof.
  induction w as [|b w IH]; intros reg Hr Hw E; cbn [app length] in *; [now rewrite Nat.sub_0_r|].
  apply IH in E; [|now apply shift_length|lia]. destruct reg as [|t low]; [discriminate|]. cbn [length] in Hr.
  destruct (shift_last t low b) as (l & E1 & D1); [lia|]. rewrite E1 in E.
  replace (16 - length w)%nat with (S (15 - length w)) in E by lia.
  cbn [repeat] in E. rewrite repeat_cons, app_assoc in E. apply app_inj_tail in E. destruct E as [E Eb]. rewrite Eb in D1.
  rewrite <- D1. rewrite E. replace (16 - S (length w))%nat with (15 - length w)%nat by lia.
  cbn. f_equal. destruct t, b; auto; discriminate.
Qed.
Lemma xor_app a b c d : length a = length c -> xor_bits (a ++ b) (c ++ d) = xor_bits a c ++ xor_bits b d.
Proof. revert c. induction a; destruct c; cbn; intros; try discriminate; auto. rewrite IHa; auto. Qed.
Lemma xor_4 a b c d : length a = length b -> length b = length c -> length c = length d ->
  xor_bits (xor_bits a b) (xor_bits c d) = xor_bits (xor_bits a c) (xor_bits b d).
Proof.
  revert b c d. induction a as [|x a IH]; destruct b as [|y b], c as [|z c], d as [|w d]; cbn; intros; try discriminate; auto.
  f_equal; [|apply IH; lia]. destruct x, y, z, w; reflexivity.
Qed.
Lemma xor_false a n : length a = n -> xor_bits a (repeat false n) = a.
Proof. intros <-. induction a as [|x a IH]; cbn; auto. rewrite IH. now destruct x. Qed.
Lemma xor_self a : xor_bits a a = repeat false (length a).
Proof. induction a as [|x a IH]; cbn; auto. rewrite IH. now destruct x. Qed.
Lemma xor_zero a : forall b, length a = length b -> xor_bits a b = repeat false (length a) -> a = b.
Proof.
  induction a as [|x a IH]; destruct b as [|y b]; cbn; intros Hl E; try discriminate; auto.
  injection E as E1 E2. f_equal; [destruct x, y; auto; discriminate|]. apply IH; auto.
Qed.
Lemma crc_shift_alt t low b : length low = 15%nat -> crc_shift (t :: low) b =
  xor_bits (low ++ [false]) (if xorb t b then poly_1021 else repeat false 16).
Proof.
  intros Hl. cbn [crc_shift]. destruct (xorb t b); auto. rewrite xor_false; auto. rewrite app_length. cbn. lia.
Qed.
Lemma shift_lin r r' b b' : length r = 16%nat -> length r' = 16%nat ->
  crc_shift (xor_bits r r') (xorb b b') = xor_bits (crc_shift r b) (crc_shift r' b').
Proof.
  destruct r as [|t low], r' as [|t' low']; cbn [length]; try discriminate. intros Hl Hl'.
  cbn [xor_bits]. rewrite !crc_shift_alt by (rewrite ?xor_bits_length; lia).
  rewrite <- (xor_4 (low ++ [false]) (low' ++ [false])).
  2: rewrite !app_length; cbn; lia.
  2: rewrite !app_length; destruct (xorb t b); cbn; lia.
  2: destruct (xorb t b), (xorb t' b'); reflexivity.
  rewrite xor_app by lia. f_equal. destruct t, t', b, b'; reflexivity.
Qed.
Lemma register_lin w : forall w' r r', length w = length w' -> length r = 16%nat -> length r' = 16%nat ->
  crc_register (xor_bits r r') (xor_bits w w') = xor_bits (crc_register r w) (crc_register r' w').
Proof.
  induction w as [|b w IH]; destruct w' as [|b' w']; cbn; intros r r' Hl Hr Hr'; try discriminate; auto.
  rewrite shift_lin by auto. apply IH; auto using shift_length.
Qed.
Lemma register_app r a b : crc_register r (a ++ b) = crc_register (crc_register r a) b.
Proof. apply fold_left_app. Qed.

Lemma burst init a w1 w2 c : length init = 16%nat -> length w1 = length w2 -> (length w1 <= 16)%nat ->
  crc_register init (a ++ w1 ++ c) = crc_register init (a ++ w2 ++ c) -> w1 = w2.
Proof.
  intros Hi Hl Hw E. rewrite !register_app in E. apply register_inj in E; try (repeat apply register_length; auto).
  set (r := crc_register init a) in *. assert (Hr : length r = 16%nat) by now apply register_length.
  assert (E0 : crc_register (repeat false 16) (xor_bits w1 w2) = repeat false 16).
  { rewrite <- Hr at 1. rewrite <- xor_self, register_lin, E, xor_self by auto.
    f_equal. now apply register_length. }
  apply window_zero in E0; [|auto|now rewrite xor_bits_length].
  apply xor_zero; auto. 
  assert (F : firstn (length w1) (repeat false 16) = firstn (length w1) (xor_bits w1 w2 ++ repeat false (16 - length (xor_bits w1 w2)))).
  { now rewrite <- E0. }
  rewrite firstn_app, xor_bits_length, Nat.sub_diag, firstn_O, app_nil_r in F by auto.
  rewrite <- (xor_bits_length w1 w2) in F at 2 by auto. rewrite firstn_all in F. rewrite <- F.
  clear -Hw. replace 16%nat with (length w1 + (16 - length w1))%nat by lia. rewrite repeat_app.
  rewrite firstn_app, repeat_length, Nat.sub_diag, firstn_O, app_nil_r. rewrite <- (repeat_length false (length w1)) at 1.
  apply firstn_all.
Qed.

(** parity *)
Fixpoint parity (l : list bool) : bool := match l with [] => false | b :: t => xorb b (parity t) end.
Lemma parity_app a b : parity (a ++ b) = xorb (parity a) (parity b).
Proof. induction a; cbn; [now destruct (parity b)|]. now rewrite IHa, xorb_assoc. Qed.
Lemma parity_xor a : forall b, length a = length b -> parity (xor_bits a b) = xorb (parity a) (parity b).
Proof.
  induction a as [|x a IH]; destruct b as [|y b]; cbn; intros; try discriminate; auto.
  rewrite IH by lia. destruct x, y, (parity a), (parity b); reflexivity.
Qed.
Lemma parity_shift reg b : length reg = 16%nat -> parity (crc_shift reg b) = xorb (parity reg) b.
Proof.
  destruct reg as [|t low]; cbn [length]; try discriminate. intros Hl. rewrite crc_shift_alt by lia.
  rewrite parity_xor by (rewrite app_length; destruct (xorb t b); cbn; lia). rewrite parity_app.
  cbn [parity]. destruct t, b, (parity low); reflexivity.
Qed.
Lemma parity_register bits : forall reg, length reg = 16%nat ->
  parity (crc_register reg bits) = xorb (parity reg) (parity bits).
Proof.
  induction bits as [|b bits IH]; intros reg Hr; cbn; [now destruct (parity reg)|].
  unfold crc_register in IH. rewrite IH, parity_shift by auto using shift_length. now rewrite xorb_assoc.
Qed.
