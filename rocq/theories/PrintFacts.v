(** Facts on the model of printf and on the product of doubles. *)
From Coq Require Import SpecFloat.
From Verif Require Import Base Buf Number OctetString Boolean Value Double Time SList Tree Bodies Message File Transport Server ServerMain
  Decimal Printf.

(** ** Digits *)
Lemma digits_of_10 : forall fuel n acc, 0 <= n < 2 ^ Z.of_nat fuel ->
  exists l, digits_of fuel 10 n acc = l ++ acc /\ Forall digit l /\ (fuel <> O -> l <> []) /\ (hd 0 l = 48 -> l = [48]) /\ digits_value l = n.
Proof.
  induction fuel as [|fuel IH]; intros n acc Hn.
  - exists []. cbn in *. repeat split; auto; try lia; congruence.
  - cbn [digits_of]. destruct (Z.ltb_spec n 10).
    + exists [48 + n]. assert (digit_char n = 48 + n) as -> by (unfold digit_char; destruct (Z.ltb_spec n 10); lia).
      split; [reflexivity|]. split; [repeat constructor; unfold digit; lia|]. split; [discriminate|]. split; [cbn [hd]; intros ->; reflexivity|].
      unfold digits_value. cbn [fold_left]. lia.
    + rewrite Nat2Z.inj_succ, Z.pow_succ_r in Hn by lia.
      assert (HD : n = 10 * (n / 10) + n mod 10) by (apply Z.div_mod; lia). pose proof (Z.mod_pos_bound n 10 ltac:(lia)) as HM.
      set (q := n / 10) in *. set (r := n mod 10) in *.
      destruct (IH q (digit_char r :: acc)) as (l & E & F & N & Z0 & V); [lia|].
      assert (digit_char r = 48 + r) as Er by (unfold digit_char; destruct (Z.ltb_spec r 10); lia).
      assert (NL : l <> []) by (intros ->; cbn in V; lia).
      exists (l ++ [48 + r]). rewrite E, Er, <- app_assoc. split; [reflexivity|].
      split; [apply Forall_app; split; [assumption|repeat constructor; unfold digit; lia]|].
      split; [intros _ X; apply app_eq_nil in X; destruct X; discriminate|]. split.
      * intros X. exfalso. destruct l as [|c l]; [congruence|]. cbn [app hd] in X, Z0. specialize (Z0 X). injection Z0 as -> ->. cbn in V. lia.
      * rewrite value_app, V. lia.
Qed.
Lemma decimal_ok n : 0 <= n -> Forall digit (decimal n) /\ decimal n <> [] /\ (hd 0 (decimal n) = 48 -> decimal n = [48]) /\ digits_value (decimal n) = n.
Proof.
  intros Hn. unfold decimal. set (fuel := S (Z.to_nat (Z.log2 n))).
  destruct (digits_of_10 fuel n []) as (l & E & F & N & Z0 & V).
  { split; [assumption|]. unfold fuel. rewrite Nat2Z.inj_succ, Z2Nat.id by apply Z.log2_nonneg.
    destruct (Z.eq_dec n 0) as [->|]; [cbn; lia|]. apply Z.log2_spec; lia. }
  rewrite app_nil_r in E. rewrite E. repeat split; auto. apply N. discriminate.
Qed.
Lemma value_zeros n l : digits_value (repeat 48 n ++ l) = digits_value l.
Proof. induction n as [|n IH]; [reflexivity|]. cbn [repeat app]. rewrite value_cons, IH. lia. Qed.
Lemma with_point_spells v k : spells (minus (v <? 0) ++ with_point (Z.abs v) k) v k.
Proof.
  destruct (decimal_ok (Z.abs v) ltac:(lia)) as (F & N & Z0 & V). unfold with_point. set (d := decimal (Z.abs v)) in *.
  set (p := pad 48 (S k) d). assert (FP : Forall digit p).
  { apply Forall_app. split; [|assumption]. apply Forall_forall. intros x HI. apply repeat_spec in HI. subst. unfold digit. lia. }
  assert (VP : digits_value p = Z.abs v) by (unfold p, pad; now rewrite value_zeros).
  assert (LP : (S k <= length p)%nat) by (unfold p, pad; rewrite app_length, repeat_length; lia).
  exists (firstn (length p - k) p), (skipn (length p - k) p). rewrite firstn_skipn. split.
  - unfold minus. f_equal. f_equal. destruct k; [|reflexivity]. rewrite Nat.sub_0_r, skipn_all. reflexivity.
  - split; [assumption|]. split; [rewrite skipn_length; lia|]. split.
    + intros X. apply (f_equal (@length Z)) in X. rewrite firstn_length in X. cbn [length] in X. lia.
    + split; [|assumption]. destruct (Nat.le_gt_cases (length d) k).
      * unfold p, pad. rewrite app_length, repeat_length. replace (S k - length d + length d - k)%nat with 1%nat by lia.
        destruct (S k - length d)%nat eqn:Es; [lia|]. reflexivity.
      * assert (p = d) as -> by (unfold p, pad; replace (S k - length d)%nat with O by lia; reflexivity).
        destruct (length d - k)%nat eqn:El; [lia|]. destruct d as [|c d]; [congruence|]. cbn [firstn hd]. intros ->.
        specialize (Z0 eq_refl). injection Z0 as ->. now rewrite firstn_nil.
Qed.
Lemma decimal_spells n : 0 <= n -> spells (decimal n) n 0.
Proof.
  intros Hn. destruct (decimal_ok n Hn) as (F & N & Z0 & V). exists (decimal n), []. rewrite !app_nil_r.
  destruct (Z.ltb_spec n 0); [lia|]. rewrite Z.abs_eq by lia. auto 10.
Qed.

(** ** The product *)
Lemma aux_error s P e : 2 ^ 52 <= Zpos P -> -900 <= Z.log2 (Zpos P) + e <= 900 ->
  exists q n, binary_round_aux 53 1024 s (Zpos P) e loc_Exact = S754_finite s q (e + n) /\ 0 <= n /\ 2 ^ 52 <= Zpos q < 2 ^ 53 /\
    2 ^ 53 * Z.abs (Zpos q * 2 ^ n - Zpos P) <= Zpos P.
Proof.
  intros HP HB.
  assert (PW : forall a, 0 <= a -> 0 < 2 ^ a) by (intros; apply Z.pow_pos_nonneg; lia).
  assert (L52 : 52 <= Z.log2 (Zpos P)) by (apply Z.log2_le_pow2; lia). pose proof (Z.log2_spec (Zpos P) ltac:(lia)) as LS.
  set (L := Z.log2 (Zpos P)) in *. 
  pose (k := L - 52). assert (Hk : 0 <= k) by (unfold k; lia). assert (Kd : k = L - 52) by reflexivity. clearbody k.
  assert (E1 : shr_fexp 53 1024 (Zpos P) e loc_Exact = (cut (Zpos P) (Z.to_nat k), e + k)).
  { unfold shr_fexp. cbn [Zdigits2 shr_record_of_loc]. rewrite digits_log. fold L. rewrite fexp_small by lia.
    replace (L + 1 + e - 53 - e) with k by lia. unfold shr. destruct k as [|kp|kp] eqn:Ek; [|rewrite iter_pos_nat, cut_iter by lia; reflexivity|lia].
    change (Z.to_nat 0) with O. unfold cut. change (2 ^ Z.of_nat 0) with 1. rewrite Z.div_1_r, Z.add_0_r. reflexivity. }
  unfold binary_round_aux. rewrite E1.
  set (q := round_nearest_even _ _) in *.
  assert (PK : 2 ^ L = 2 ^ 52 * 2 ^ k) by (rewrite <- Z.pow_add_r by lia; f_equal; lia).
  rewrite Z.pow_succ_r in LS by lia. pose proof (PW k Hk) as Pk.
  assert (Q : 2 ^ 52 <= q <= 2 ^ 53 /\ 2 * Z.abs (q * 2 ^ k - Zpos P) <= 2 ^ k).
  { destruct (Z.eq_dec k 0) as [Z0|NZ].
    - unfold q. rewrite Z0. change (Z.to_nat 0) with O. unfold cut, loc_of_shr_record, round_nearest_even. cbn [shr_m].
      change (2 ^ Z.of_nat 0) with 1. rewrite Z.div_1_r. rewrite Z0 in *. change (2 ^ 0) with 1 in *. lia.
    - destruct (cut_round (Zpos P) (Z.to_nat k) ltac:(lia) ltac:(lia)) as (Q & R1 & _). rewrite Z2Nat.id in Q, R1 by lia. fold q in Q, R1.
      split; [|assumption]. assert (2 ^ 52 <= Zpos P / 2 ^ k < 2 ^ 53); [|lia]. split.
      + apply Z.div_le_lower_bound; lia.
      + apply Z.div_lt_upper_bound; lia. }
  destruct Q as [Hq R]. unfold shr_fexp. destruct (Z.eq_dec q (2 ^ 53)) as [Eq|Nq].
  - rewrite Eq. change (2 ^ 53) with (Zpos 9007199254740992). cbn [Zdigits2 shr_record_of_loc]. rewrite digits_log.
    change (Z.log2 (Zpos 9007199254740992)) with 53. rewrite fexp_small by lia. replace (53 + 1 + (e + k) - 53 - (e + k)) with 1 by lia.
    cbn [shr SpecFloat.iter_pos shr_1 shr_m]. destruct (Z.leb_spec (e + k + 1) (1024 - 53)); [|lia].
    eexists _, (k + 1). split; [f_equal; lia|]. split; [lia|]. split; [lia|]. rewrite Eq in R. rewrite (Z.pow_add_r 2 k 1) by lia. lia.
  - clearbody q. destruct q as [|qp|qp]; [lia| |lia]. cbn [Zdigits2 shr_record_of_loc]. rewrite digits_log.
    assert (Lq : Z.log2 (Zpos qp) = 52) by (apply Z.log2_unique; lia). rewrite Lq. rewrite fexp_small by lia.
    replace (52 + 1 + (e + k) - 53 - (e + k)) with 0 by lia. cbn [shr shr_m].
    destruct (Z.leb_spec (e + k) (1024 - 53)); [|lia]. exists qp, k. split; [reflexivity|]. split; [lia|]. split; [lia|]. lia.
Qed.

Lemma mul_error s1 s2 m1 m2 e1 e2 : 2 ^ 52 <= Zpos m1 ->
  -900 <= Z.log2 (Zpos m1 * Zpos m2) + e1 + e2 <= 900 ->
  exists q n, SFmul 53 1024 (S754_finite s1 m1 e1) (S754_finite s2 m2 e2) = S754_finite (xorb s1 s2) q (e1 + e2 + n) /\ 0 <= n /\
    2 ^ 53 * Z.abs (Zpos q * 2 ^ n - Zpos m1 * Zpos m2) <= Zpos m1 * Zpos m2.
Proof.
  intros H1 HB. cbn [SFmul]. change (Zpos m1 * Zpos m2) with (Zpos (m1 * m2)) in *.
  destruct (aux_error (xorb s1 s2) (m1 * m2) (e1 + e2)) as (q & n & E & Hn & _ & HE); [nia|lia|]. exists q, n. auto.
Qed.
Lemma integer_error s p : Zpos p < 2 ^ 64 -> exists m e, binary_round 53 1024 s p 0 = S754_finite s m e /\ 2 ^ 52 <= Zpos m < 2 ^ 53 /\ -52 <= e <= 13 /\
  2 ^ 53 * Z.abs (Zpos m * 2 ^ (60 + e) - Zpos p * 2 ^ 60) <= Zpos p * 2 ^ 60 /\
  (Zpos p < 2 ^ 53 -> Zpos m * 2 ^ (60 + e) = Zpos p * 2 ^ 60).
Proof.
  intros Hp. pose proof (Z.log2_nonneg (Zpos p)) as L0. destruct (Z.lt_ge_cases (Zpos p) (2 ^ 53)) as [HL|HG].
  - assert (L1 : Z.log2 (Zpos p) < 53) by (apply Z.log2_lt_pow2; lia). pose proof (Z.log2_spec (Zpos p) ltac:(lia)) as LS.
    destruct (round_small s p HL) as (m & -> & Hm). set (l := Z.log2 (Zpos p)) in *. exists m, (l - 52). split; [reflexivity|].
    assert (Lm : Z.log2 (Zpos m) = 52) by (rewrite Hm, Z.log2_mul_pow2 by lia; fold l; lia).
    assert (EQ : Zpos m * 2 ^ (60 + (l - 52)) = Zpos p * 2 ^ 60).
    { rewrite Hm, <- Z.mul_assoc, <- Z.pow_add_r by lia. do 2 f_equal. lia. }
    split; [pose proof (Z.log2_spec (Zpos m) ltac:(lia)) as X; rewrite Lm in X; exact X|]. split; [lia|]. split; [|auto]. rewrite EQ, Z.sub_diag. lia.
  - assert (L1 : 53 <= Z.log2 (Zpos p)) by (apply Z.log2_le_pow2; lia). assert (L2 : Z.log2 (Zpos p) < 64) by (apply Z.log2_lt_pow2; lia).
    unfold binary_round. rewrite digits_log. rewrite fexp_small by lia. unfold shl_align. set (l := Z.log2 (Zpos p)) in *.
    assert (match l + 1 + 0 - 53 - 0 with Z.neg d => (shift_pos d p, l + 1 + 0 - 53) | _ => (p, 0) end = (p, 0)) as ->
      by (destruct (l + 1 + 0 - 53 - 0) eqn:E; [reflexivity|reflexivity|lia]).
    destruct (aux_error s p 0) as (q & n & -> & Hn & Hq & HE); [lia|fold l; lia|]. exists q, (0 + n). split; [reflexivity|]. split; [assumption|].
    assert (PN : 0 < 2 ^ n) by (apply Z.pow_pos_nonneg; lia).
    assert (n <= 13). { destruct (Z.le_gt_cases n 13); [assumption|exfalso]. assert (2 ^ 14 <= 2 ^ n) by (apply Z.pow_le_mono_r; lia).
      assert (2 ^ 52 * 2 ^ 14 <= Zpos q * 2 ^ n) by nia. change (2 ^ 52 * 2 ^ 14) with (4 * 2 ^ 64) in *. lia. }
    split; [lia|]. rewrite (Z.pow_add_r 2 60) by lia. rewrite Z.add_0_l.
    replace (Zpos q * (2 ^ 60 * 2 ^ n) - Zpos p * 2 ^ 60) with ((Zpos q * 2 ^ n - Zpos p) * 2 ^ 60) by ring.
    rewrite Z.abs_mul. change (Z.abs (2 ^ 60)) with (2 ^ 60). split; [|lia]. lia.
Qed.

(** ** Powers of ten *)
(** [f] is a double as near to 10 ^ s as glibc promises for pow: less than one unit
    in the last place away, that is, relative to 10 ^ s, by at most 2 ^ -52. *)
Definition near_power (s : Z) (f : spec_float) : Prop :=
  exists m e, f = S754_finite false m e /\ valid_binary 53 1024 f = true /\
    2 ^ 52 * Z.abs (Zpos m * 10 ^ Z.max (- s) 0 * 2 ^ Z.max e 0 - 10 ^ Z.max s 0 * 2 ^ Z.max (- e) 0)
      <= 10 ^ Z.max s 0 * 2 ^ Z.max (- e) 0.
(** for all the scalers there are *)
Definition accurate (pow10 : Z -> spec_float) : Prop := forall s, -128 <= s <= 127 -> near_power s (pow10 s).

(** Fixed point numbers with 2000 binary places. *)
Definition U (z : Z) : Z := 2 ^ (2000 + z).
Lemma U_pos z : -2000 <= z -> 0 < U z.
Proof. intros Hz. apply Z.pow_pos_nonneg; lia. Qed.
Lemma U_add a b : -2000 <= a -> 0 <= b -> U (a + b) = U a * 2 ^ b.
Proof. intros Ha Hb. unfold U. rewrite <- Z.pow_add_r by lia. f_equal. lia. Qed.
Lemma U_log a z : 0 < a -> -2000 <= z -> Z.log2 (a * U z) = Z.log2 a + 2000 + z.
Proof. intros Ha Hz. unfold U. rewrite Z.log2_mul_pow2 by lia. lia. Qed.
Lemma nearest_near a e : 0 <= a -> -2000 <= e -> 2 * Z.abs (nearest a e * U 0 - a * U e) <= U 0.
Proof.
  intros Ha He. pose proof (U_pos e He) as Pe. pose proof (U_pos 0 ltac:(lia)) as P0. unfold nearest. destruct (Z.leb_spec 0 e).
  - replace (U e) with (U 0 * 2 ^ e) by (rewrite <- U_add by lia; f_equal; lia). replace (a * 2 ^ e * U 0 - a * (U 0 * 2 ^ e)) with 0 by ring. lia.
  - assert (EU : U 0 = U e * 2 ^ (- e)) by (rewrite <- U_add by lia; f_equal; lia). rewrite EU.
    set (w := 2 ^ (- e)) in *. assert (Hw : 0 < w) by (apply Z.pow_pos_nonneg; lia).
    pose proof (Z.div_mod a w ltac:(lia)) as D. pose proof (Z.mod_pos_bound a w Hw) as M. set (q := a / w) in *. set (r := a mod w) in *.
    match goal with |- context [?n * (U e * w) - _] => set (N := n) end. assert (HN : 2 * Z.abs (N * w - a) <= w).
    { unfold N. destruct (Z.ltb_spec (2 * r) w); [lia|]. destruct (Z.ltb_spec w (2 * r)); [lia|]. destruct (Z.even q); lia. }
    replace (N * (U e * w) - a * U e) with ((N * w - a) * U e) by ring. rewrite Z.abs_mul, (Z.abs_eq (U e)) by lia. nia.
Qed.
Lemma ten_pow k : 0 <= k <= 128 -> 0 < 10 ^ k <= 2 ^ 426.
Proof.
  intros Hk. split; [apply Z.pow_pos_nonneg; lia|]. apply Z.le_trans with (10 ^ 128); [apply Z.pow_le_mono_r; lia|]. vm_compute. discriminate.
Qed.
Lemma power_fixed s f : -128 <= s <= 127 -> near_power s f ->
  exists m e, f = S754_finite false m e /\ -1074 <= e <= 971 /\
    2 ^ 52 * Z.abs (Zpos m * 10 ^ Z.max (- s) 0 * U e - 10 ^ Z.max s 0 * U 0) <= 10 ^ Z.max s 0 * U 0.
Proof.
  intros Hs (m & e & -> & HV & HE). exists m, e. split; [reflexivity|].
  cbn [valid_binary] in HV. unfold bounded, canonical_mantissa in HV. apply andb_true_iff in HV. destruct HV as [V1 V2].
  apply Zeq_bool_eq in V1. apply Zle_bool_imp_le in V2. unfold fexp, emin in V1. assert (He : -1074 <= e <= 971) by lia. split; [assumption|].
  set (A := 10 ^ Z.max (- s) 0) in *. set (B := 10 ^ Z.max s 0) in *.
  set (g := 2 ^ (2000 - Z.max (- e) 0)). assert (Hg : 0 < g) by (apply Z.pow_pos_nonneg; lia).
  assert (G1 : U e = 2 ^ Z.max e 0 * g) by (unfold U, g; rewrite <- Z.pow_add_r by lia; f_equal; lia).
  assert (G2 : U 0 = 2 ^ Z.max (- e) 0 * g) by (unfold U, g; rewrite <- Z.pow_add_r by lia; f_equal; lia).
  rewrite G1, G2. set (x := 2 ^ Z.max e 0) in *. set (y := 2 ^ Z.max (- e) 0) in *.
  replace (Zpos m * A * (x * g) - B * (y * g)) with ((Zpos m * A * x - B * y) * g) by ring.
  rewrite Z.abs_mul, (Z.abs_eq g) by lia. rewrite !Z.mul_assoc. apply Z.mul_le_mono_nonneg_r; [lia|]. exact HE.
Qed.

(** ** A number times a power of ten *)
Lemma product s1 m1 e1 s f : 2 ^ 52 <= Zpos m1 < 2 ^ 53 -> -60 <= e1 <= 20 -> -128 <= s <= 127 -> near_power s f ->
  let A := 10 ^ Z.max (- s) 0 in let B := 10 ^ Z.max s 0 in
  exists q e, SFmul 53 1024 (S754_finite s1 m1 e1) f = S754_finite s1 q e /\ -2000 <= e /\
    2 ^ 54 * Z.abs (Zpos q * A * U e - Zpos m1 * B * U e1) <= 7 * (Zpos m1 * B * U e1).
Proof.
  intros H1 He1 Hs HF A B. destruct (power_fixed s f Hs HF) as (m2 & e2 & -> & He2 & HE). fold A B in HE.
  destruct (ten_pow (Z.max (- s) 0) ltac:(lia)) as [HA1 HA2]. destruct (ten_pow (Z.max s 0) ltac:(lia)) as [HB1 HB2]. fold A in HA1, HA2. fold B in HB1, HB2.
  pose proof (U_pos e2 ltac:(lia)) as P2. pose proof (U_pos 0 ltac:(lia)) as P0.
  assert (L1 : Z.log2 (Zpos m1) = 52) by (apply Z.log2_unique; lia).
  set (Y := Zpos m2 * A * U e2) in *. set (b := B * U 0) in *.
  assert (Hb : U 0 <= b <= 2 ^ 426 * U 0) by (unfold b; nia).
  assert (Lo : 2 ^ 1573 <= Zpos m2 * U e2).
  { assert (U 0 <= 2 * Y) by lia. assert (Y <= 2 ^ 426 * (Zpos m2 * U e2)) by (unfold Y; nia).
    assert (U 0 = 2 ^ 427 * 2 ^ 1573) as E0 by reflexivity. assert (2 ^ 427 = 2 * 2 ^ 426) as E1 by reflexivity. rewrite E1 in E0.
    clear - H H0 E0. set (x := 2 ^ 1573) in *. set (y := 2 ^ 426) in *. assert (0 < y) by (apply Z.pow_pos_nonneg; lia). nia. }
  assert (Hi : Zpos m2 * U e2 < 2 ^ 2428).
  { assert (Y <= 2 * b) by lia. assert (Zpos m2 * U e2 <= Y) by (unfold Y; nia).
    assert (2 ^ 2428 = 4 * (2 ^ 426 * U 0)) as -> by reflexivity. lia. }
  apply Z.log2_le_pow2 in Lo; [|lia]. apply Z.log2_lt_pow2 in Hi; [|lia]. rewrite U_log in Lo, Hi by lia.
  pose proof (Z.log2_mul_below (Zpos m1) (Zpos m2) ltac:(lia) ltac:(lia)) as M1. pose proof (Z.log2_mul_above (Zpos m1) (Zpos m2) ltac:(lia) ltac:(lia)) as M2.
  destruct (mul_error s1 false m1 m2 e1 e2 ltac:(lia) ltac:(lia)) as (q & n & -> & Hn & HQ). rewrite xorb_false_r.
  exists q, (e1 + e2 + n). split; [reflexivity|]. split; [lia|].
  set (c := 2 ^ (60 + e1)). assert (Hc : 0 < c) by (apply Z.pow_pos_nonneg; lia).
  set (d := U (e2 - 60)). assert (Hd : 0 < d) by (apply U_pos; lia). set (d0 := U (-60)). assert (Hd0 : 0 < d0) by (apply U_pos; lia).
  assert (G1 : U (e1 + e2 + n) = d * c * 2 ^ n) by (unfold d, c; rewrite <- !U_add by lia; f_equal; lia).
  assert (G2 : U e1 = d0 * c) by (unfold d0, c; rewrite <- U_add by lia; f_equal; lia).
  assert (G3 : U e2 = d * 2 ^ 60) by (unfold d; rewrite <- U_add by lia; f_equal; lia).
  assert (G4 : U 0 = d0 * 2 ^ 60) by (unfold d0; rewrite <- U_add by lia; f_equal; lia).
  rewrite G1, G2. set (N := 2 ^ n) in *.
  assert (HE' : 2 ^ 52 * Z.abs (Zpos m2 * A * d - B * d0) <= B * d0).
  { unfold Y, b in HE. rewrite G3, G4 in HE. replace (Zpos m2 * A * (d * 2 ^ 60) - B * (d0 * 2 ^ 60)) with ((Zpos m2 * A * d - B * d0) * 2 ^ 60) in HE by ring.
    rewrite Z.abs_mul in HE. change (Z.abs (2 ^ 60)) with (2 ^ 60) in HE. lia. }
  set (X := Zpos q * A * (d * c * N)). set (b1 := Zpos m1 * B * (d0 * c)). set (Y1 := Zpos m1 * Zpos m2 * A * d * c).
  assert (K1 : 2 ^ 53 * Z.abs (X - Y1) <= Y1).
  { assert (0 < A * d * c) as HADC by nia. replace (X - Y1) with ((Zpos q * N - Zpos m1 * Zpos m2) * (A * d * c)) by (unfold X, Y1; ring).
    rewrite Z.abs_mul, (Z.abs_eq (A * d * c)) by lia. replace Y1 with (Zpos m1 * Zpos m2 * (A * d * c)) by (unfold Y1; ring).
    rewrite Z.mul_assoc. apply Z.mul_le_mono_nonneg_r; [lia|]. exact HQ. }
  assert (K2 : 2 ^ 52 * Z.abs (Y1 - b1) <= b1).
  { assert (0 < Zpos m1 * c) as HMC by nia. replace (Y1 - b1) with ((Zpos m2 * A * d - B * d0) * (Zpos m1 * c)) by (unfold Y1, b1; ring).
    rewrite Z.abs_mul, (Z.abs_eq (Zpos m1 * c)) by lia. replace b1 with (B * d0 * (Zpos m1 * c)) by (unfold b1; ring).
    rewrite Z.mul_assoc. apply Z.mul_le_mono_nonneg_r; [lia|]. exact HE'. }
  clearbody X Y1 b1. lia.
Qed.

Lemma cancel_le c a b u : 0 < u -> c * (a * u) <= b * u -> c * a <= b.
Proof. intros Hu HL. apply (Z.mul_le_mono_pos_r _ _ u Hu). lia. Qed.
Lemma cancel_lt c a b u : 0 < u -> c * (a * u) < b * u -> c * a < b.
Proof. intros Hu HL. apply (Z.mul_lt_mono_pos_r u _ _ Hu). lia. Qed.
Lemma errors_near X b y n u : 2 ^ 54 * Z.abs (X - b) <= 7 * b -> 2 ^ 53 * Z.abs (b - y) <= y -> 2 * Z.abs (n - X) <= u ->
  2 ^ 50 * Z.abs (n - y) <= y + 2 ^ 49 * u.
Proof. intros. assert (0 <= u) by lia. assert (2 ^ 54 * Z.abs (X - y) <= 10 * y) by lia. lia. Qed.
Lemma errors_exact X y n u : 0 < u -> 2 ^ 54 * Z.abs (X - y) <= 7 * y -> y <= 2 ^ 50 * u -> 2 * Z.abs (n - X) <= u -> Z.abs (n - y) < u.
Proof. intros. lia. Qed.

Lemma printed_number pow10 v s : accurate pow10 -> Z.abs v < 2 ^ 64 -> -128 <= s <= 127 ->
  let B := 10 ^ Z.max s 0 in let k := Z.to_nat (Z.max (- s) 0) in
  exists N, spells (format_f k (SFmul 53 1024 (double_of_Z v) (pow10 s))) N k /\
    2 ^ 50 * Z.abs (N - v * B) <= Z.abs v * B + 2 ^ 49 /\ (Z.abs v * B <= 2 ^ 50 -> N = v * B).
Proof.
  intros HP Hv Hs B k. pose proof (HP s Hs) as HF. assert (HB : 0 < B) by (apply Z.pow_pos_nonneg; lia).
  destruct (Z.eq_dec v 0) as [->|NZ].
  { destruct HF as (m & e & E & _). rewrite E. exists 0. split; [exact (with_point_spells 0 k)|]. split; [|reflexivity]. lia. }
  assert (EV : exists p, v = (if v <? 0 then -1 else 1) * Zpos p /\ double_of_Z v = binary_round 53 1024 (v <? 0) p 0).
  { destruct v as [|p|p]; [congruence|exists p; split; reflexivity|exists p; split; reflexivity]. }
  destruct EV as (p & Ev & ->). destruct (integer_error (v <? 0) p ltac:(destruct (v <? 0); lia)) as (m1 & e1 & -> & H1 & He1 & D1 & D2).
  destruct (product (v <? 0) m1 e1 s (pow10 s) H1 ltac:(lia) Hs HF) as (q & e & -> & He & HX). cbn [format_f].
  assert (EK : Z.of_nat k = Z.max (- s) 0) by (unfold k; lia). rewrite EK. set (A := 10 ^ Z.max (- s) 0) in *. fold B in HX.
  assert (HA : 0 < A) by (apply Z.pow_pos_nonneg; lia).
  pose proof (nearest_near (Zpos q * A) e ltac:(lia) He) as HN. set (N := nearest (Zpos q * A) e) in *.
  set (u := U 0) in *. assert (Hu : 0 < u) by (apply U_pos; lia).
  set (X := Zpos q * A * U e) in *. set (b := Zpos m1 * B * U e1) in *. set (t := Zpos p * B).
  assert (G1 : U e1 = 2 ^ (60 + e1) * U (-60)) by (rewrite Z.mul_comm, <- U_add by lia; f_equal; lia).
  assert (G2 : u = 2 ^ 60 * U (-60)) by (unfold u; rewrite Z.mul_comm, <- U_add by lia; f_equal; lia).
  set (g := U (-60)) in *. assert (Hg : 0 < g) by (apply U_pos; lia).
  assert (K1 : 2 ^ 53 * Z.abs (b - t * u) <= t * u).
  { replace (b - t * u) with ((Zpos m1 * 2 ^ (60 + e1) - Zpos p * 2 ^ 60) * (B * g)) by (unfold b, t; rewrite G1, G2; ring).
    replace (t * u) with (Zpos p * 2 ^ 60 * (B * g)) by (unfold t; rewrite G2; ring). assert (0 < B * g) by nia.
    rewrite Z.abs_mul, (Z.abs_eq (B * g)) by lia. rewrite Z.mul_assoc. apply Z.mul_le_mono_nonneg_r; [lia|]. exact D1. }
  assert (K2 : Zpos p < 2 ^ 53 -> b = t * u).
  { intros Hp. specialize (D2 Hp). unfold b, t. rewrite G1, G2. replace (Zpos m1 * B * (2 ^ (60 + e1) * g)) with (Zpos m1 * 2 ^ (60 + e1) * (B * g)) by ring. rewrite D2. ring. }
  assert (HPt : Zpos p <= t) by (unfold t; apply Z.le_mul_diag_r; lia).
  assert (Ht : 1 <= t) by lia.
  clearbody X b N u g. clear G1 G2 HF HP.
  assert (Near : 2 ^ 50 * Z.abs (N - t) <= t + 2 ^ 49).
  { pose proof (errors_near X b (t * u) (N * u) u HX K1 HN) as Q. replace (N * u - t * u) with ((N - t) * u) in Q by ring. rewrite Z.abs_mul, (Z.abs_eq u) in Q by lia.
    apply (cancel_le _ _ _ u Hu). replace ((t + 2 ^ 49) * u) with (t * u + 2 ^ 49 * u) by ring. exact Q. }
  assert (Exact : t <= 2 ^ 50 -> N = t).
  { intros Hl. specialize (K2 (Z.le_lt_trans _ _ _ HPt (Z.le_lt_trans _ (2 ^ 50) (2 ^ 53) Hl eq_refl))). rewrite K2 in HX. pose proof (errors_exact X (t * u) (N * u) u Hu HX (Z.mul_le_mono_nonneg_r _ _ u (Z.lt_le_incl _ _ Hu) Hl) HN) as Q.
    replace (N * u - t * u) with ((N - t) * u) in Q by ring. rewrite Z.abs_mul, (Z.abs_eq u) in Q by lia.
    assert (1 * Z.abs (N - t) < 1) as Q1 by (apply (cancel_lt _ _ _ u Hu); lia). clear - Q1. lia. }
  clear HX K1 K2 HN D1 D2 H1.
  assert (HN1 : 1 <= N). { destruct (Z.le_gt_cases t (2 ^ 50)); [rewrite Exact by assumption; assumption|lia]. }
  exists ((if v <? 0 then -1 else 1) * N). split.
  - pose proof (with_point_spells ((if v <? 0 then -1 else 1) * N) k) as W.
    replace (Z.abs ((if v <? 0 then -1 else 1) * N)) with N in W by (destruct (v <? 0); lia).
    replace ((if v <? 0 then -1 else 1) * N <? 0) with (v <? 0) in W; [exact W|].
    destruct (v <? 0); symmetry; [apply Z.ltb_lt|apply Z.ltb_ge]; lia.
  - assert (EB : v * B = (if v <? 0 then -1 else 1) * t) by (rewrite Ev at 1; unfold t; ring).
    assert (EA : Z.abs v * B = t) by (rewrite Ev; unfold t; destruct (v <? 0); lia).
    rewrite EB, EA. split.
    + replace ((if v <? 0 then -1 else 1) * N - (if v <? 0 then -1 else 1) * t) with ((if v <? 0 then -1 else 1) * (N - t)) by ring.
      destruct (v <? 0); lia.
    + intros Hl. now rewrite Exact.
Qed.
