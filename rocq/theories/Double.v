(** Conversion of integers to double: correctly rounded. *)
From Coq Require Import SpecFloat.
From Verif Require Import Base Buf Number OctetString Boolean Value.

(** the integer a double stands for *)
Definition denotes (f : spec_float) (r : Z) : Prop :=
  match f with
  | S754_zero _ => r = 0
  | S754_finite s m e => (if s then -1 else 1) * Zpos m * 2 ^ Z.max e 0 = r * 2 ^ Z.max (- e) 0
  | _ => False
  end.
(** [r] is [z] rounded to 53 significant bits, to nearest, ties to even *)
Definition rounded (z r : Z) : Prop :=
  (Z.abs z <= 2 ^ 53 /\ r = z) \/
  (exists k q, 0 < k /\ 2 ^ (k + 52) <= Z.abs z < 2 ^ (k + 53) /\ r = q * 2 ^ k /\
     2 * Z.abs (r - z) <= 2 ^ k /\ (2 * Z.abs (r - z) = 2 ^ k -> Z.even q = true)).

Lemma digits_log p : Zpos (digits2_pos p) = Z.log2 (Zpos p) + 1.
Proof.
  induction p; cbn [digits2_pos]; rewrite ?Pos2Z.inj_succ, ?IHp; try reflexivity.
  - change (Zpos p~1) with (2 * Zpos p + 1). rewrite Z.log2_succ_double by lia. lia.
  - change (Zpos p~0) with (2 * Zpos p). rewrite Z.log2_double by lia. lia.
Qed.
Lemma fexp_small d : -1021 <= d - 53 -> fexp 53 1024 d = d - 53.
Proof. intros Hd. unfold fexp, emin. lia. Qed.
Lemma shift_pos_mul d p : Zpos (shift_pos d p) = Zpos p * 2 ^ Zpos d.
Proof. now rewrite shift_pos_correct, Z.pow_pos_fold, Z.mul_comm. Qed.

Lemma round_small s p : Zpos p < 2 ^ 53 ->
  exists m, binary_round 53 1024 s p 0 = S754_finite s m (Z.log2 (Zpos p) - 52) /\
    Zpos m = Zpos p * 2 ^ (52 - Z.log2 (Zpos p)).
Proof.
  intros Hp. pose proof (Z.log2_nonneg (Zpos p)) as L0.
  assert (L1 : Z.log2 (Zpos p) < 53) by (apply Z.log2_lt_pow2; lia). set (l := Z.log2 (Zpos p)) in *.
  unfold binary_round. rewrite digits_log. fold l. rewrite fexp_small by lia.
  replace (l + 1 + 0 - 53) with (l - 52) by lia. unfold shl_align.
  assert (HM : exists m, match l - 52 - 0 with Z.neg d => (shift_pos d p, l - 52) | _ => (p, 0) end = (m, l - 52) /\
     Zpos m = Zpos p * 2 ^ (52 - l)).
  { destruct (l - 52 - 0) as [|d|d] eqn:E.
    - exists p. split; [f_equal; lia|]. replace (52 - l) with 0 by lia. lia.
    - lia.
    - exists (shift_pos d p). split; auto. rewrite shift_pos_mul. f_equal. f_equal. lia. }
  destruct HM as (m & -> & Hm). exists m. split; auto.
  assert (Lm : Z.log2 (Zpos m) = 52).
  { rewrite Hm. rewrite Z.log2_mul_pow2 by lia. fold l. lia. }
  unfold binary_round_aux. unfold shr_fexp. cbn [Zdigits2]. rewrite digits_log, Lm. rewrite fexp_small by lia.
  replace (52 + 1 + (l - 52) - 53 - (l - 52)) with 0 by lia. cbn [shr shr_record_of_loc loc_of_shr_record round_nearest_even shr_m].
  cbn [Zdigits2]. rewrite digits_log, Lm. rewrite fexp_small by lia.
  replace (52 + 1 + (l - 52) - 53 - (l - 52)) with 0 by lia. cbn [shr shr_m].
  destruct (Z.leb_spec (l - 52) (1024 - 53)); [reflexivity|lia].
Qed.

(** *** shifting right *)
Fixpoint rep {A} (n : nat) (f : A -> A) (x : A) : A := match n with O => x | S n' => f (rep n' f x) end.
Lemma iter_pos_nat {A} (f : A -> A) n : forall x, SpecFloat.iter_pos f n x = rep (Pos.to_nat n) f x.
Proof.
  assert (S : forall n x, rep n f (f x) = f (rep n f x)) by (induction n0; intros; cbn; congruence).
  assert (A2 : forall a b x, rep (a + b) f x = rep a f (rep b f x)) by (induction a; intros; cbn; congruence).
  induction n; intros x; cbn [SpecFloat.iter_pos].
  - rewrite !IHn. rewrite <- A2, S. rewrite Pos2Nat.inj_xI. cbn [rep]. do 2 f_equal. lia.
  - rewrite !IHn. rewrite <- A2. rewrite Pos2Nat.inj_xO. f_equal. lia.
  - reflexivity.
Qed.
Definition cut (z : Z) (i : nat) : shr_record :=
  {| shr_m := z / 2 ^ Z.of_nat i;
     shr_r := match i with O => false | S j => Z.odd (z / 2 ^ Z.of_nat j) end;
     shr_s := match i with O => false | S j => negb (z mod 2 ^ Z.of_nat j =? 0) end |}.
Lemma shr_1_eq m r s : 0 <= m -> shr_1 {| shr_m := m; shr_r := r; shr_s := s |} =
  {| shr_m := m / 2; shr_r := Z.odd m; shr_s := r || s |}.
Proof.
  intros Hm. rewrite <- Z.div2_div. destruct m as [|[p|p|]|]; try reflexivity. lia.
Qed.
Lemma cut_step z i : 0 <= z -> shr_1 (cut z i) = cut z (S i).
Proof.
  intros Hz. unfold cut at 1. rewrite shr_1_eq by (apply Z.div_pos; [lia|apply Z.pow_pos_nonneg; lia]).
  unfold cut. assert (0 < 2 ^ Z.of_nat i) by (apply Z.pow_pos_nonneg; lia). f_equal.
  - rewrite Z.div_div by lia. rewrite Nat2Z.inj_succ, Z.pow_succ_r by lia. f_equal. lia.
  - destruct i as [|i]; [change (2 ^ Z.of_nat 0) with 1; now rewrite Z.mod_1_r|].
    assert (0 < 2 ^ Z.of_nat i) by (apply Z.pow_pos_nonneg; lia).
    rewrite Nat2Z.inj_succ, Z.pow_succ_r by lia. rewrite (Z.mul_comm 2 (2 ^ Z.of_nat i)).
    rewrite (Z.rem_mul_r z (2 ^ Z.of_nat i) 2) by lia.
    rewrite Zmod_odd. pose proof (Z.mod_pos_bound z (2 ^ Z.of_nat i)).
    destruct (Z.odd (z / 2 ^ Z.of_nat i)), (Z.eqb_spec (z mod 2 ^ Z.of_nat i) 0) as [E|E]; cbn [orb negb].
    + rewrite E. destruct (Z.eqb_spec (0 + 2 ^ Z.of_nat i * 1) 0); [lia|reflexivity].
    + destruct (Z.eqb_spec (z mod 2 ^ Z.of_nat i + 2 ^ Z.of_nat i * 1) 0); [lia|reflexivity].
    + rewrite E. now rewrite Z.mul_0_r.
    + destruct (Z.eqb_spec (z mod 2 ^ Z.of_nat i + 2 ^ Z.of_nat i * 0) 0); [lia|reflexivity].
Qed.
Lemma cut_iter z n : 0 <= z -> rep n shr_1 {| shr_m := z; shr_r := false; shr_s := false |} = cut z n.
Proof.
  intros Hz. induction n as [|n IH]; [unfold cut; cbn [rep]; now rewrite Z.div_1_r|].
  cbn [rep]. now rewrite IH, cut_step.
Qed.
Lemma cut_round z n : 0 <= z -> (1 <= n)%nat ->
  let q := round_nearest_even (shr_m (cut z n)) (loc_of_shr_record (cut z n)) in
  let w := 2 ^ Z.of_nat n in
  (q = z / w \/ q = z / w + 1) /\ 2 * Z.abs (q * w - z) <= w /\ (2 * Z.abs (q * w - z) = w -> Z.even q = true).
Proof.
  intros Hz Hn q w. destruct n as [|i]; [lia|]. unfold w. rewrite Nat2Z.inj_succ, Z.pow_succ_r by lia.
  set (h := 2 ^ Z.of_nat i) in *. assert (Hh : 0 < h) by (apply Z.pow_pos_nonneg; lia).
  set (a := z / h). assert (EA : z = h * a + z mod h) by apply Z.div_mod, Z.neq_sym, Z.lt_neq, Hh.
  pose proof (Z.mod_pos_bound z h Hh) as HM. set (c := z mod h) in *.
  assert (ED : z / (2 * h) = a / 2) by (unfold a; rewrite Z.div_div by lia; f_equal; lia).
  pose proof (Z.div_mod a 2 ltac:(lia)) as E2. rewrite Zmod_odd in E2.
  unfold q, cut, loc_of_shr_record, round_nearest_even. cbn [shr_m].
  rewrite Nat2Z.inj_succ, Z.pow_succ_r by lia. fold h. fold a. fold c. rewrite ED. set (b := a / 2) in *.
  destruct (Z.odd a) eqn:Ho, (Z.eqb_spec c 0) as [Hc|Hc]; cbn [negb].
  - destruct (Z.even b) eqn:Hb.
    + split; [now left|]. replace (b * (2 * h) - z) with (- h) by nia. split; [lia|auto].
    + split; [now right|]. replace ((b + 1) * (2 * h) - z) with h by nia. split; [lia|].
      intros _. replace (b + 1) with (Z.succ b) by lia. rewrite Z.even_succ, <- Z.negb_even. now rewrite Hb.
  - split; [now right|]. replace ((b + 1) * (2 * h) - z) with (h - c) by nia. split; [lia|]. intros HX. lia.
  - split; [now left|]. replace (b * (2 * h) - z) with 0 by nia. split; [lia|]. intros HX. lia.
  - split; [now left|]. replace (b * (2 * h) - z) with (- c) by nia. split; [lia|]. intros HX. lia.
Qed.

Lemma round_big s p k : 0 < k <= 64 -> 2 ^ (k + 52) <= Zpos p < 2 ^ (k + 53) ->
  exists m e q, binary_round 53 1024 s p 0 = S754_finite s m e /\ 0 <= e /\ Zpos m * 2 ^ e = q * 2 ^ k /\
    2 * Z.abs (q * 2 ^ k - Zpos p) <= 2 ^ k /\ (2 * Z.abs (q * 2 ^ k - Zpos p) = 2 ^ k -> Z.even q = true).
Proof.
  intros Hk Hp. assert (L : Z.log2 (Zpos p) = k + 52) by (apply Z.log2_unique; [lia|]; now replace (Z.succ (k + 52)) with (k + 53) by lia).
  assert (PW : forall a, 0 <= a -> 0 < 2 ^ a) by (intros; apply Z.pow_pos_nonneg; lia).
  unfold binary_round. rewrite digits_log, L. rewrite fexp_small by lia.
  replace (k + 52 + 1 + 0 - 53) with k by lia. unfold shl_align. rewrite Z.sub_0_r.
  replace (match k with Z.neg d => (shift_pos d p, k) | _ => (p, 0) end) with (p, 0) by (destruct k; auto; lia).
  destruct k as [|kp|kp] eqn:Ek; try lia. rewrite <- Ek in *. set (n := Pos.to_nat kp). assert (Hn : Z.of_nat n = k) by (unfold n; lia).
  assert (E1 : shr_fexp 53 1024 (Zpos p) 0 loc_Exact = (cut (Zpos p) n, k)).
  { unfold shr_fexp. cbn [Zdigits2 shr_record_of_loc]. rewrite digits_log, L. rewrite fexp_small by lia.
    replace (k + 52 + 1 + 0 - 53 - 0) with (Zpos kp) by lia. unfold shr. rewrite iter_pos_nat, cut_iter by lia. f_equal. lia. }
  unfold binary_round_aux. rewrite E1.
  destruct (cut_round (Zpos p) n ltac:(lia) ltac:(lia)) as (Q & R1 & R2). rewrite Hn in Q, R1, R2.
  set (q := round_nearest_even _ _) in *.
  assert (HP : Zpos p / 2 ^ k = Zpos p / 2 ^ k) by reflexivity.
  assert (Hq : 2 ^ 52 <= q <= 2 ^ 53).
  { assert (2 ^ 52 <= Zpos p / 2 ^ k < 2 ^ 53); [|lia]. rewrite !Z.pow_add_r in Hp by lia. split.
    - apply Z.div_le_lower_bound; [auto with zarith|]. lia.
    - apply Z.div_lt_upper_bound; [auto with zarith|]. lia. }
  unfold shr_fexp. destruct (Z.eq_dec q (2 ^ 53)) as [Eq|Nq].
  - rewrite Eq. change (2 ^ 53) with (Zpos 9007199254740992). cbn [Zdigits2 shr_record_of_loc]. rewrite digits_log.
    change (Z.log2 (Zpos 9007199254740992)) with 53. rewrite fexp_small by lia. replace (53 + 1 + k - 53 - k) with 1 by lia.
    cbn [shr SpecFloat.iter_pos shr_1 shr_m]. destruct (Z.leb_spec (k + 1) (1024 - 53)); [|lia].
    eexists _, _, q. split; [reflexivity|]. split; [lia|]. rewrite Eq in *. split.
    + rewrite (Z.pow_add_r 2 k 1) by lia. lia.
    + auto.
  - clearbody q. destruct q as [|qp|qp]; [lia| |lia]. cbn [Zdigits2 shr_record_of_loc]. rewrite digits_log.
    assert (Lq : Z.log2 (Zpos qp) = 52) by (apply Z.log2_unique; lia). rewrite Lq. rewrite fexp_small by lia.
    replace (52 + 1 + k - 53 - k) with 0 by lia. cbn [shr shr_m].
    destruct (Z.leb_spec k (1024 - 53)); [|lia]. exists qp, k, (Zpos qp). split; [reflexivity|]. split; [lia|]. auto.
Qed.

Lemma double_rounded z : Z.abs z < 2 ^ 64 -> exists r, denotes (double_of_Z z) r /\ rounded z r.
Proof.
  intros Hz. unfold double_of_Z.
  assert (K : forall s p, Zpos p < 2 ^ 64 -> exists r, denotes (binary_round 53 1024 s p 0) r /\ rounded ((if s then -1 else 1) * Zpos p) r).
  { intros s p Hp. destruct (Z.lt_ge_cases (Zpos p) (2 ^ 53)) as [HL|HG].
    - destruct (round_small s p HL) as (m & -> & Hm). exists ((if s then -1 else 1) * Zpos p). split.
      + unfold denotes. pose proof (Z.log2_nonneg (Zpos p)) as L0.
        assert (L1 : Z.log2 (Zpos p) < 53) by (apply Z.log2_lt_pow2; lia).
        rewrite (Z.max_r (Z.log2 (Zpos p) - 52) 0), (Z.max_l (- (Z.log2 (Zpos p) - 52)) 0) by lia.
        replace (- (Z.log2 (Zpos p) - 52)) with (52 - Z.log2 (Zpos p)) by lia.
        rewrite Hm. change (2 ^ 0) with 1. destruct s; lia.
      + left. split; auto. destruct s; lia.
    - set (k := Z.log2 (Zpos p) - 52).
      assert (L1 : 53 <= Z.log2 (Zpos p)) by (apply Z.log2_le_pow2; lia).
      assert (L2 : Z.log2 (Zpos p) < 64) by (apply Z.log2_lt_pow2; lia).
      pose proof (Z.log2_spec (Zpos p) ltac:(lia)) as LS.
      destruct (round_big s p k) as (m & e & q & E & He & Em & R1 & R2); [unfold k; lia| |].
      { unfold k. replace (Z.log2 (Zpos p) - 52 + 52) with (Z.log2 (Zpos p)) by lia.
        replace (Z.log2 (Zpos p) - 52 + 53) with (Z.succ (Z.log2 (Zpos p))) by lia. exact LS. }
      rewrite E. exists ((if s then -1 else 1) * (q * 2 ^ k)). split.
      + unfold denotes. rewrite (Z.max_l e 0), (Z.max_r (- e) 0) by lia. change (2 ^ 0) with 1. rewrite <- Em. destruct s; lia.
      + right. exists k, ((if s then -1 else 1) * q).
        split; [unfold k; lia|]. split. { unfold k. replace (Z.log2 (Zpos p) - 52 + 52) with (Z.log2 (Zpos p)) by lia.
        replace (Z.log2 (Zpos p) - 52 + 53) with (Z.succ (Z.log2 (Zpos p))) by lia. destruct s; lia. }
        split; [lia|].
        replace ((if s then -1 else 1) * (q * 2 ^ k) - (if s then -1 else 1) * Zpos p)
          with ((if s then -1 else 1) * (q * 2 ^ k - Zpos p)) by (destruct s; lia).
        rewrite Z.abs_mul. replace (Z.abs (if s then -1 else 1)) with 1 by (destruct s; reflexivity). rewrite Z.mul_1_l.
        split; auto. intros HT. specialize (R2 HT). destruct s; [|now rewrite Z.mul_1_l].
        replace (-1 * q) with (- q) by lia. now rewrite Z.even_opp. }
  destruct z as [|p|p]; cbn [binary_normalize].
  - exists 0. split; [reflexivity|]. left. cbn. lia.
  - destruct (K false p ltac:(lia)) as (r & D & R). exists r. split; auto.
  - destruct (K true p ltac:(lia)) as (r & D & R). exists r. split; auto.
Qed.
