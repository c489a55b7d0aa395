(** What it means that a text is a number in decimal notation. *)
From Verif Require Import Base.

Definition digit (c : Z) : Prop := 48 <= c <= 57.
Definition digits_value (l : list Z) : Z := fold_left (fun a c => 10 * a + (c - 48)) l 0.
(** [text] is the decimal notation of v / 10 ^ k with exactly k decimals: a minus
    sign if it is negative, the integer part without superfluous zeros and, if k
    is not 0, a point and k digits. *)
Definition spells (text : list Z) (v : Z) (k : nat) : Prop :=
  exists whole decimals,
    text = (if v <? 0 then [45] else []) ++ whole ++ (match k with O => [] | S _ => [46] end) ++ decimals /\
    Forall digit (whole ++ decimals) /\ length decimals = k /\
    whole <> [] /\ (hd 0 whole = 48 -> whole = [48]) /\
    digits_value (whole ++ decimals) = Z.abs v.

Lemma app_same_length {A} (a b c d : list A) : length a = length c -> a ++ b = c ++ d -> a = c /\ b = d.
Proof.
  revert c. induction a as [|x a IH]; intros [|y c] L E; try discriminate; [auto|].
  injection E as -> E. injection L as L. destruct (IH c L E) as [-> ->]. auto.
Qed.
Lemma value_app l c : digits_value (l ++ [c]) = 10 * digits_value l + (c - 48).
Proof. unfold digits_value. now rewrite fold_left_app. Qed.
Lemma value_inj : forall l1 l2, Forall digit l1 -> Forall digit l2 -> length l1 = length l2 ->
  digits_value l1 = digits_value l2 -> l1 = l2.
Proof.
  induction l1 as [|c1 l1 IH] using rev_ind; intros l2 F1 F2 L V.
  - destruct l2; [reflexivity|discriminate].
  - destruct l2 as [|c2 l2 _] using rev_ind; [rewrite app_length in L; cbn in L; lia|].
    rewrite !value_app in V. rewrite !app_length in L. cbn [length] in L.
    apply Forall_app in F1, F2. destruct F1 as [F1 D1], F2 as [F2 D2]. inversion D1 as [|? ? d1 _]; inversion D2 as [|? ? d2 _]; subst.
    unfold digit in d1, d2. assert (c1 = c2 /\ digits_value l1 = digits_value l2) as [-> E] by lia.
    rewrite (IH l2); auto; lia.
Qed.
Lemma value_cons c l : digits_value (c :: l) = (c - 48) * 10 ^ Z.of_nat (length l) + digits_value l.
Proof.
  induction l as [|d l IH] using rev_ind; [cbn; lia|].
  change (c :: l ++ [d]) with ((c :: l) ++ [d]). rewrite !value_app, IH, app_length. cbn [length].
  rewrite Nat.add_1_r, Nat2Z.inj_succ, Z.pow_succ_r by lia. lia.
Qed.
Lemma value_bound l : Forall digit l -> 0 <= digits_value l < 10 ^ Z.of_nat (length l).
Proof.
  induction l as [|c l IH]; intros F; [cbn; lia|]. inversion F as [|? ? d F']; subst. specialize (IH F').
  rewrite value_cons. unfold digit in d. cbn [length]. rewrite Nat2Z.inj_succ, Z.pow_succ_r by lia. nia.
Qed.
(** the number and the decimals determine the text ... *)
Lemma spells_text t1 t2 v k : spells t1 v k -> spells t2 v k -> t1 = t2.
Proof.
  intros (w1 & d1 & -> & F1 & L1 & N1 & Z1 & V1) (w2 & d2 & -> & F2 & L2 & N2 & Z2 & V2).
  assert (LW : forall w d w' d', Forall digit (w ++ d) -> Forall digit (w' ++ d') -> length d = k -> length d' = k -> w' <> [] ->
     (hd 0 w' = 48 -> w' = [48]) -> w <> [] -> digits_value (w ++ d) = digits_value (w' ++ d') -> (length w' <= length w)%nat).
  { intros w d w' d' F F' L L' N' Z' N V. destruct w' as [|c' w']; [congruence|]. cbn [hd length] in *.
    destruct w as [|c w]; [congruence|].
    destruct (Nat.le_gt_cases (S (length w')) (length (c :: w))); [assumption|exfalso].
    assert (D : digit c') by (inversion F'; assumption). unfold digit in D.
    assert (c' <> 48) as NZ. { intros E. specialize (Z' E). injection Z' as -> ->. cbn [length] in H. lia. }
    pose proof (value_bound _ F) as B. cbn [app] in V. rewrite (value_cons c') in V.
    assert (F'' : Forall digit (w' ++ d')) by (inversion F'; assumption). pose proof (value_bound _ F'') as B'.
    assert (10 ^ Z.of_nat (length ((c :: w) ++ d)) <= 10 ^ Z.of_nat (length (w' ++ d'))).
    { apply Z.pow_le_mono_r; [lia|]. rewrite !app_length. lia. }
    cbn [app] in *. nia. }
  assert (length w1 = length w2).
  { apply Nat.le_antisymm; [apply (LW w2 d2 w1 d1)|apply (LW w1 d1 w2 d2)]; auto; congruence. }
  assert (E : w1 ++ d1 = w2 ++ d2) by (apply value_inj; auto; [rewrite !app_length; lia|congruence]).
  apply app_same_length in E; [|assumption]; destruct E as [-> ->]. reflexivity.
Qed.
(** ... and the text determines the number and the decimals. *)
Lemma digits_until w1 w2 r1 r2 : Forall digit w1 -> Forall digit w2 ->
  (forall c t, r1 = c :: t -> ~ digit c) -> (forall c t, r2 = c :: t -> ~ digit c) ->
  w1 ++ r1 = w2 ++ r2 -> w1 = w2 /\ r1 = r2.
Proof.
  revert w2. induction w1 as [|x w1 IH]; intros [|y w2] F1 F2 H1 H2 E; cbn [app] in E.
  - auto.
  - subst r1. inversion F2; subst. exfalso. eapply H1; eauto.
  - subst r2. inversion F1; subst. exfalso. eapply H2; eauto.
  - injection E as -> E. inversion F1; inversion F2; subst. destruct (IH w2) as [-> ->]; auto.
Qed.
Lemma spells_value t v1 k1 v2 k2 : spells t v1 k1 -> spells t v2 k2 -> v1 = v2 /\ k1 = k2.
Proof.
  intros (w1 & d1 & E1 & F1 & L1 & N1 & Z1 & V1) (w2 & d2 & E2 & F2 & L2 & N2 & Z2 & V2).
  assert (S : (v1 <? 0) = (v2 <? 0) /\ w1 ++ (match k1 with O => [] | S _ => [46] end) ++ d1 = w2 ++ (match k2 with O => [] | S _ => [46] end) ++ d2).
  { rewrite E1 in E2. destruct w1 as [|x w1], w2 as [|y w2]; try congruence.
    assert (digit x) as Dx by (inversion F1; assumption). assert (digit y) as Dy by (inversion F2; assumption). unfold digit in Dx, Dy.
    destruct (v1 <? 0), (v2 <? 0); cbn [app] in E2; auto; [split; [reflexivity|] | |]; injection E2; intros; try lia. cbn [app]. congruence. }
  destruct S as [S E].
  apply Forall_app in F1 as FF1. apply Forall_app in F2 as FF2. destruct FF1 as [Fw1 _], FF2 as [Fw2 _].
  assert (ND : forall k d, length d = k -> forall c t, (match k with O => [] | S _ => [46] end) ++ d = c :: t -> ~ digit c).
  { intros k d L c r Ec. destruct k; [destruct d; discriminate|]. injection Ec as <- _. unfold digit. lia. }
  destruct (digits_until w1 w2 _ _ Fw1 Fw2 (ND _ _ L1) (ND _ _ L2) E) as [-> E'].
  assert (d1 = d2) as ->.
  { destruct k1, k2; cbn [app] in E'; [assumption| | |congruence]; destruct d1, d2; discriminate. }
  split; [|congruence]. rewrite V1 in V2. destruct (Z.ltb_spec v1 0), (Z.ltb_spec v2 0); try discriminate; lia.
Qed.
