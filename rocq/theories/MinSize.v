(** No message shorter than nine bytes is accepted. *)
From Verif Require Import Base Buf Crc16 Number OctetString Boolean Value Time SList Tree Bodies
  Message File Lib Wf Safe Safe2 Safe3 Ctx Ctx2 Ctx3 Scan Spec TL Inv.

(** Words of at most two bytes that are read as one field. *)
Definition pairs (h : Z) (f : Z -> bool) : list (list Z) :=
  map (fun x => [h; x]) (filter f (map Z.of_nat (seq 0 256))).
Definition any_b (_ : Z) : bool := true.
Definition low_is (n : Z) (b : Z) : bool := b mod 16 =? n.
Definition oct1 : list (list Z) := [[1]].
Definition oct2 : list (list Z) := pairs 2 any_b ++ pairs 128 (low_is 2).
Definition num1 : list (list Z) := [[1]; [97]].
Definition num2 : list (list Z) := pairs 98 any_b ++ pairs 224 (low_is 2).
Definition lst1 (n : Z) : list (list Z) := [[112 + n]].
Definition lst2 (n : Z) : list (list Z) := pairs 240 (low_is n).

Lemma in_pairs h f x : 0 <= x < 256 -> f x = true -> In [h; x] (pairs h f).
Proof.
  intros Hx Hf. unfold pairs. apply in_map_iff. exists x. split; auto. apply filter_In. split; auto.
  rewrite <- (Z2Nat.id x) by lia. apply in_map, in_seq. lia.
Qed.

Lemma tl_1 b : tl_field [b] -> 0 <= b < 128 /\ b = tl_type [b] + tl_nibbles [b] /\ 0 <= tl_nibbles [b] < 16.
Proof.
  intros (i & l & E & _ & Hl). destruct i as [|x [|y i]]; try discriminate. injection E as <-.
  split; auto. unfold tl_type, tl_nibbles. cbn [fold_left].
  assert (b / 16 < 8) by (apply Z.div_lt_upper_bound; lia).
  assert (0 <= b / 16) by (apply Z.div_pos; lia).
  rewrite (Z.mod_small (b / 16) 8) by lia. pose proof (Z.div_mod b 16).
  pose proof (Z.mod_pos_bound b 16). lia.
Qed.
Lemma tl_2 b1 b2 : tl_field [b1; b2] -> 128 <= b1 < 256 /\ 0 <= b2 < 128 /\
  b1 = 128 + tl_type [b1; b2] + b1 mod 16 /\ tl_nibbles [b1; b2] = b1 mod 16 * 16 + b2 mod 16.
Proof.
  intros (i & l & E & Hi & Hl). destruct i as [|x [|y i]]; try discriminate.
  2: { apply (f_equal (@length Z)) in E. cbn in E. rewrite app_length in E. cbn in E. lia. }
  injection E as <- <-. inversion_clear Hi.
  split; auto. split; auto. unfold tl_type, tl_nibbles. cbn [fold_left]. split; [|lia].
  assert (b1 / 16 < 16) by (apply Z.div_lt_upper_bound; lia).
  assert (8 <= b1 / 16) by (apply Z.div_le_lower_bound; lia).
  assert (E : (b1 / 16) mod 8 = b1 / 16 - 8).
  { symmetry. apply Z.mod_unique with 1; lia. }
  rewrite E. pose proof (Z.div_mod b1 16). lia.
Qed.
Lemma tl_small bs : tl_field bs -> (length bs <= 2)%nat -> tl_nibbles bs < 2147483648.
Proof.
  intros Hb Hl. destruct bs as [|b1 [|b2 [|]]]; cbn in Hl; try lia.
  - cbn. lia.
  - destruct (tl_1 _ Hb). lia.
  - destruct (tl_2 _ _ Hb) as (? & ? & ? & ->). pose proof (Z.mod_pos_bound b1 16). pose proof (Z.mod_pos_bound b2 16). lia.
Qed.

Section WithHost.
Context {H : Host}.

Lemma firstn_app_exact {A} (a b : list A) : firstn (length a) (a ++ b) = a.
Proof. rewrite firstn_app, Nat.sub_diag, firstn_all, firstn_O. apply app_nil_r. Qed.
Lemma word_app {A} (a b t : list A) : firstn (length a + length b) (a ++ b ++ t) = a ++ b.
Proof. rewrite <- app_length, app_assoc. apply firstn_app_exact. Qed.

Lemma moved_cursor s n s' : moved s n s' -> (cursor s' - cursor s)%nat = n.
Proof. intros (_ & C & _). lia. Qed.

Lemma tl_len_1 (bs : list Z) : (length bs = 1)%nat -> exists b, bs = [b].
Proof. destruct bs as [|b [|]]; cbn; intros; try lia. eauto. Qed.
Lemma tl_len_2 (bs : list Z) : (length bs = 2)%nat -> exists b c, bs = [b; c].
Proof. destruct bs as [|b [|c [|]]]; cbn; intros; try lia. eauto. Qed.
Lemma tl_pos bs : tl_field bs -> (1 <= length bs)%nat.
Proof. intros (i & l & -> & _). rewrite app_length. cbn. lia. Qed.


(** the words, for a TL type [ty] that is not a list *)
Lemma short_words ty bs data :
  tl_field bs -> tl_type bs = ty -> ty <> 112 -> 0 <= ty -> bytes_ok data ->
  Z.of_nat (length data) = tl_length bs -> (length bs + length data <= 2)%nat ->
  (bs = [ty + 1] /\ data = []) \/ (exists x, bs = [ty + 2] /\ data = [x] /\ 0 <= x < 256) \/
  (exists x, bs = [128 + ty; x] /\ data = [] /\ 0 <= x < 256 /\ x mod 16 = 2).
Proof.
  intros Hb Ht Hty Hty0 Hd Hl Hn. unfold tl_length in Hl. rewrite Ht in Hl.
  destruct (Z.eqb_spec ty 112); [lia|]. pose proof (tl_pos _ Hb) as Hp.
  assert (Hc : (length bs = 1 \/ length bs = 2)%nat) by lia. destruct Hc as [H1|H2].
  - destruct (tl_len_1 _ H1) as [b ->]. destruct (tl_1 _ Hb) as (_ & Eb & _). rewrite Ht in Eb.
    cbn [length] in *. destruct data as [|x [|]]; cbn [length] in *; try lia.
    + left. split; auto. f_equal. lia.
    + right. left. exists x. inv Hd. split; [f_equal; lia|]. auto.
  - destruct (tl_len_2 _ H2) as (b1 & b2 & ->). destruct (tl_2 _ _ Hb) as (Hb1 & Hb2 & E1 & E2).
    rewrite Ht in E1. rewrite E2 in Hl. pose proof (Z.mod_pos_bound b1 16). pose proof (Z.mod_pos_bound b2 16).
    destruct data; cbn [length] in *; [|lia]. right. right. exists b2.
    split; [f_equal; lia|]. split; auto. lia.
Qed.

Lemma octet_short s r s' : okbuf s -> small s -> error s = false ->
  sml_octet_string_parse s = Ret (r, s') -> error s' = false -> (cursor s' <= cursor s + 2)%nat ->
  exists n, moved s n s' /\ ((n = 1%nat /\ In (firstn n (rest s)) oct1) \/ (n = 2%nat /\ In (firstn n (rest s)) oct2)).
Proof.
  intros Hs Sm He E Er Hn. pose proof (rest_bytes _ Hs) as Hby.
  destruct (octet_inv _ _ _ Hs Sm He E Er) as [(t & R & _ & Mv)|(bs & data & t & R & Hh & Hb & Ht & Hl & _ & _ & Mv)].
  - exists 1%nat. split; auto. left. split; auto. rewrite R. cbn. auto.
  - destruct (Mv) as (_ & C & _). assert (Hlen : (length bs + length data <= 2)%nat) by lia.
    rewrite R in Hby. apply Forall_app in Hby. destruct Hby as [_ Hby]. apply Forall_app in Hby. destruct Hby as [Hd _].
    destruct (short_words 0 bs data Hb Ht) as [(-> & ->)|[(x & -> & -> & Hx)|(x & -> & -> & Hx & Hm)]]; auto; try lia.
    { apply Hl, tl_small; auto. lia. }
    + exfalso. apply Hh. reflexivity.
    + exists 2%nat. split; auto. right. split; auto. rewrite R. cbn [app firstn]. unfold oct2. apply in_or_app. left.
      now apply in_pairs.
    + exists 2%nat. split; auto. right. split; auto. rewrite R. cbn [app firstn]. unfold oct2. apply in_or_app. right.
      apply in_pairs; auto. unfold low_is. lia.
Qed.

Lemma number_short max s r s' : 1 <= max <= 16 -> okbuf s -> small s -> error s = false ->
  sml_number_parse SML_TYPE_UNSIGNED max s = Ret (r, s') -> error s' = false -> (cursor s' <= cursor s + 2)%nat ->
  exists n, moved s n s' /\ opt (fun m => mem_u m < 256 /\ (n = 1%nat -> mem_u m = 0)) r /\
   ((n = 1%nat /\ In (firstn n (rest s)) num1) \/ (n = 2%nat /\ In (firstn n (rest s)) num2)).
Proof.
  intros Hmax Hs Sm He E Er Hn. pose proof (rest_bytes _ Hs) as Hby.
  destruct (number_inv _ _ _ _ _ Hmax Hs Sm He E Er)
    as [(t & R & -> & Mv)|(bs & data & t & m & R & Hh & Hb & Ht & _ & Hl & _ & -> & Em & Mv)].
  - exists 1%nat. split; auto. split; [exact I|]. left. split; auto. rewrite R. cbn. auto.
  - destruct (Mv) as (_ & C & _). assert (Hlen : (length bs + length data <= 2)%nat) by lia.
    rewrite R in Hby. apply Forall_app in Hby. destruct Hby as [_ Hby]. apply Forall_app in Hby. destruct Hby as [Hd _].
    change (fill_byte SML_TYPE_UNSIGNED _) with 0 in Em.
    assert (Ev : mem_u m = be_unsigned data) by (rewrite Em, mem_u_host; apply be_zeros).
    unfold SML_TYPE_UNSIGNED in Ht.
    destruct (short_words 96 bs data Hb Ht) as [(-> & ->)|[(x & -> & -> & Hx)|(x & -> & -> & Hx & Hm)]]; auto; try lia.
    { apply Hl, tl_small; auto. lia. }
    + exists 1%nat. split; auto. split; [cbn; rewrite Ev; cbn; lia|]. left. split; auto. rewrite R. cbn. auto.
    + exists 2%nat. split; auto. split; [cbn; rewrite Ev; cbn; lia|].
      right. split; auto. rewrite R. cbn [app firstn]. unfold num2. apply in_or_app. left. now apply in_pairs.
    + exists 2%nat. split; auto. split; [cbn; rewrite Ev; cbn; lia|].
      right. split; auto. rewrite R. cbn [app firstn]. unfold num2. apply in_or_app. right.
      apply in_pairs; auto. unfold low_is. lia.
Qed.

Lemma expect_short {B} n (k : P (option B)) s r s' : 0 <= n < 16 -> okbuf s -> small s -> error s = false ->
  expect_list n k s = Ret (r, s') -> error s' = false ->
  (forall s1, okbuf s1 -> k s1 = Ret (r, s') -> step s1 s') -> (cursor s' <= cursor s + 7)%nat ->
  exists j s1, moved s j s1 /\ k s1 = Ret (r, s') /\ okbuf s1 /\
   ((j = 1%nat /\ In (firstn j (rest s)) (lst1 n)) \/ (j = 2%nat /\ In (firstn j (rest s)) (lst2 n)) \/ (2 < j)%nat).
Proof.
  intros Hn Hs Sm He E Er Hst Hc.
  destruct (expect_inv _ _ _ _ _ Hs Sm He E Er Hst) as (bs & t & s1 & R & Hb & Ht & Hl & Mv & Ek).
  exists (length bs), s1. split; auto. split; auto. split.
  { eapply moved_ok; eauto. rewrite R, app_length. lia. }
  pose proof (tl_pos _ Hb) as Hp. pose proof (rest_bytes _ Hs) as Hby.
  assert (Hd : (length bs = 1 \/ length bs = 2 \/ 2 < length bs)%nat) by lia.
  destruct Hd as [H1|[H2|H3]]; auto.
  - left. split; auto. rewrite R, firstn_app_exact. destruct (tl_len_1 _ H1) as [b ->].
    destruct (tl_1 _ Hb) as (_ & Eb & _). rewrite Hl in Eb by (apply tl_small; auto; cbn; lia).
    rewrite Ht in Eb. left. f_equal. lia.
  - right. left. split; auto. rewrite R, firstn_app_exact. destruct (tl_len_2 _ H2) as (b1 & b2 & ->).
    destruct (tl_2 _ _ Hb) as (Hb1 & Hb2 & E1 & E2).
    rewrite Hl in E2 by (apply tl_small; auto; cbn; lia). rewrite Ht in E1.
    pose proof (Z.mod_pos_bound b1 16). pose proof (Z.mod_pos_bound b2 16).
    replace b1 with 240 by lia. apply in_pairs; [lia|]. unfold low_is. lia.
Qed.

(** the body of at most three bytes *)
Definition prod (a b : list (list Z)) : list (list Z) := flat_map (fun x => map (fun y => x ++ y) b) a.
Lemma in_prod_app a b x y : In x a -> In y b -> In (x ++ y) (prod a b).
Proof. intros Hx Hy. apply in_flat_map. exists x. split; auto. apply in_map_iff. eauto. Qed.

Definition body2 := prod (lst1 2) num1.
Definition body3 := prod (lst1 2) num2 ++ prod (lst2 2) num1.

Lemma firstn_plus {A} a b (l : list A) : firstn (a + b) l = firstn a l ++ firstn b (skipn a l).
Proof. revert l; induction a; intros [|x l]; cbn; auto; [now rewrite firstn_nil|]. now rewrite IHa. Qed.

Lemma body_data_small z : z < 256 -> body_data_parse z = ret BNull.
Proof.
  intros Hz. unfold body_data_parse.
  repeat (match goal with |- context [z =? ?c] => let v := eval cbv in c in
            replace (z =? c) with false by (symmetry; apply Z.eqb_neq; change c with v; lia) end).
  reflexivity.
Qed.

Definition tag_k (tag : option mem) : P (option sml_message_body) :=
  match tag with None => ret None | Some m => d <- body_data_parse (mem_u m) ;; ret (Some (mkBody tag d)) end.

Lemma step_moved s n s' : moved s n s' -> (n <= length (rest s))%nat -> okbuf s -> (cursor s <= cursor s' <= buffer_len s)%nat.
Proof. intros (B & C & _) Hn [Hc _]. rewrite rest_length in Hn. lia. Qed.

Lemma tag_k_step tag s r s' : okbuf s -> tag_k tag s = Ret (r, s') -> step s s'.
Proof.
  intros Hs E. destruct tag as [m|]; cbn in E.
  - apply bind_inv in E. destruct E as (d & s1 & E1 & E). injection E as <- <-.
    eapply step_of; eauto using body_data_safe.
  - injection E as <- <-. now apply step_refl.
Qed.

Lemma body_short s r s' : okbuf s -> small s -> error s = false ->
  sml_message_body_parse s = Ret (r, s') -> error s' = false -> (cursor s' <= cursor s + 3)%nat ->
  exists n, moved s n s' /\
   ((n = 2%nat /\ In (firstn n (rest s)) body2) \/ (n = 3%nat /\ In (firstn n (rest s)) body3)).
Proof.
  intros Hs Sm He E Er Hn. unfold sml_message_body_parse in E. unfold bind at 1 in E.
  destruct (rest s) as [|b t] eqn:R.
  { rewrite (at_end_nil _ R) in E. apply err_null_inv in E. congruence. }
  rewrite (at_end_cons _ _ _ R) in E. rewrite <- R in *. clear R b t.
  assert (Hstep : forall s1, okbuf s1 -> field sml_u32_parse tag_k s1 = Ret (r, s') -> step s1 s').
  { intros s1 Hs1 E1. apply field_inv in E1; auto. destruct E1 as (tag & s2 & E1 & Er2 & E2).
    pose proof (step_of _ _ _ _ _ _ u32_safe Hs1 E1) as St1.
    pose proof (step_ok _ _ Hs1 St1) as Hs2. eapply step_trans; eauto. eapply tag_k_step; eauto. }
  destruct (expect_short 2 (field sml_u32_parse tag_k) s r s') as (j & s1 & Mv1 & E1 & Hs1 & HW1); auto; try lia.
  assert (Hj : (1 <= j)%nat) by lia.
  apply field_inv in E1; auto. destruct E1 as (tag & s2 & E1 & Er2 & E2).
  pose proof (step_of _ _ _ _ _ _ u32_safe Hs1 E1) as St1. pose proof (step_ok _ _ Hs1 St1) as Hs2.
  pose proof (tag_k_step _ _ _ _ Hs2 E2) as St2.
  pose proof (st_cur _ _ St1) as C1. pose proof (st_cur _ _ St2) as C2.
  destruct (Mv1) as (B1 & Cm1 & Em1).
  destruct (number_short 4 s1 tag s2) as (n2 & Mv2 & Ho & HW2); auto; try lia.
  { eapply moved_small; eauto. }
  assert (s' = s2) as ->.
  { destruct tag as [m|]; cbn in E2.
    - rewrite body_data_small in E2 by apply Ho. now injection E2.
    - now injection E2. }
  pose proof (moved_trans _ _ _ _ _ Mv1 Mv2) as Mv. exists (j + n2)%nat. split; auto.
  destruct Mv as (_ & Cm & _).
  rewrite (moved_rest _ _ _ Mv1) in HW2. rewrite firstn_plus.
  destruct HW1 as [(-> & W1)|[(-> & W1)|W1]]; destruct HW2 as [(-> & W2)|(-> & W2)]; try lia.
  - left. split; auto. now apply in_prod_app.
  - right. split; auto. unfold body3. apply in_or_app. left. now apply in_prod_app.
  - right. split; auto. unfold body3. apply in_or_app. right. now apply in_prod_app.
Qed.

(** heads of six and of seven bytes *)
Definition cat (l : list (list (list Z))) : list (list Z) := fold_right prod [[]] l.
Definition heads6 := cat [lst1 6; oct1; num1; num1; body2].
Definition heads7 := cat [lst2 6; oct1; num1; num1; body2] ++ cat [lst1 6; oct2; num1; num1; body2] ++
  cat [lst1 6; oct1; num2; num1; body2] ++ cat [lst1 6; oct1; num1; num2; body2] ++
  cat [lst1 6; oct1; num1; num1; body3].

Lemma in_cat5 a b c d e A B C D E : In a A -> In b B -> In c C -> In d D -> In e E ->
  In (a ++ b ++ c ++ d ++ e) (cat [A; B; C; D; E]).
Proof.
  intros. cbn [cat fold_right]. repeat (apply in_prod_app; auto).
  rewrite <- (app_nil_r e). apply in_prod_app; auto. left; auto.
Qed.

Lemma head_short s h s' : okbuf s -> small s -> error s = false ->
  msg_head s = Ret (Some h, s') -> error s' = false -> (cursor s' <= cursor s + 7)%nat ->
  exists n, moved s n s' /\
   ((n = 6%nat /\ In (firstn n (rest s)) heads6) \/ (n = 7%nat /\ In (firstn n (rest s)) heads7)).
Proof.
  intros Hs Sm He E Er Hn. unfold msg_head in E.
  match type of E with expect_list 6 ?k s = _ => set (kk := k) in E end.
  assert (Hkk : safeS 4 kk (fun _ => True)).
  { subst kk. eapply safeS_field; [apply octet_safe|intros ? _].
    eapply safeS_field; [apply u8_safe|intros ? _]. eapply safeS_field; [apply u8_safe|intros ? _].
    eapply safeS_field; [eapply safe_le; [apply body_safe|lia]|intros ? _].
    intros s0 Hs0. apply wp_ret. split; [now apply step_refl|]. intros _ x _. split; auto. lia. }
  destruct (expect_short 6 kk s (Some h) s') as (j & s1 & Mv1 & E1 & Hs1 & HW1); auto; try lia.
  { intros s1 Hs1 E1. pose proof (Hkk s1 Hs1) as HW. unfold wp in HW. rewrite E1 in HW. apply HW. }
  assert (Hj : (1 <= j)%nat) by lia. clear Hkk E. subst kk.
  destruct (Mv1) as (B1 & Cm1 & Em1). pose proof (moved_small _ _ _ Mv1 Sm) as Sm1. rewrite He in Em1.
  apply field_inv in E1; auto. destruct E1 as (f1 & s2 & E1 & Er2 & E2).
  pose proof (octet_safe s1 Hs1) as W. unfold wp in W. rewrite E1 in W. destruct W as [St1 P1].
  pose proof (step_ok _ _ Hs1 St1) as Hs2. destruct (P1 Er2) as [G1 _]. clear P1.
  pose proof (mono_small _ _ Sm1 (mono_step _ _ St1)) as Sm2.
  apply field_inv in E2; auto. destruct E2 as (f2 & s3 & E2 & Er3 & E3).
  pose proof (u8_safe s2 Hs2) as W. unfold wp in W. rewrite E2 in W. destruct W as [St2 P2].
  pose proof (step_ok _ _ Hs2 St2) as Hs3. destruct (P2 Er3) as [G2 _]. clear P2.
  pose proof (mono_small _ _ Sm2 (mono_step _ _ St2)) as Sm3.
  apply field_inv in E3; auto. destruct E3 as (f3 & s4 & E3 & Er4 & E4).
  pose proof (u8_safe s3 Hs3) as W. unfold wp in W. rewrite E3 in W. destruct W as [St3 P3].
  pose proof (step_ok _ _ Hs3 St3) as Hs4. destruct (P3 Er4) as [G3 _]. clear P3.
  pose proof (mono_small _ _ Sm3 (mono_step _ _ St3)) as Sm4.
  apply field_inv in E4; auto. destruct E4 as (f4 & s5 & E4 & Er5 & E5).
  pose proof (body_safe s4 Hs4) as W. unfold wp in W. rewrite E4 in W. destruct W as [St4 P4].
  destruct (P4 Er5) as [G4 _]. clear P4. injection E5 as _ <-.
  destruct (octet_short s1 f1 s2) as (n1 & Mv2 & HW2); auto; try qlia.
  destruct (number_short 1 s2 f2 s3) as (n2 & Mv3 & _ & HW3); auto; try qlia.
  destruct (number_short 1 s3 f3 s4) as (n3 & Mv4 & _ & HW4); auto; try qlia.
  destruct (body_short s4 f4 s5) as (n4 & Mv5 & HW5); auto; try qlia.
  rewrite (moved_rest _ _ _ Mv4) in HW5. rewrite (moved_rest _ _ _ Mv3) in HW4, HW5.
  rewrite (moved_rest _ _ _ Mv2) in HW3, HW4, HW5. rewrite (moved_rest _ _ _ Mv1) in HW2, HW3, HW4, HW5.
  assert (Mv : moved s (j + (n1 + (n2 + (n3 + n4)))) s5).
  { repeat (eapply moved_trans; [eassumption|]). assumption. }
  exists (j + (n1 + (n2 + (n3 + n4))))%nat. split; auto. destruct Mv as (_ & Cm & _).
  assert (Hlen : (j + (n1 + (n2 + (n3 + n4))) <= 7)%nat) by qlia.
  rewrite !firstn_plus.
  clear - HW1 HW2 HW3 HW4 HW5 Hlen.
  destruct HW1 as [(-> & W1)|[(-> & W1)|W1]]; [| |exfalso; lia];
  (destruct HW2 as [(-> & W2)|(-> & W2)]); (destruct HW3 as [(-> & W3)|(-> & W3)]);
  (destruct HW4 as [(-> & W4)|(-> & W4)]); (destruct HW5 as [(-> & W5)|(-> & W5)]); try (exfalso; lia).
  - left. split; [reflexivity|]. now apply in_cat5.
  - right. split; [reflexivity|]. unfold heads7. do 4 (apply in_or_app; right). now apply in_cat5.
  - right. split; [reflexivity|]. unfold heads7. do 3 (apply in_or_app; right). apply in_or_app; left. now apply in_cat5.
  - right. split; [reflexivity|]. unfold heads7. do 2 (apply in_or_app; right). apply in_or_app; left. now apply in_cat5.
  - right. split; [reflexivity|]. unfold heads7. do 1 (apply in_or_app; right). apply in_or_app; left. now apply in_cat5.
  - right. split; [reflexivity|]. unfold heads7. apply in_or_app; left. now apply in_cat5.
Qed.

Definition crc_big (w : list Z) : bool :=
  (256 <=? sml_crc16_calculate w) && (256 <=? sml_crc16kermit_calculate w).
Definition crc_nonzero (w : list Z) : bool :=
  negb (sml_crc16_calculate w =? 0) && negb (sml_crc16kermit_calculate w =? 0).
Lemma heads6_crc : forallb crc_big heads6 = true.
Proof. vm_compute. reflexivity. Qed.
Lemma heads7_crc : forallb crc_nonzero heads7 = true.
Proof. vm_compute. reflexivity. Qed.

(** What is accepted has at least nine bytes, and a tenth byte follows or is its
    terminator. *)
Lemma message_min s m s' : okbuf s -> small s -> error s = false ->
  sml_message_parse s = Ret (Some m, s') -> error s' = false ->
  (cursor s + 9 <= cursor s')%nat /\ (cursor s + 10 <= buffer_len s)%nat.
Proof.
  intros Hs Sm He E Er.
  destruct (message_inv _ _ _ Hs Sm He E Er)
    as (ti & gi & ab & mb & s1 & c & s2 & Eh & Er1 & Hs1 & St1 & Ec & Er2 & St2 & Hfew & HR).
  destruct (crc_bad c _) eqn:Hbad; [destruct HR; discriminate|]. destruct HR as (_ & b & t & R2 & Mv).
  assert (Hlt : (cursor s2 < buffer_len s)%nat).
  { pose proof (rest_length s2) as RL. rewrite R2 in RL. cbn [length] in RL.
    unfold buffer_len in *. rewrite (st_buf _ _ St2), (st_buf _ _ St1) in RL. lia. }
  assert (H9 : (cursor s + 9 <= cursor s2)%nat); [|destruct Mv as (_ & Cm & _); lia].
  clear Hlt R2 Mv b t.
  destruct (Nat.le_gt_cases (cursor s + 9) (cursor s2)) as [|Hlt]; auto. exfalso.
  pose proof (u16_safe s1 Hs1) as W. unfold wp in W. rewrite Ec in W. destruct W as [_ P1].
  destruct (P1 Er2) as [G1 _]. clear P1.
  destruct (head_short s _ s1 Hs Sm He Eh Er1) as (n & Mvh & HW); [qlia|].
  destruct (Mvh) as (_ & Ch & _).
  assert (Hn : n = 6%nat \/ n = 7%nat) by (destruct HW as [[? _]|[? _]]; auto).
  destruct (number_short 2 s1 (Some c) s2) as (n2 & Mv2 & Ho & HW2); auto; try qlia.
  { eapply moved_small; eauto. }
  destruct (Mv2) as (_ & C2 & _). destruct Ho as [Ho1 Ho2].
  replace (cursor s1 - cursor s)%nat with n in Hbad by qlia.
  unfold crc_bad in Hbad. destruct HW as [(-> & W)|(-> & W)].
  - pose proof (proj1 (forallb_forall _ _) heads6_crc _ W) as HC. unfold crc_big in HC. lia.
  - assert (n2 = 1%nat) as E1 by qlia. specialize (Ho2 E1).
    pose proof (proj1 (forallb_forall _ _) heads7_crc _ W) as HC. unfold crc_nonzero in HC. lia.
Qed.
End WithHost.
