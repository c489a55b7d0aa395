(** Reading back what the TL writer writes. *)
From Verif Require Import Base Buf Number OctetString Lib Wf Spec Write TLWrite.

(** the buffer after writing [bs] at the cursor *)
Definition written (s : sbuf) (bs : list Z) : list Z :=
  firstn (cursor s) (buffer s) ++ bs ++ skipn (cursor s + length bs) (buffer s).
Definition zeros_ahead (s : sbuf) (n : nat) : Prop :=
  firstn n (skipn (cursor s) (buffer s)) = repeat 0 n.

Lemma buf_split s n : (cursor s + n <= buffer_len s)%nat ->
  s = mkBuf (firstn (cursor s) (buffer s) ++ firstn n (skipn (cursor s) (buffer s)) ++ skipn (cursor s + n) (buffer s))
        (length (firstn (cursor s) (buffer s))) (error s) (ovf s) /\
  length (firstn n (skipn (cursor s) (buffer s))) = n.
Proof.
  unfold buffer_len. intros Hc. rewrite <- skipn_skipn_add, firstn_skipn, firstn_skipn, !firstn_length, skipn_length.
  split; [|lia]. rewrite Nat.min_l by lia. now destruct s.
Qed.
Lemma writes_at any w bs s : writes any w bs -> bytes_ok (buffer s) -> (cursor s + length bs <= buffer_len s)%nat ->
  zeros_ahead s (length bs) ->
  exists o, w s = Ret (tt, mkBuf (written s bs) (cursor s + length bs) (error s) o).
Proof.
  intros Hw Hb Hc Hz. destruct (buf_split s (length bs) Hc) as [E L].
  set (pre := firstn (cursor s) (buffer s)) in *. set (old := firstn _ (skipn _ _)) in *. set (post := skipn (_ + _) _) in *.
  assert (LP : length pre = cursor s) by (unfold pre; rewrite firstn_length; unfold buffer_len in Hc; lia).
  assert (EB : buffer s = pre ++ old ++ post) by (rewrite E at 1; reflexivity). rewrite EB in Hb.
  destruct (proj1 (Hw pre old post (error s) (ovf s) Hb) L) as (out & o & EW & LO & BO & ZO).
  rewrite <- E in EW. exists o. rewrite EW, LP. unfold written. fold pre. fold post. now rewrite ZO by (right; exact Hz).
Qed.
Lemma writes_any w bs s : writes true w bs -> bytes_ok (buffer s) -> (cursor s + length bs <= buffer_len s)%nat ->
  exists o, w s = Ret (tt, mkBuf (written s bs) (cursor s + length bs) (error s) o).
Proof.
  intros Hw Hb Hc. destruct (buf_split s (length bs) Hc) as [E L].
  set (pre := firstn (cursor s) (buffer s)) in *. set (old := firstn _ (skipn _ _)) in *. set (post := skipn (_ + _) _) in *.
  assert (LP : length pre = cursor s) by (unfold pre; rewrite firstn_length; unfold buffer_len in Hc; lia).
  assert (EB : buffer s = pre ++ old ++ post) by (rewrite E at 1; reflexivity). rewrite EB in Hb.
  destruct (proj1 (Hw pre old post (error s) (ovf s) Hb) L) as (out & o & EW & LO & BO & ZO).
  rewrite <- E in EW. exists o. rewrite EW, LP. unfold written. fold pre. fold post. now rewrite ZO by (now left).
Qed.
Lemma writes_room any w bs s : writes any w bs -> bytes_ok (buffer s) -> (cursor s + length bs <= buffer_len s)%nat ->
  exists out o, w s = Ret (tt, mkBuf (written s out) (cursor s + length bs) (error s) o) /\ length out = length bs.
Proof.
  intros Hw Hb Hc. destruct (buf_split s (length bs) Hc) as [E L].
  set (pre := firstn (cursor s) (buffer s)) in *. set (old := firstn _ (skipn _ _)) in *. set (post := skipn (_ + _) _) in *.
  assert (LP : length pre = cursor s) by (unfold pre; rewrite firstn_length; unfold buffer_len in Hc; lia).
  assert (EB : buffer s = pre ++ old ++ post) by (rewrite E at 1; reflexivity). rewrite EB in Hb.
  destruct (proj1 (Hw pre old post (error s) (ovf s) Hb) L) as (out & o & EW & LO & BO & ZO).
  rewrite <- E in EW. exists out, o. rewrite EW, LP. unfold written. rewrite LO. fold pre. fold post. auto.
Qed.
Lemma writes_fault any w bs s : writes any w bs -> bytes_ok (buffer s) -> (cursor s <= buffer_len s)%nat ->
  (buffer_len s < cursor s + length bs)%nat -> w s = Fault OobWrite.
Proof.
  intros Hw Hb Hc Hl. destruct (buf_split s 0) as [E _]; [lia|]. rewrite Nat.add_0_r in E. cbn [firstn app] in E.
  set (pre := firstn (cursor s) (buffer s)) in *. set (post := skipn (cursor s) (buffer s)) in *.
  assert (EB : buffer s = pre ++ [] ++ post) by (rewrite E at 1; reflexivity). rewrite EB in Hb.
  rewrite E. apply (proj2 (Hw pre [] post (error s) (ovf s) Hb)). cbn [app]. unfold post. rewrite skipn_length.
  unfold buffer_len in *. lia.
Qed.
Lemma written_rest s bs c e o : (cursor s <= buffer_len s)%nat -> c = cursor s ->
  skipn c (buffer (mkBuf (written s bs) c e o)) = bs ++ skipn (cursor s + length bs) (buffer s).
Proof.
  intros Hc ->. cbn [buffer]. unfold written, buffer_len in *.
  rewrite skipn_app, firstn_length, Nat.min_l, Nat.sub_diag by lia.
  rewrite (skipn_all2 (firstn _ _)) by (rewrite firstn_length; lia). reflexivity.
Qed.
Lemma written_length s bs : (cursor s + length bs <= buffer_len s)%nat -> length (written s bs) = buffer_len s.
Proof. unfold written, buffer_len. intros. rewrite !app_length, firstn_length, skipn_length. lia. Qed.
Lemma written_ok s bs : bytes_ok (buffer s) -> bytes_ok bs -> bytes_ok (written s bs).
Proof. intros Hb Hs. unfold written. repeat (apply Forall_app; split); auto using Forall_firstn, Forall_skipn. Qed.

(** *** nibbles of the written field *)
Lemma fold_nibs v n : forall a, 0 <= v ->
  fold_left (fun a b => a * 16 + b mod 16) (nibs n false v) a = a * 16 ^ Z.of_nat n + (v / 16) mod 16 ^ Z.of_nat n.
Proof.
  induction n as [|n IH]; intros a Hv; cbn [nibs fold_left].
  - change (16 ^ Z.of_nat 0) with 1. rewrite Z.mod_1_r. lia.
  - rewrite IH by auto. pose proof (nib_range (Z.of_nat (S n)) v) as Hn. rewrite lor_128 by auto.
    replace ((128 + nib (Z.of_nat (S n)) v) mod 16) with (nib (Z.of_nat (S n)) v).
    2:{ replace (128 + nib (Z.of_nat (S n)) v) with (nib (Z.of_nat (S n)) v + 8 * 16) by lia. rewrite Z.mod_add by lia. rewrite Z.mod_small; lia. }
    rewrite Nat2Z.inj_succ, Z.pow_succ_r by lia. unfold nib. rewrite Z.pow_succ_r by lia.
    assert (0 < 16 ^ Z.of_nat n) by (apply Z.pow_pos_nonneg; lia).
    rewrite <- (Z.div_div v 16) by lia. rewrite (Z.mul_comm 16 (16 ^ Z.of_nat n)).
    rewrite (Z.rem_mul_r (v / 16) (16 ^ Z.of_nat n) 16) by lia. lia.
Qed.
Lemma fold_nibs_rare v n : forall a,
  fold_left (fun a b => a * 16 + b mod 16) (nibs n true v) a = a * 16 ^ Z.of_nat n.
Proof.
  induction n as [|n IH]; intros a; cbn [nibs fold_left].
  - change (16 ^ Z.of_nat 0) with 1. lia.
  - rewrite IH. change (Z.lor 128 0 mod 16) with 0. rewrite Nat2Z.inj_succ, Z.pow_succ_r by lia. lia.
Qed.

Lemma vals_nibbles n : 1 <= n < 16 ^ 7 ->
  fold_left (fun a b => a * 16 + b mod 16) (tl_vals n) 0 =
  if crossing n then (n + Z.of_nat (extra 8 n) + 1) mod 16 else n + Z.of_nat (extra 8 n).
Proof.
  intros Hn. assert (HR : 1 <= n < 16 ^ Z.of_nat 8) by (change (16 ^ Z.of_nat 8) with (16 * 16 ^ 7); lia).
  pose proof (extra_spec 8 n HR) as HE. unfold tl_vals. unfold crossing. set (k := extra 8 n) in *.
  destruct (Z.leb_spec (16 ^ (Z.of_nat k + 1)) (n + Z.of_nat k)) as [Hc|Hc].
  - rewrite fold_left_app, fold_nibs_rare. cbn [fold_left]. rewrite Z.mod_mod by lia. lia.
  - rewrite Z.add_0_r. rewrite fold_left_app, fold_nibs by lia. cbn [fold_left]. rewrite Z.mod_mod by lia.
    set (v := n + Z.of_nat k) in *. rewrite (Z.mod_small (v / 16)).
    + pose proof (Z.div_mod v 16). lia.
    + split; [apply Z.div_pos; lia|]. apply Z.div_lt_upper_bound; [lia|].
      rewrite Z.pow_add_r in Hc by lia. change (16 ^ 1) with 16 in Hc. lia.
Qed.

Lemma mod16_type type v : In type tl_types -> (type + v) mod 16 = v mod 16.
Proof.
  intros Ht. assert (type mod 16 = 0) by (repeat (destruct Ht as [<-|Ht]; [reflexivity|]); destruct Ht).
  rewrite Z.add_mod, H, Z.add_0_l by lia. apply Z.mod_mod. lia.
Qed.
Lemma text_nibbles type l : In type tl_types -> 1 <= count type l < 16 ^ 7 ->
  tl_nibbles (tl_text type l) = if crossing (count type l) then (count type l + Z.of_nat (extra 8 (count type l)) + 1) mod 16
    else count type l + Z.of_nat (extra 8 (count type l)).
Proof.
  intros Ht Hn. rewrite <- vals_nibbles by auto. unfold tl_text, tl_nibbles.
  destruct (tl_vals (count type l)) as [|v t]; auto. cbn [fold_left]. now rewrite mod16_type.
Qed.
Lemma text_length type l : length (tl_text type l) = S (extra 8 (count type l)).
Proof.
  unfold tl_text. destruct (tl_vals_cons (count type l)) as (v & t & E).
  assert (HL : length (tl_vals (count type l)) = S (extra 8 (count type l))).
  { unfold tl_vals. rewrite app_length, nibs_length. cbn [length]. lia. }
  rewrite E in *. exact HL.
Qed.
Lemma text_type type l : In type tl_types -> tl_type (tl_text type l) = type.
Proof.
  intros Ht. unfold tl_text, tl_type. pose proof (tl_vals_nib (count type l)) as HN.
  destruct (tl_vals_cons (count type l)) as (v & t & E). rewrite E in *. inv HN.
  assert (HA : forallb (fun ty => forallb (fun n => (ty + Z.of_nat n) / 16 mod 8 * 16 =? ty) (seq 0 16 ++ seq 128 16)) tl_types = true) by reflexivity.
  rewrite forallb_forall in HA. specialize (HA _ Ht). rewrite forallb_forall in HA. specialize (HA (Z.to_nat v)).
  rewrite Z2Nat.id in HA by (destruct H1; lia). apply Z.eqb_eq, HA. apply in_app_iff.
  destruct H1; [left|right]; apply in_seq; lia.
Qed.
Lemma nibs_cont n r l : Forall (fun b => 128 <= b < 144) (nibs n r l).
Proof.
  induction n; cbn [nibs]; constructor; auto. rewrite lor_128; destruct r; try lia; pose proof (nib_range (Z.of_nat (S n)) l); lia.
Qed.
Lemma type_small type : In type tl_types -> 0 <= type <= 112.
Proof. intros Ht. repeat (destruct Ht as [<-|Ht]; [lia|]). destruct Ht. Qed.
Lemma text_field type l : In type tl_types -> tl_field (tl_text type l).
Proof.
  intros Ht. pose proof (type_small _ Ht). unfold tl_text, tl_vals. set (v := _ + _ + _).
  pose proof (nibs_cont (extra 8 (count type l)) (crossing (count type l)) v) as HC.
  pose proof (Z.mod_pos_bound v 16).
  destruct (nibs _ _ _) as [|x t]; cbn [app].
  - exists [], (type + v mod 16). repeat split; try constructor; lia.
  - inv HC. exists (type + x :: t), (v mod 16). repeat split; try lia. constructor; [lia|].
    eapply Forall_impl; [|eassumption]. cbn. intros. lia.
Qed.
Lemma text_ok type l : In type tl_types -> bytes_ok (tl_text type l).
Proof.
  intros Ht. destruct (text_field type l Ht) as (i & x & -> & Hi & Hx). apply Forall_app. split.
  - eapply Forall_impl; [|exact Hi]. unfold byte_ok. cbn. intros. lia.
  - constructor; auto. unfold byte_ok. lia.
Qed.

(** lengths that survive *)
Lemma text_read type l : In type tl_types -> type <> 112 -> 0 <= l -> l + 1 < 16 ^ 7 ->
  tl_nibbles (tl_text type l) < 2147483648 /\
  (tl_length (tl_text type l) = l <-> crossing (l + 1) = false).
Proof.
  intros Ht Hn H0 H1. change (16 ^ 7) with 268435456 in H1.
  assert (EC : count type l = l + 1) by (unfold count; destruct (Z.eqb_spec type 112); [contradiction|reflexivity]).
  pose proof (text_nibbles type l Ht) as HN. rewrite EC in HN. change (16 ^ 7) with 268435456 in HN. specialize (HN ltac:(lia)).
  unfold tl_length. rewrite text_type by auto. destruct (Z.eqb_spec type 112); [contradiction|].
  rewrite text_length, EC, HN. assert (HR : 1 <= l + 1 < 16 ^ Z.of_nat 8) by (change (16 ^ Z.of_nat 8) with 4294967296; lia).
  pose proof (extra_spec 8 _ HR) as HE. set (k := extra 8 (l + 1)) in *.
  assert (Hk : Z.of_nat k <= 7).
  { destruct (Z.le_gt_cases (Z.of_nat k) 7); auto. assert (16 ^ 8 <= 16 ^ Z.of_nat k) by (apply Z.pow_le_mono_r; lia).
    change (16 ^ 8) with 4294967296 in *. lia. }
  destruct (crossing (l + 1)) eqn:C; [|lia].
  pose proof (Z.mod_pos_bound (l + 1 + Z.of_nat k + 1) 16). split; [lia|]. split; [|discriminate]. intros E. exfalso.
  unfold crossing in C. fold k in C. apply Z.leb_le in C.
  destruct k as [|k]. { change (16 ^ (Z.of_nat 0 + 1)) with 16 in C, HE. lia. }
  assert (16 ^ 2 <= 16 ^ (Z.of_nat (S k) + 1)) by (apply Z.pow_le_mono_r; lia). change (16 ^ 2) with 256 in *. lia.
Qed.
Lemma crossing_iff n : 1 <= n < 16 ^ 7 ->
  crossing n = true <-> exists k, 1 <= k <= 6 /\ 16 ^ (k + 1) - k <= n < 16 ^ (k + 1).
Proof.
  intros Hn. assert (HR : 1 <= n < 16 ^ Z.of_nat 8) by (change (16 ^ Z.of_nat 8) with (16 * 16 ^ 7); lia).
  pose proof (extra_spec 8 _ HR) as HE. unfold crossing. rewrite Z.leb_le. split.
  - intros Hc. exists (Z.of_nat (extra 8 n)). set (k := extra 8 n) in *.
    assert (Z.of_nat k <= 6).
    { destruct (Z.le_gt_cases (Z.of_nat k) 6); auto. assert (16 ^ 7 <= 16 ^ Z.of_nat k) by (apply Z.pow_le_mono_r; lia). lia. }
    assert (1 <= Z.of_nat k). { destruct k; [|lia]. change (16 ^ (Z.of_nat 0 + 1)) with 16 in *. lia. }
    lia.
  - intros (k & Hk & Hc).
    assert (E : extra 8 n = Z.to_nat k).
    { apply extra_unique; [lia|]. split; [|lia]. rewrite Z.pow_add_r in Hc by lia. change (16 ^ 1) with 16 in Hc.
      assert (k <= 15 * 16 ^ k); [|lia].
      assert (16 ^ 1 <= 16 ^ k) by (apply Z.pow_le_mono_r; lia). change (16 ^ 1) with 16 in *. lia. }
    rewrite E, Z2Nat.id by lia. lia.
Qed.
Lemma list_read l : 0 <= l -> 1 <= l < 16 ^ 7 ->
  tl_nibbles (tl_text 112 l) < 2147483648 /\ (tl_length (tl_text 112 l) = l <-> l <= 15).
Proof.
  intros H0 H1. assert (Ht : In 112 tl_types) by (unfold tl_types; cbn [In]; tauto).
  assert (EC : count 112 l = l) by reflexivity.
  pose proof (text_nibbles 112 l Ht) as HN. rewrite EC in HN. specialize (HN ltac:(lia)).
  unfold tl_length. rewrite text_type by auto. change (112 =? 112) with true. cbv iota. rewrite HN.
  change (16 ^ 7) with 268435456 in H1.
  assert (HR : 1 <= l < 16 ^ Z.of_nat 8) by (change (16 ^ Z.of_nat 8) with 4294967296; lia).
  pose proof (extra_spec 8 _ HR) as HE.
  assert (HK : l <= 15 -> extra 8 l = 0%nat) by (intros; cbn [extra]; destruct (Z.leb_spec l 15); [reflexivity|lia]).
  assert (HK2 : 15 < l -> 1 <= Z.of_nat (extra 8 l)).
  { intros. cbn [extra]. destruct (Z.leb_spec l 15); [lia|]. lia. }
  assert (Hk : Z.of_nat (extra 8 l) <= 7).
  { destruct (Z.le_gt_cases (Z.of_nat (extra 8 l)) 7); auto. assert (16 ^ 8 <= 16 ^ Z.of_nat (extra 8 l)) by (apply Z.pow_le_mono_r; lia).
    change (16 ^ 8) with 4294967296 in *. lia. }
  destruct (crossing l) eqn:C.
  - pose proof (Z.mod_pos_bound (l + Z.of_nat (extra 8 l) + 1) 16). split; [lia|].
    assert (15 < l); [|lia]. destruct (Z.le_gt_cases l 15) as [Hle|]; auto.
    unfold crossing in C. rewrite (HK Hle) in C. apply Z.leb_le in C. change (16 ^ (Z.of_nat 0 + 1)) with 16 in C. cbn [Z.of_nat] in C. lia.
  - split; [lia|]. split; intros.
    + destruct (Z.le_gt_cases l 15); auto. specialize (HK2 ltac:(lia)). lia.
    + rewrite HK by auto. cbn [Z.of_nat]. lia.
Qed.
Lemma text_one type l : In type tl_types -> 0 <= count type l <= 15 -> tl_text type l = [type + count type l].
Proof.
  intros Ht Hc. assert (E0 : extra 8 (count type l) = 0%nat) by (cbn [extra]; destruct (Z.leb_spec (count type l) 15); [reflexivity|lia]).
  unfold tl_text, tl_vals, crossing. rewrite E0. cbn [Z.of_nat]. change (16 ^ (0 + 1)) with 16.
  destruct (Z.leb_spec 16 (count type l + 0)); [lia|]. cbn [nibs app]. rewrite !Z.add_0_r, Z.mod_small by lia. reflexivity.
Qed.
