(** The type-length writer: what it writes and which lengths survive. *)
From Verif Require Import Base Buf Number OctetString Lib Wf Spec Write.

Definition nib (i : Z) (l : Z) : Z := (l / 16 ^ i) mod 16.
Lemma nib_range i l : 0 <= nib i l < 16. Proof. apply Z.mod_pos_bound. lia. Qed.
Lemma pow16 i : 0 <= i -> 16 ^ i = 2 ^ (4 * i).
Proof. intros. rewrite Z.pow_mul_r by lia. reflexivity. Qed.
Lemma mask_land i l : 0 <= i -> Z.land (15 * 16 ^ i) l = nib i l * 16 ^ i.
Proof.
  intros Hi. unfold nib. rewrite pow16 by auto. rewrite <- Z.shiftl_mul_pow2 by lia.
  change 16 with (2 ^ 4). rewrite <- Z.shiftr_div_pow2 by lia. rewrite <- Z.land_ones by lia.
  rewrite <- Z.shiftl_mul_pow2 by lia. change 15 with (Z.ones 4).
  apply Z.bits_inj'. intros n Hn. rewrite Z.land_spec. rewrite !Z.shiftl_spec by auto.
  destruct (Z.ltb_spec (n - 4 * i) 0).
  - now rewrite (Z.testbit_neg_r (Z.ones 4)), (Z.testbit_neg_r (Z.land _ _)) by lia.
  - rewrite Z.land_spec, Z.shiftr_spec by auto. replace (n - 4 * i + 4 * i) with n by lia. apply andb_comm.
Qed.
Lemma land_15 l : Z.land l 15 = l mod 16.
Proof. change 15 with (Z.ones 4). now rewrite Z.land_ones by lia. Qed.
Lemma mask_shift i : 1 <= i -> Z.shiftr (15 * 16 ^ i) 4 = 15 * 16 ^ (i - 1).
Proof.
  intros Hi. rewrite Z.shiftr_div_pow2 by lia. change (2 ^ 4) with 16.
  replace (16 ^ i) with (16 * 16 ^ (i - 1)) by (rewrite <- Z.pow_succ_r by lia; f_equal; lia).
  replace (15 * (16 * 16 ^ (i - 1))) with ((15 * 16 ^ (i - 1)) * 16) by lia. now rewrite Z.div_mul by lia.
Qed.

Lemma find_mask_ok k l : 0 <= k -> 16 ^ k <= l < 16 ^ (k + 1) -> forall n i fuel,
  Z.of_nat n = i - k -> (n < fuel)%nat -> forall s, find_mask fuel (15 * 16 ^ i) i l s = Ret ((15 * 16 ^ k, k), s).
Proof.
  intros Hk Hl. induction n as [|n IH]; intros i [|fuel] Hn Hf s; try lia; cbn [find_mask].
  - assert (i = k) by lia. subst i. rewrite mask_land by lia.
    assert (E : nib k l = l / 16 ^ k).
    { unfold nib. apply Z.mod_small. split; [apply Z.div_pos; lia|].
      apply Z.div_lt_upper_bound; [lia|]. rewrite Z.pow_add_r in Hl by lia. change (16 ^ 1) with 16 in Hl. lia. }
    assert (1 <= l / 16 ^ k) by (apply Z.div_le_lower_bound; lia).
    destruct (Z.eqb_spec (nib k l * 16 ^ k) 0); [nia|]. reflexivity.
  - assert (H0 : l < 16 ^ i). { eapply Z.lt_le_trans; [apply Hl|]. apply Z.pow_le_mono_r; lia. }
    assert (0 < 16 ^ k) by (apply Z.pow_pos_nonneg; lia).
    rewrite mask_land by lia. unfold nib. rewrite (Z.div_small l) by lia.
    change (0 mod 16 * 16 ^ i =? 0) with true. cbv iota. rewrite mask_shift by lia. apply IH; lia.
Qed.

(** the bytes or-ed by the loop: nibbles i, i-1, ..., 1 *)
Fixpoint nibs (n : nat) (r : bool) (l : Z) : list Z :=
  match n with
  | O => []
  | S n' => Z.lor 128 (if r then 0 else nib (Z.of_nat n) l) :: nibs n' r l
  end.
Lemma nibs_ok n r l : bytes_ok (nibs n r l).
Proof.
  induction n; cbn [nibs]; constructor; auto. apply lor_byte; unfold byte_ok; [lia|].
  destruct r; [lia|]. pose proof (nib_range (Z.of_nat (S n)) l). lia.
Qed.
Lemma nibs_length n r l : length (nibs n r l) = n.
Proof. induction n; cbn [nibs length]; auto. Qed.

Lemma copy_ok (r : bool) l : 0 <= l -> forall n fuel, (n < fuel)%nat ->
  ors (copy_nibbles fuel (15 * 16 ^ Z.of_nat n) (Z.of_nat n + (if r then 1 else 0)) l) (nibs n r l).
Proof.
  intros Hl. induction n as [|n IH]; intros [|fuel] Hf; try lia; cbn [copy_nibbles nibs].
  - change (15 * 16 ^ Z.of_nat 0 >? SML_LENGTH_FIELD) with false. cbv iota. apply ors_ret.
  - set (i := Z.of_nat (S n)). assert (Hi : 1 <= i) by lia.
    assert (16 <= 16 ^ i). { change 16 with (16 ^ 1) at 1. apply Z.pow_le_mono_r; lia. }
    change SML_LENGTH_FIELD with 15.
    destruct (Z.gtb_spec (15 * 16 ^ i) 15); [|lia].
    rewrite mask_land, mask_shift by lia. change SML_ANOTHER_TL with 128.
    replace (Z.shiftr (nib i l * 16 ^ i) (4 * (i + (if r then 1 else 0)))) with (if r then 0 else nib i l).
    + replace (i - 1) with (Z.of_nat n) by lia. replace (i + (if r then 1 else 0) - 1) with (Z.of_nat n + if r then 1 else 0) by (destruct r; lia).
      pose proof (nib_range i l).
      assert (HX : forall a b (c d : P unit) s, (or_current a ;;; or_current b ;;; c ;;; d) s = ((or_current a ;;; or_current b ;;; c) ;;; d) s).
      { intros a b c d s. unfold bind. destruct (or_current a s) as [[[] s1]| |]; auto.
        destruct (or_current b s1) as [[[] s2]| |]; auto. }
      eapply ors_ext; [intros s; symmetry; apply HX|].
      apply (ors_seq _ _ [_]); [|apply or_two|apply IH; lia].
      * constructor; [|constructor]. apply lor_byte; unfold byte_ok; [lia|]. destruct r; lia.
      * unfold byte_ok. lia.
      * unfold byte_ok. destruct r; lia.
    + rewrite Z.shiftr_div_pow2 by (destruct r; lia). rewrite <- pow16 by (destruct r; lia). destruct r.
      * rewrite Z.pow_add_r by lia. change (16 ^ 1) with 16. pose proof (nib_range i l).
        symmetry. apply Z.div_small. nia.
      * rewrite Z.add_0_r. symmetry. apply Z.div_mul. lia.
Qed.

(** *** the text of a TL field as written *)

(** number of additional TL bytes: hexadecimal digits minus one *)
Fixpoint extra (fuel : nat) (l : Z) : nat :=
  match fuel with
  | O => 0
  | S fuel' => if l <=? 15 then 0 else S (extra fuel' (l / 16))
  end.
Lemma extra_spec fuel : forall l, 1 <= l < 16 ^ Z.of_nat fuel ->
  16 ^ Z.of_nat (extra fuel l) <= l < 16 ^ (Z.of_nat (extra fuel l) + 1).
Proof.
  induction fuel as [|fuel IH]; intros l Hl; [cbn in Hl; lia|]. cbn [extra].
  destruct (Z.leb_spec l 15).
  - cbn [Z.of_nat]. change (16 ^ 0) with 1. change (16 ^ (0 + 1)) with 16. lia.
  - rewrite Nat2Z.inj_succ in *. rewrite Z.pow_succ_r in Hl by lia.
    assert (HI : 1 <= l / 16 < 16 ^ Z.of_nat fuel).
    { split; [apply Z.div_le_lower_bound; lia|apply Z.div_lt_upper_bound; lia]. }
    specialize (IH _ HI). set (k := Z.of_nat (extra fuel (l / 16))) in *.
    replace (Z.succ k + 1) with (Z.succ (k + 1)) by lia. rewrite !Z.pow_succ_r by lia.
    pose proof (Z.div_mod l 16). pose proof (Z.mod_pos_bound l 16). lia.
Qed.
Lemma extra_unique k l : 0 <= k <= 7 -> 16 ^ k <= l < 16 ^ (k + 1) -> extra 8 l = Z.to_nat k.
Proof.
  intros Hk Hl. assert (HR : 1 <= l < 16 ^ Z.of_nat 8).
  { assert (1 <= 16 ^ k) by (pose proof (Z.pow_pos_nonneg 16 k); lia).
    assert (16 ^ (k + 1) <= 16 ^ Z.of_nat 8) by (apply Z.pow_le_mono_r; lia). lia. }
  pose proof (extra_spec 8 l HR) as HE. set (j := Z.of_nat (extra 8 l)) in *.
  assert (j = k); [|lia].
  destruct (Z.lt_trichotomy j k) as [|[|]]; auto.
  - assert (16 ^ (j + 1) <= 16 ^ k) by (apply Z.pow_le_mono_r; lia). lia.
  - assert (16 ^ (k + 1) <= 16 ^ j) by (apply Z.pow_le_mono_r; lia). lia.
Qed.

(** [total type l]: the number the nibbles start from *)
Definition count (type l : Z) : Z := if type =? 112 then l else l + 1.
Definition crossing (n : Z) : bool := 16 ^ (Z.of_nat (extra 8 n) + 1) <=? n + Z.of_nat (extra 8 n).
Definition tl_vals (n : Z) : list Z :=
  let k := extra 8 n in
  let r := crossing n in
  let v := n + Z.of_nat k + (if r then 1 else 0) in
  nibs k r v ++ [v mod 16].
Definition tl_text (type l : Z) : list Z :=
  match tl_vals (count type l) with
  | [] => []
  | v :: t => type + v :: t
  end.

Definition tl_types : list Z := [0; 64; 80; 96; 112].

Lemma tl_vals_ok n : bytes_ok (tl_vals n).
Proof.
  unfold tl_vals. apply Forall_app. split; [apply nibs_ok|]. constructor; [|constructor]. unfold byte_ok.
  pose proof (Z.mod_pos_bound (n + Z.of_nat (extra 8 n) + (if crossing n then 1 else 0)) 16). lia.
Qed.
Lemma tl_vals_cons n : exists v t, tl_vals n = v :: t.
Proof. unfold tl_vals. destruct (nibs _ _ _); cbn; eauto. Qed.

Lemma lor_128 z : 0 <= z < 16 -> Z.lor 128 z = 128 + z.
Proof.
  intros Hz. assert (HA : forallb (fun n => Z.lor 128 (Z.of_nat n) =? 128 + Z.of_nat n) (seq 0 16) = true) by reflexivity.
  rewrite forallb_forall in HA. specialize (HA (Z.to_nat z)). rewrite Z2Nat.id in HA by lia.
  apply Z.eqb_eq, HA, in_seq. lia.
Qed.
Definition nibble_byte (v : Z) : Prop := 0 <= v < 16 \/ 128 <= v < 144.
Lemma nibs_nib n r l : Forall nibble_byte (nibs n r l).
Proof.
  induction n; cbn [nibs]; constructor; auto. right. 
  assert (0 <= (if r then 0 else nib (Z.of_nat (S n)) l) < 16) by (destruct r; [lia|apply nib_range]).
  set (z := if r then _ else _) in *. clearbody z.
  rewrite lor_128 by auto. lia.
Qed.
Lemma tl_vals_nib n : Forall nibble_byte (tl_vals n).
Proof. unfold tl_vals. apply Forall_app. split; [apply nibs_nib|]. constructor; auto. left. apply Z.mod_pos_bound. lia. Qed.
Lemma lor_type type v : In type tl_types -> nibble_byte v -> Z.lor type v = type + v.
Proof.
  intros Ht Hv.
  assert (HA : forallb (fun t => forallb (fun n => Z.lor t (Z.of_nat n) =? t + Z.of_nat n) (seq 0 16 ++ seq 128 16)) tl_types = true) by reflexivity.
  rewrite forallb_forall in HA. specialize (HA _ Ht). rewrite forallb_forall in HA. specialize (HA (Z.to_nat v)).
  rewrite Z2Nat.id in HA by (destruct Hv; lia). apply Z.eqb_eq, HA. apply in_app_iff.
  destruct Hv; [left|right]; apply in_seq; lia.
Qed.
Lemma type_byte type : In type tl_types -> byte_ok type.
Proof. unfold byte_ok. intros Ht. repeat (destruct Ht as [<-|Ht]; [lia|]). destruct Ht. Qed.

(** the part behind the first store *)
Definition tl_rest (l : Z) : P unit :=
  l <- (if l >? SML_LENGTH_FIELD then
     (fun s => Ret (tt, set_ovf true s)) ;;;
     mp <- find_mask 9 4026531840 7 l ;;
     let mask := fst mp in
     let mask_pos := snd mp in
     let l := to_u32 (l + mask_pos) in
     if 8 <=? mask_pos + 1 then fail ShiftCount else
     let probe := to_u32 (Z.shiftl 15 (4 * (mask_pos + 1))) in
     let rare := negb (Z.land probe l =? 0) in
     let mask_pos := if rare then mask_pos + 1 else mask_pos in
     let l := if rare then to_u32 (l + 1) else l in
     copy_nibbles 9 mask mask_pos l ;;;
     ret l
   else ret l) ;;
  or_current (Z.land l SML_LENGTH_FIELD) ;;;
  inc_cursor.

Definition ors_ovf (w : P unit) (vals : list Z) : Prop := forall pre old post e o,
  bytes_ok (pre ++ old ++ post) ->
  (length old = length vals -> exists o',
     w (mkBuf (pre ++ old ++ post) (length pre) e o) =
       Ret (tt, mkBuf (pre ++ zipor old vals ++ post) (length pre + length vals) e o')) /\
  ((length (old ++ post) < length vals)%nat ->
     w (mkBuf (pre ++ old ++ post) (length pre) e o) = Fault OobWrite).
Lemma ors_weaken w vals : ors w vals -> ors_ovf w vals.
Proof. intros Hw pre old post e o Hb. destruct (Hw pre old post e o Hb) as [H1 H2]. split; auto. intros. exists o. auto. Qed.

Lemma rest_ok n : 0 <= n < 16 ^ 7 -> ors_ovf (tl_rest n) (tl_vals n).
Proof.
  intros Hn. unfold tl_rest. change SML_LENGTH_FIELD with 15. destruct (Z.gtb_spec n 15) as [Hg|Hg].
  - assert (HR : 1 <= n < 16 ^ Z.of_nat 8) by (change (16 ^ Z.of_nat 8) with (16 * 16 ^ 7); lia).
    pose proof (extra_spec 8 n HR) as HE. set (k := extra 8 n) in *.
    assert (Hk1 : 1 <= Z.of_nat k).
    { destruct (Z.eq_dec (Z.of_nat k) 0) as [E|]; [|lia]. rewrite E in HE. change (16 ^ (0 + 1)) with 16 in HE. lia. }
    assert (Hk6 : Z.of_nat k <= 6).
    { destruct (Z.le_gt_cases (Z.of_nat k) 6); auto. exfalso.
      assert (16 ^ 7 <= 16 ^ Z.of_nat k) by (apply Z.pow_le_mono_r; lia). lia. }
    assert (Hp : 16 ^ (Z.of_nat k + 1) <= 16 ^ 7) by (apply Z.pow_le_mono_r; lia).
    change (16 ^ 7) with 268435456 in Hp, Hn.
    set (l1 := n + Z.of_nat k). assert (L1 : to_u32 l1 = l1) by (unfold to_u32; apply Z.mod_small; lia).
    assert (Hprobe : to_u32 (Z.shiftl 15 (4 * (Z.of_nat k + 1))) = 15 * 16 ^ (Z.of_nat k + 1)).
    { rewrite Z.shiftl_mul_pow2, <- pow16 by lia. unfold to_u32. apply Z.mod_small.
      assert (0 < 16 ^ (Z.of_nat k + 1)) by (apply Z.pow_pos_nonneg; lia). lia. }
    assert (Hrare : negb (Z.land (15 * 16 ^ (Z.of_nat k + 1)) l1 =? 0) = crossing n).
    { unfold crossing. fold k. fold l1. rewrite mask_land by lia.
      assert (0 < 16 ^ (Z.of_nat k + 1)) by (apply Z.pow_pos_nonneg; lia).
      assert (E2 : 16 <= 16 ^ (Z.of_nat k + 1)). { change 16 with (16 ^ 1) at 1. apply Z.pow_le_mono_r; lia. }
      destruct (Z.leb_spec (16 ^ (Z.of_nat k + 1)) l1) as [Hc|Hc].
      - assert (E : nib (Z.of_nat k + 1) l1 = 1).
        { unfold nib. replace (l1 / 16 ^ (Z.of_nat k + 1)) with 1; [reflexivity|].
          apply Z.div_unique with (l1 - 16 ^ (Z.of_nat k + 1)); unfold l1; lia. }
        rewrite E. destruct (Z.eqb_spec (1 * 16 ^ (Z.of_nat k + 1)) 0); [lia|]. reflexivity.
      - unfold nib. rewrite Z.div_small by (unfold l1; lia). reflexivity. }
    set (r := crossing n) in *. set (l2 := if r then l1 + 1 else l1).
    assert (L2 : (if r then to_u32 (l1 + 1) else l1) = l2).
    { unfold l2. destruct r; auto. unfold to_u32. apply Z.mod_small. unfold l1. lia. }
    assert (HT : tl_vals n = nibs k r l2 ++ [l2 mod 16]).
    { unfold tl_vals. fold k. fold r. fold l1. unfold l2. destruct r; [|now rewrite Z.add_0_r]. reflexivity. }
    rewrite HT. clear HT.
    assert (EQ : forall s, (l <- ((fun s => Ret (tt, set_ovf true s)) ;;;
       mp <- find_mask 9 4026531840 7 n ;;
       let mask := fst mp in let mask_pos := snd mp in let l := to_u32 (n + mask_pos) in
       if 8 <=? mask_pos + 1 then fail ShiftCount else
       let probe := to_u32 (Z.shiftl 15 (4 * (mask_pos + 1))) in
       let rare := negb (Z.land probe l =? 0) in
       let mask_pos := if rare then mask_pos + 1 else mask_pos in
       let l := if rare then to_u32 (l + 1) else l in
       copy_nibbles 9 mask mask_pos l ;;; ret l) ;; or_current (Z.land l 15) ;;; inc_cursor) s =
       (copy_nibbles 9 (15 * 16 ^ Z.of_nat k) (Z.of_nat k + if r then 1 else 0) l2 ;;; or_current (l2 mod 16) ;;; inc_cursor)
         (set_ovf true s)).
    { intros s. unfold bind at 1 2 3. change 4026531840 with (15 * 16 ^ 7).
      rewrite (find_mask_ok (Z.of_nat k) n ltac:(lia) HE (Z.to_nat (7 - Z.of_nat k)) 7 9) by lia.
      cbn [fst snd]. destruct (Z.leb_spec 8 (Z.of_nat k + 1)); [lia|].
      fold l1. rewrite L1, Hprobe, Hrare, L2. 
      replace (if r then Z.of_nat k + 1 else Z.of_nat k) with (Z.of_nat k + if r then 1 else 0) by (destruct r; lia).
      unfold bind. destruct (copy_nibbles _ _ _ _ _) as [[[] s2]| |]; auto. unfold ret. now rewrite land_15. }
    assert (HO : ors (copy_nibbles 9 (15 * 16 ^ Z.of_nat k) (Z.of_nat k + if r then 1 else 0) l2 ;;; or_current (l2 mod 16) ;;; inc_cursor)
      (nibs k r l2 ++ [l2 mod 16])).
    { apply ors_seq; [apply nibs_ok|apply copy_ok|apply or_one].
      - unfold l2, l1. destruct r; lia.
      - lia.
      - unfold byte_ok. pose proof (Z.mod_pos_bound l2 16). lia. }
    intros pre old post e o Hb. rewrite EQ. unfold set_ovf. cbn [buffer cursor error ovf]. rewrite orb_true_r.
    destruct (HO pre old post e true Hb) as [HO1 HO2]. split; auto. intros Hl. exists true. auto.
  - assert (E0 : extra 8 n = 0%nat) by (cbn [extra]; destruct (Z.leb_spec n 15); [reflexivity|lia]).
    assert (HT : tl_vals n = [n mod 16]).
    { unfold tl_vals, crossing. rewrite E0. cbn [Z.of_nat]. change (16 ^ (0 + 1)) with 16.
      destruct (Z.leb_spec 16 (n + 0)); [lia|]. cbn [nibs app]. now rewrite !Z.add_0_r. }
    rewrite HT. rewrite (Z.mod_small n 16) by lia.
    apply ors_weaken. eapply ors_ext; [|apply (or_one n); unfold byte_ok; lia].
    intros s. unfold bind, ret. cbv beta iota. now rewrite land_15, Z.mod_small by lia.
Qed.

Lemma writes_tl any type l : In type tl_types -> 0 <= l -> 0 <= count type l < 16 ^ 7 ->
  (any = true -> count type l <= 15) ->
  writes any (sml_buf_set_type_and_length type l) (tl_text type l).
Proof.
  intros Ht H0 Hl Hany pre old post e o Hb. change (16 ^ 7) with 268435456 in Hl.
  pose proof (type_byte _ Ht) as HtB.
  assert (EC : (if negb (type =? SML_TYPE_LIST) then to_u32 (l + 1) else l) = count type l).
  { unfold count in *. change SML_TYPE_LIST with 112. destruct (Z.eqb_spec type 112); cbn [negb]; auto.
    unfold to_u32. apply Z.mod_small. lia. }
  assert (EQ : forall s, sml_buf_set_type_and_length type l s = (store_current type ;;; tl_rest (count type l)) s).
  { intros s. unfold sml_buf_set_type_and_length. rewrite EC. reflexivity. }
  rewrite EQ. clear EQ EC.
  unfold tl_text. pose proof (tl_vals_ok (count type l)) as HV. pose proof (tl_vals_nib (count type l)) as HN.
  pose proof (rest_ok (count type l)) as HR. change (16 ^ 7) with 268435456 in HR. specialize (HR Hl).
  destruct (tl_vals_cons (count type l)) as (v & t & EV). rewrite EV in *. inv HV. inv HN.
  unfold bind, store_current, buffer_len. cbn [buffer cursor].
  assert (HS : forall x m, (length (pre ++ x :: m) > length pre)%nat) by (intros; rewrite app_length; cbn; lia).
  split; intros HL.
  - destruct old as [|x old]; [discriminate|]. cbn [app length] in *.
    replace (length pre <? length (pre ++ x :: old ++ post))%nat with true by (symmetry; apply Nat.ltb_lt, HS).
    unfold set_buffer. cbn [buffer cursor error ovf]. rewrite upd_at, byte_u8 by auto.
    assert (Hb2 : bytes_ok (pre ++ (type :: old) ++ post)).
    { unfold bytes_ok in *. cbn [app] in *. rewrite !Forall_app in *. destruct Hb as [Hb1 Hb2]. inv Hb2. split; auto. }
    destruct (proj1 (HR pre (type :: old) post e o Hb2)) as (o' & E). { cbn [length]. lia. }
    cbn [app length zipor] in E. rewrite E. exists (Z.lor type v :: zipor old t), o'.
    rewrite lor_type by auto. cbn [app length]. rewrite zipor_length by lia. split; auto. split; auto. split.
    + constructor; [rewrite <- lor_type by auto; now apply lor_byte|]. apply zipor_ok; auto.
      unfold bytes_ok in *. cbn [app] in *. apply Forall_app in Hb2. destruct Hb2 as [_ Hb2].
      apply Forall_cons_iff in Hb2. destruct Hb2 as [_ Hb2]. now apply Forall_app in Hb2.
    + intros [EA|EZ]; [|cbn [repeat] in EZ; injection EZ as -> ->; now rewrite zipor_zero].
      specialize (Hany EA). assert (ET : t = []).
      { unfold tl_vals in EV. replace (extra 8 (count type l)) with 0%nat in EV; [now injection EV|].
        cbn [extra]. destruct (Z.leb_spec (count type l) 15); [reflexivity|lia]. }
      subst t. destruct old; [reflexivity|discriminate].
  - destruct (old ++ post) as [|x m] eqn:Em.
    + rewrite app_nil_r. rewrite Nat.ltb_irrefl. reflexivity.
    + replace (length pre <? length (pre ++ x :: m))%nat with true by (symmetry; apply Nat.ltb_lt, HS).
      unfold set_buffer. cbn [buffer cursor error ovf]. rewrite upd_at, byte_u8 by auto.
      assert (Hb2 : bytes_ok (pre ++ (type :: m) ++ [])).
      { unfold bytes_ok in *. cbn [app] in *. rewrite app_nil_r. rewrite !Forall_app in *. destruct Hb as [Hb1 Hb2]. inv Hb2. split; auto. }
      pose proof (proj2 (HR pre (type :: m) [] e o Hb2)) as HF. rewrite !app_nil_r in HF. apply HF. exact HL.
Qed.
