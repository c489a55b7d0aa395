(** Property C68: what can be told from a line on the screen. *)
From Coq Require Import SpecFloat.
From Verif Require Import Base Buf Crc16 Number OctetString Boolean Value Time SList Tree Bodies Message File Transport Server ServerMain
  Lib Wf Ctx Spec PropsNumber Double PropsDouble PropsString PropsServer Decimal Units Printf PrintFacts PropsPrint.

(** ** Octet strings *)
Lemma lower_digit_range v : 0 <= v <= 15 -> 48 <= lower_digit v <= 102 /\ lower_digit v <> 32.
Proof. unfold lower_digit. intros Hv. destruct (v <=? 9); lia. Qed.
Lemma lower_digit_inj a b : 0 <= a <= 15 -> 0 <= b <= 15 -> lower_digit a = lower_digit b -> a = b.
Proof. unfold lower_digit. intros Ha Hb. destruct (Z.leb_spec a 9), (Z.leb_spec b 9); lia. Qed.
Lemma nibbles b : byte_ok b -> 0 <= b / 16 <= 15 /\ 0 <= b mod 16 <= 15 /\ b = 16 * (b / 16) + b mod 16.
Proof. unfold byte_ok. intros Hb. pose proof (Z.div_mod b 16 ltac:(lia)). pose proof (Z.mod_pos_bound b 16 ltac:(lia)). lia. Qed.
Lemma hex_dump_cons b bs : hex_dump (b :: bs) = lower_digit (b / 16) :: lower_digit (b mod 16) :: 32 :: hex_dump bs.
Proof. reflexivity. Qed.
Lemma hex_dump_inj : forall bs1 bs2, bytes_ok bs1 -> bytes_ok bs2 -> hex_dump bs1 = hex_dump bs2 -> bs1 = bs2.
Proof.
  induction bs1 as [|b1 bs1 IH]; intros [|b2 bs2] H1 H2 E; try discriminate; [reflexivity|].
  rewrite !hex_dump_cons in E. injection E as E1 E2 E. inversion H1 as [|? ? B1 H1']; inversion H2 as [|? ? B2 H2']; subst.
  destruct (nibbles b1 B1) as (P1 & Q1 & R1). destruct (nibbles b2 B2) as (P2 & Q2 & R2).
  apply lower_digit_inj in E1; [|assumption|assumption]. apply lower_digit_inj in E2; [|assumption|assumption].
  rewrite (IH bs2) by auto. f_equal. lia.
Qed.
Definition shown (bs text : list Z) : Prop :=
  exists pre post, bs = pre ++ post /\ Forall printable pre /\ (forall b t, post = b :: t -> ~ printable b) /\ text = pre ++ hex_dump post.
Lemma shown_inj_aux : forall pre1 post1 pre2 post2, bytes_ok post1 -> bytes_ok post2 -> Forall printable pre1 -> Forall printable pre2 ->
  pre1 ++ hex_dump post1 = pre2 ++ hex_dump post2 -> pre1 = pre2 /\ post1 = post2.
Proof.
  assert (K : forall post1 c pre2 post2, bytes_ok post1 -> bytes_ok post2 -> Forall printable (c :: pre2) -> hex_dump post1 = (c :: pre2) ++ hex_dump post2 -> False).
  { intros [|b1 post1] c pre2 post2 H1 H2 F E; [discriminate|]. rewrite hex_dump_cons in E. cbn [app] in E. injection E as _ E.
    assert (ND : forall r post, bytes_ok post -> 32 :: r = hex_dump post -> False).
    { intros r [|b post] HB X; [discriminate|]. rewrite hex_dump_cons in X. injection X as X _. inversion HB as [|? ? B ?]; subst. destruct (nibbles b B) as (P & _ & _). pose proof (lower_digit_range _ P). lia. }
    destruct pre2 as [|c2 pre2]; cbn [app] in E.
    - destruct post2 as [|b2 post2]; [discriminate|]. rewrite hex_dump_cons in E. injection E as _ E _. inversion H2 as [|? ? B ?]; subst.
      destruct (nibbles b2 B) as (_ & P & _). pose proof (lower_digit_range _ P). lia.
    - injection E as _ E. destruct pre2 as [|c3 pre2]; cbn [app] in E; [eapply ND; eauto|]. injection E as E _.
      inversion F as [|? ? _ F1]; inversion F1 as [|? ? _ F2]; inversion F2 as [|? ? F3 _]; subst. unfold printable in F3. lia. }
  induction pre1 as [|c1 pre1 IH]; intros post1 [|c2 pre2] post2 H1 H2 F1 F2 E.
  - split; [reflexivity|]. now apply hex_dump_inj.
  - exfalso. eapply (K post1 c2 pre2 post2); eauto.
  - exfalso. eapply (K post2 c1 pre1 post1); eauto.
  - cbn [app] in E. injection E as -> E. inversion F1; inversion F2; subst. destruct (IH post1 pre2 post2) as [-> ->]; auto.
Qed.
Lemma shown_inj bs1 bs2 text : bytes_ok bs1 -> bytes_ok bs2 -> shown bs1 text -> shown bs2 text -> bs1 = bs2.
Proof.
  intros H1 H2 (p1 & q1 & -> & F1 & _ & ->) (p2 & q2 & -> & F2 & _ & E). apply Forall_app in H1, H2.
  destruct (shown_inj_aux p1 q1 p2 q2) as [-> ->]; try tauto. 
Qed.
(** The text an octet string is converted to. *)
Definition strhex_text (type : Z) (bs : list Z) (mixed : bool) : option (list Z) :=
  match sml_value_to_strhex (Some (mkValue type (VBytes bs))) mixed with
  | Ret (Some (block, n)) => Some (firstn n block)
  | _ => None
  end.
(** No two octet strings have the same text, in either of the two modes. *)
Theorem C68_strhex_injective t1 t2 bs1 bs2 mixed : bytes_ok bs1 -> bytes_ok bs2 -> bs1 <> [] -> bs2 <> [] ->
  strhex_text t1 bs1 mixed = strhex_text t2 bs2 mixed -> bs1 = bs2.
Proof.
  intros H1 H2 N1 N2. unfold strhex_text.
  destruct (C21_strhex t1 bs1 mixed H1 N1) as (p1 & q1 & k1 & E1 & F1 & M1 & _ & -> & _ & T1).
  destruct (C21_strhex t2 bs2 mixed H2 N2) as (p2 & q2 & k2 & E2 & F2 & M2 & _ & -> & _ & T2).
  assert (FX : forall p q k, firstn (S (length (p ++ hex_dump q))) k = p ++ hex_dump q ++ [0] -> firstn (length (p ++ hex_dump q)) k = p ++ hex_dump q).
  { intros p q k T. apply (f_equal (firstn (length (p ++ hex_dump q)))) in T. rewrite firstn_firstn, Nat.min_l in T by lia. rewrite T, app_assoc, firstn_app, Nat.sub_diag, firstn_O, app_nil_r, firstn_all. reflexivity. }
  rewrite (FX _ _ _ T1), (FX _ _ _ T2). intros E. injection E as E. rewrite E1, E2 in *. apply Forall_app in H1, H2.
  destruct (shown_inj_aux p1 q1 p2 q2) as [-> ->]; tauto.
Qed.
Print Assumptions C68_strhex_injective.
Example C68_example_strhex : strhex_text 0 [48; 97; 10] true = Some [48; 97; 48; 97; 32] /\ strhex_text 0 [10; 10] true = Some [48; 97; 32; 48; 97; 32] /\
  strhex_text 0 [48; 97] true = Some [48; 97] /\ strhex_text 0 [10] true = Some [48; 97; 32].
Proof. repeat split. Qed.

(** ** Lines *)
Lemma spells_digits t v : 0 <= v -> spells t v 0 -> Forall digit t.
Proof.
  intros Hv (w & d & -> & F & L & _). destruct d; [|discriminate]. destruct (Z.ltb_spec v 0); [lia|]. rewrite !app_nil_r in *. exact F.
Qed.
Lemma sep_split t1 t2 c r1 r2 : Forall digit t1 -> Forall digit t2 -> ~ digit c -> t1 ++ [c] ++ r1 = t2 ++ [c] ++ r2 -> t1 = t2 /\ r1 = r2.
Proof.
  intros F1 F2 NC E. destruct (digits_until t1 t2 ([c] ++ r1) ([c] ++ r2) F1 F2) as [E1 E2]; [| |exact E|].
  - intros x t X. injection X as <- _. exact NC.
  - intros x t X. injection X as <- _. exact NC.
  - split; [exact E1|]. now injection E2.
Qed.
Lemma obis_split o1 o2 t1 t2 r1 r2 : bytes_ok o1 -> bytes_ok o2 -> length o1 = 6%nat -> length o2 = 6%nat ->
  obis_spelt o1 t1 -> obis_spelt o2 t2 -> t1 ++ [35] ++ r1 = t2 ++ [35] ++ r2 -> o1 = o2 /\ r1 = r2.
Proof.
  intros B1 B2 L1 L2 (a1 & b1 & c1 & d1 & e1 & f1 & -> & A1 & A2 & A3 & A4 & A5 & A6) (a2 & b2 & c2 & d2 & e2 & f2 & -> & C1 & C2 & C3 & C4 & C5 & C6) E.
  destruct o1 as [|x1 [|x2 [|x3 [|x4 [|x5 [|x6 [|? ?]]]]]]]; try discriminate. destruct o2 as [|y1 [|y2 [|y3 [|y4 [|y5 [|y6 [|? ?]]]]]]]; try discriminate. clear L1 L2.
  cbn [nth] in *. repeat (apply Forall_cons_iff in B1; destruct B1 as [? B1]). repeat (apply Forall_cons_iff in B2; destruct B2 as [? B2]). unfold byte_ok in *.
  rewrite <- !app_assoc in E.
  assert (ND : forall c, In c [45; 58; 46; 42; 35] -> ~ digit c) by (intros c HI; unfold digit; cbn [In] in HI; lia).
  assert (SD : forall t v, spells t v 0 -> 0 <= v < 256 -> Forall digit t) by (intros t v S Hv; apply (spells_digits t v); [lia|exact S]).
  assert (SV : forall t v w, spells t v 0 -> spells t w 0 -> v = w) by (intros t v w S1 S2; exact (proj1 (spells_value _ _ _ _ _ S1 S2))).
  apply sep_split in E; [|eapply SD; eassumption|eapply SD; eassumption|apply ND; cbn; tauto]. destruct E as [-> E].
  apply sep_split in E; [|eapply SD; eassumption|eapply SD; eassumption|apply ND; cbn; tauto]. destruct E as [-> E].
  apply sep_split in E; [|eapply SD; eassumption|eapply SD; eassumption|apply ND; cbn; tauto]. destruct E as [-> E].
  apply sep_split in E; [|eapply SD; eassumption|eapply SD; eassumption|apply ND; cbn; tauto]. destruct E as [-> E].
  apply sep_split in E; [|eapply SD; eassumption|eapply SD; eassumption|apply ND; cbn; tauto]. destruct E as [-> E].
  apply sep_split in E; [|eapply SD; eassumption|eapply SD; eassumption|apply ND; cbn; tauto]. destruct E as [-> E].
  split; [|exact E]. rewrite (SV _ _ _ A1 C1), (SV _ _ _ A2 C2), (SV _ _ _ A3 C3), (SV _ _ _ A4 C4), (SV _ _ _ A5 C5), (SV _ _ _ A6 C6). reflexivity.
Qed.
Lemma name_six (H : Host) e n : wf_entry e -> has_name e -> le_obj_name e = Some n -> bytes_ok (firstn 6 n) /\ length (firstn 6 n) = 6%nat.
Proof.
  intros W (n' & E' & HL) E. assert (n' = n) as -> by congruence. pose proof (wfe_name _ W) as WN. rewrite E in WN. destruct WN as [WN _].
  split; [now apply Forall_firstn|]. rewrite firstn_length. lia.
Qed.

(** Two entries with octet strings: the line tells the name and the octets. *)
Theorem C68_text_line_tells (H : Host) e1 e2 bs1 bs2 text : wf_entry e1 -> wf_entry e2 -> has_name e1 -> has_name e2 ->
  le_value e1 = Some (mkValue 0 (VBytes bs1)) -> le_value e2 = Some (mkValue 0 (VBytes bs2)) ->
  displays H e1 text -> displays H e2 text ->
  bs1 = bs2 /\ option_map (firstn 6) (le_obj_name e1) = option_map (firstn 6) (le_obj_name e2).
Proof.
  intros W1 W2 N1 N2 V1 V2 D1 D2.
  assert (X : forall e bs, wf_entry e -> has_name e -> le_value e = Some (mkValue 0 (VBytes bs)) -> displays H e text ->
    exists n o r, le_obj_name e = Some n /\ obis_spelt (firstn 6 n) o /\ bytes_ok bs /\ shown bs r /\ text = o ++ [35] ++ r ++ [35; 10]).
  { intros e bs W N V D. pose proof (wfe_value _ W) as WV. rewrite V in WV. cbn [opt] in WV.
    assert (HB : bytes_ok bs). { destruct WV as [HV|(v0 & HV & E0)]; [inversion HV as [b [Hb _]| | | | |]; subst; exact Hb|].
      exfalso. inversion HV as [b Hb|b Hb|w m Hw Hm|w m Hw Hm|m Hm|m Hm]; subst; unfold force_unsigned in E0; cbn [v_type v_data] in E0; try discriminate;
      destruct Hw as [->|[->|[->| ->]]]; discriminate. }
    destruct D as [e E|e v E ET|e n o bs' pre post EN SO EV EB P1 P2|e n o b EN SO EV|e n o v z num unit EN SO EV ET IZ SN SU]; rewrite V in *; try discriminate.
    - injection E as <-. discriminate.
    - injection EV as <-. exists n, o, (pre ++ hex_dump post). split; [exact EN|]. split; [exact SO|]. split; [exact HB|]. split; [exists pre, post; auto|]. now rewrite <- !app_assoc.
    - injection EV as <-. cbn [v_type] in ET. lia. }
  destruct (X e1 bs1 W1 N1 V1 D1) as (n1 & o1 & r1 & E1 & S1 & B1 & T1 & ->). destruct (X e2 bs2 W2 N2 V2 D2) as (n2 & o2 & r2 & E2 & S2 & B2 & T2 & E).
  destruct (name_six H e1 n1 W1 N1 E1) as [F1 L1]. destruct (name_six H e2 n2 W2 N2 E2) as [F2 L2].
  destruct (obis_split _ _ _ _ _ _ F1 F2 L1 L2 S1 S2 E) as [EO ER]. apply app_inv_tail in ER. subst r2. rewrite E1, E2. cbn [option_map]. split; [|now rewrite EO].
  eapply shown_inj; eauto.
Qed.
Print Assumptions C68_text_line_tells.

(** Two entries with numbers: the line tells the name and, up to 2 ^ 50, the
    number; and the text of the unit. *)
Lemma number_chars z s num : number_spelt z s num -> ~ In 35 num.
Proof.
  intros (N & (w & d & -> & F & _) & _). rewrite !in_app_iff. apply Forall_app in F. destruct F as [F1 F2]. rewrite Forall_forall in F1, F2. unfold digit in *.
  intros [HI|[HI|[HI|HI]]].
  - destruct (N <? 0); cbn [In] in HI; lia.
  - specialize (F1 _ HI). lia.
  - destruct (Z.to_nat (Z.max (- s) 0)); cbn [In] in HI; lia.
  - specialize (F2 _ HI). lia.
Qed.
Lemma first_sep (c : Z) a1 a2 r1 r2 : ~ In c a1 -> ~ In c a2 -> a1 ++ [c] ++ r1 = a2 ++ [c] ++ r2 -> a1 = a2 /\ r1 = r2.
Proof.
  revert a2. induction a1 as [|x a1 IH]; intros [|y a2] H1 H2 E; cbn [app] in E.
  - injection E as E. auto.
  - injection E as E0 E. exfalso. apply H2. left. auto.
  - injection E as E0 E. exfalso. apply H1. left. auto.
  - injection E as E0 E. destruct (IH a2) as [-> ->]; [intros X; apply H1; now right|intros X; apply H2; now right|exact E|]. subst. auto.
Qed.
Theorem C68_number_line_tells (H : Host) e1 e2 v1 v2 z1 z2 text : wf_entry e1 -> wf_entry e2 -> has_name e1 -> has_name e2 ->
  le_value e1 = Some v1 -> le_value e2 = Some v2 -> 80 <= v_type v1 < 112 -> 80 <= v_type v2 < 112 ->
  integer_in H v1 z1 -> integer_in H v2 z2 ->
  let s1 := scaler_of H e1 in let s2 := scaler_of H e2 in
  Z.abs (z1 * 10 ^ Z.max s1 0) <= 2 ^ 50 -> Z.abs (z2 * 10 ^ Z.max s2 0) <= 2 ^ 50 ->
  displays H e1 text -> displays H e2 text ->
  z1 * 10 ^ Z.max s1 0 = z2 * 10 ^ Z.max s2 0 /\ Z.max (- s1) 0 = Z.max (- s2) 0 /\
  option_map (firstn 6) (le_obj_name e1) = option_map (firstn 6) (le_obj_name e2) /\
  (exists u, unit_spelt H e1 u /\ unit_spelt H e2 u).
Proof.
  intros W1 W2 N1 N2 V1 V2 T1 T2 I1 I2 s1 s2 B1 B2 D1 D2.
  assert (IU : forall v z z', integer_in H v z -> integer_in H v z' -> z = z').
  { intros v z z' [(t & sg & n & m & HI & -> & ->)|[HN ->]] [(t' & sg' & n' & m' & HI' & E & ->)|[HN' ->]].
    - injection E as <- <-. assert (sg = sg') as ->; [|reflexivity]. cbn [In typed_numbers] in HI, HI'.
      repeat (destruct HI as [HI|HI]; [injection HI as <- <- <-; repeat (destruct HI' as [HI'|HI']; [try discriminate; injection HI'; intros; congruence|]); contradiction|]). contradiction.
    - exfalso. exact (HN' sg n HI).
    - subst v. exfalso. exact (HN sg' n' HI').
    - reflexivity. }
  assert (X : forall e v z, wf_entry e -> has_name e -> le_value e = Some v -> 80 <= v_type v < 112 -> integer_in H v z -> displays H e text ->
    exists n o num u, le_obj_name e = Some n /\ obis_spelt (firstn 6 n) o /\ number_spelt z (scaler_of H e) num /\ unit_spelt H e u /\ text = o ++ [35] ++ num ++ [35] ++ u ++ [10]).
  { intros e v z W N V T I D.
    destruct D as [e E|e v' E ET|e n o bs' pre post EN SO EV EB P1 P2|e n o b EN SO EV|e n o v' z' num unit EN SO EV ET IZ SN SU]; rewrite V in *; try discriminate.
    - injection E as <-. lia.
    - injection EV as ->. cbn [v_type] in T. lia.
    - injection EV as ->. cbn [v_type] in T. lia.
    - injection EV as <-. rewrite (IU v z z' I IZ). exists n, o, num, unit. auto. }
  destruct (X e1 v1 z1 W1 N1 V1 T1 I1 D1) as (n1 & o1 & m1 & u1 & E1 & S1 & P1 & U1 & ->). destruct (X e2 v2 z2 W2 N2 V2 T2 I2 D2) as (n2 & o2 & m2 & u2 & E2 & S2 & P2 & U2 & E).
  destruct (name_six H e1 n1 W1 N1 E1) as [F1 L1]. destruct (name_six H e2 n2 W2 N2 E2) as [F2 L2].
  destruct (obis_split _ _ _ _ _ _ F1 F2 L1 L2 S1 S2 E) as [EO ER]. apply first_sep in ER; [|eapply number_chars; eauto|eapply number_chars; eauto].
  destruct ER as [-> EU]. apply app_inv_tail in EU. subst u2. rewrite E1, E2. cbn [option_map].
  destruct (C67_text_tells z1 s1 z2 s2 m2 B1 B2 P1 P2) as [Q1 Q2]. split; [exact Q1|]. split; [exact Q2|]. split; [now rewrite EO|]. eauto.
Qed.
Print Assumptions C68_number_line_tells.

(** But the line does not tell what kind of value it was: the two octets "42" and
    the number 42 without a unit look the same. *)
Definition entry_of (v : sml_value) : list_entry := mkEntry (Some [1; 0; 1; 8; 0; 255]) None None None None (Some v) None.
Definition text_of (H : Host) (e : list_entry) : option (list Z) :=
  match receive_entry e with Ret ls => Some (concat (map (line_text sample_pow10) ls)) | _ => None end.
Theorem C68_kind_refuted (H : Host) : exists v1 v2, wf_entry (entry_of v1) /\ wf_entry (entry_of v2) /\ v_type v1 = 0 /\ v_type v2 = 97 /\
  text_of H (entry_of v1) = text_of H (entry_of v2) /\ text_of H (entry_of v1) = Some [49; 45; 48; 58; 49; 46; 56; 46; 48; 42; 50; 53; 53; 35; 52; 50; 35; 10].
Proof.
  assert (W : forall v, wf_value v -> wf_entry (entry_of v)).
  { intros v Hv. constructor; cbn [opt entry_of le_obj_name le_status le_val_time le_unit le_scaler le_value le_value_signature]; try exact I; [|left; exact Hv].
    split; [unfold bytes_ok; repeat (apply Forall_cons; [unfold byte_ok; lia|]); apply Forall_nil|cbn; lia]. }
  exists (mkValue 0 (VBytes [52; 50])), (mkValue 97 (VNum [42])).
  split; [apply W, wfv_bytes; split; [unfold bytes_ok; repeat (apply Forall_cons; [unfold byte_ok; lia|]); apply Forall_nil|cbn; lia]|].
  split; [apply W, (wfv_uns 1); [unfold Wf.width_ok; auto|split; [reflexivity|unfold bytes_ok; repeat (apply Forall_cons; [unfold byte_ok; lia|]); apply Forall_nil]]|].
  split; [reflexivity|]. split; [reflexivity|]. destruct H; vm_compute; auto.
Qed.
Print Assumptions C68_kind_refuted.
