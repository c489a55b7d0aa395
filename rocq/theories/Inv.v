(** What the input looked like when a field was read without an error. *)
From Verif Require Import Base Buf Crc16 Number OctetString Boolean Value Time SList Tree Bodies
  Message File Lib Wf Safe Safe2 Safe3 Ctx Ctx2 Ctx3 Scan Spec TL.

Lemma bind_inv {S A B} (m : M S A) (k : A -> M S B) s r : bind m k s = Ret r ->
  exists a s1, m s = Ret (a, s1) /\ k a s1 = Ret r.
Proof. unfold bind. destruct (m s) as [[a s1]| |]; try discriminate. eauto. Qed.

(** [s] was advanced by n bytes without an error *)
Definition moved (s : sbuf) (n : nat) (s' : sbuf) : Prop :=
  buffer s' = buffer s /\ cursor s' = (cursor s + n)%nat /\ error s' = error s.
Lemma moved_at s n o : moved s n (at_ s n o). Proof. now split. Qed.
Lemma moved_rest s n s' : moved s n s' -> rest s' = skipn n (rest s).
Proof. intros (B & C & _). unfold rest. now rewrite B, C, skipn_skipn_add. Qed.
Lemma moved_trans s n s' m s'' : moved s n s' -> moved s' m s'' -> moved s (n + m) s''.
Proof. intros (B & C & E) (B' & C' & E'). repeat split; try congruence. lia. Qed.
Lemma moved_refl s : moved s 0 s. Proof. repeat split. lia. Qed.
Lemma moved_small s n s' : moved s n s' -> small s -> small s'.
Proof. intros (B & _) Sm. unfold small, buffer_len in *. now rewrite B. Qed.
Lemma moved_ok s n s' : moved s n s' -> (n <= length (rest s))%nat -> okbuf s -> okbuf s'.
Proof.
  intros (B & C & _) Hn [H1 H2]. rewrite rest_length in Hn. unfold okbuf, buffer_len in *.
  rewrite B, C. split; auto. lia.
Qed.

Lemma length_inv s l s' : okbuf s -> small s -> error s = false ->
  sml_buf_get_next_length s = Ret (l, s') -> error s' = false ->
  exists bs t, rest s = bs ++ t /\ tl_field bs /\ moved s (length bs) s' /\
    (tl_nibbles bs < 2147483648 -> l = tl_length bs).
Proof.
  intros Hs Sm He E Er. destruct (tl_split (rest s)) as [(init & last & tail & El & Hc & Hl)|Hc].
  - now apply rest_bytes.
  - destruct (next_length_closed s (init ++ [last]) tail Sm) as (l0 & E0 & HV).
    { now rewrite <- app_assoc. }
    { now apply tl_bytes_field. }
    rewrite E in E0. injection E0 as -> ->. exists (init ++ [last]), tail.
    split; [now rewrite <- app_assoc|]. split; [now apply tl_bytes_field|]. split; auto using moved_at.
  - destruct (next_length_open s Sm Hs Hc) as (o & E0 & _). rewrite E in E0. injection E0 as -> ->.
    discriminate.
Qed.

Lemma type_inv s ty s' : sml_buf_get_next_type s = Ret (ty, s') -> error s' = false ->
  exists b t, rest s = b :: t /\ s' = s /\ ty = (b / 16) mod 8 * 16.
Proof.
  intros E Er. destruct (rest s) as [|b t] eqn:R.
  - unfold sml_buf_get_next_type, bind in E. rewrite (at_end_nil _ R) in E. cbn in E.
    injection E as <- <-. discriminate.
  - rewrite (next_type_eq _ _ _ R) in E. injection E as <- <-. eauto.
Qed.
Lemma tl_type_hd bs b t u : tl_field bs -> bs ++ u = b :: t -> tl_type bs = (b / 16) mod 8 * 16.
Proof.
  intros (init & last & -> & _ & _) E. destruct init; cbn in E; injection E as -> _; reflexivity.
Qed.

(** the two outcomes of an optional field *)
Lemma unless_inv {A} (k : P (option A)) s r s' : okbuf s ->
  unless_skipped k s = Ret (r, s') -> error s = false -> error s' = false ->
  (exists t, rest s = 1 :: t /\ r = None /\ moved s 1 s') \/
  (exists b t, rest s = b :: t /\ b <> 1 /\ k s = Ret (r, s')).
Proof.
  intros Hs E He Er. unfold unless_skipped, sml_buf_optional_is_skipped in E.
  apply bind_inv in E. destruct E as (sk & s1 & E1 & E2).
  destruct (rest s) as [|b t] eqn:R.
  - unfold bind in E1. rewrite (at_end_nil _ R) in E1. cbn in E1. injection E1 as <- <-.
    cbn in E2. injection E2 as <- <-. discriminate.
  - unfold bind at 1 in E1. rewrite (at_end_cons _ _ _ R) in E1.
    unfold bind at 1 in E1. rewrite (current_cons _ _ _ R) in E1.
    change SML_OPTIONAL_SKIPPED with 1 in E1. destruct (Z.eqb_spec b 1) as [Eb|Hn].
    + subst b. left. exists t. unfold bind at 1 in E1. rewrite (at_end_cons _ _ _ R) in E1.
      unfold bind at 1 in E1. rewrite (update_eq 1) in E1. injection E1 as <- <-. cbn in E2.
      injection E2 as <- <-. split; auto. split; auto. repeat split.
    + right. injection E1 as <- <-. cbn in E2. exists b, t. auto.
Qed.

Section WithHost.
Context {H : Host}.

Lemma err_null_inv {A} s (r : option A) s' : err_null s = Ret (r, s') -> error s' = true.
Proof. intros E. injection E as <- <-. reflexivity. Qed.

Lemma step_of {A} lo (p : P A) Q s r s' : safe lo p Q -> okbuf s -> p s = Ret (r, s') -> step s s'.
Proof. intros Hp Hs E. pose proof (Hp s Hs) as HW. unfold wp in HW. rewrite E in HW. apply HW. Qed.

Lemma octet_inv s r s' : okbuf s -> small s -> error s = false ->
  sml_octet_string_parse s = Ret (r, s') -> error s' = false ->
  (exists t, rest s = 1 :: t /\ r = None /\ moved s 1 s') \/
  (exists bs data t, rest s = bs ++ data ++ t /\ hd 0 bs <> 1 /\ tl_field bs /\ tl_type bs = 0 /\
     (tl_nibbles bs < 2147483648 -> Z.of_nat (length data) = tl_length bs) /\
     t <> [] /\ r = Some data /\ moved s (length bs + length data) s').
Proof.
  intros Hs Sm He E Er. apply unless_inv in E; auto. destruct E as [E|(b & t & R & Hb & E)]; auto.
  right. apply bind_inv in E. destruct E as (ty & s1 & Et & E).
  destruct (error s1) eqn:E1.
  { exfalso. destruct (rest s) eqn:R0; [discriminate|]. rewrite (next_type_eq _ _ _ R0) in Et. injection Et as <- <-. congruence. }
  destruct (type_inv _ _ _ Et E1) as (b' & t' & R' & -> & ->). rewrite R in R'. injection R' as <- <-.
  destruct (Z.eqb_spec ((b / 16) mod 8 * 16) SML_TYPE_OCTET_STRING) as [Hty|Hty]; cbn [negb] in E.
  2: { apply err_null_inv in E. congruence. }
  apply bind_inv in E. destruct E as (l & s1 & El & E).
  assert (E1' : error s1 = false).
  { destruct (error s1) eqn:E1'; auto. exfalso.
    apply bind_inv in E. destruct E as (bad & s2 & Ebad & E). injection Ebad as <- <-.
    destruct (_ || _); [apply err_null_inv in E; congruence|].
    apply bind_inv in E. destruct E as (str & s3 & Estr & E). unfold read_current in Estr.
    destruct (_ <=? _)%nat; [|discriminate]. injection Estr as <- <-.
    apply bind_inv in E. destruct E as ([] & s4 & Eu & E). unfold sml_buf_update_bytes_read in Eu.
    destruct (_ <? 0); [discriminate|]. injection Eu as <-. injection E as <- <-. cbn in Er. congruence. }
  destruct (length_inv _ _ _ Hs Sm He El E1') as (bs & u & Ru & Hbs & Mv & HV).
  apply bind_inv in E. destruct E as (bad & s2 & Ebad & E). injection Ebad as <- <-.
  destruct (l <? 0) eqn:Hl; [cbn in E; apply err_null_inv in E; congruence|]. apply Z.ltb_ge in Hl. cbn [orb] in E.
  pose proof (moved_rest _ _ _ Mv) as R1. rewrite Ru, skipn_app, skipn_all, Nat.sub_diag in R1. cbn in R1.
  pose proof (moved_small _ _ _ Mv Sm) as Sm1.
  assert (Hs1 : okbuf s1).
  { eapply moved_ok; eauto. rewrite Ru, app_length. lia. }
  rewrite size_sub_ok in E by (destruct Hs1; auto). 
  assert (Hl31 : l < 2147483648).
  { pose proof (next_length_safe s Hs) as HW. unfold wp in HW. rewrite El in HW. destruct HW as [_ HW].
    destruct (HW E1') as [_ HI]. unfold int_ok in HI. lia. }
  unfold to_size in E. rewrite (Z.mod_small l) in E by lia.
  destruct (Z.leb_spec (Z.of_nat (buffer_len s1) - Z.of_nat (cursor s1)) l) as [Hlt|Hlt].
  { apply err_null_inv in E. congruence. }
  pose proof (rest_length s1) as RL. rewrite R1 in RL. pose proof (proj1 Hs1) as Hc1.
  apply bind_inv in E. destruct E as (str & s3 & Estr & E). unfold read_current in Estr.
  destruct (_ <=? _)%nat; [|discriminate]. injection Estr as <- <-.
  apply bind_inv in E. destruct E as ([] & s4 & Eu & E).
  rewrite <- (Z2Nat.id l) in Eu by lia. rewrite update_eq in Eu. injection Eu as <-. injection E as <- <-.
  fold (rest s1). rewrite R1. set (n := Z.to_nat l) in *.
  exists bs, (firstn n u), (skipn n u). rewrite firstn_skipn.
  assert (Hn : (n < length u)%nat) by lia.
  assert (Hfl : length (firstn n u) = n) by (rewrite firstn_length; lia).
  split; auto. split.
  { destruct Hbs as (i & la & -> & _). destruct i; cbn in Ru |- *; rewrite R in Ru; injection Ru as <- _; auto. }
  split; auto. split.
  { rewrite (tl_type_hd bs b t u Hbs) by congruence. exact Hty. }
  split. { intros Hnib. rewrite Hfl. subst n. rewrite Z2Nat.id by lia. now apply HV. }
  split. { intros Hnil. apply (f_equal (@length Z)) in Hnil. rewrite skipn_length in Hnil. cbn in Hnil. lia. }
  split.
  { unfold sml_octet_string_init. f_equal. destruct (Z.gtb_spec l 0).
    - fold n. rewrite firstn_firstn. f_equal. lia.
    - subst n. replace l with 0 by lia. reflexivity. }
  rewrite Hfl. eapply moved_trans; eauto. repeat split.
Qed.

(** the bytes of a number in host memory, from most to least significant *)
Definition host_order (l : list Z) : mem :=
  match sml_number_endian with BigEndian => l | LittleEndian => sml_number_byte_swap l end.
Definition fill_byte (type b : Z) : Z := if (type =? SML_TYPE_INTEGER) && negb (Z.land b 128 =? 0) then 255 else 0.

Lemma number_inv type max s r s' : 1 <= max <= 16 -> okbuf s -> small s -> error s = false ->
  sml_number_parse type max s = Ret (r, s') -> error s' = false ->
  (exists t, rest s = 1 :: t /\ r = None /\ moved s 1 s') \/
  (exists bs data t m, rest s = bs ++ data ++ t /\ hd 0 bs <> 1 /\ tl_field bs /\ tl_type bs = type /\
     Z.of_nat (length data) <= max /\
     (tl_nibbles bs < 2147483648 -> Z.of_nat (length data) = tl_length bs) /\
     data ++ t <> [] /\ r = Some m /\
     m = host_order (repeat (fill_byte type (hd 0 (data ++ t))) (Z.to_nat max - length data) ++ data) /\
     moved s (length bs + length data) s').
Proof.
  intros Hmax Hs Sm He E Er. apply unless_inv in E; auto. destruct E as [E|(b & t & R & Hb & E)]; auto.
  right. unfold bind at 1 in E. rewrite (at_end_cons _ _ _ R) in E. unfold bind at 1 in E.
  rewrite (next_type_eq _ _ _ R) in E.
  destruct (Z.eqb_spec ((b / 16) mod 8 * 16) type) as [Hty|Hty]; cbn [negb] in E.
  2: { apply err_null_inv in E. congruence. }
  apply bind_inv in E. destruct E as (l & s1 & El & E).
  destruct ((l <? 0) || (l >? max)) eqn:Hl; [apply err_null_inv in E; congruence|].
  apply bind_inv in E. destruct E as (short & s2 & Es & E). injection Es as <- <-.
  destruct (_ <? _)%nat eqn:Hsh; [apply err_null_inv in E; congruence|]. apply Nat.ltb_ge in Hsh.
  apply bind_inv in E. destruct E as (e & s2 & Ee & E). injection Ee as <- <-.
  destruct (_ <=? _)%nat eqn:Hae; [apply err_null_inv in E; congruence|]. apply Nat.leb_gt in Hae.
  apply bind_inv in E. destruct E as (b0 & s2 & Eb & E).
  assert (s2 = s1 /\ hd 0 (rest s1) = b0) as [-> Hb0].
  { unfold sml_buf_get_current_byte in Eb. destruct (nth_error _ _) eqn:En; [|discriminate].
    injection Eb as <- <-. split; auto. rewrite nth_error_skipn_hd in En. fold (rest s1) in En.
    destruct (rest s1); [discriminate|]. now injection En. }
  apply bind_inv in E. destruct E as (data & s3 & Ed & E). unfold read_current in Ed.
  destruct (_ <=? _)%nat; [|discriminate]. injection Ed as <- <-.
  apply bind_inv in E. destruct E as ([] & s4 & Eu & E).
  assert (Hl' : 0 <= l <= max) by lia.
  rewrite <- (Z2Nat.id l) in Eu by lia. rewrite update_eq in Eu. injection Eu as <-. injection E as <- <-.
  cbn in Er. destruct (length_inv _ _ _ Hs Sm He El Er) as (bs & u & Ru & Hbs & Mv & HV).
  pose proof (moved_rest _ _ _ Mv) as R1. rewrite Ru, skipn_app, skipn_all, Nat.sub_diag in R1. cbn in R1.
  pose proof (rest_length s1) as RL. rewrite R1 in RL.
  set (n := Z.to_nat l) in *.
  eexists bs, (firstn n u), (skipn n u), _. rewrite firstn_skipn.
  assert (Hn : (n <= length u)%nat) by lia.
  assert (Hfl : length (firstn n u) = n) by (rewrite firstn_length; lia).
  split; auto. split.
  { destruct Hbs as (i & la & -> & _). destruct i; cbn in Ru |- *; rewrite R in Ru; injection Ru as <- _; auto. }
  split; auto. split.
  { rewrite (tl_type_hd bs b t u Hbs) by congruence. exact Hty. }
  rewrite Hfl. split; [lia|].
  split. { intros Hnib. subst n. rewrite Z2Nat.id by lia. now apply HV. }
  split. { intros Hnil. rewrite Hnil in RL. cbn in RL. lia. }
  split; [reflexivity|]. rewrite R1 in Hb0. split.
  { unfold host_order, fill_byte. rewrite Hb0. fold (rest s1). rewrite R1. fold n.
    replace (Z.to_nat max - n)%nat with (Z.to_nat (max - l)) by lia. reflexivity. }
  eapply moved_trans; eauto. repeat split.
Qed.

Lemma swap_rev l : sml_number_byte_swap l = rev l.
Proof.
  unfold sml_number_byte_swap. apply nth_ext with 0 0.
  - now rewrite map_length, seq_length, rev_length.
  - intros n Hn. rewrite map_length, seq_length in Hn.
    rewrite rev_nth by auto. 
    set (f := fun i => nth (length l - (i + 1)) l 0).
    rewrite (nth_indep _ 0 (f 0%nat)) by (now rewrite map_length, seq_length).
    rewrite (map_nth f), seq_nth by auto. subst f. cbn beta. f_equal. lia.
Qed.
Lemma fold_be l : forall a, fold_left (fun a b => a * 256 + b) l a = a * 256 ^ Z.of_nat (length l) + Base.le_value (rev l).
Proof.
  induction l as [|b l IH]; intros a; cbn [fold_left rev length].
  - cbn. lia.
  - rewrite IH. rewrite Nat2Z.inj_succ, Z.pow_succ_r by lia.
    assert (E : forall u v, Base.le_value (u ++ [v]) = Base.le_value u + 256 ^ Z.of_nat (length u) * v).
    { induction u as [|x u IHu]; intros v; cbn [app Base.le_value length]; [change (256 ^ Z.of_nat 0) with 1; lia|].
      rewrite IHu, Nat2Z.inj_succ, Z.pow_succ_r by lia. lia. }
    rewrite E, rev_length. lia.
Qed.
Lemma be_le l : be_unsigned l = Base.le_value (rev l).
Proof. unfold be_unsigned. rewrite fold_be. lia. Qed.
Lemma mem_u_host l : mem_u (host_order l) = be_unsigned l.
Proof.
  unfold mem_u, host_order, sml_number_endian. rewrite be_le. destruct host_endian; auto. now rewrite swap_rev.
Qed.
Lemma be_zeros n l : be_unsigned (repeat 0 n ++ l) = be_unsigned l.
Proof. unfold be_unsigned. induction n; cbn; auto. Qed.

Lemma expect_inv {B} n (k : P (option B)) s r s' : okbuf s -> small s -> error s = false ->
  expect_list n k s = Ret (r, s') -> error s' = false ->
  (forall s1, okbuf s1 -> k s1 = Ret (r, s') -> step s1 s') ->
  exists bs t s1, rest s = bs ++ t /\ tl_field bs /\ tl_type bs = 112 /\
    (tl_nibbles bs < 2147483648 -> tl_nibbles bs = n) /\ moved s (length bs) s1 /\ k s1 = Ret (r, s').
Proof.
  intros Hs Sm He E Er Hst. unfold expect_list in E. apply bind_inv in E. destruct E as (ty & s1 & Et & E).
  destruct (rest s) as [|b t] eqn:R.
  { unfold sml_buf_get_next_type, bind in Et. rewrite (at_end_nil _ R) in Et. cbn in Et. injection Et as <- <-.
    cbn in E. injection E as <- <-. discriminate. }
  rewrite (next_type_eq _ _ _ R) in Et. injection Et as <- <-.
  destruct (Z.eqb_spec ((b / 16) mod 8 * 16) SML_TYPE_LIST) as [Hty|Hty]; cbn [negb] in E.
  2: { apply err_null_inv in E. congruence. }
  apply bind_inv in E. destruct E as (l & s1 & El & E).
  destruct (Z.eqb_spec l n) as [->|]; cbn [negb] in E; [|apply err_null_inv in E; congruence].
  pose proof (step_of _ _ _ _ _ _ next_length_safe Hs El) as St1. pose proof (step_ok _ _ Hs St1) as Hs1.
  assert (E1 : error s1 = false) by (eapply step_noerr; [apply Hst; eauto|auto]).
  destruct (length_inv _ _ _ Hs Sm He El E1) as (bs & u & Ru & Hbs & Mv & HV).
  assert (Hty' : tl_type bs = 112) by (rewrite (tl_type_hd bs b t u Hbs) by congruence; exact Hty).
  exists bs, u, s1. split; [congruence|]. split; auto. split; auto. split; auto.
  intros Hn. rewrite (HV Hn). unfold tl_length. rewrite Hty'. reflexivity.
Qed.

Lemma field_inv {A B} (p : P A) (k : A -> P (option B)) s r s' : field p k s = Ret (r, s') ->
  error s' = false -> exists a s1, p s = Ret (a, s1) /\ error s1 = false /\ k a s1 = Ret (r, s').
Proof.
  intros E Er. unfold field in E. apply bind_inv in E. destruct E as (a & s1 & E1 & E).
  unfold bind, sml_buf_has_errors in E. destruct (error s1) eqn:E1'.
  - injection E as <- <-. congruence.
  - eauto.
Qed.

(** A message that was read without an error: the head, the crc field, and the
    byte that follows. *)
Lemma head_none s s' : msg_head s = Ret (None, s') -> error s' = true.
Proof.
  intros E. destruct (error s') eqn:Er; auto. exfalso. unfold msg_head, expect_list in E.
  apply bind_inv in E. destruct E as (ty & s1 & _ & E).
  destruct (negb _); [apply err_null_inv in E; congruence|].
  apply bind_inv in E. destruct E as (l & s2 & _ & E).
  destruct (negb _); [apply err_null_inv in E; congruence|].
  do 4 (apply field_inv in E; auto; destruct E as (? & ? & _ & _ & E)). discriminate.
Qed.

Lemma head_safeS : safeS 5 msg_head (fun _ => True).
Proof.
  apply safeS_expect. eapply safeS_field; [apply octet_safe|intros ? _].
  eapply safeS_field; [apply u8_safe|intros ? _]. eapply safeS_field; [apply u8_safe|intros ? _].
  eapply safeS_field; [eapply safe_le; [apply body_safe|lia]|intros ? _].
  intros s Hs. apply wp_ret. split; [now apply step_refl|]. intros _ x _. split; auto. lia.
Qed.

Lemma message_inv s r s' : okbuf s -> small s -> error s = false ->
  sml_message_parse s = Ret (r, s') -> error s' = false ->
  exists ti gi ab mb s1 c s2, msg_head s = Ret (Some (ti, gi, ab, mb), s1) /\ error s1 = false /\
    okbuf s1 /\ step s s1 /\
    sml_u16_parse s1 = Ret (Some c, s2) /\ error s2 = false /\ step s1 s2 /\ (3 <= length (rest s1))%nat /\
    if crc_bad c (firstn (cursor s1 - cursor s) (rest s)) then r = None /\ s' = s2
    else r = Some (mkMsg ti gi ab mb (Some c)) /\
      exists b t, rest s2 = b :: t /\ moved s2 (if (b =? 0)%Z then 1 else 0)%nat s'.
Proof.
  intros Hs Sm He E Er. rewrite message_split in E. apply bind_inv in E. destruct E as (h & s1 & Eh & E).
  destruct (cx_head 0%nat s h s1 Hs Sm Eh) as [M1 _].
  destruct h as [[[[ti gi] ab] mb]|].
  2: { apply head_none in Eh. injection E as <- <-. congruence. }
  pose proof (mono_ok _ _ Hs M1) as Hs1. pose proof (mono_small _ _ Sm M1) as Sm1.
  unfold msg_tail in E. unfold bind at 1, cursor_int at 1 in E. unfold bind at 1 in E.
  rewrite few_ok in E by auto.
  destruct (length (rest s1) <? 3)%nat eqn:Few; [apply err_null_inv in E; congruence|]. apply Nat.ltb_ge in Few.
  apply bind_inv in E. destruct E as (crc & s2 & Ec & E).
  pose proof (step_of _ _ _ _ _ _ u16_safe Hs1 Ec) as St2. pose proof (step_ok _ _ Hs1 St2) as Hs2.
  unfold bind at 1, sml_buf_has_errors in E.
  destruct (error s2) eqn:Er2; [apply err_null_inv in E; congruence|].
  destruct crc as [c|]; [|apply err_null_inv in E; congruence].
  apply bind_inv in E. destruct E as (bs & s3 & Eb & E).
  pose proof (mo_cur _ _ M1) as C1. pose proof (st_cur _ _ St2) as C2.
  pose proof (mo_buf _ _ M1) as B1. pose proof (st_buf _ _ St2) as B2.
  assert (Hbs : s3 = s2 /\ bs = firstn (cursor s1 - cursor s) (rest s)).
  { clear E. unfold buffer_slice in Eb. rewrite (cursor_of_ok s Hs Sm) in Eb.
    unfold small in Sm. rewrite wrap32_ok in Eb by (unfold int_ok; qlia).
    destruct (_ <? 0); [discriminate|]. destruct (_ <? 0); [discriminate|].
    destruct (_ <=? _)%nat; [|discriminate]. injection Eb as <- <-. split; auto.
    unfold rest. rewrite B2, B1. f_equal; [qlia|]. f_equal. qlia. }
  destruct Hbs as [-> Hbs].
  assert (St1 : step s s1).
  { pose proof (head_safeS s Hs) as HS. unfold wp in HS. rewrite Eh in HS. apply HS. }
  exists ti, gi, ab, mb, s1, c, s2. split; auto. split; [eapply step_noerr; eauto|]. split; auto. split; auto.
  split; auto. split; auto. split; auto. split; auto. fold (crc_bad c bs) in E. rewrite <- Hbs.
  destruct (crc_bad c bs).
  - injection E as <- <-. auto.
  - unfold bind at 1 in E. destruct (rest s2) as [|b t] eqn:R2.
    { rewrite (at_end_nil _ R2) in E. apply err_null_inv in E. congruence. }
    rewrite (at_end_cons _ _ _ R2) in E. unfold bind at 1 in E. rewrite (current_cons _ _ _ R2) in E.
    apply bind_inv in E. destruct E as ([] & s3 & Eu & E). injection E as <- <-. split; auto.
    exists b, t. split; auto. change SML_MESSAGE_END with 0 in Eu. destruct (b =? 0).
    + rewrite (update_eq 1) in Eu. injection Eu as <-. repeat split.
    + injection Eu as <-. apply moved_refl.
Qed.
End WithHost.
