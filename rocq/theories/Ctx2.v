(** Context independence of every parser up to sml_message_parse. *)
From Verif Require Import Base Buf Crc16 Number OctetString Boolean Value Time SList Tree Bodies
  Message File Lib Wf Safe Safe2 Safe3 Ctx.

Section WithHost.
Context {H : Host}.

Lemma fits_len k s1 s2 : okbuf s1 -> fitting k s1 s2 -> (cursor s1 + k <= buffer_len s1)%nat ->
  okbuf s2 -> (cursor s2 + k <= buffer_len s2)%nat.
Proof.
  intros [O1 _] Hf Hk [O2 _]. apply fitting_len in Hf; rewrite rest_length in *; lia.
Qed.
(** one more byte in s1 means one more byte in s2 *)
Lemma fits_len1 k s1 s2 : okbuf s1 -> fitting k s1 s2 -> (cursor s1 + k < buffer_len s1)%nat ->
  okbuf s2 -> (cursor s2 + k < buffer_len s2)%nat.
Proof.
  intros [O1 _] Hf Hk [O2 _]. apply prefix_length in Hf. rewrite firstn_length, !rest_length in Hf. lia.
Qed.

Lemma number_tail_cx N l (f : Z -> list Z -> option mem) : 0 <= l ->
  rel any N
   (short <- (fun s => Ret ((buffer_len s <? cursor s + Z.to_nat l)%nat, s)) ;;
    if (short : bool) then err_null else
    e <- at_end ;;
    if (e : bool) then err_null else
    b <- sml_buf_get_current_byte ;;
    data <- read_current (Z.to_nat l) ;;
    sml_buf_update_bytes_read l ;;;
    ret (f b data))
   (short <- (fun s => Ret ((buffer_len s <? cursor s + Z.to_nat l)%nat, s)) ;;
    if (short : bool) then err_null else
    e <- at_end ;;
    if (e : bool) then err_null else
    b <- sml_buf_get_current_byte ;;
    data <- read_current (Z.to_nat l) ;;
    sml_buf_update_bytes_read l ;;;
    ret (f b data)).
Proof.
  intros Hl s1 a s1' O1 S1 E. unfold bind at 1 in E.
  destruct (Nat.ltb_spec (buffer_len s1) (cursor s1 + Z.to_nat l)) as [Hs|Hs].
  { inv E. split; [now apply mono_set_err|discriminate]. }
  unfold bind at 1, at_end in E. destruct (Nat.leb_spec (buffer_len s1) (cursor s1)) as [Hc|Hc].
  { inv E. split; [now apply mono_set_err|discriminate]. }
  unfold bind at 1, sml_buf_get_current_byte in E.
  destruct (nth_error (buffer s1) (cursor s1)) as [b|] eqn:Eb; [|discriminate].
  unfold bind at 1 in E. destruct (read_current (Z.to_nat l) s1) as [[d t1]| |] eqn:Er; try discriminate.
  destruct (read_ctx l s1 d t1 O1 Hl Er) as (-> & M1 & R1).
  unfold bind in E. rewrite <- (Z2Nat.id l Hl) in E at 1. rewrite update_ret in E. inv E.
  split; auto. cbn [cursor set_cursor error]. intros He _ s2 O2 S2 E2 HN Hf.
  replace (cursor s1 + Z.to_nat l - cursor s1)%nat with (Z.to_nat l) in * by lia.
  pose proof (fits_len _ _ _ O1 Hf Hs O2) as Hs2.
  pose proof (fitting_hd _ _ _ _ Hf Eb) as Hb2. pose proof (nth_cursor_lt _ _ Hb2) as Hc2.
  exists (set_cursor (cursor s2 + Z.to_nat l) s2). split; [|split; cbn; auto].
  unfold bind at 1. destruct (Nat.ltb_spec (buffer_len s2) (cursor s2 + Z.to_nat l)); [lia|].
  unfold bind at 1, at_end. destruct (Nat.leb_spec (buffer_len s2) (cursor s2)); [lia|].
  unfold bind at 1, sml_buf_get_current_byte. rewrite Hb2. unfold bind at 1. rewrite (R1 s2 O2 Hf).
  unfold bind. rewrite <- (Z2Nat.id l Hl) at 1. now rewrite update_ret.
Qed.

Lemma cx_number ty mx : cx (sml_number_parse ty mx).
Proof.
  intros N. apply rel_unless. apply rel_at_end; [auto with rel|].
  apply rel_bind; [apply cx_next_type|]. intros t. apply rel_if; [auto with rel|].
  apply rel_bind; [apply cx_next_length|]. intros l.
  destruct (l <? 0) eqn:El; cbn [orb]; [auto with rel|]. apply rel_if; [auto with rel|].
  apply (number_tail_cx N l (fun b data => Some
    match sml_number_endian with
    | BigEndian => repeat (if (ty =? SML_TYPE_INTEGER) && negb (Z.land b 128 =? 0) then 255 else 0)
                     (Z.to_nat (mx - l)) ++ data
    | LittleEndian => sml_number_byte_swap
       (repeat (if (ty =? SML_TYPE_INTEGER) && negb (Z.land b 128 =? 0) then 255 else 0)
                     (Z.to_nat (mx - l)) ++ data)
    end)). lia.
Qed.

Lemma size_sub_small s : okbuf s -> small s ->
  size_sub (buffer_len s) (cursor s) = Z.of_nat (buffer_len s) - Z.of_nat (cursor s).
Proof.
  intros [O _] S. unfold small in S. unfold size_sub, to_size. rewrite Z.mod_small; lia.
Qed.

Lemma octet_tail_cx N l (f : list Z -> option octet_string) : l < 18446744073709551616 -> 
  rel any N
   (bad <- (fun s => Ret ((l <? 0) || (size_sub (buffer_len s) (cursor s) <=? to_size l), s)) ;;
    if (bad : bool) then err_null else
    str <- read_current (Z.to_nat l) ;;
    sml_buf_update_bytes_read l ;;;
    ret (f str))
   (bad <- (fun s => Ret ((l <? 0) || (size_sub (buffer_len s) (cursor s) <=? to_size l), s)) ;;
    if (bad : bool) then err_null else
    str <- read_current (Z.to_nat l) ;;
    sml_buf_update_bytes_read l ;;;
    ret (f str)).
Proof.
  intros Hl s1 a s1' O1 S1 E. unfold bind at 1 in E. destruct (l <? 0) eqn:El; cbn [orb] in E.
  { inv E. split; [now apply mono_set_err|discriminate]. }
  rewrite size_sub_small in E by auto. unfold to_size in E. rewrite Z.mod_small in E by lia.
  destruct (Z.leb_spec (Z.of_nat (buffer_len s1) - Z.of_nat (cursor s1)) l) as [Hs|Hs].
  { inv E. split; [now apply mono_set_err|discriminate]. }
  unfold bind at 1 in E. destruct (read_current (Z.to_nat l) s1) as [[d t1]| |] eqn:Er; try discriminate.
  destruct (read_ctx l s1 d t1 O1 ltac:(lia) Er) as (-> & M1 & R1).
  unfold bind in E. rewrite <- (Z2Nat.id l) in E at 1 by lia. rewrite update_ret in E. inv E.
  split; auto. cbn [cursor set_cursor error]. intros He _ s2 O2 S2 E2 HN Hf.
  replace (cursor s1 + Z.to_nat l - cursor s1)%nat with (Z.to_nat l) in * by lia.
  pose proof (fits_len1 _ _ _ O1 Hf ltac:(lia) O2) as Hs2.
  exists (set_cursor (cursor s2 + Z.to_nat l) s2). split; [|split; cbn; auto].
  unfold bind at 1. cbn [orb]. rewrite size_sub_small by auto. unfold to_size.
  rewrite Z.mod_small by lia.
  destruct (Z.leb_spec (Z.of_nat (buffer_len s2) - Z.of_nat (cursor s2)) l); [lia|].
  unfold bind at 1. rewrite (R1 s2 O2 Hf).
  unfold bind. rewrite <- (Z2Nat.id l) at 1 by lia. now rewrite update_ret.
Qed.

(** the length read is an int *)
Lemma rel_next_length {B} (F : B -> bool) N (k1 k2 : Z -> P B) :
  (forall l, int_ok l -> rel F N (k1 l) (k2 l)) ->
  rel F N (bind sml_buf_get_next_length k1) (bind sml_buf_get_next_length k2).
Proof.
  intros Hk.
  assert (Hint : forall s l s', okbuf s -> sml_buf_get_next_length s = Ret (l, s') -> int_ok l).
  { intros s l s' O E. pose proof (next_length_int s O) as W. unfold wp in W. rewrite E in W. apply W. }
  set (g1 := fun l => if int_okb l then k1 l else fail OobRead : P B).
  set (g2 := fun l => if int_okb l then k2 l else fail OobRead : P B).
  assert (Hg : rel F N (bind sml_buf_get_next_length g1) (bind sml_buf_get_next_length g2)).
  { apply rel_bind; [apply cx_next_length|]. intros l. unfold g1, g2. destruct (int_okb l) eqn:El.
    - apply Hk. unfold int_okb, int_ok in *. lia.
    - auto with rel. }
  assert (Hg1 : forall s, okbuf s -> bind sml_buf_get_next_length g1 s = bind sml_buf_get_next_length k1 s).
  { intros s O. unfold bind. destruct (sml_buf_get_next_length s) as [[l s']| |] eqn:E; auto.
    pose proof (Hint _ _ _ O E) as Hi. unfold g1. replace (int_okb l) with true; auto.
    unfold int_okb, int_ok in *. lia. }
  assert (Hg2 : forall s, okbuf s -> bind sml_buf_get_next_length g2 s = bind sml_buf_get_next_length k2 s).
  { intros s O. unfold bind. destruct (sml_buf_get_next_length s) as [[l s']| |] eqn:E; auto.
    pose proof (Hint _ _ _ O E) as Hi. unfold g2. replace (int_okb l) with true; auto.
    unfold int_okb, int_ok in *. lia. }
  intros s1 a s1' O1 S1 E. rewrite <- (Hg1 s1 O1) in E. destruct (Hg s1 a s1' O1 S1 E) as [M R].
  split; auto. intros He HF s2 O2. rewrite <- (Hg2 s2 O2). now apply R.
Qed.

Lemma cx_octet : cx sml_octet_string_parse.
Proof.
  intros N. apply rel_unless. apply rel_bind; [apply cx_next_type|]. intros t.
  apply rel_if; [auto with rel|]. apply rel_next_length. intros l Hl.
  apply (octet_tail_cx N l (fun str => Some (sml_octet_string_init str l))). unfold int_ok in Hl. lia.
Qed.

Lemma rel_update_1 {B} (F : B -> bool) N (b : Z -> B) :
  rel F N (x <- sml_buf_get_current_byte ;; sml_buf_update_bytes_read 1 ;;; ret (b x))
          (x <- sml_buf_get_current_byte ;; sml_buf_update_bytes_read 1 ;;; ret (b x)).
Proof.
  intros s1 a s1' O1 S1 E. unfold bind at 1, sml_buf_get_current_byte in E.
  destruct (nth_error (buffer s1) (cursor s1)) as [x|] eqn:Eb; [|discriminate].
  unfold bind in E. rewrite update_1 in E. inv E. pose proof (nth_cursor_lt _ _ Eb).
  split. { split; cbn; auto; lia. }
  cbn [cursor set_cursor]. intros He HF s2 O2 S2 E2 HN Hf.
  pose proof (fitting_hd _ _ _ _ Hf Eb) as Hb2.
  exists (set_cursor (cursor s2 + 1) s2). split; [|split; cbn; auto; lia].
  unfold bind, sml_buf_get_current_byte. now rewrite Hb2, update_1.
Qed.

Lemma cx_boolean : cx sml_boolean_parse.
Proof.
  intros N. apply rel_unless. apply rel_bind; [apply cx_next_type|]. intros t.
  apply rel_if; [auto with rel|]. apply rel_bind; [apply cx_next_length|]. intros l.
  apply rel_if; [auto with rel|]. apply rel_at_end; [auto with rel|].
  apply (rel_update_1 any N (fun b => Some (sml_boolean_init
    (if negb (b =? 0) then SML_BOOLEAN_TRUE else SML_BOOLEAN_FALSE)))).
Qed.

Lemma cx_width b : cx (number_width b).
Proof.
  intros N. apply rel_pure. unfold number_width. generalize 5%nat 1 (Z.land b SML_LENGTH_FIELD - 1).
  induction n as [|n IH]; intros mx lim s a s' E; [discriminate|]. cbn [max_loop] in *.
  destruct (mx <? lim); eauto. inv E. auto.
Qed.

Lemma cx_set_error {B} (F : B -> bool) N (k1 k2 : P B) :
  (forall s a s', okbuf s -> k1 s = Ret (a, s') -> mono s s') ->
  rel F N (set_error ;;; k1) (set_error ;;; k2).
Proof.
  intros Hk. apply rel_fails. intros s a s' O E. unfold bind, set_error in E.
  assert (okbuf (set_err s)) as O' by exact O. pose proof (Hk _ _ _ O' E) as M.
  split; [eapply mono_trans; eauto using mono_set_err|]. left. apply M. reflexivity.
Qed.

Lemma ret_mono {A} (x : A) s a s' : okbuf s -> ret x s = Ret (a, s') -> mono s s'.
Proof. intros O [= <- <-]. now apply mono_refl. Qed.
#[local] Hint Extern 2 (mono _ _) => (eapply ret_mono; eassumption) : rel.

Lemma cx_value : cx sml_value_parse.
Proof.
  intros N. apply rel_unless. apply rel_bind; [apply cx_next_type|]. intros t.
  apply rel_bind; [apply cx_byte|]. intros b. apply rel_bind.
  - apply rel_if; [|apply rel_if; [|apply rel_if]].
    + apply rel_bind; [apply cx_octet|auto with rel].
    + apply rel_bind; [apply cx_boolean|auto with rel].
    + apply rel_bind; [apply cx_width|]. intros mx. apply rel_bind; [apply cx_number|auto with rel].
    + apply cx_set_error. eauto with rel.
  - intros v. apply rel_has_errors; eauto with rel.
Qed.

Lemma cx_status : cx sml_status_parse.
Proof.
  intros N. apply rel_unless. apply rel_bind; [apply cx_next_type|]. intros t.
  apply rel_bind; [apply cx_byte|]. intros b. apply rel_bind.
  - apply rel_if.
    + apply rel_bind; [apply cx_width|]. intros mx. apply rel_bind; [apply cx_number|auto with rel].
    + apply cx_set_error. eauto with rel.
  - intros v. apply rel_has_errors; eauto with rel.
Qed.

Ltac rfld L := apply rel_field; [apply L|intros ?].

Lemma cx_time : cx sml_time_parse.
Proof.
  assert (Hv : forall N tag, rel any N (sml_time_value tag) (sml_time_value tag)).
  { intros N tag. apply rel_bind; [apply cx_next_type|]. intros t. apply rel_if; [|apply rel_if].
    - rfld cx_number. auto with rel.
    - apply rel_bind; [apply cx_next_length|]. intros _. do 3 (rfld cx_number). auto with rel.
    - auto with rel. }
  intros N. apply rel_unless. apply rel_bind; [apply cx_byte|]. intros b. apply rel_if; auto.
  apply rel_expect. rfld cx_number. auto.
Qed.

Lemma cx_u8 : cx sml_u8_parse. Proof. apply cx_number. Qed.
Lemma cx_u16 : cx sml_u16_parse. Proof. apply cx_number. Qed.
Lemma cx_u32 : cx sml_u32_parse. Proof. apply cx_number. Qed.
Lemma cx_u64 : cx sml_u64_parse. Proof. apply cx_number. Qed.
Lemma cx_i8 : cx sml_i8_parse. Proof. apply cx_number. Qed.
Lemma cx_i16 : cx sml_i16_parse. Proof. apply cx_number. Qed.
Lemma cx_i64 : cx sml_i64_parse. Proof. apply cx_number. Qed.

(** *** loops *)
Definition rloop {A} (f1 f2 : nat -> P A) N : Prop := forall n1 n2 s1 a s1',
  okbuf s1 -> small s1 -> f1 n1 s1 = Ret (a, s1') -> mono s1 s1' /\
  (error s1' = false -> forall s2, okbuf s2 -> small s2 -> error s2 = false ->
     (length (rest s2) <= N)%nat -> (length (rest s2) < n2)%nat -> fitting (cursor s1' - cursor s1) s1 s2 ->
     exists s2', f2 n2 s2 = Ret (a, s2') /\ adv s2 (cursor s1' - cursor s1) s2').

Lemma rel_with_fuel {A} (F : A -> bool) N (f1 f2 : nat -> P A) :
  rloop f1 f2 N -> rel F N (with_fuel f1) (with_fuel f2).
Proof.
  intros Hl s1 a s1' O1 S1 E. destruct (Hl _ O s1 a s1' O1 S1 E) as [M _].
  split; auto. intros He _ s2 O2 S2 E2 HN Hf.
  destruct (Hl _ (fuel_of s2) s1 a s1' O1 S1 E) as [_ R].
  apply R; auto. rewrite rest_length. unfold fuel_of. lia.
Qed.

(** each success consumes at least one byte *)
Definition progress {A} (p : P A) : Prop := forall s a s', okbuf s -> small s ->
  p s = Ret (a, s') -> error s' = false -> (cursor s < cursor s')%nat.
Lemma progress_safe {A} n (p : P A) Q : safe (S n) p Q -> progress p.
Proof.
  intros Hp s a s' O _ E He. pose proof (wp_inv _ _ _ _ _ (Hp s O) E) as [_ Po].
  destruct (Po He). lia.
Qed.

(** The common shape of the three loops: a step [p w], then the rest with a
    smaller count. *)
Definition loop_eq {A W B} (p : W -> P A) (body : nat -> Z -> W -> P B) (nil bad : B)
    (next : A -> W -> option W) (fin : A -> B -> B) : Prop :=
  forall fuel n w s, body fuel n w s = (if n <=? 0 then ret nil else
     match fuel with O => out_of_fuel | S f =>
       x <- p w ;; e <- sml_buf_has_errors ;; if (e : bool) then ret bad else
       match next x w with None => fail NullDeref | Some w' => t <- body f (n - 1) w' ;; ret (fin x t) end end) s.

Lemma rloop_gen {A W B} (p1 p2 : W -> P A) (body1 body2 : nat -> Z -> W -> P B) (nil bad : B)
    (next : A -> W -> option W) (fin : A -> B -> B) N :
  (forall w, rel any N (p1 w) (p2 w)) -> (forall w, progress (p1 w)) ->
  loop_eq p1 body1 nil bad next fin -> loop_eq p2 body2 nil bad next fin ->
  forall n w, rloop (fun f => body1 f n w) (fun f => body2 f n w) N.
Proof.
  intros Hp Hpr H1 H2 n w n1. revert n w. induction n1 as [|n1 IH]; intros n w n2 s1 b s1' O1 S1 E.
  all: rewrite H1 in E; destruct (n <=? 0) eqn:En.
  1, 3: inv E; split; [now apply mono_refl|]; intros He s2 O2 S2 E2 HN Hn2 Hf; exists s2;
        rewrite H2, En; split; [reflexivity|]; rewrite Nat.sub_diag; now apply adv_0.
  { discriminate. }
  apply bind_ret_inv in E. destruct E as (x & t1 & Ex & E).
  destruct (Hp w s1 x t1 O1 S1 Ex) as [M1 R1]. pose proof (mono_ok _ _ O1 M1) as Ot1.
  pose proof (mono_small _ _ S1 M1) as St1.
  unfold bind at 1, sml_buf_has_errors in E. destruct (error t1) eqn:Et1.
  { inv E. split; auto. congruence. }
  destruct (next x w) as [w'|] eqn:Ew; [|discriminate].
  apply bind_ret_inv in E. destruct E as (t & u1 & Eb & E). inv E.
  destruct (IH (n - 1) w' (n2 - 1)%nat t1 t s1' Ot1 St1 Eb) as [M2 R2].
  split; [eapply mono_trans; eauto|]. intros He s2 O2 S2 E2 HN Hn2 Hf.
  pose proof (mo_cur _ _ M1) as C1. pose proof (mo_cur _ _ M2) as C2.
  pose proof (Hpr w s1 x t1 O1 S1 Ex Et1) as Cp.
  destruct (R1 eq_refl eq_refl s2 O2 S2 E2 HN) as (t2 & P2 & A2).
  { eapply fitting_le; [|exact Hf]. lia. }
  assert (fitting (cursor s1' - cursor t1) t1 t2) as Hf'.
  { eapply fitting_shift; eauto. replace (_ + _)%nat with (cursor s1' - cursor s1)%nat by lia. auto. }
  assert (cursor t1 - cursor s1 <= length (rest s2))%nat as HL.
  { eapply fitting_len; [eapply fitting_le; [|exact Hf]; lia|]. rewrite rest_length. lia. }
  destruct n2 as [|n2]; [lia|]. replace (S n2 - 1)%nat with n2 in R2 by lia.
  destruct (R2 He t2) as (s2' & P3 & A3); auto.
  - eapply adv_ok; eauto.
  - eapply adv_small; eauto.
  - apply A2.
  - rewrite (adv_rest _ _ _ A2), skipn_length. lia.
  - rewrite (adv_rest _ _ _ A2), skipn_length. lia.
  - exists s2'. split.
    + rewrite H2, En. unfold bind at 1. rewrite P2. unfold bind at 1, sml_buf_has_errors.
      rewrite (ad_err _ _ _ A2), Ew. unfold bind. now rewrite P3.
    + replace (cursor s1' - cursor s1)%nat with ((cursor t1 - cursor s1) + (cursor s1' - cursor t1))%nat by lia.
      eapply adv_trans; eauto.
Qed.

Lemma elems_loop_eq {A} (p : P A) : loop_eq (fun _ : unit => p) (fun f n _ => elems_loop f n p)
  (Some []) None (fun _ w => Some w) (fun x t => match t with None => None | Some t => Some (x :: t) end).
Proof. intros [|f] n w s; reflexivity. Qed.
Lemma seq_loop_eq {A} (p : P (option A)) : loop_eq (fun _ : unit => p) (fun f n _ => sequence_loop f n p)
  (Some []) None (fun _ w => Some w) (fun x t => match t with None => None | Some t => Some (x :: t) end).
Proof. intros [|f] n w s; reflexivity. Qed.

Lemma rel_elems {A} (F : option (list A) -> bool) N n (p1 p2 : P A) : rel any N p1 p2 -> progress p1 ->
  rel F N (with_fuel (fun f => elems_loop f n p1)) (with_fuel (fun f => elems_loop f n p2)).
Proof.
  intros Hp Hpr. apply rel_with_fuel.
  refine (rloop_gen _ _ _ _ _ _ _ _ N _ _ (elems_loop_eq p1) (elems_loop_eq p2) n tt); auto.
Qed.
Lemma rel_seq_loop {A} (F : option (sml_sequence A) -> bool) N n (p1 p2 : P (option A)) :
  rel any N p1 p2 -> progress p1 ->
  rel F N (with_fuel (fun f => sequence_loop f n p1)) (with_fuel (fun f => sequence_loop f n p2)).
Proof.
  intros Hp Hpr. apply rel_with_fuel.
  refine (rloop_gen _ _ _ _ _ _ _ _ N _ _ (seq_loop_eq p1) (seq_loop_eq p2) n tt); auto.
Qed.

Lemma cx_sequence {A} (p : P (option A)) : cx p -> progress p -> cx (sml_sequence_parse p).
Proof.
  intros Hp Hpr N. apply rel_label. apply rel_bind; [apply cx_next_type|]. intros t.
  apply rel_if; [auto with rel|]. apply rel_bind; [apply cx_next_length|]. intros l.
  apply rel_seq_loop; auto.
Qed.

Lemma workaround_pure w n l s a s' : apply_workaround w n l s = Ret (a, s') ->
  s' = s /\ forall s2, apply_workaround w n l s2 = Ret (a, s2).
Proof.
  assert (Hd : forall d t, detect_buggy_dzg_dvs74 l s = Ret (d, t) ->
    t = s /\ forall s2, detect_buggy_dzg_dvs74 l s2 = Ret (d, s2)).
  { intros d t. unfold detect_buggy_dzg_dvs74. destruct (negb _); [intros [= <- <-]; auto|].
    destruct (le_value l) as [v|]; [|intros [= <- <-]; auto].
    destruct (negb _); [intros [= <- <-]; auto|].
    unfold bind. destruct (v_data v); cbn; try discriminate.
    destruct (negb _); [intros [= <- <-]; auto|]. destruct (negb _); intros [= <- <-]; auto. }
  unfold apply_workaround. intros E. apply bind_ret_inv in E. destruct E as (d & t & Ed & E).
  destruct (Hd d t Ed) as [-> Hd2].
  assert (E' : s' = s /\ forall s2 : sbuf, (if d then ret (l, true)
     else match le_value l with
       | Some v => if w && name_is (le_obj_name l) dzg_power_name && ((n =? 1) || (n =? 2) || (n =? 3))
          then ret (mkEntry (le_obj_name l) (le_status l) (le_val_time l) (le_unit l)
                          (le_scaler l) (Some (force_unsigned v)) (le_value_signature l), w)
          else ret (l, w)
       | None => ret (l, w) end) s2 = Ret (a, s2)).
  { destruct d; [inv E; auto|]. destruct (le_value l); [|inv E; auto].
    destruct (_ && _); inv E; auto. }
  destruct E' as [-> E']. split; auto. intros s2. unfold bind. rewrite Hd2. apply E'.
Qed.

Lemma cx_list_entry w : cx (sml_list_entry_parse w).
Proof.
  intros N. apply rel_label. apply rel_expect. rfld cx_octet. rfld cx_status. rfld cx_time.
  rfld cx_u8. rfld cx_i8. apply rel_at_end; [auto with rel|].
  apply rel_bind; [apply cx_byte|]. intros b. cbn zeta. rfld cx_value. rfld cx_octet.
  apply rel_bind; [|auto with rel]. apply rel_pure. apply workaround_pure.
Qed.

Lemma list_loop_eq : loop_eq sml_list_entry_parse list_loop (Some []) None
  (fun r w => match r with None => None | Some (l, w') => Some w' end)
  (fun r t => match r with None => None | Some (l, _) =>
     match t with None => None | Some t => Some (l :: t) end end).
Proof.
  intros [|f] n w s; [reflexivity|]. cbn [list_loop]. destruct (n <=? 0); [reflexivity|].
  unfold bind at 1 4. destruct (sml_list_entry_parse w s) as [[[[l w']|] s']| |]; reflexivity.
Qed.

Lemma cx_list : cx sml_list_parse.
Proof.
  intros N. apply rel_bind; [apply cx_optional|]. intros sk. apply rel_if; [auto with rel|].
  apply rel_bind; [apply cx_next_type|]. intros t.
  apply rel_if; [apply cx_set_error; eauto with rel|].
  apply rel_bind; [apply cx_next_length|]. intros l. apply rel_bind.
  - apply rel_with_fuel.
    refine (rloop_gen _ _ _ _ _ _ _ _ N _ _ list_loop_eq list_loop_eq l false).
    + intros w. apply cx_list_entry.
    + intros w. eapply progress_safe, list_entry_safe.
  - intros [r|]; [auto with rel|apply cx_set_error; eauto with rel].
Qed.

Lemma cx_tree_path : cx sml_tree_path_parse.
Proof.
  intros N. apply rel_unless, rel_label. apply rel_bind; [apply cx_next_type|]. intros t.
  apply rel_if; [auto with rel|]. apply rel_bind; [apply cx_next_length|]. intros l.
  apply rel_bind; [|auto with rel]. apply rel_elems; [apply cx_octet|eapply progress_safe, octet_safe].
Qed.

Lemma cx_tupel : cx sml_tupel_entry_parse.
Proof.
  intros N. apply rel_unless, rel_expect. rfld cx_octet. rfld cx_time. rfld cx_u64.
  do 3 (rfld cx_u8; rfld cx_i8; rfld cx_i64). rfld cx_octet.
  do 3 (rfld cx_u8; rfld cx_i8; rfld cx_i64). rfld cx_octet. auto with rel.
Qed.
Lemma cx_period : cx sml_period_entry_parse.
Proof.
  intros N. apply rel_unless, rel_expect. rfld cx_octet. rfld cx_u8. rfld cx_i8. rfld cx_value.
  rfld cx_octet. auto with rel.
Qed.

Lemma cx_ppv : cx sml_proc_par_value_parse.
Proof.
  intros N. apply rel_unless, rel_expect. rfld cx_u8. destruct a as [m|]; [|auto with rel]. cbn zeta.
  repeat (apply rel_if; [apply rel_bind; [first [apply cx_value|apply cx_period|apply cx_tupel|apply cx_time]|auto with rel]|]).
  auto with rel.
Qed.

Definition monop {A} (p : P A) : Prop := forall s a s', okbuf s -> small s -> p s = Ret (a, s') -> mono s s'.
Lemma rel_monop {A} (F : A -> bool) N p1 p2 : rel F N p1 p2 -> monop p1.
Proof. intros Hr s a s' O S E. apply (Hr s a s' O S E). Qed.

Lemma rel_bind_dec {A B} (F : B -> bool) N (p1 p2 : P A) (k1 k2 : A -> P B) :
  rel any N p1 p2 -> progress p1 -> (forall a, monop (k1 a)) ->
  ((0 < N)%nat -> forall a, rel F (N - 1) (k1 a) (k2 a)) ->
  rel F N (bind p1 k1) (bind p2 k2).
Proof.
  intros Hp Hpr Hmo Hk s1 b s1'' O1 S1 E. apply bind_ret_inv in E. destruct E as (a & s1' & E1 & E2).
  destruct (Hp s1 a s1' O1 S1 E1) as [M1 R1].
  pose proof (Hmo a s1' b s1'' (mono_ok _ _ O1 M1) (mono_small _ _ S1 M1) E2) as M2.
  split; [eapply mono_trans; eauto|]. intros He HF s2 O2 S2 Ee2 HN Hf.
  pose proof (mo_cur _ _ M1) as C1. pose proof (mo_cur _ _ M2) as C2.
  pose proof (Hpr s1 a s1' O1 S1 E1 (mono_noerr _ _ M2 He)) as Cp.
  destruct (R1 (mono_noerr _ _ M2 He) eq_refl s2) as (s2' & P2 & A2); auto.
  { eapply fitting_le; [|exact Hf]. lia. }
  assert (fitting (cursor s1'' - cursor s1') s1' s2') as Hf'.
  { eapply fitting_shift; eauto. replace (_ + _)%nat with (cursor s1'' - cursor s1)%nat by lia. auto. }
  assert (cursor s1' - cursor s1 <= length (rest s2))%nat as HL.
  { eapply fitting_len; [eapply fitting_le; [|exact Hf]; lia|]. rewrite rest_length. lia. }
  destruct (Hk ltac:(lia) a s1' b s1'' (mono_ok _ _ O1 M1) (mono_small _ _ S1 M1) E2) as [_ R2].
  destruct (R2 He HF s2') as (s2'' & P3 & A3); auto.
  - eapply adv_ok; eauto.
  - eapply adv_small; eauto.
  - apply A2.
  - rewrite (adv_rest _ _ _ A2), skipn_length. lia.
  - exists s2''. split; [unfold bind; now rewrite P2|].
    replace (cursor s1'' - cursor s1)%nat with ((cursor s1' - cursor s1) + (cursor s1'' - cursor s1'))%nat by lia.
    eapply adv_trans; eauto.
Qed.

Lemma next_length_progress : progress sml_buf_get_next_length.
Proof. eapply progress_safe. apply next_length_safe. Qed.

Lemma progress_bind {A B} (p : P A) (k : A -> P B) :
  progress p -> cx p -> (forall a, monop (k a)) -> progress (bind p k).
Proof.
  intros Hp Hc Hk s b s' O S E He. apply bind_ret_inv in E. destruct E as (a & s1 & E1 & E2).
  destruct (Hc 0%nat s a s1 O S E1) as [M1 _].
  pose proof (Hk a s1 b s' (mono_ok _ _ O M1) (mono_small _ _ S M1) E2) as M2.
  pose proof (Hp s a s1 O S E1 (mono_noerr _ _ M2 He)). pose proof (mo_cur _ _ M2). lia.
Qed.

Lemma progress_expect {B} n (k : P (option B)) : monop k -> progress (expect_list n k).
Proof.
  intros Hk. intros s b s' O S E He. unfold expect_list in E.
  apply bind_ret_inv in E. destruct E as (t & s1 & E1 & E2).
  destruct (cx_next_type 0%nat s t s1 O S E1) as [M1 _].
  destruct (negb _).
  { inv E2. discriminate. }
  pose proof (mono_ok _ _ O M1) as O1. pose proof (mono_small _ _ S M1) as S1.
  pose proof (mo_cur _ _ M1).
  assert (cursor s1 < cursor s')%nat; [|lia].
  refine (progress_bind _ _ next_length_progress cx_next_length _ s1 b s' O1 S1 E2 He).
  intros l. destruct (negb _); [eapply (rel_monop any 0 _ err_null); auto with rel|exact Hk].
Qed.

Lemma progress_unless {B} (k : P (option B)) : progress k -> progress (unless_skipped k).
Proof.
  intros Hk s b s' O S E He. unfold unless_skipped in E.
  apply bind_ret_inv in E. destruct E as (sk & s1 & E1 & E2).
  destruct (cx_optional 0%nat s sk s1 O S E1) as [M1 _]. pose proof (mo_cur _ _ M1).
  destruct (negb (sk =? 0)) eqn:Esk.
  - inv E2. pose proof (fun Q => wp_optional Q s) as W.
    specialize (W (fun z t => error t = false -> negb (z =? 0) = true -> (cursor s < cursor t)%nat)).
    unfold wp in W. rewrite E1 in W. apply W; auto; cbn; try discriminate. lia.
  - pose proof (Hk s1 b s' (mono_ok _ _ O M1) (mono_small _ _ S M1) E2 He). lia.
Qed.

(** The recursion: the fuel of the second run has to exceed what is left of its
    input. *)
Lemma tree_rec_rel d1 : (forall d2 N, (N < d2)%nat -> rel any N (sml_tree_parse_rec d1) (sml_tree_parse_rec d2)) /\
  progress (sml_tree_parse_rec d1).
Proof.
  induction d1 as [|d1 [IH IHp]].
  { split; [intros d2 N _ s1 a s1' O1 S1 [=]|intros s a s' O S [=]]. }
  assert (Hk : forall d2 N, (N < d2)%nat -> rel any N
     (name <-? sml_octet_string_parse ;;
      value <-? sml_proc_par_value_parse ;;
      sk <- sml_buf_optional_is_skipped ;;
      if negb (sk =? 0) then ret (Some (Tree name value []))
      else
        t <- sml_buf_get_next_type ;;
        if negb (t =? SML_TYPE_LIST) then err_null else
        elems <- sml_buf_get_next_length ;;
        r <- with_fuel (fun fuel => elems_loop fuel elems (sml_tree_parse_rec d1)) ;;
        match r with
        | None => ret None
        | Some l => ret (Some (Tree name value (somes l)))
        end)
     (name <-? sml_octet_string_parse ;;
      value <-? sml_proc_par_value_parse ;;
      sk <- sml_buf_optional_is_skipped ;;
      if negb (sk =? 0) then ret (Some (Tree name value []))
      else
        t <- sml_buf_get_next_type ;;
        if negb (t =? SML_TYPE_LIST) then err_null else
        elems <- sml_buf_get_next_length ;;
        r <- with_fuel (fun fuel => elems_loop fuel elems (sml_tree_parse_rec d2)) ;;
        match r with
        | None => ret None
        | Some l => ret (Some (Tree name value (somes l)))
        end)).
  { intros d2 N HN. rfld cx_octet. rfld cx_ppv. apply rel_bind; [apply cx_optional|]. intros sk.
    apply rel_if; [auto with rel|]. apply rel_bind; [apply cx_next_type|]. intros t.
    apply rel_if; [auto with rel|]. apply rel_bind; [apply cx_next_length|].
    intros elems. apply rel_bind; [|intros [l|]; auto with rel].
    apply rel_elems; auto. }
  split.
  - intros d2 N HN. destruct d2 as [|d2]; [lia|]. cbn [sml_tree_parse_rec]. apply rel_unless.
    apply rel_bind; [apply cx_next_type|]. intros t. apply rel_if; [auto with rel|].
    apply rel_bind_dec; [apply cx_next_length|apply next_length_progress| |].
    + intros l. destruct (negb _); [apply (rel_monop any 0 _ err_null); auto with rel|].
      eapply rel_monop. apply (Hk 1%nat 0%nat). lia.
    + intros HN0 l. apply rel_if; [auto with rel|]. apply Hk. lia.
  - cbn [sml_tree_parse_rec]. apply progress_unless, progress_expect.
    eapply rel_monop. apply (Hk 1%nat 0%nat). lia.
Qed.

Lemma cx_tree : cx sml_tree_parse.
Proof.
  intros N s1 a s1' O1 S1 E. unfold sml_tree_parse, with_fuel in *.
  destruct (tree_rec_rel (fuel_of s1)) as [Hr _].
  destruct (Hr 1%nat 0%nat ltac:(lia) s1 a s1' O1 S1 E) as [M _]. split; auto.
  intros He _ s2 O2 S2 E2 HN Hf.
  destruct (Hr (fuel_of s2) (length (rest s2))) with (s1 := s1) (a := a) (s1' := s1') as [_ R]; auto.
  rewrite rest_length. unfold fuel_of. lia.
Qed.

Lemma cx_open_req : cx sml_open_request_parse.
Proof. intros N. apply rel_expect. do 6 (rfld cx_octet). rfld cx_u8. auto with rel. Qed.
Lemma cx_open_res : cx sml_open_response_parse.
Proof. intros N. apply rel_expect. do 4 (rfld cx_octet). rfld cx_time. rfld cx_u8. auto with rel. Qed.
Lemma cx_close_req : cx sml_close_request_parse.
Proof. intros N. apply rel_expect. rfld cx_octet. auto with rel. Qed.
Lemma cx_close_res : cx sml_close_response_parse.
Proof. intros N. apply rel_expect. rfld cx_octet. auto with rel. Qed.
Lemma cx_pack_req : cx sml_get_profile_pack_request_parse.
Proof.
  intros N. apply rel_expect. do 3 (rfld cx_octet). rfld cx_boolean. do 2 (rfld cx_time).
  rfld cx_tree_path. apply rel_bind.
  - apply rel_bind; [apply cx_optional|]. intros sk. apply rel_if; [auto with rel|].
    apply rel_bind; [apply cx_next_type|]. intros t. apply rel_if; [auto with rel|].
    apply rel_bind; [apply cx_next_length|]. intros l.
    apply rel_elems; [apply cx_octet|eapply progress_safe, octet_safe].
  - intros [ol|]; [|auto with rel]. rfld cx_tree. auto with rel.
Qed.
Lemma cx_header : cx sml_prof_obj_header_entry_parse.
Proof. intros N. apply rel_label, rel_expect. rfld cx_octet. rfld cx_u8. rfld cx_i8. auto with rel. Qed.
Lemma cx_value_entry : cx sml_value_entry_parse.
Proof. intros N. apply rel_label, rel_expect. rfld cx_value. rfld cx_octet. auto with rel. Qed.
Lemma cx_per_entry : cx sml_prof_obj_period_entry_parse.
Proof.
  intros N. apply rel_label, rel_expect. rfld cx_time. rfld cx_u64.
  apply rel_field; [|intros ?]. { apply cx_sequence; [apply cx_value_entry|eapply progress_safe, value_entry_safe]. }
  rfld cx_octet. auto with rel.
Qed.
Lemma cx_pack_res : cx sml_get_profile_pack_response_parse.
Proof.
  intros N. apply rel_label, rel_expect. rfld cx_octet. rfld cx_time. rfld cx_u32. rfld cx_tree_path.
  apply rel_field; [|intros ?]. { apply cx_sequence; [apply cx_header|eapply progress_safe, header_safe]. }
  apply rel_field; [|intros ?]. { apply cx_sequence; [apply cx_per_entry|eapply progress_safe, per_entry_safe]. }
  do 2 (rfld cx_octet). auto with rel.
Qed.
Lemma cx_prof_list_res : cx sml_get_profile_list_response_parse.
Proof.
  intros N. apply rel_label, rel_expect. rfld cx_octet. rfld cx_time. rfld cx_u32. rfld cx_tree_path.
  rfld cx_time. rfld cx_u64.
  apply rel_field; [|intros ?]. { apply cx_sequence; [apply cx_period|eapply progress_safe, period_safe]. }
  do 2 (rfld cx_octet). auto with rel.
Qed.
Lemma cx_proc_req : cx sml_get_proc_parameter_request_parse.
Proof. intros N. apply rel_expect. do 3 (rfld cx_octet). rfld cx_tree_path. rfld cx_octet. auto with rel. Qed.
Lemma cx_proc_res : cx sml_get_proc_parameter_response_parse.
Proof. intros N. apply rel_expect. rfld cx_octet. rfld cx_tree_path. rfld cx_tree. auto with rel. Qed.
Lemma cx_set_proc : cx sml_set_proc_parameter_request_parse.
Proof. intros N. apply rel_expect. do 3 (rfld cx_octet). rfld cx_tree_path. rfld cx_tree. auto with rel. Qed.
Lemma cx_list_req : cx sml_get_list_request_parse.
Proof. intros N. apply rel_expect. do 5 (rfld cx_octet). auto with rel. Qed.
Lemma cx_list_res : cx sml_get_list_response_parse.
Proof.
  intros N. apply rel_expect. do 3 (rfld cx_octet). rfld cx_time. rfld cx_list. rfld cx_octet.
  rfld cx_time. auto with rel.
Qed.
Lemma cx_attention : cx sml_attention_response_parse.
Proof. intros N. apply rel_expect. do 3 (rfld cx_octet). rfld cx_tree. auto with rel. Qed.

Lemma cx_body_data tag : cx (body_data_parse tag).
Proof.
  intros N. unfold body_data_parse.
  repeat (apply rel_if; [apply rel_bind; [first [apply cx_open_req|apply cx_open_res|apply cx_close_req
    |apply cx_close_res|apply cx_pack_req|apply cx_pack_res|apply cx_prof_list_res|apply cx_proc_req
    |apply cx_proc_res|apply cx_set_proc|apply cx_list_req|apply cx_list_res|apply cx_attention]
    |auto with rel]|]).
  auto with rel.
Qed.
Lemma cx_body : cx sml_message_body_parse.
Proof.
  intros N. apply rel_at_end; [auto with rel|]. apply rel_expect. rfld cx_u32.
  destruct a as [m|]; [|auto with rel]. apply rel_bind; [apply cx_body_data|auto with rel].
Qed.
End WithHost.
