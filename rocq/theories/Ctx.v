(** Context independence: a parser that succeeds depends only on the bytes it
    consumes and on (at most) the two bytes that follow them; neither on what
    comes before, nor on what comes later.  Stated relationally ([rel]) because
    the fuel of two runs on different buffers differs. *)
From Verif Require Import Base Buf Crc16 Number OctetString Boolean Value Time SList Tree Bodies
  Message File Lib Wf Safe Safe2 Safe3.

Definition rest (s : sbuf) : list Z := skipn (cursor s) (buffer s).
Definition small (s : sbuf) : Prop := Z.of_nat (buffer_len s) < 2147483648.
Definition prefix (a b : list Z) : Prop := exists t, b = a ++ t.

Record mono (s s' : sbuf) : Prop := {
  mo_buf : buffer s' = buffer s;
  mo_cur : (cursor s <= cursor s' <= buffer_len s)%nat;
  mo_err : error s = true -> error s' = true }.
Lemma mono_step s s' : step s s' -> mono s s'.
Proof. intros [? ? ? ? ?]; split; auto. Qed.
Lemma mono_refl s : okbuf s -> mono s s.
Proof. intros [? ?]; split; auto; lia. Qed.
Lemma mono_trans s1 s2 s3 : mono s1 s2 -> mono s2 s3 -> mono s1 s3.
Proof.
  intros [B1 C1 E1] [B2 C2 E2]. unfold buffer_len in *. split; try congruence; auto.
  rewrite B1 in C2. unfold buffer_len. lia.
Qed.
Lemma mono_ok s s' : okbuf s -> mono s s' -> okbuf s'.
Proof. intros [H1 H2] [B C E]. unfold okbuf, buffer_len in *. rewrite B. split; auto; lia. Qed.
Lemma mono_small s s' : small s -> mono s s' -> small s'.
Proof. intros H [B C E]. unfold small, buffer_len in *. now rewrite B. Qed.
Lemma mono_noerr s s' : mono s s' -> error s' = false -> error s = false.
Proof. intros [_ _ E] H. destruct (error s); auto. now rewrite E in H. Qed.

Lemma rest_length s : length (rest s) = (buffer_len s - cursor s)%nat.
Proof. unfold rest, buffer_len. now rewrite skipn_length. Qed.

Lemma prefix_refl l : prefix l l.
Proof. exists []. now rewrite app_nil_r. Qed.
Lemma prefix_app l t : prefix l (l ++ t).
Proof. now exists t. Qed.
Lemma prefix_trans a b c : prefix a b -> prefix b c -> prefix a c.
Proof. intros [t ->] [u ->]. exists (t ++ u). now rewrite app_assoc. Qed.
Lemma prefix_firstn_le n m (l : list Z) : (n <= m)%nat -> prefix (firstn n l) (firstn m l).
Proof.
  intros Hnm. exists (skipn n (firstn m l)).
  rewrite <- (firstn_skipn n (firstn m l)) at 1. f_equal. rewrite firstn_firstn. f_equal. lia.
Qed.
Lemma prefix_skipn n a b : prefix a b -> (n <= length a)%nat -> prefix (skipn n a) (skipn n b).
Proof.
  intros [t ->] Hn. exists t. rewrite skipn_app.
  replace (n - length a)%nat with 0%nat by lia. reflexivity.
Qed.
Lemma prefix_firstn n a b : prefix a b -> (n <= length a)%nat -> firstn n a = firstn n b.
Proof.
  intros [t ->] Hn. rewrite firstn_app. replace (n - length a)%nat with 0%nat by lia.
  now rewrite firstn_O, app_nil_r.
Qed.
Lemma prefix_nth a b i x : prefix a b -> nth_error a i = Some x -> nth_error b i = Some x.
Proof.
  intros [t ->] Hi. rewrite nth_error_app1; auto. apply nth_error_Some. congruence.
Qed.
Lemma prefix_length a b : prefix a b -> (length a <= length b)%nat.
Proof. intros [t ->]. rewrite app_length. lia. Qed.

(** [s'] is [s] after [k] bytes were consumed without error *)
Record adv (s : sbuf) (k : nat) (s' : sbuf) : Prop := {
  ad_buf : buffer s' = buffer s;
  ad_cur : cursor s' = (cursor s + k)%nat;
  ad_err : error s' = false }.

Definition fitting (k : nat) (s1 s2 : sbuf) : Prop := prefix (firstn (k + 1) (rest s1)) (rest s2).

Definition rel {A} (F : A -> bool) (N : nat) (p1 p2 : P A) : Prop :=
  forall s1 a s1', okbuf s1 -> small s1 -> p1 s1 = Ret (a, s1') ->
    mono s1 s1' /\
    (error s1' = false -> F a = true -> forall s2, okbuf s2 -> small s2 -> error s2 = false ->
       (length (rest s2) <= N)%nat -> fitting (cursor s1' - cursor s1) s1 s2 ->
       exists s2', p2 s2 = Ret (a, s2') /\ adv s2 (cursor s1' - cursor s1) s2').
Definition any {A} (_ : A) : bool := true.
Definition is_some {A} (o : option A) : bool := match o with Some _ => true | None => false end.
Definition cx {A} (p : P A) : Prop := forall N, rel any N p p.

Lemma adv_ok s k s' : okbuf s -> adv s k s' -> (k <= length (rest s))%nat -> okbuf s'.
Proof.
  intros [H1 H2] [B C E] Hk. rewrite rest_length in Hk. unfold okbuf, buffer_len in *. rewrite B.
  split; auto. lia.
Qed.
Lemma adv_small s k s' : small s -> adv s k s' -> small s'.
Proof. intros H [B C E]. unfold small, buffer_len in *. now rewrite B. Qed.
Lemma adv_rest s k s' : adv s k s' -> rest s' = skipn k (rest s).
Proof. intros [B C E]. unfold rest. rewrite B, C, skipn_skipn_add. reflexivity. Qed.
Lemma mono_rest s s' : mono s s' -> rest s' = skipn (cursor s' - cursor s) (rest s).
Proof.
  intros [B C E]. unfold rest. rewrite B, skipn_skipn_add. f_equal. lia.
Qed.
Lemma adv_trans s k s' k' s'' : adv s k s' -> adv s' k' s'' -> adv s (k + k') s''.
Proof. intros [B C E] [B' C' E']. split; try congruence. lia. Qed.
Lemma adv_0 s : error s = false -> adv s 0 s.
Proof. split; auto. Qed.

Lemma fitting_len k s1 s2 : fitting k s1 s2 -> (k <= length (rest s1))%nat -> (k <= length (rest s2))%nat.
Proof. intros Hf Hk. apply prefix_length in Hf. rewrite firstn_length in Hf. lia. Qed.
Lemma fitting_le k k' s1 s2 : (k <= k')%nat -> fitting k' s1 s2 -> fitting k s1 s2.
Proof. intros Hk Hf. eapply prefix_trans; [|exact Hf]. apply prefix_firstn_le. lia. Qed.
Lemma fitting_shift k k' s1 s1' s2 s2' :
  mono s1 s1' -> k = (cursor s1' - cursor s1)%nat -> adv s2 k s2' -> fitting (k + k') s1 s2 ->
  fitting k' s1' s2'.
Proof.
  intros Hm Hk Ha Hf. unfold fitting. rewrite (mono_rest _ _ Hm), (adv_rest _ _ _ Ha), <- Hk.
  pose proof (mo_cur _ _ Hm) as Hc. pose proof (rest_length s1) as Hl.
  replace (firstn (k' + 1) (skipn k (rest s1))) with (skipn k (firstn (k + k' + 1) (rest s1))).
  - apply prefix_skipn; [exact Hf|]. rewrite firstn_length. lia.
  - rewrite skipn_firstn_comm. f_equal. lia.
Qed.

Lemma rel_weak {A} (F : A -> bool) N p1 p2 : rel any N p1 p2 -> rel F N p1 p2.
Proof. intros Hr s1 a s1' O1 S1 E1. destruct (Hr s1 a s1' O1 S1 E1). split; auto. Qed.

Lemma rel_bind {A B} (F : B -> bool) N (p1 p2 : P A) (k1 k2 : A -> P B) :
  rel any N p1 p2 -> (forall a, rel F N (k1 a) (k2 a)) -> rel F N (bind p1 k1) (bind p2 k2).
Proof.
  intros Hp Hk s1 b s1'' O1 S1 E. apply bind_ret_inv in E. destruct E as (a & s1' & E1 & E2).
  destruct (Hp s1 a s1' O1 S1 E1) as [M1 R1].
  destruct (Hk a s1' b s1'' (mono_ok _ _ O1 M1) (mono_small _ _ S1 M1) E2) as [M2 R2].
  split; [eapply mono_trans; eauto|]. intros He HF s2 O2 S2 Ee2 HN Hf.
  pose proof (mo_cur _ _ M1) as C1. pose proof (mo_cur _ _ M2) as C2.
  destruct (R1 (mono_noerr _ _ M2 He) eq_refl s2) as (s2' & P2 & A2); auto.
  { eapply fitting_le; [|exact Hf]. lia. }
  assert (fitting (cursor s1'' - cursor s1') s1' s2') as Hf'.
  { eapply fitting_shift; eauto. replace (_ + _)%nat with (cursor s1'' - cursor s1)%nat by lia. auto. }
  assert (cursor s1' - cursor s1 <= length (rest s2))%nat as HL.
  { eapply fitting_len; [eapply fitting_le; [|exact Hf]; lia|]. rewrite rest_length. lia. }
  destruct (R2 He HF s2') as (s2'' & P3 & A3); auto.
  - eapply adv_ok; eauto.
  - eapply adv_small; eauto.
  - apply A2.
  - rewrite (adv_rest _ _ _ A2), skipn_length. lia.
  - exists s2''. split; [unfold bind; now rewrite P2|].
    replace (cursor s1'' - cursor s1)%nat with ((cursor s1' - cursor s1) + (cursor s1'' - cursor s1'))%nat by lia.
    eapply adv_trans; eauto.
Qed.

Lemma rel_ret {A} (F : A -> bool) N a : rel F N (ret a) (ret a).
Proof.
  intros s1 b s1' O1 S1 [= <- <-]. split; [now apply mono_refl|]. intros He _ s2 O2 S2 E2 HN Hf.
  exists s2. split; auto. rewrite Nat.sub_diag. now apply adv_0.
Qed.

(** programs that never succeed *)
Definition fails {A} (F : A -> bool) (p : P A) : Prop :=
  forall s a s', okbuf s -> p s = Ret (a, s') -> mono s s' /\ (error s' = true \/ F a = false).
Lemma rel_fails {A} (F : A -> bool) N p1 p2 : fails F p1 -> rel F N p1 p2.
Proof.
  intros Hp s1 a s1' O1 S1 E. destruct (Hp s1 a s1' O1 E) as [M [X|X]]; split; auto; congruence.
Qed.
Lemma mono_set_err s : okbuf s -> mono s (set_err s).
Proof. intros [? ?]. split; cbn; auto; lia. Qed.
Lemma fails_set {B} (F : B -> bool) (k : unit -> P B) : (forall s, exists b, k tt s = Ret (b, s)) ->
  fails F (bind set_error k) .
Proof.
  intros Hk s a s' O E. unfold bind, set_error in E. destruct (Hk (set_err s)) as [b Eb].
  rewrite Eb in E. inv E. split; [now apply mono_set_err|auto].
Qed.
Lemma fails_err_null {A} (F : option A -> bool) : fails F err_null.
Proof. apply fails_set. intros s. eexists; reflexivity. Qed.
Lemma fails_none {A} : fails is_some (ret (@None A)).
Proof. intros s a s' O [= <- <-]. split; [now apply mono_refl|auto]. Qed.
Lemma fails_fault {A} (F : A -> bool) f : fails F (fail f).
Proof. intros s a s' O [=]. Qed.
#[global] Hint Resolve fails_err_null fails_none fails_fault rel_ret rel_weak rel_fails : rel.

Lemma rest_nonempty s b : nth_error (buffer s) (cursor s) = Some b ->
  rest s = b :: skipn (S (cursor s)) (buffer s).
Proof. apply skipn_cons_nth. Qed.

Lemma fitting_hd k s1 s2 b : fitting k s1 s2 -> nth_error (buffer s1) (cursor s1) = Some b ->
  nth_error (buffer s2) (cursor s2) = Some b.
Proof.
  intros Hf Hb. rewrite nth_error_skipn_hd. eapply (prefix_nth _ _ 0 b Hf).
  rewrite nth_error_firstn_lt by lia. unfold rest. now rewrite <- nth_error_skipn_hd.
Qed.
Lemma nth_cursor s : (cursor s < buffer_len s)%nat -> exists b, nth_error (buffer s) (cursor s) = Some b.
Proof. apply nth_error_cursor. Qed.
Lemma nth_cursor_lt s b : nth_error (buffer s) (cursor s) = Some b -> (cursor s < buffer_len s)%nat.
Proof. intros Hb. apply nth_error_Some. congruence. Qed.

Lemma rel_at_end {B} (F : B -> bool) N (e : P B) (k1 k2 : P B) :
  fails F e -> rel F N k1 k2 ->
  rel F N (x <- at_end ;; if (x : bool) then e else k1) (x <- at_end ;; if (x : bool) then e else k2).
Proof.
  intros He Hk s1 b s1' O1 S1 E. unfold bind, at_end in E.
  destruct (Nat.leb_spec (buffer_len s1) (cursor s1)).
  - destruct (He s1 b s1' O1 E) as [M [X|X]]; split; auto; congruence.
  - destruct (Hk s1 b s1' O1 S1 E) as [M R]. split; auto. intros Ee HF s2 O2 S2 E2 HN Hf.
    destruct (R Ee HF s2 O2 S2 E2 HN Hf) as (s2' & P2 & A2). exists s2'. split; auto.
    unfold bind, at_end. destruct (nth_cursor s1 H) as [x Hx].
    pose proof (nth_cursor_lt _ _ (fitting_hd _ _ _ _ Hf Hx)).
    destruct (Nat.leb_spec (buffer_len s2) (cursor s2)); [lia|auto].
Qed.

Lemma cx_byte : cx sml_buf_get_current_byte.
Proof.
  intros N s1 b s1' O1 S1 E. unfold sml_buf_get_current_byte in *.
  destruct (nth_error (buffer s1) (cursor s1)) eqn:Eb; inv E. split; [now apply mono_refl|].
  intros He _ s2 O2 S2 E2 HN Hf. rewrite (fitting_hd _ _ _ _ Hf Eb). exists s2. split; auto.
  rewrite Nat.sub_diag. now apply adv_0.
Qed.

Lemma cx_next_type : cx sml_buf_get_next_type.
Proof.
  intros N. apply rel_at_end.
  - apply fails_set. intros s; eexists; reflexivity.
  - apply rel_bind; [apply cx_byte|auto with rel].
Qed.

Lemma rel_pure {A} (F : A -> bool) N (p : P A) :
  (forall s a s', p s = Ret (a, s') -> s' = s /\ forall s2, p s2 = Ret (a, s2)) -> rel F N p p.
Proof.
  intros Hp s1 a s1' O1 S1 E. destruct (Hp s1 a s1' E) as [-> Hp2].
  split; [now apply mono_refl|]. intros He _ s2 O2 S2 E2 HN Hf. exists s2. split; auto.
  rewrite Nat.sub_diag. now apply adv_0.
Qed.

(** one byte consumed when there is one *)
Lemma update_ret n s : sml_buf_update_bytes_read (Z.of_nat n) s = Ret (tt, set_cursor (cursor s + n) s).
Proof.
  unfold sml_buf_update_bytes_read. destruct (Z.ltb_spec (Z.of_nat n) 0); [lia|]. now rewrite Nat2Z.id.
Qed.

Lemma update_1 s : sml_buf_update_bytes_read 1 s = Ret (tt, set_cursor (cursor s + 1) s).
Proof. apply (update_ret 1). Qed.

Lemma cx_optional : cx sml_buf_optional_is_skipped.
Proof.
  intros N s1 a s1' O1 S1 E. unfold sml_buf_optional_is_skipped in *. unfold bind, at_end in E.
  destruct (Nat.leb_spec (buffer_len s1) (cursor s1)).
  { cbn in E. inv E. split; [now apply mono_set_err|discriminate]. }
  unfold sml_buf_get_current_byte in E.
  destruct (nth_error (buffer s1) (cursor s1)) as [b|] eqn:Eb; [|discriminate].
  destruct (b =? SML_OPTIONAL_SKIPPED) eqn:Es.
  - replace (buffer_len s1 <=? cursor s1)%nat with false in E by lia. rewrite update_1 in E. inv E.
    split. { split; cbn; auto; destruct O1; lia. }
    cbn [cursor set_cursor error]. intros He _ s2 O2 S2 E2 HN Hf.
    pose proof (fitting_hd _ _ _ _ Hf Eb) as Hb2. pose proof (nth_cursor_lt _ _ Hb2).
    exists (set_cursor (cursor s2 + 1) s2). split.
    + unfold bind, at_end, sml_buf_get_current_byte.
      assert ((buffer_len s2 <=? cursor s2)%nat = false) as El by lia.
      rewrite El, Hb2, Es, El, update_1. reflexivity.
    + split; cbn; auto; lia.
  - inv E. split; [now apply mono_refl|]. intros He _ s2 O2 S2 E2 HN Hf.
    pose proof (fitting_hd _ _ _ _ Hf Eb) as Hb2. pose proof (nth_cursor_lt _ _ Hb2).
    exists s2. split.
    + unfold bind, at_end, sml_buf_get_current_byte.
      destruct (Nat.leb_spec (buffer_len s2) (cursor s2)); [lia|]. rewrite Hb2, Es. reflexivity.
    + rewrite Nat.sub_diag. now apply adv_0.
Qed.

Lemma rel_if {A} (F : A -> bool) N (b : bool) p1 p2 q1 q2 :
  rel F N p1 p2 -> rel F N q1 q2 -> rel F N (if b then p1 else q1) (if b then p2 else q2).
Proof. destruct b; auto. Qed.

Lemma rel_unless {A} (F : option A -> bool) N (k1 k2 : P (option A)) :
  rel F N k1 k2 -> rel F N (unless_skipped k1) (unless_skipped k2).
Proof. intros Hk. apply rel_bind; [apply cx_optional|]. intros sk. apply rel_if; auto with rel. Qed.

(** the loop over the TL bytes: it ends on the last one *)
Lemma length_loop_ctx : forall fuel1 fuel2 l li s1 r s1' s2,
  okbuf s1 -> okbuf s2 -> get_next_length_loop fuel1 l li s1 = Ret (r, s1') ->
  mono s1 s1' /\
  ((cursor s1' < buffer_len s1')%nat -> error s2 = false -> error s1' = false ->
   (length (rest s2) < fuel2)%nat -> prefix (firstn (cursor s1' - cursor s1 + 1) (rest s1)) (rest s2) ->
   exists s2', get_next_length_loop fuel2 l li s2 = Ret (r, s2') /\ adv s2 (cursor s1' - cursor s1) s2').
Proof.
  induction fuel1 as [|fuel1 IH]; intros fuel2 l li s1 r s1' s2 O1 O2 E; [discriminate|].
  cbn [get_next_length_loop] in E. unfold bind at 1, at_end in E.
  destruct (Nat.leb_spec (buffer_len s1) (cursor s1)) as [Hc|Hc].
  { inv E. split; [now apply mono_refl|]. lia. }
  unfold bind at 1, sml_buf_get_current_byte in E.
  destruct (nth_error (buffer s1) (cursor s1)) as [b|] eqn:Eb; [|discriminate].
  unfold bind at 1, int_op at 1 in E.
  assert (Hhd : forall k, prefix (firstn (k + 1) (rest s1)) (rest s2) -> nth_error (buffer s2) (cursor s2) = Some b).
  { intros k Hp. rewrite nth_error_skipn_hd. eapply (prefix_nth _ _ 0 b Hp).
    rewrite nth_error_firstn_lt by lia. unfold rest. now rewrite <- nth_error_skipn_hd. }
  destruct (negb (Z.land b SML_ANOTHER_TL =? SML_ANOTHER_TL)) eqn:Em.
  - inv E. split. { destruct O1. split; cbn; auto; lia. }
    cbn [cursor set_ovf buffer_len buffer error]. intros Hc' E2 E1 Hf Hp.
    pose proof (Hhd _ Hp) as Hb2. pose proof (nth_cursor_lt _ _ Hb2) as Hc2. rewrite rest_length in Hf.
    destruct fuel2 as [|fuel2]; [lia|]. eexists. split.
    + cbn [get_next_length_loop]. unfold bind at 1, at_end.
      destruct (Nat.leb_spec (buffer_len s2) (cursor s2)); [lia|].
      unfold bind at 1, sml_buf_get_current_byte. rewrite Hb2. unfold bind at 1, int_op at 1.
      rewrite Em. reflexivity.
    + split; cbn; auto; lia.
  - unfold bind at 1 in E. rewrite update_1 in E.
    set (u1 := set_cursor _ _) in E.
    assert (mono s1 u1) as Mu by (destruct O1; split; cbn; auto; lia).
    unfold bind at 1 in E.
    match type of E with match ?f u1 with _ => _ end = _ => set (lp := f) in E end.
    assert (exists li', forall x, exists o, lp x = Ret (li', set_ovf o x)) as [li' Hli].
    { subst lp. destruct (negb (li =? 0)).
      - eexists. intros x. eexists. reflexivity.
      - exists li. intros x. exists false. unfold ret, set_ovf. rewrite orb_false_r. now destruct x. }
    destruct (Hli u1) as [o1 Ho1]. rewrite Ho1 in E.
    set (v1 := set_ovf o1 u1) in *.
    assert (mono s1 v1) as Mv by (destruct O1; split; cbn; auto; lia).
    set (l2 := Z.lor _ _) in *.
    assert (Hgo : forall v2, okbuf v2 -> mono v1 s1' /\
      ((cursor s1' < buffer_len s1')%nat -> error v2 = false -> error s1' = false ->
       (length (rest v2) < fuel2 - 1)%nat -> prefix (firstn (cursor s1' - cursor v1 + 1) (rest v1)) (rest v2) ->
      exists s2', get_next_length_loop (fuel2 - 1) l2 li' v2 = Ret (r, s2') /\ adv v2 (cursor s1' - cursor v1) s2')).
    { intros v2 Ov2. apply (IH (fuel2 - 1)%nat l2 li' v1 r s1' v2); auto. apply (mono_ok s1); auto. }
    split. { eapply mono_trans; [exact Mv|]. apply (Hgo s2 O2). }
    intros Hc' E2 E1 Hf Hp.
    pose proof (Hhd _ Hp) as Hb2. pose proof (nth_cursor_lt _ _ Hb2) as Hc2. rewrite rest_length in Hf.
    destruct fuel2 as [|fuel2]; [lia|].
    cbn [get_next_length_loop]. unfold bind at 1, at_end.
    destruct (Nat.leb_spec (buffer_len s2) (cursor s2)); [lia|].
    unfold bind at 1, sml_buf_get_current_byte. rewrite Hb2. unfold bind at 1, int_op at 1.
    rewrite Em. unfold bind at 1. rewrite update_1.
    set (u2 := set_cursor _ _). unfold bind at 1.
    match goal with |- exists _, match ?f u2 with _ => _ end = _ /\ _ => change f with lp end.
    destruct (Hli u2) as [o2 Ho2]. rewrite Ho2. set (v2 := set_ovf o2 u2).
    assert (adv s2 1 v2) as Av by (split; cbn; auto).
    assert (okbuf v2) as Ov2 by (eapply adv_ok; eauto; rewrite rest_length; lia).
    destruct (Hgo v2 Ov2) as [M1 R1].
    pose proof (mo_cur _ _ M1) as Cm. change (cursor v1) with (cursor s1 + 1)%nat in *.
    change (buffer_len v1) with (buffer_len s1) in *.
    replace (S fuel2 - 1)%nat with fuel2 in R1 by lia.
    destruct R1 as (s2' & P2 & A2); auto.
    + rewrite (adv_rest _ _ _ Av), skipn_length, rest_length. lia.
    + rewrite (mono_rest _ _ Mv), (adv_rest _ _ _ Av). change (cursor v1) with (cursor s1 + 1)%nat.
      replace (cursor s1 + 1 - cursor s1)%nat with 1%nat by lia.
      replace (firstn (cursor s1' - (cursor s1 + 1) + 1) (skipn 1 (rest s1)))
        with (skipn 1 (firstn (cursor s1' - cursor s1 + 1) (rest s1))).
      * apply prefix_skipn; [exact Hp|]. rewrite firstn_length, rest_length. lia.
      * rewrite skipn_firstn_comm. f_equal. lia.
    + exists s2'. split; auto. replace (cursor s1' - cursor s1)%nat with (1 + (cursor s1' - (cursor s1 + 1)))%nat by lia.
      eapply adv_trans; eauto.
Qed.

Lemma cx_next_length : cx sml_buf_get_next_length.
Proof.
  intros N. apply rel_at_end.
  { apply fails_set. intros s; eexists; reflexivity. }
  apply rel_bind; [apply cx_byte|]. intros byte. cbn zeta.
  set (li := if _ =? _ then _ else _).
  intros s1 a s1' O1 S1 E. apply bind_ret_inv in E. destruct E as (r & t1 & E1 & E2).
  unfold with_fuel in E1.
  destruct (length_loop_ctx _ (fuel_of s1) _ _ _ _ _ s1 O1 O1 E1) as [M1 _].
  unfold bind at 1, at_end in E2.
  destruct (Nat.leb_spec (buffer_len t1) (cursor t1)) as [Hc|Hc].
  { cbn in E2. inv E2. split; [|discriminate]. eapply mono_trans; eauto.
    apply mono_set_err. eapply mono_ok; eauto. }
  unfold bind at 1 in E2. rewrite update_1 in E2.
  unfold int_op in E2. inv E2. pose proof (mo_cur _ _ M1) as Cm.
  assert (buffer_len t1 = buffer_len s1) as BL by (unfold buffer_len; now rewrite (mo_buf _ _ M1)).
  split. { split; cbn; [apply M1|lia|apply M1]. }
  cbn [error set_ovf set_cursor cursor]. intros He _ s2 O2 S2 Ee2 HN Hf.
  destruct (length_loop_ctx _ (fuel_of s2) _ _ _ _ _ s2 O1 O2 E1) as [_ R1].
  destruct R1 as (s2' & P2 & A2); auto.
  { rewrite rest_length. unfold fuel_of. lia. }
  { eapply prefix_trans; [|exact Hf]. apply prefix_firstn_le. lia. }
  eexists. split.
  - unfold bind at 1, with_fuel. rewrite P2. unfold bind at 1, at_end.
    assert (cursor t1 - cursor s1 + 1 <= length (rest s2))%nat as HL.
    { eapply (fitting_len (cursor t1 - cursor s1 + 1) s1 s2).
      - eapply fitting_le; [|exact Hf]. lia.
      - rewrite rest_length. lia. }
    rewrite rest_length in HL. unfold buffer_len at 1. rewrite (ad_buf _ _ _ A2), (ad_cur _ _ _ A2).
    fold (buffer_len s2).
    destruct (Nat.leb_spec (buffer_len s2) (cursor s2 + (cursor t1 - cursor s1))); [lia|].
    unfold bind at 1. rewrite update_1. unfold int_op. reflexivity.
  - split; cbn; [apply A2| rewrite (ad_cur _ _ _ A2); lia|apply A2].
Qed.

Lemma rel_field {A B} (F : option B -> bool) N (p1 p2 : P A) (k1 k2 : A -> P (option B)) :
  rel any N p1 p2 -> (forall a, rel F N (k1 a) (k2 a)) -> rel F N (field p1 k1) (field p2 k2).
Proof.
  intros Hp Hk. apply rel_bind; auto. intros a s1 b s1' O1 S1 E.
  unfold bind, sml_buf_has_errors in E. destruct (error s1) eqn:E1.
  - inv E. split; [now apply mono_refl|congruence].
  - destruct (Hk a s1 b s1' O1 S1 E) as [M R]. split; auto. intros He HF s2 O2 S2 E2 HN Hf.
    destruct (R He HF s2 O2 S2 E2 HN Hf) as (s2' & P2 & A2). exists s2'. split; auto.
    unfold bind, sml_buf_has_errors. now rewrite E2.
Qed.

Lemma rel_has_errors {B} (F : B -> bool) N (e1 e2 : P B) (k1 k2 : P B) :
  (forall s a s', okbuf s -> error s = true -> e1 s = Ret (a, s') -> mono s s') -> rel F N k1 k2 ->
  rel F N (e <- sml_buf_has_errors ;; if (e : bool) then e1 else k1)
          (e <- sml_buf_has_errors ;; if (e : bool) then e2 else k2).
Proof.
  intros He1 Hk s1 b s1' O1 S1 E. unfold bind, sml_buf_has_errors in E. destruct (error s1) eqn:E1.
  - pose proof (He1 _ _ _ O1 E1 E) as M. split; auto. intros He. apply (mono_noerr _ _ M) in He. congruence.
  - destruct (Hk s1 b s1' O1 S1 E) as [M R]. split; auto. intros He HF s2 O2 S2 E2 HN Hf.
    destruct (R He HF s2 O2 S2 E2 HN Hf) as (s2' & P2 & A2). exists s2'. split; auto.
    unfold bind, sml_buf_has_errors. now rewrite E2.
Qed.

Lemma rel_expect {B} (F : option B -> bool) N n (k1 k2 : P (option B)) :
  rel F N k1 k2 -> rel F N (expect_list n k1) (expect_list n k2).
Proof.
  intros Hk. apply rel_bind; [apply cx_next_type|]. intros t. apply rel_if; [auto with rel|].
  apply rel_bind; [apply cx_next_length|]. intros l. apply rel_if; auto with rel.
Qed.

Lemma rel_label {A} N (m1 m2 : P (option A)) :
  rel is_some N m1 m2 -> rel any N (error_label m1) (error_label m2).
Proof.
  intros Hm s1 a s1' O1 S1 E. apply bind_ret_inv in E. destruct E as (r & t1 & E1 & E2).
  destruct (Hm s1 r t1 O1 S1 E1) as [M R]. destruct r as [x|].
  - inv E2. split; auto. intros He _ s2 O2 S2 E2 HN Hf.
    destruct (R He eq_refl s2 O2 S2 E2 HN Hf) as (s2' & P2 & A2). exists s2'. split; auto.
    unfold error_label, bind. now rewrite P2.
  - cbn in E2. inv E2. split; [|discriminate]. eapply mono_trans; eauto.
    apply mono_set_err. eapply mono_ok; eauto.
Qed.

(** copying [l] bytes that were checked to be there, then skipping them *)
Lemma read_ctx l s1 d s1' : okbuf s1 -> 0 <= l -> read_current (Z.to_nat l) s1 = Ret (d, s1') ->
  s1' = s1 /\ mono s1 (set_cursor (cursor s1 + Z.to_nat l) s1) /\
  forall s2, okbuf s2 -> fitting (Z.to_nat l) s1 s2 -> read_current (Z.to_nat l) s2 = Ret (d, s2).
Proof.
  intros [O1 _] Hl E. unfold read_current in *. destruct (Nat.leb_spec (cursor s1 + Z.to_nat l) (buffer_len s1)); inv E.
  split; auto. split. { split; cbn; auto; lia. }
  intros s2 [O2 _] Hf. pose proof (fitting_len _ _ _ Hf) as HL. rewrite !rest_length in HL. specialize (HL ltac:(lia)).
  destruct (Nat.leb_spec (cursor s2 + Z.to_nat l) (buffer_len s2)).
  - f_equal. f_equal. fold (rest s1') (rest s2). symmetry.
    rewrite <- (prefix_firstn (Z.to_nat l) _ _ Hf).
    + rewrite firstn_firstn. f_equal. lia.
    + rewrite firstn_length, rest_length. lia.
  - destruct (Nat.eq_dec (Z.to_nat l) 0); lia.
Qed.
