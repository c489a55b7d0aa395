(** Memory safety, progress and shape of the results of all parsers. *)
From Verif Require Import Base Buf Crc16 Number OctetString Boolean Value Time SList Tree Bodies
  Message File Lib Wf.

(** No chain of seven or more bytes with the continuation bit: no TL field of
    the input can be longer than 7 bytes. *)
Definition short_chains (b : list Z) : Prop :=
  forall i, exists j, (i <= j < i + 7)%nat /\
    (forall x, nth_error b j = Some x -> Z.land x 128 = 0).

Definition okbuf (s : sbuf) : Prop := (cursor s <= buffer_len s)%nat /\ bytes_ok (buffer s).

(** What no parser ever does: change bytes, move back or past the end, clear
    the error flag; and signed overflow needs a long TL field. *)
Record step (s s' : sbuf) : Prop := {
  st_buf : buffer s' = buffer s;
  st_cur : (cursor s <= cursor s' <= buffer_len s)%nat;
  st_err : error s = true -> error s' = true;
  st_ovf : ovf s = true -> ovf s' = true;
  st_ovf2 : short_chains (buffer s) -> ovf s' = ovf s }.

Lemma step_refl s : okbuf s -> step s s.
Proof. intros [H1 H2]; split; auto; lia. Qed.
Lemma step_trans s1 s2 s3 : step s1 s2 -> step s2 s3 -> step s1 s3.
Proof.
  intros [B1 C1 E1 O1 P1] [B2 C2 E2 O2 P2]; split; auto.
  - congruence.
  - unfold buffer_len in *; rewrite B1 in *; lia.
  - intros Hs; rewrite P2 by (now rewrite B1); auto.
Qed.
Lemma step_ok s s' : okbuf s -> step s s' -> okbuf s'.
Proof.
  intros [H1 H2] [B C _ _]; split; unfold buffer_len in *; rewrite B; auto; lia.
Qed.
Lemma step_noerr s s' : step s s' -> error s' = false -> error s = false.
Proof. intros [_ _ E _] He; destruct (error s); auto; rewrite E in He; auto. Qed.

(** [post n Q s]: the parser made a [step]; and unless the error flag is up it
    consumed at least [n] bytes and its result satisfies [Q]. *)
Definition post {A} (n : nat) (Q : A -> Prop) (s : sbuf) (a : A) (s' : sbuf) : Prop :=
  step s s' /\ (error s' = false -> (cursor s + n <= cursor s')%nat /\ Q a).
Definition safe {A} (n : nat) (p : P A) (Q : A -> Prop) : Prop :=
  forall s, okbuf s -> wp p (post n Q s) s.

Lemma safe_weaken {A} n n' (p : P A) (Q Q' : A -> Prop) :
  safe n p Q -> (n' <= n)%nat -> (forall a, Q a -> Q' a) -> safe n' p Q'.
Proof.
  intros Hp Hn HQ s Hs. eapply wp_mono; [apply Hp, Hs|].
  intros a s' [St Po]; split; auto. intros He; destruct (Po He); split; auto; lia.
Qed.

Lemma safe_ret {A} (a : A) (Q : A -> Prop) : Q a -> safe 0 (ret a) Q.
Proof. intros HQ s Hs; apply wp_ret; split; [apply step_refl|]; auto. intros _; split; auto; lia. Qed.

Lemma safe_bind {A B} n m (p : P A) (k : A -> P B) (Q1 : A -> Prop) (Q2 : B -> Prop) :
  safe n p Q1 -> (forall a, safe m (k a) (fun b => Q1 a -> Q2 b)) -> safe (n + m) (bind p k) Q2.
Proof.
  intros Hp Hk s Hs. apply wp_bind. eapply wp_mono; [apply Hp, Hs|].
  intros a s1 [St1 Po1]. eapply wp_mono; [apply Hk; eapply step_ok; eauto|].
  intros b s2 [St2 Po2]. split; [eapply step_trans; eauto|].
  intros He. destruct (Po2 He) as [C2 HQ2]. destruct (Po1 (step_noerr _ _ St2 He)) as [C1 HQ1].
  split; [lia|auto].
Qed.

(** [p] then a continuation that may use the result. *)
Lemma safe_bind_dep {A B} n m (p : P A) (k : A -> P B) (Q1 : A -> Prop) (Q2 : B -> Prop) :
  safe n p Q1 -> (forall a, Q1 a -> safe m (k a) Q2) ->
  (forall a, safe 0 (k a) (fun _ => True)) -> safe (n + m) (bind p k) Q2.
Proof.
  intros Hp Hk Hk0 s Hs. apply wp_bind. eapply wp_mono; [apply Hp, Hs|].
  intros a s1 [St1 Po1]. pose proof (step_ok _ _ Hs St1) as Hs1.
  destruct (error s1) eqn:E1.
  - eapply wp_mono; [apply Hk0; auto|]. intros b s2 [St2 _].
    split; [eapply step_trans; eauto|]. intros He.
    apply (step_noerr _ _ St2) in He. congruence.
  - destruct (Po1 eq_refl) as [C1 HQ1].
    eapply wp_mono; [apply (Hk a HQ1); auto|].
    intros b s2 [St2 Po2]. split; [eapply step_trans; eauto|].
    intros He. destruct (Po2 He). split; auto; lia.
Qed.

Lemma safe_field {A B} n m (p : P A) (k : A -> P (option B)) (Q1 : A -> Prop) (Q2 : option B -> Prop) :
  safe n p Q1 -> (forall a, Q1 a -> safe m (k a) Q2) -> safe (n + m) (field p k) Q2.
Proof.
  intros Hp Hk s Hs. unfold field. apply wp_bind. eapply wp_mono; [apply Hp, Hs|].
  intros a s1 [St1 Po1]. apply wp_bind. unfold sml_buf_has_errors, wp at 1.
  destruct (error s1) eqn:E1.
  - apply wp_ret. split; auto. congruence.
  - destruct (Po1 eq_refl) as [C1 HQ1].
    eapply wp_mono; [apply (Hk a HQ1); eapply step_ok; eauto|].
    intros b s2 [St2 Po2]. split; [eapply step_trans; eauto|].
    intros He. destruct (Po2 He). split; auto; lia.
Qed.

Lemma safe_set_error {A} n (Q : A -> Prop) a : safe n (set_error ;;; ret a) Q.
Proof.
  intros s Hs. cbn. destruct Hs. repeat split; simpl; auto; discriminate.
Qed.
Lemma safe_err_null {A} n (Q : option A -> Prop) : safe n err_null Q.
Proof. apply safe_set_error. Qed.

Lemma safe_error_label {A} n (m : P (option A)) (Q : A -> Prop) :
  safe n m (opt Q) -> safe n (error_label m) (fun r => exists x, r = Some x /\ Q x).
Proof.
  intros Hm s Hs. unfold error_label. apply wp_bind. eapply wp_mono; [apply Hm, Hs|].
  intros [x|] s1 [St Po].
  - apply wp_ret. split; auto. intros He; destruct (Po He); eauto.
  - cbn. split; [|discriminate]. destruct St; split; auto.
Qed.

(** *** Primitives *)

Lemma wp_at_end (Q : bool -> sbuf -> Prop) s :
  ((buffer_len s <= cursor s)%nat -> Q true s) ->
  ((cursor s < buffer_len s)%nat -> Q false s) -> wp at_end Q s.
Proof.
  intros H1 H2. unfold wp, at_end. destruct (Nat.leb_spec (buffer_len s) (cursor s)); auto.
Qed.

Lemma nth_error_cursor s : (cursor s < buffer_len s)%nat ->
  exists b, nth_error (buffer s) (cursor s) = Some b.
Proof.
  unfold buffer_len; intros H. destruct (nth_error (buffer s) (cursor s)) eqn:E; eauto.
  apply nth_error_None in E; lia.
Qed.

Lemma wp_current_byte (Q : Z -> sbuf -> Prop) s :
  (cursor s < buffer_len s)%nat ->
  (forall b, nth_error (buffer s) (cursor s) = Some b -> Q b s) ->
  wp sml_buf_get_current_byte Q s.
Proof.
  intros Hc HQ. unfold wp, sml_buf_get_current_byte.
  destruct (nth_error_cursor s Hc) as [b E]. rewrite E. auto.
Qed.

Lemma byte_at s b i : okbuf s -> nth_error (buffer s) i = Some b -> byte_ok b.
Proof. intros [_ HB] E. eapply Forall_forall; [exact HB|]. eapply nth_error_In; eauto. Qed.

Lemma step_adv s n : okbuf s -> (cursor s + n <= buffer_len s)%nat -> step s (set_cursor (cursor s + n) s).
Proof. intros Hs Hn; split; simpl; auto; lia. Qed.

Lemma wp_update (Q : unit -> sbuf -> Prop) n s :
  Q tt (set_cursor (cursor s + n) s) -> wp (sml_buf_update_bytes_read (Z.of_nat n)) Q s.
Proof.
  intros HQ. unfold wp, sml_buf_update_bytes_read.
  destruct (Z.ltb_spec (Z.of_nat n) 0); [lia|]. now rewrite Nat2Z.id.
Qed.
Lemma wp_update_Z (Q : unit -> sbuf -> Prop) z s :
  0 <= z -> Q tt (set_cursor (cursor s + Z.to_nat z) s) -> wp (sml_buf_update_bytes_read z) Q s.
Proof.
  intros Hz HQ. unfold wp, sml_buf_update_bytes_read. destruct (Z.ltb_spec z 0); [lia|auto].
Qed.

(** sml_buf_get_next_type: consumes nothing. *)
Lemma wp_next_type (Q : Z -> sbuf -> Prop) s :
  ((buffer_len s <= cursor s)%nat -> Q 256 (set_err s)) ->
  (forall b, (cursor s < buffer_len s)%nat -> nth_error (buffer s) (cursor s) = Some b ->
             Q (Z.land b 112) s) ->
  wp sml_buf_get_next_type Q s.
Proof.
  intros H1 H2. unfold sml_buf_get_next_type. apply wp_bind, wp_at_end; intros Hc.
  - cbn. auto.
  - apply wp_bind. apply wp_current_byte; auto. intros b E. apply wp_ret. auto.
Qed.

Lemma step_set_err s : okbuf s -> step s (set_err s).
Proof. intros [H1 H2]; split; simpl; auto; lia. Qed.

(** A relation between the number of continuation bytes read and the value. *)
Lemma wrap32_ok z : int_ok z -> wrap32 z = z.
Proof. unfold wrap32, int_ok. intros H. rewrite Z.mod_small; lia. Qed.
Lemma wrap32_range z : int_ok (wrap32 z).
Proof. unfold wrap32, int_ok. pose proof (Z.mod_pos_bound (z + 2147483648) 4294967296). lia. Qed.

Lemma land_bound x n : 0 <= n -> 0 <= Z.land x n <= n.
Proof.
  intros Hn. split; [apply Z.land_nonneg; lia|].
  rewrite Z.land_comm. destruct (Z.eq_dec (Z.land n x) 0) as [->|Hne]; [lia|].
  assert (0 <= Z.land n x) by (apply Z.land_nonneg; lia).
  assert (Z.ldiff (Z.land n x) n = 0) as HD.
  { apply Z.bits_inj'; intros i Hi. rewrite Z.ldiff_spec, Z.land_spec, Z.bits_0.
    destruct (Z.testbit n i); simpl; auto. apply andb_false_r. }
  apply Z.ldiff_le in HD; lia.
Qed.

Lemma lor_low a b : 0 <= b < 16 -> Z.lor (a * 16) b = a * 16 + b.
Proof.
  intros Hb.
  assert (Z.land (a * 16) b = 0) as Hl.
  { change 16 with (2 ^ 4). rewrite <- Z.shiftl_mul_pow2 by lia.
    apply Z.bits_inj'; intros i Hi. rewrite Z.land_spec, Z.bits_0.
    destruct (Z.ltb_spec i 4).
    - now rewrite Z.shiftl_spec_low by lia.
    - rewrite (Z.bits_above_log2 b i); [apply andb_false_r|lia|].
      destruct (Z.eq_dec b 0) as [->|]; [simpl; lia|].
      apply Z.log2_lt_pow2; [lia|]. apply Z.lt_le_trans with (2^4); [lia|].
      apply Z.pow_le_mono_r; lia. }
  now rewrite <- Z.lxor_lor, <- Z.add_nocarry_lxor by auto.
Qed.

(** Every byte of [c0, c0+k) has the continuation bit. *)
Definition chain (b : list Z) (c0 k : nat) : Prop :=
  forall j, (c0 <= j < c0 + k)%nat -> exists x, nth_error b j = Some x /\ Z.land x 128 = 128.

Lemma chain_short b c0 k : short_chains b -> chain b c0 k -> (k <= 6)%nat.
Proof.
  intros Hs Hc. destruct (Hs c0) as [j [Hj Hx]].
  destruct (Nat.le_gt_cases k 6); auto. exfalso.
  destruct (Hc j) as [x [E1 E2]]; [lia|]. specialize (Hx _ E1). lia.
Qed.
Lemma chain_S b c0 k x : chain b c0 k -> nth_error b (c0 + k) = Some x -> Z.land x 128 = 128 ->
  chain b c0 (S k).
Proof.
  intros Hc E1 E2 j Hj. destruct (Nat.eq_dec j (c0 + k)) as [->|]; [eauto|]. apply Hc; lia.
Qed.

Lemma int_okb_true z : int_ok z -> int_okb z = true.
Proof. unfold int_ok, int_okb; intros; lia. Qed.

Definition lenb (b : list Z) (c0 k : nat) (l li : Z) : Prop :=
  short_chains b -> 0 <= l < 16 ^ Z.of_nat k /\ -1 - Z.of_nat k <= li <= 0.

Lemma lenb_ok k l : (k <= 6)%nat -> 0 <= l < 16 ^ Z.of_nat k -> int_ok (l * 16).
Proof.
  intros Hk Hl. assert (16 ^ Z.of_nat k <= 16 ^ 6) by (apply Z.pow_le_mono_r; lia).
  change (16 ^ 6) with 16777216 in *. unfold int_ok; lia.
Qed.

Lemma length_loop_safe fuel : forall s c0 k l li,
  okbuf s -> cursor s = (c0 + k)%nat -> chain (buffer s) c0 k ->
  (buffer_len s - cursor s < fuel)%nat -> lenb (buffer s) c0 k l li ->
  wp (get_next_length_loop fuel l li)
     (fun r s' => step s s' /\ error s' = error s /\
        ((cursor s' < buffer_len s')%nat -> exists k', lenb (buffer s) c0 (S k') (fst r) (snd r) /\
           (k' <= 6 \/ ~ short_chains (buffer s))%nat)) s.
Proof.
  induction fuel as [|fuel IH]; intros s c0 k l li Hs Hc Hch Hf Hb; [lia|].
  cbn [get_next_length_loop]. apply wp_bind, wp_at_end; intros Hend.
  - apply wp_ret. repeat split; try lia; auto using step_refl. now destruct Hs.
  - apply wp_bind, wp_current_byte; auto. intros b Eb.
    apply wp_bind. unfold wp at 1, int_op.
    set (s1 := set_ovf _ s).
    assert (step s s1) as St1.
    { destruct Hs; subst s1; split; simpl; auto; try lia.
      intros HS. destruct (Hb HS) as [Hl _].
        pose proof (chain_short _ _ _ HS Hch) as Hk.
        rewrite int_okb_true by (eapply lenb_ok; eauto). now rewrite orb_false_r. }
    assert (forall HS : short_chains (buffer s),
       Z.lor (wrap32 (l * 16)) (Z.land b SML_LENGTH_FIELD) = l * 16 + Z.land b 15) as HL.
    { intros HS. destruct (Hb HS) as [Hl _]. pose proof (chain_short _ _ _ HS Hch) as Hk.
      rewrite wrap32_ok by (eapply lenb_ok; eauto).
      apply lor_low. pose proof (land_bound b 15). unfold SML_LENGTH_FIELD. lia. }
    assert (forall HS : short_chains (buffer s), 0 <= l * 16 + Z.land b 15 < 16 ^ Z.of_nat (S k)) as HB.
    { intros HS. destruct (Hb HS) as [Hl _]. pose proof (land_bound b 15).
      rewrite Nat2Z.inj_succ, Z.pow_succ_r by lia. lia. }
    destruct (negb (Z.land b SML_ANOTHER_TL =? SML_ANOTHER_TL)) eqn:Et.
    + apply wp_ret. split; [exact St1|]. split; [reflexivity|]. intros _. exists k. cbn [fst snd].
      split.
      * intros HS. rewrite HL by auto. destruct (Hb HS). split; [auto|lia].
      * destruct (Nat.le_gt_cases k 6); auto. right. intros HS.
        pose proof (chain_short _ _ _ HS Hch). lia.
    + apply wp_bind. apply (wp_update _ 1).
      set (s2 := set_cursor _ s1).
      assert (step s1 s2) as St2 by (apply step_adv; [eapply step_ok; eauto|simpl; unfold buffer_len in *; simpl; lia]).
      assert (chain (buffer s) c0 (S k)) as Hch'.
      { apply (chain_S _ _ _ b); [auto|now rewrite <- Hc|]. unfold SML_ANOTHER_TL in Et. lia. }
      pose proof (step_ok _ _ Hs (step_trans _ _ _ St1 St2)) as Hs2.
      assert (forall r s3, step s2 s3 -> cursor s3 = cursor s2 -> error s3 = error s2 ->
              lenb (buffer s) c0 (S k) (Z.lor (wrap32 (l * 16)) (Z.land b SML_LENGTH_FIELD)) r ->
              wp (get_next_length_loop fuel (Z.lor (wrap32 (l * 16)) (Z.land b SML_LENGTH_FIELD)) r)
               (fun r s' => step s s' /\ error s' = error s /\
        ((cursor s' < buffer_len s')%nat -> exists k', lenb (buffer s) c0 (S k') (fst r) (snd r) /\
           (k' <= 6 \/ ~ short_chains (buffer s))%nat)) s3) as Hrec.
      { intros r s3 St3 Ec3 Ee3 Hb3. 
        pose proof (st_buf _ _ St3) as B3. change (buffer s2) with (buffer s) in B3.
        eapply wp_mono; [apply (IH s3 c0 (S k)); auto|].
        - eapply step_ok; eauto.
        - rewrite Ec3. simpl. lia.
        - now rewrite B3.
        - rewrite Ec3. unfold buffer_len in *. rewrite B3. simpl. lia.
        - now rewrite B3.
        - intros a s' [Sa [Ea Ha]]. rewrite B3 in Ha. split; [|split].
          + eapply step_trans; [exact St1|]. eapply step_trans; [exact St2|]. eapply step_trans; eauto.
          + rewrite Ea, Ee3. reflexivity.
          + exact Ha. }
      apply wp_bind. destruct (li =? 0) eqn:El; cbn [negb].
      * apply wp_ret. apply Hrec; auto using step_refl.
        intros HS. rewrite HL by auto. destruct (Hb HS). split; auto. lia.
      * unfold wp at 1, int_op. apply Hrec; auto.
        -- destruct Hs2 as [Hs2 Hs2']. split; [reflexivity|split; [apply le_n|exact Hs2]|auto| |].
           ++ simpl; intros Ho; rewrite Ho; reflexivity.
           ++ simpl; intros HS. destruct (Hb HS) as [_ Hli].
              pose proof (chain_short _ _ _ HS Hch) as Hk.
              rewrite (int_okb_true (li + -1)) by (unfold int_ok; lia). now rewrite !orb_false_r.
        -- intros HS. rewrite HL by auto. destruct (Hb HS) as [? Hli]. split; auto.
           pose proof (chain_short _ _ _ HS Hch) as Hk.
           rewrite wrap32_ok by (unfold int_ok; lia). lia.
Qed.

Lemma next_length_safe : safe 1 sml_buf_get_next_length int_ok.
Proof.
  intros s Hs. unfold sml_buf_get_next_length. apply wp_bind, wp_at_end; intros Hend.
  - cbn. split; [now apply step_set_err|discriminate].
  - apply wp_bind, wp_current_byte; auto. intros b Eb. apply wp_bind.
    eapply wp_mono.
    { unfold with_fuel, wp. apply (length_loop_safe _ s (cursor s) 0); auto.
      - intros j Hj; lia.
      - unfold fuel_of; lia.
      - intros _. split; [simpl; lia|]. destruct (_ =? _); simpl; lia. }
    intros [l li] s1 [St [Ee Hr]]. cbn [fst snd] in *.
    pose proof (step_ok _ _ Hs St) as Hs1.
    apply wp_bind, wp_at_end; intros Hend1.
    + cbn. split; [|discriminate]. eapply step_trans; eauto using step_set_err.
    + apply wp_bind. apply (wp_update _ 1). unfold wp, int_op.
      destruct (Hr Hend1) as [k [Hb Hk]].
      assert (step s1 (set_cursor (cursor s1 + 1) s1)) as St2 by (apply step_adv; auto; lia).
      split.
      * eapply step_trans; [exact St|]. eapply step_trans; [exact St2|].
        destruct (step_ok _ _ Hs1 St2) as [H1 H2]. split; [reflexivity|split; [apply le_n|exact H1]|auto| |]; simpl in *.
        -- intros ->; reflexivity.
        -- rewrite (st_buf _ _ St). intros HS. destruct (Hb HS) as [Hl Hli].
           destruct Hk as [Hk|]; [|tauto].
           assert (16 ^ Z.of_nat (S k) <= 16 ^ 7) by (apply Z.pow_le_mono_r; lia).
           change (16 ^ 7) with 268435456 in *.
           rewrite int_okb_true by (unfold int_ok; lia). now rewrite orb_false_r.
      * intros _. simpl. split; [|apply wrap32_range]. pose proof (st_cur _ _ St). lia.
Qed.

(** *** Optional fields *)

(** The next byte marks a skipped optional field. *)
Definition hd1 (s : sbuf) : Prop := nth_error (buffer s) (cursor s) = Some 1.

Definition some {A} (Q : A -> Prop) (r : option A) : Prop := exists x, r = Some x /\ Q x.

(** An optional field: NULL iff the marker is there (or an error). *)
Definition safe_opt {A} (p : P (option A)) (Q : A -> Prop) : Prop :=
  forall s, okbuf s ->
    wp p (post 1 (fun r => (hd1 s /\ r = None) \/ (~ hd1 s /\ some Q r)) s) s.

Lemma safe_opt_safe {A} (p : P (option A)) Q : safe_opt p Q -> safe 1 p (opt Q).
Proof.
  intros Hp s Hs. eapply wp_mono; [apply Hp, Hs|]. intros r s' [St Po]. split; auto.
  intros He; destruct (Po He) as [Hc [[_ ->]|[_ [x [-> Hx]]]]]; split; simpl; auto.
Qed.

Lemma wp_optional (Q : Z -> sbuf -> Prop) s :
  ((buffer_len s <= cursor s)%nat -> Q (-1) (set_err s)) ->
  ((cursor s < buffer_len s)%nat -> hd1 s -> Q 1 (set_cursor (cursor s + 1) s)) ->
  ((cursor s < buffer_len s)%nat -> ~ hd1 s -> Q 0 s) ->
  wp sml_buf_optional_is_skipped Q s.
Proof.
  intros H1 H2 H3. unfold sml_buf_optional_is_skipped. apply wp_bind, wp_at_end; intros Hc.
  - cbn; auto.
  - apply wp_bind, wp_current_byte; auto. intros b Eb. unfold hd1 in *. rewrite Eb in *.
    unfold SML_OPTIONAL_SKIPPED. destruct (Z.eqb_spec b 1) as [->|Hne].
    + apply wp_bind, wp_at_end; intros Hc'; [lia|]. apply wp_bind. apply (wp_update _ 1).
      apply wp_ret. auto.
    + apply wp_ret. apply H3; auto. congruence.
Qed.

Lemma safe_opt_unless {A} (k : P (option A)) Q :
  (forall s, okbuf s -> (cursor s < buffer_len s)%nat -> ~ hd1 s -> wp k (post 1 (some Q) s) s) ->
  safe_opt (unless_skipped k) Q.
Proof.
  intros Hk s Hs. unfold unless_skipped. apply wp_bind, wp_optional; intros Hc.
  - cbn. split; [now apply step_set_err|discriminate].
  - intros H1. cbn. split; [apply step_adv; auto; lia|]. intros _. simpl. split; [lia|auto].
  - intros H1. cbn [Z.eqb negb]. eapply wp_mono; [apply Hk; auto|].
    intros r s' [St Po]. split; auto. intros He. destruct (Po He); auto.
Qed.

Lemma safe_unless {A} (k : P (option A)) Q :
  safe 1 k Q -> Q None -> safe 1 (unless_skipped k) Q.
Proof.
  intros Hk HN s Hs. unfold unless_skipped. apply wp_bind, wp_optional; intros Hc.
  - cbn. split; [now apply step_set_err|discriminate].
  - intros H1. cbn. split; [apply step_adv; auto; lia|]. intros _. simpl. split; [lia|auto].
  - intros H1. cbn [Z.eqb negb]. apply Hk; auto.
Qed.

Lemma safe_unless_opt {A} (k : P (option A)) Q :
  safe 1 k (some Q) -> safe_opt (unless_skipped k) Q.
Proof. intros Hk. apply safe_opt_unless. intros s Hs _ _. apply Hk; auto. Qed.

(** Composition at a given state: [p] was safe at [s], go on from there. *)
Lemma wp_safe_bind {A B} n m (p : P A) (k : A -> P B) (Q1 : A -> Prop) (Q2 : B -> Prop) s :
  okbuf s -> wp p (post n Q1 s) s ->
  (forall a s1, okbuf s1 -> step s s1 -> error s1 = false -> (cursor s + n <= cursor s1)%nat ->
     Q1 a -> wp (k a) (post m Q2 s1) s1) ->
  (forall a s1, okbuf s1 -> step s s1 -> error s1 = true -> wp (k a) (fun _ s2 => step s1 s2) s1) ->
  wp (bind p k) (post (n + m) Q2 s) s.
Proof.
  intros Hs Hp Hk Hk0. apply wp_bind. eapply wp_mono; [apply Hp|].
  intros a s1 [St1 Po1]. pose proof (step_ok _ _ Hs St1) as Hs1.
  destruct (error s1) eqn:E1.
  - eapply wp_mono; [apply Hk0; auto|]. cbn; intros b s2 St2.
    split; [eapply step_trans; eauto|]. intros He.
    apply (step_noerr _ _ St2) in He. congruence.
  - destruct (Po1 eq_refl) as [C1 HQ1].
    eapply wp_mono; [apply (Hk a s1); auto|].
    intros b s2 [St2 Po2]. split; [eapply step_trans; eauto|].
    intros He. destruct (Po2 He). split; auto; lia.
Qed.

(** The type test at the head of a parser. *)
Lemma okbuf_err s : okbuf s -> okbuf (set_err s).
Proof. auto. Qed.

Lemma post_err {A} n (Q : A -> Prop) s a s' : step s s' -> error s' = true -> post n Q s a s'.
Proof. intros; split; auto; congruence. Qed.

Lemma wp_type_check {B} n (bad : Z -> bool) (k : P (option B)) (Q : option B -> Prop) s :
  okbuf s -> bad 256 = true ->
  ((cursor s < buffer_len s)%nat -> wp k (post n Q s) s) ->
  wp (t <- sml_buf_get_next_type ;; if bad t then err_null else k) (post n Q s) s.
Proof.
  intros Hs Hb Hk. apply wp_bind, wp_next_type.
  - intros Hc. rewrite Hb. cbn. apply post_err; auto.
    apply (step_trans _ (set_err s)); apply step_set_err; auto.
  - intros b Hc Eb. destruct (bad (Z.land b 112)); [apply safe_err_null; auto|auto].
Qed.

Lemma next_length_int s : okbuf s ->
  wp sml_buf_get_next_length (fun l s' => post 1 int_ok s l s' /\ int_ok l) s.
Proof.
  intros Hs. pose proof (next_length_safe s Hs) as W. apply wp_run in W.
  destruct W as [l [s' [E Po]]]. unfold wp. rewrite E. split; auto.
  unfold sml_buf_get_next_length in E. apply bind_ret_inv in E. destruct E as [e [s1 [_ E]]].
  destruct e; [inv E; unfold int_ok; lia|].
  apply bind_ret_inv in E. destruct E as [b [s2 [_ E]]].
  apply bind_ret_inv in E. destruct E as [ll [s3 [_ E]]].
  apply bind_ret_inv in E. destruct E as [e [s4 [_ E]]].
  destruct e; [inv E; unfold int_ok; lia|].
  apply bind_ret_inv in E. destruct E as [u [s5 [_ E]]].
  inv E. apply wrap32_range.
Qed.

(** Reading a length, then [k], which copes with every length. *)
Lemma wp_length_bind {B} m (k : Z -> P B) (Q : B -> Prop) s :
  okbuf s ->
  (forall l s1, okbuf s1 -> step s s1 -> int_ok l -> wp (k l) (post m Q s1) s1) ->
  wp (bind sml_buf_get_next_length k) (post (1 + m) Q s) s.
Proof.
  intros Hs Hk. apply wp_bind. eapply wp_mono; [apply next_length_int, Hs|].
  intros l s1 [[St1 Po1] Hl]. pose proof (step_ok _ _ Hs St1) as Hs1.
  eapply wp_mono; [apply Hk; auto|]. intros b s2 [St2 Po2].
  split; [eapply step_trans; eauto|]. intros He.
  destruct (Po2 He). destruct (Po1 (step_noerr _ _ St2 He)). split; auto; lia.
Qed.

Lemma safe_expect_list {B} n m (k : P (option B)) Q :
  safe m k Q -> safe (1 + m) (expect_list n k) Q.
Proof.
  intros Hk s Hs. unfold expect_list.
  apply (wp_type_check _ (fun t => negb (t =? SML_TYPE_LIST))); auto. intros Hc.
  apply wp_length_bind; auto. intros l s1 Hs1 _ _.
  destruct (negb (l =? n)); [apply safe_err_null; auto|apply Hk; auto].
Qed.

Lemma safe_step {A} n (p : P A) Q s : safe n p Q -> okbuf s -> wp p (fun _ s' => step s s') s.
Proof. intros Hp Hs. eapply wp_mono; [apply Hp, Hs|]. intros ? ? [? ?]; auto. Qed.

Lemma wp_read_current (Q : list Z -> sbuf -> Prop) n s :
  (cursor s + n <= buffer_len s)%nat ->
  Q (firstn n (skipn (cursor s) (buffer s))) s -> wp (read_current n) Q s.
Proof.
  intros Hn HQ. unfold wp, read_current. destruct (Nat.leb_spec (cursor s + n) (buffer_len s)); auto; lia.
Qed.

Lemma read_len s n : (cursor s + n <= buffer_len s)%nat ->
  length (firstn n (skipn (cursor s) (buffer s))) = n.
Proof. unfold buffer_len; intros. rewrite firstn_length, skipn_length. lia. Qed.
Lemma read_bytes s n : okbuf s -> bytes_ok (firstn n (skipn (cursor s) (buffer s))).
Proof. intros [_ HB]. apply Forall_firstn, Forall_skipn, HB. Qed.

Lemma swap_rev l : sml_number_byte_swap l = rev l.
Proof.
  unfold sml_number_byte_swap. apply nth_ext with (d := 0) (d' := 0).
  - now rewrite map_length, seq_length, rev_length.
  - rewrite map_length, seq_length. intros i Hi.
    rewrite (nth_indep _ 0 ((fun i => nth (length l - (i + 1)) l 0) 0%nat)) by (now rewrite map_length, seq_length).
    rewrite (map_nth (fun i => nth (length l - (i + 1)) l 0)).
    rewrite seq_nth by lia. rewrite rev_nth by lia. simpl. f_equal. lia.
Qed.
Lemma bytes_ok_rev l : bytes_ok l -> bytes_ok (rev l).
Proof. apply Forall_rev. Qed.

(** *** Element loops *)

Lemma elems_loop_safe {A} (p : P A) (Q : A -> Prop) fuel : forall n,
  safe 1 p Q ->
  forall s, okbuf s -> (buffer_len s - cursor s < fuel)%nat ->
  wp (elems_loop fuel n p) (post 0 (some (Forall Q)) s) s.
Proof.
  induction fuel as [|fuel IH]; intros n Hp s Hs Hf; [lia|].
  cbn [elems_loop]. destruct (n <=? 0).
  - apply wp_ret. split; [now apply step_refl|]. intros _. split; [lia|]. eexists; split; eauto.
  - apply wp_bind. eapply wp_mono; [apply Hp, Hs|]. intros a s1 [St1 Po1].
    pose proof (step_ok _ _ Hs St1) as Hs1.
    apply wp_bind. unfold wp at 1, sml_buf_has_errors. destruct (error s1) eqn:E1.
    + apply wp_ret. apply post_err; auto.
    + destruct (Po1 eq_refl) as [C1 HQ]. apply wp_bind.
      pose proof (st_buf _ _ St1) as B1.
      eapply wp_mono; [apply IH; auto|].
      * unfold buffer_len in *. rewrite B1. pose proof (st_cur _ _ St1). unfold buffer_len in *. lia.
      * intros r s2 [St2 Po2]. apply wp_ret. split; [eapply step_trans; eauto|].
        intros He. destruct (Po2 He) as [C2 [t [-> Ht]]]. split; [lia|].
        eexists; split; [reflexivity|]. constructor; auto.
Qed.

Lemma sequence_loop_safe {A} (p : P (option A)) (Q : option A -> Prop) fuel : forall n,
  safe 1 p Q ->
  forall s, okbuf s -> (buffer_len s - cursor s < fuel)%nat ->
  wp (sequence_loop fuel n p) (post 0 (some (Forall Q)) s) s.
Proof.
  induction fuel as [|fuel IH]; intros n Hp s Hs Hf; [lia|].
  cbn [sequence_loop]. destruct (n <=? 0).
  - apply wp_ret. split; [now apply step_refl|]. intros _. split; [lia|]. eexists; split; eauto.
  - apply wp_bind. eapply wp_mono; [apply Hp, Hs|]. intros a s1 [St1 Po1].
    pose proof (step_ok _ _ Hs St1) as Hs1.
    apply wp_bind. unfold wp at 1, sml_buf_has_errors. destruct (error s1) eqn:E1.
    + apply wp_ret. apply post_err; auto.
    + destruct (Po1 eq_refl) as [C1 HQ]. apply wp_bind.
      pose proof (st_buf _ _ St1) as B1.
      eapply wp_mono; [apply IH; auto|].
      * unfold buffer_len in *. rewrite B1. pose proof (st_cur _ _ St1). unfold buffer_len in *. lia.
      * intros r s2 [St2 Po2]. apply wp_ret. split; [eapply step_trans; eauto|].
        intros He. destruct (Po2 He) as [C2 [t [-> Ht]]]. split; [lia|].
        eexists; split; [reflexivity|]. constructor; auto.
Qed.

Lemma wp_with_fuel {A} (f : nat -> P A) Q s : wp (f (fuel_of s)) Q s -> wp (with_fuel f) Q s.
Proof. auto. Qed.
Lemma fuel_of_gt s : (buffer_len s - cursor s < fuel_of s)%nat.
Proof. unfold fuel_of. lia. Qed.

Section WithHost.
Context {H : Host}.

Lemma number_opt type max : type <> 256 -> 0 <= max ->
  safe_opt (sml_number_parse type max) (wf_num (Z.to_nat max)).
Proof.
  intros Ht Hm. apply safe_opt_unless. intros s Hs Hc H1.
  apply wp_bind, wp_at_end; intros Hc'; [lia|].
  apply (wp_type_check _ (fun t => negb (t =? type))); [auto|lia|]. intros _.
  apply (wp_length_bind 0); auto. intros l s1 Hs1 St1 Hl.
  destruct ((l <? 0) || (l >? max)) eqn:El; [apply safe_err_null; auto|].
  apply wp_bind. unfold wp at 1.
  destruct (Nat.ltb_spec (buffer_len s1) (cursor s1 + Z.to_nat l)) as [Hsh|Hsh];
    [apply safe_err_null; auto|].
  apply wp_bind, wp_at_end; intros Hc1; [apply safe_err_null; auto|].
  apply wp_bind, wp_current_byte; auto. intros b Eb.
  apply wp_bind, wp_read_current; auto.
  apply wp_bind, wp_update_Z; [lia|]. apply wp_ret. split.
  - apply step_adv; auto.
  - intros _. simpl. split; [lia|]. eexists; split; [reflexivity|].
    set (np := repeat _ _ ++ _).
    assert (wf_num (Z.to_nat max) np) as Hnp.
    { split.
      - subst np. rewrite app_length, repeat_length, read_len by auto. lia.
      - apply Forall_app; split; [|now apply read_bytes].
        apply Forall_forall. intros x Hx. apply repeat_spec in Hx. subst x. unfold byte_ok.
        destruct (_ && _); lia. }
    destruct sml_number_endian; auto. rewrite swap_rev. destruct Hnp as [Hn1 Hn2].
    split; [now rewrite rev_length|now apply bytes_ok_rev].
Qed.

Lemma octet_opt : safe_opt sml_octet_string_parse wf_oct.
Proof.
  apply safe_opt_unless. intros s Hs Hc H1.
  apply (wp_type_check _ (fun t => negb (t =? SML_TYPE_OCTET_STRING))); auto. intros _.
  apply (wp_length_bind 0); auto. intros l s1 Hs1 St1 Hl.
  apply wp_bind. unfold wp at 1.
  destruct (_ || _) eqn:El; [apply safe_err_null; auto|].
  assert (cursor s1 + Z.to_nat l <= buffer_len s1)%nat as Hfit.
  { destruct Hs1 as [Hc1 _]. unfold size_sub, to_size in El. unfold int_ok in Hl.
    assert (0 <= l /\ l mod 18446744073709551616 <
            (Z.of_nat (buffer_len s1) - Z.of_nat (cursor s1)) mod 18446744073709551616) as [Hp Hlt] by lia.
    rewrite Z.mod_small in Hlt by lia.
    pose proof (Z.mod_le (Z.of_nat (buffer_len s1) - Z.of_nat (cursor s1)) 18446744073709551616).
    lia. }
  apply wp_bind, wp_read_current; auto. apply wp_bind, wp_update_Z; [lia|].
  apply wp_ret. split; [now apply step_adv|]. intros _. simpl. split; [lia|].
  eexists; split; [reflexivity|]. unfold sml_octet_string_init, wf_oct.
  destruct (Z.gtb_spec l 0).
  - rewrite firstn_firstn, Nat.min_id, read_len by auto.
    split; [now apply read_bytes|]. unfold int_ok in Hl. lia.
  - simpl. split; [constructor|lia].
Qed.

Lemma boolean_opt : safe_opt sml_boolean_parse wf_bool.
Proof.
  apply safe_opt_unless. intros s Hs Hc H1.
  apply (wp_type_check _ (fun t => negb (t =? SML_TYPE_BOOLEAN))); auto. intros _.
  apply (wp_length_bind 0); auto. intros l s1 Hs1 St1 Hl.
  destruct (negb (l =? 1)); [apply safe_err_null; auto|].
  apply wp_bind, wp_at_end; intros Hc1; [apply safe_err_null; auto|].
  apply wp_bind, wp_current_byte; auto. intros b Eb.
  apply wp_bind, (wp_update _ 1). apply wp_ret. split; [apply step_adv; auto; lia|].
  intros _. simpl. split; [lia|]. eexists; split; [reflexivity|].
  unfold wf_bool, sml_boolean_init, to_u8, SML_BOOLEAN_TRUE, SML_BOOLEAN_FALSE.
  destruct (negb (b =? 0)); [right|left]; reflexivity.
Qed.

Definition width_of (n : Z) : Z :=
  if n <=? 1 then 1 else if n <=? 2 then 2 else if n <=? 4 then 4 else if n <=? 8 then 8 else 16.

Lemma number_width_eq b s : number_width b s = Ret (width_of (Z.land b 15 - 1), s).
Proof.
  unfold number_width, SML_LENGTH_FIELD. pose proof (land_bound b 15 ltac:(lia)) as HB.
  set (n := Z.land b 15) in *. clearbody n. unfold width_of.
  assert (n = 0 \/ n = 1 \/ n = 2 \/ n = 3 \/ n = 4 \/ n = 5 \/ n = 6 \/ n = 7 \/ n = 8 \/ n = 9 \/
          n = 10 \/ n = 11 \/ n = 12 \/ n = 13 \/ n = 14 \/ n = 15) as HC by lia.
  repeat (destruct HC as [->|HC]; [reflexivity|]). subst n. reflexivity.
Qed.

Lemma width_of_cases n : width_of n = 1 \/ width_of n = 2 \/ width_of n = 4 \/ width_of n = 8 \/ width_of n = 16.
Proof.
  unfold width_of. destruct (n <=? 1), (n <=? 2), (n <=? 4), (n <=? 8); auto.
Qed.

Lemma post_bind_ret {A B} n (p : P A) (f : A -> B) (Q1 : A -> Prop) (Q2 : B -> Prop) s :
  wp p (post n Q1 s) s -> (forall a, Q1 a -> Q2 (f a)) ->
  wp (a <- p ;; ret (f a)) (post n Q2 s) s.
Proof.
  intros Hp HQ. apply wp_bind. eapply wp_mono; [apply Hp|]. intros a s1 [St Po].
  apply wp_ret. split; auto. intros He; destruct (Po He); auto.
Qed.

Lemma wp_check_errors {A} n (v : A) (Q : A -> Prop) s0 s :
  post n Q s0 v s ->
  wp (e <- sml_buf_has_errors ;; if (e : bool) then ret None else ret (Some v)) (post n (some Q) s0) s.
Proof.
  intros [St Po]. apply wp_bind. unfold wp at 1, sml_buf_has_errors. destruct (error s) eqn:E.
  - apply wp_ret. apply post_err; auto.
  - apply wp_ret. split; auto. intros He. destruct (Po eq_refl). split; auto. eexists; eauto.
Qed.

Lemma opt_at_nohd {A} (p : P (option A)) Q s : safe_opt p Q -> okbuf s -> ~ hd1 s ->
  wp p (post 1 (some Q) s) s.
Proof.
  intros Hp Hs H1. eapply wp_mono; [apply Hp, Hs|]. intros r s' [St Po]. split; auto.
  intros He. destruct (Po He) as [C [[? _]|[_ HQ]]]; tauto.
Qed.

Lemma value_opt : safe_opt sml_value_parse wf_value.
Proof.
  apply safe_opt_unless. intros s Hs Hc H1.
  apply wp_bind, wp_next_type; [lia|]. intros b _ Eb.
  apply wp_bind, wp_current_byte; auto. intros b' Eb'. assert (b' = b) as -> by congruence.
  set (type := Z.land b 112). apply wp_bind.
  eapply (wp_mono _ (post 1 wf_value s)); [|intros v s1; apply wp_check_errors].
  destruct (Z.eqb_spec type SML_TYPE_OCTET_STRING) as [->|].
  { eapply post_bind_ret; [apply (opt_at_nohd _ _ _ octet_opt); auto|].
    intros a [x [-> Hx]]. constructor; auto. }
  destruct (Z.eqb_spec type SML_TYPE_BOOLEAN) as [->|].
  { eapply post_bind_ret; [apply (opt_at_nohd _ _ _ boolean_opt); auto|].
    intros a [x [-> Hx]]. constructor; auto. }
  destruct ((type =? SML_TYPE_UNSIGNED) || (type =? SML_TYPE_INTEGER)) eqn:Et.
  - apply wp_bind. unfold wp at 1. rewrite number_width_eq.
    assert (type = 96 \/ type = 80) as HT by (unfold SML_TYPE_UNSIGNED, SML_TYPE_INTEGER in *; lia).
    pose proof (width_of_cases (Z.land b 15 - 1)) as HW.
    set (w := width_of _) in *. clearbody w.
    eapply post_bind_ret.
    { apply (opt_at_nohd _ _ _ (number_opt type w ltac:(lia) ltac:(lia))); auto. }
    intros a [m [-> Hm]]. unfold data_of_num.
    destruct HT as [-> | ->]; destruct HW as [->|[->|[->|[->| ->]]]]; cbn;
      solve [ apply (wfv_uns 1); unfold width_ok; auto
            | apply (wfv_uns 2); unfold width_ok; auto
            | apply (wfv_uns 4); unfold width_ok; auto
            | apply (wfv_uns 8); unfold width_ok; auto
            | apply (wfv_int 1); unfold width_ok; auto
            | apply (wfv_int 2); unfold width_ok; auto
            | apply (wfv_int 4); unfold width_ok; auto
            | apply (wfv_int 8); unfold width_ok; auto
            | apply wfv_uns16; auto
            | apply wfv_int16; auto ].
  - apply safe_set_error; auto.
Qed.

Lemma status_opt : safe_opt sml_status_parse wf_status.
Proof.
  apply safe_opt_unless. intros s Hs Hc H1.
  apply wp_bind, wp_next_type; [lia|]. intros b _ Eb.
  apply wp_bind, wp_current_byte; auto. intros b' Eb'. assert (b' = b) as -> by congruence.
  set (type := Z.land b 112). apply wp_bind.
  eapply (wp_mono _ (post 1 wf_status s)); [|intros v s1; apply wp_check_errors].
  destruct (Z.eqb_spec type SML_TYPE_UNSIGNED) as [->|].
  - apply wp_bind. unfold wp at 1. rewrite number_width_eq.
    pose proof (width_of_cases (Z.land b 15 - 1)) as HW.
    set (w := width_of _) in *. clearbody w.
    eapply post_bind_ret.
    { apply (opt_at_nohd _ _ _ (number_opt SML_TYPE_UNSIGNED w ltac:(discriminate) ltac:(lia))); auto. }
    intros a [m [-> Hm]].
    destruct HW as [->|[->|[->|[->| ->]]]]; cbn;
      solve [ apply (wfs_num 1); unfold width_ok; auto
            | apply (wfs_num 2); unfold width_ok; auto
            | apply (wfs_num 4); unfold width_ok; auto
            | apply (wfs_num 8); unfold width_ok; auto
            | apply wfs_16; auto ].
  - apply safe_set_error; auto.
Qed.

Lemma u8_safe : safe 1 sml_u8_parse (opt (wf_num 1)).
Proof. apply safe_opt_safe, number_opt; [discriminate|lia]. Qed.
Lemma u16_safe : safe 1 sml_u16_parse (opt (wf_num 2)).
Proof. apply safe_opt_safe, number_opt; [discriminate|lia]. Qed.
Lemma u32_safe : safe 1 sml_u32_parse (opt (wf_num 4)).
Proof. apply safe_opt_safe, number_opt; [discriminate|lia]. Qed.
Lemma u64_safe : safe 1 sml_u64_parse (opt (wf_num 8)).
Proof. apply safe_opt_safe, number_opt; [discriminate|lia]. Qed.
Lemma i8_safe : safe 1 sml_i8_parse (opt (wf_num 1)).
Proof. apply safe_opt_safe, number_opt; [discriminate|lia]. Qed.
Lemma i16_safe : safe 1 sml_i16_parse (opt (wf_num 2)).
Proof. apply safe_opt_safe, number_opt; [discriminate|lia]. Qed.
Lemma i32_safe : safe 1 sml_i32_parse (opt (wf_num 4)).
Proof. apply safe_opt_safe, number_opt; [discriminate|lia]. Qed.
Lemma i64_safe : safe 1 sml_i64_parse (opt (wf_num 8)).
Proof. apply safe_opt_safe, number_opt; [discriminate|lia]. Qed.
Lemma octet_safe : safe 1 sml_octet_string_parse (opt wf_oct).
Proof. apply safe_opt_safe, octet_opt. Qed.
Lemma boolean_safe : safe 1 sml_boolean_parse (opt wf_bool).
Proof. apply safe_opt_safe, boolean_opt. Qed.
Lemma value_safe : safe 1 sml_value_parse (opt wf_value).
Proof. apply safe_opt_safe, value_opt. Qed.
Lemma status_safe : safe 1 sml_status_parse (opt wf_status).
Proof. apply safe_opt_safe, status_opt. Qed.

Lemma time_value_safe tag : opt (wf_num 1) tag -> safe 0 (sml_time_value tag) (opt wf_time).
Proof.
  intros Ht s Hs. unfold sml_time_value. apply wp_bind, wp_next_type.
  - intros Hc. cbn. apply post_err; auto using step_set_err.
  - intros b Hc Eb. destruct (_ =? SML_TYPE_UNSIGNED).
    + eapply (safe_weaken 1 0); [|lia|intros a Ha; exact Ha|exact Hs].
      apply (safe_field 1 0 _ _ (opt (wf_num 4))); [apply u32_safe|].
      intros a Ha. apply safe_ret. split; auto.
    + destruct (_ =? SML_TYPE_LIST).
      * eapply (wp_mono _ (post 1 (opt wf_time) s));
          [|intros ? ? [St Po]; split; auto; intros He; destruct (Po He); split; auto; lia].
        apply (wp_length_bind 0); auto. intros _ s1 Hs1 _ _.
        assert (safe 0 (t1 <-? sml_u32_parse ;; t2 <-? sml_i16_parse ;; t3 <-? sml_i16_parse ;;
                  ret (Some (mkTime tag None))) (opt wf_time)) as HS; [|apply HS; auto].
        eapply (safe_weaken 3 0 _ (opt wf_time)); [|lia|auto].
        apply (safe_field 1 2 _ _ _ _ u32_safe). intros _ _.
        apply (safe_field 1 1 _ _ _ _ i16_safe). intros _ _.
        apply (safe_field 1 0 _ _ _ _ i16_safe). intros _ _.
        apply safe_ret. split; simpl; auto.
      * apply wp_ret. split; [now apply step_refl|]. intros _. split; [lia|exact I].
Qed.

Lemma field_safe1 {A B} (p : P A) (k : A -> P (option B)) Q1 Q2 n :
  safe 1 p Q1 -> (forall a, Q1 a -> safe n (k a) Q2) -> safe (S n) (field p k) Q2.
Proof. apply (safe_field 1 n). Qed.

Lemma time_safe : safe 1 sml_time_parse (opt wf_time).
Proof.
  intros s Hs. unfold sml_time_parse, unless_skipped. apply wp_bind, wp_optional; intros Hc.
  - cbn. apply post_err; auto using step_set_err.
  - intros H1. cbn. split; [apply step_adv; auto; lia|]. intros _. simpl. split; [lia|auto].
  - intros H1. cbn [Z.eqb negb]. apply wp_bind, wp_current_byte; auto. intros b Eb.
    destruct (Z.eqb_spec b (Z.lor SML_TYPE_UNSIGNED 5)) as [->|].
    + unfold sml_time_value. apply wp_bind, wp_next_type; [lia|]. intros b' _ Eb'.
      rewrite Eb in Eb'. inv Eb'. cbn [Z.land Z.lor Z.eqb].
      change (Z.land (Z.lor SML_TYPE_UNSIGNED 5) 112 =? SML_TYPE_UNSIGNED) with true.
      apply (safe_field 1 0 _ _ (opt (wf_num 4))); [apply u32_safe| |auto].
      intros a Ha. apply safe_ret. split; auto. simpl. split; [reflexivity|].
      constructor; [unfold byte_ok, SML_TIME_SEC_INDEX; lia|constructor].
    + eapply (safe_weaken 2 1); [|lia|intros a Ha; exact Ha|exact Hs].
      apply (safe_expect_list 2 1). apply (safe_field 1 0 _ _ _ _ u8_safe). apply time_value_safe.
Qed.

End WithHost.
