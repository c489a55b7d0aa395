(** What the writers do to the buffer. *)
From Verif Require Import Base Buf Number OctetString Lib Wf Spec.

(** [writes any w bs]: at the cursor, [w] replaces as many bytes as [bs] has and
    moves the cursor behind them; the new bytes are [bs] if the replaced memory
    was zero, and with [any] whatever it was; if there is not enough room, it
    writes outside the buffer. *)
Definition writes (any : bool) (w : P unit) (bs : list Z) : Prop := forall pre old post e o,
  bytes_ok (pre ++ old ++ post) ->
  (length old = length bs -> exists out o',
     w (mkBuf (pre ++ old ++ post) (length pre) e o) =
       Ret (tt, mkBuf (pre ++ out ++ post) (length pre + length bs) e o') /\
     length out = length bs /\ bytes_ok out /\ (any = true \/ old = repeat 0 (length bs) -> out = bs)) /\
  ((length (old ++ post) < length bs)%nat ->
     w (mkBuf (pre ++ old ++ post) (length pre) e o) = Fault OobWrite).

Lemma writes_ret any : writes any (ret tt) [].
Proof.
  intros pre old post e o Hb. split; intros Hl; [|cbn in Hl; lia].
  destruct old; [|discriminate]. exists [], o. cbn [length]. rewrite Nat.add_0_r. repeat split; auto. constructor.
Qed.

Lemma split_at {A} (l : list A) a b : length l = (a + b)%nat -> exists x y, l = x ++ y /\ length x = a /\ length y = b.
Proof.
  intros Hl. exists (firstn a l), (skipn a l). rewrite firstn_skipn, firstn_length, skipn_length. split; auto. lia.
Qed.
Lemma repeat_add {A} (x : A) a b : repeat x (a + b) = repeat x a ++ repeat x b.
Proof. apply repeat_app. Qed.
Lemma app_eq_len {A} (a b c d : list A) : a ++ b = c ++ d -> length a = length c -> a = c /\ b = d.
Proof. intros E Hl. revert c E Hl. induction a; destruct c; cbn; intros E Hl; try discriminate; auto.
  injection E as -> E. destruct (IHa c E) as [-> ->]; auto. Qed.

Lemma writes_seq any w1 w2 b1 b2 : writes any w1 b1 -> writes any w2 b2 -> writes any (w1 ;;; w2) (b1 ++ b2).
Proof.
  intros H1 H2 pre old post e o Hb. rewrite app_length. split.
  - intros Hl. destruct (split_at old (length b1) (length b2) Hl) as (x & y & -> & Lx & Ly).
    rewrite <- app_assoc in *.
    destruct (proj1 (H1 pre x (y ++ post) e o Hb) Lx) as (o1 & v1 & E1 & L1 & B1 & Z1).
    unfold bind. rewrite E1.
    assert (Hb2 : bytes_ok ((pre ++ o1) ++ y ++ post)).
    { unfold bytes_ok in *. rewrite !Forall_app in *. tauto. }
    destruct (proj1 (H2 (pre ++ o1) y post e v1 Hb2) Ly) as (o2 & v2 & E2 & L2 & B2 & Z2).
    rewrite <- app_assoc in E2. rewrite app_length, L1 in E2. rewrite E2.
    exists (o1 ++ o2), v2. rewrite <- !app_assoc, Nat.add_assoc, app_length. repeat split; auto; try lia.
    + now apply Forall_app.
    + intros [E|E]; [rewrite Z1, Z2 by auto; reflexivity|].
      rewrite repeat_add in E. apply app_eq_len in E; [|now rewrite repeat_length].
      destruct E as [Ea Eb]. now rewrite Z1, Z2 by auto.
  - intros Hl. destruct (Nat.lt_ge_cases (length (old ++ post)) (length b1)) as [Hlt|Hge].
    + unfold bind. now rewrite (proj2 (H1 pre old post e o Hb) Hlt).
    + destruct (split_at (old ++ post) (length b1) (length (old ++ post) - length b1)) as (x & y & E & Lx & Ly); [lia|].
      rewrite E in *. destruct (proj1 (H1 pre x y e o Hb) Lx) as (o1 & v1 & E1 & L1 & B1 & _).
      unfold bind. rewrite E1.
      assert (Hb2 : bytes_ok ((pre ++ o1) ++ y ++ [])).
      { unfold bytes_ok in *. rewrite !Forall_app in *. repeat split; try tauto. constructor. }
      pose proof (proj2 (H2 (pre ++ o1) y [] e v1 Hb2)) as HF. rewrite !app_nil_r in HF.
      rewrite <- app_assoc, app_length, L1 in HF. apply HF. lia.
Qed.
Lemma writes_ext any w w' bs : (forall s, w s = w' s) -> writes any w bs -> writes any w' bs.
Proof. intros E Hw pre old post e o Hb. rewrite <- E. now apply Hw. Qed.
Lemma writes_bind_ret any {A} (p : P A) (k : A -> P unit) v bs : (forall s, p s = Ret (v, s)) -> writes any (k v) bs -> writes any (bind p k) bs.
Proof. intros E. apply writes_ext. intros s. unfold bind. now rewrite E. Qed.

(** *** single actions *)
Lemma byte_u8 b : byte_ok b -> to_u8 b = b.
Proof. unfold byte_ok, to_u8. intros. now apply Z.mod_small. Qed.

Lemma writes_byte any b : byte_ok b -> writes any (store_current b ;;; inc_cursor) [b].
Proof.
  intros Hb pre old post e o Ho. split; intros Hl.
  - destruct old as [|x [|]]; try discriminate. exists [b], o. unfold bind, store_current, buffer_len. cbn [buffer cursor].
    replace (length pre <? length (pre ++ [x] ++ post))%nat with true
      by (symmetry; apply Nat.ltb_lt; rewrite !app_length; cbn; lia).
    unfold inc_cursor, set_buffer, set_cursor. cbn [buffer cursor error ovf length]. cbn [app]. rewrite upd_at, byte_u8 by auto.
    rewrite Nat.add_1_r. split; auto. split; auto. split; auto. constructor; auto.
  - cbn [length] in Hl. unfold bind, store_current, buffer_len. cbn [buffer cursor].
    replace (length pre <? length (pre ++ old ++ post))%nat with false; [reflexivity|].
    symmetry. apply Nat.ltb_ge. rewrite !app_length in *. lia.
Qed.

Lemma writes_data any bs : bytes_ok bs -> writes any (write_current bs ;;; sml_buf_update_bytes_read (Z.of_nat (length bs))) bs.
Proof.
  intros Hb pre old post e o Ho. unfold bind, write_current, buffer_len. cbn [buffer cursor]. rewrite !app_length. split; intros Hl.
  - replace (length pre + length bs <=? length pre + (length old + length post))%nat with true
      by (symmetry; apply Nat.leb_le; lia).
    rewrite upds_at by auto. unfold sml_buf_update_bytes_read.
    destruct (Z.ltb_spec (Z.of_nat (length bs)) 0); [lia|]. rewrite Nat2Z.id.
    exists bs, o. unfold set_buffer, set_cursor. cbn [buffer cursor error ovf]. auto.
  - replace (length pre + length bs <=? length pre + (length old + length post))%nat with false; [reflexivity|].
    symmetry. apply Nat.leb_gt. lia.
Qed.

Lemma writes_skipped any : writes any sml_buf_optional_write [1].
Proof. apply writes_byte. unfold byte_ok. change SML_OPTIONAL_SKIPPED with 1. lia. Qed.

(** *** OR-ing bytes *)
Fixpoint zipor (a b : list Z) : list Z :=
  match a, b with x :: a', y :: b' => Z.lor x y :: zipor a' b' | _, _ => [] end.
Lemma zipor_length a : forall b, length a = length b -> length (zipor a b) = length b.
Proof. induction a; destruct b; cbn; intros; try discriminate; auto. Qed.
Lemma lor_byte a b : byte_ok a -> byte_ok b -> byte_ok (Z.lor a b).
Proof.
  unfold byte_ok. intros Ha Hb. split; [apply Z.lor_nonneg; lia|].
  destruct (Z.eq_dec (Z.lor a b) 0) as [->|]; [lia|].
  assert (0 <= Z.lor a b) by (apply Z.lor_nonneg; lia).
  change 256 with (2 ^ 8). apply Z.log2_lt_pow2; [lia|]. rewrite Z.log2_lor by lia.
  assert (HL : forall z, 0 <= z < 256 -> Z.log2 z < 8).
  { intros z Hz. destruct (Z.eq_dec z 0) as [->|]; [reflexivity|]. apply Z.log2_lt_pow2; lia. }
  pose proof (HL a Ha). pose proof (HL b Hb). lia.
Qed.
Lemma zipor_ok a : forall b, bytes_ok a -> bytes_ok b -> bytes_ok (zipor a b).
Proof. induction a; destruct b; cbn; intros Ha Hb; try constructor; inv Ha; inv Hb; auto using lor_byte. apply IHa; auto. Qed.
Lemma zipor_zero b : zipor (repeat 0 (length b)) b = b.
Proof. induction b; cbn [length repeat zipor]; auto. now rewrite Z.lor_0_l, IHb. Qed.

Definition ors (w : P unit) (vals : list Z) : Prop := forall pre old post e o,
  bytes_ok (pre ++ old ++ post) ->
  (length old = length vals ->
     w (mkBuf (pre ++ old ++ post) (length pre) e o) =
       Ret (tt, mkBuf (pre ++ zipor old vals ++ post) (length pre + length vals) e o)) /\
  ((length (old ++ post) < length vals)%nat ->
     w (mkBuf (pre ++ old ++ post) (length pre) e o) = Fault OobWrite).

Lemma zipor_app a b c d : length a = length c -> zipor (a ++ b) (c ++ d) = zipor a c ++ zipor b d.
Proof. revert c. induction a; destruct c; cbn; intros; try discriminate; auto. now rewrite IHa by lia. Qed.

Lemma ors_ret : ors (ret tt) [].
Proof.
  intros pre old post e o Hb. split; intros Hl; [|cbn in Hl; lia]. destruct old; [|discriminate].
  cbn [length zipor app]. now rewrite Nat.add_0_r.
Qed.
Lemma ors_ext w w' vals : (forall s, w s = w' s) -> ors w vals -> ors w' vals.
Proof. intros E Hw pre old post e o Hb. rewrite <- E. now apply Hw. Qed.
Lemma ors_seq w1 w2 b1 b2 : bytes_ok b1 -> ors w1 b1 -> ors w2 b2 -> ors (w1 ;;; w2) (b1 ++ b2).
Proof.
  intros Hv H1 H2 pre old post e o Hb. rewrite app_length. split.
  - intros Hl. destruct (split_at old (length b1) (length b2) Hl) as (x & y & -> & Lx & Ly).
    rewrite <- app_assoc in *. unfold bind. rewrite (proj1 (H1 pre x (y ++ post) e o Hb) Lx).
    assert (Hb2 : bytes_ok ((pre ++ zipor x b1) ++ y ++ post)).
    { unfold bytes_ok in *. rewrite !Forall_app in *. repeat split; try tauto. apply zipor_ok; tauto. }
    pose proof (proj1 (H2 (pre ++ zipor x b1) y post e o Hb2) Ly) as E2.
    rewrite <- app_assoc in E2. rewrite app_length, zipor_length in E2 by auto. rewrite E2.
    rewrite zipor_app by auto. now rewrite <- !app_assoc, Nat.add_assoc.
  - intros Hl. destruct (Nat.lt_ge_cases (length (old ++ post)) (length b1)) as [Hlt|Hge].
    + unfold bind. now rewrite (proj2 (H1 pre old post e o Hb) Hlt).
    + destruct (split_at (old ++ post) (length b1) (length (old ++ post) - length b1)) as (x & y & E & Lx & Ly); [lia|].
      rewrite E in *. unfold bind. rewrite (proj1 (H1 pre x y e o Hb) Lx).
      assert (Hb2 : bytes_ok ((pre ++ zipor x b1) ++ y ++ [])).
      { unfold bytes_ok in *. rewrite !Forall_app in *. repeat split; try tauto; try constructor. apply zipor_ok; tauto. }
      pose proof (proj2 (H2 (pre ++ zipor x b1) y [] e o Hb2)) as HF. rewrite !app_nil_r in HF.
      rewrite <- app_assoc, app_length, zipor_length in HF by auto. apply HF. lia.
Qed.

Lemma or_one v : byte_ok v -> ors (or_current v ;;; inc_cursor) [v].
Proof.
  intros Hv pre old post e o Hb. split; intros Hl.
  - destruct old as [|x [|]]; try discriminate. unfold bind, or_current. cbn [buffer cursor app].
    rewrite nth_error_app2, Nat.sub_diag by lia. cbn [nth_error].
    unfold inc_cursor, set_buffer, set_cursor. cbn [buffer cursor error ovf length zipor app].
    unfold bytes_ok in Hb. rewrite !Forall_app in Hb. destruct Hb as (_ & Hx & _). inv Hx.
    rewrite upd_at, byte_u8 by (apply lor_byte; auto). rewrite Nat.add_1_r. reflexivity.
  - cbn [length] in Hl. unfold bind, or_current. cbn [buffer cursor].
    rewrite (proj2 (nth_error_None _ _)); auto. rewrite !app_length in *. lia.
Qed.
Lemma or_two v1 v2 : byte_ok v1 -> byte_ok v2 ->
  ors (or_current v1 ;;; or_current v2 ;;; inc_cursor) [Z.lor v1 v2].
Proof.
  intros H1 H2 pre old post e o Hb. split; intros Hl.
  - destruct old as [|x [|]]; try discriminate. unfold bind, or_current. cbn [buffer cursor app].
    rewrite nth_error_app2, Nat.sub_diag by lia. cbn [nth_error].
    unfold bytes_ok in Hb. rewrite !Forall_app in Hb. destruct Hb as (_ & Hx & _). inv Hx.
    unfold inc_cursor, set_buffer, set_cursor. cbn [buffer cursor error ovf length zipor app].
    rewrite upd_at, byte_u8 by (apply lor_byte; auto).
    rewrite nth_error_app2, Nat.sub_diag by lia. cbn [nth_error].
    rewrite upd_at, byte_u8 by (repeat apply lor_byte; auto). rewrite Nat.add_1_r, Z.lor_assoc. reflexivity.
  - cbn [length] in Hl. unfold bind, or_current. cbn [buffer cursor].
    rewrite (proj2 (nth_error_None _ _)); auto. rewrite !app_length in *. lia.
Qed.
