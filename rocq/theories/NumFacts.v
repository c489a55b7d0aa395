(** Numbers in memory and in the buffer. *)
From Verif Require Import Base Buf Number OctetString Value Lib Wf Spec Inv Reads Write TLWrite TLRound.

Lemma be_app a b : be_unsigned (a ++ b) = be_unsigned a * 256 ^ Z.of_nat (length b) + be_unsigned b.
Proof.
  unfold be_unsigned at 1. rewrite fold_left_app. fold (be_unsigned a). rewrite fold_be, <- be_le. reflexivity.
Qed.
Lemma be_range l : bytes_ok l -> 0 <= be_unsigned l < 256 ^ Z.of_nat (length l).
Proof.
  induction l as [|b l IH]; intros Hb; [cbn; lia|].
  apply Forall_cons_iff in Hb. destruct Hb as [Hb Hl]. specialize (IH Hl).
  change (b :: l) with ([b] ++ l). rewrite be_app. change (be_unsigned [b]) with b. rewrite app_length.
  cbn [length]. rewrite Nat2Z.inj_add, Z.pow_add_r by lia. change (256 ^ Z.of_nat 1) with 256.
  unfold byte_ok in Hb. nia.
Qed.
Lemma pow256 n : 2 ^ (8 * Z.of_nat n) = 256 ^ Z.of_nat n.
Proof. rewrite Z.pow_mul_r by lia. reflexivity. Qed.
Lemma be_ff n l : be_unsigned (repeat 255 n ++ l) = (256 ^ Z.of_nat n - 1) * 256 ^ Z.of_nat (length l) + be_unsigned l.
Proof.
  rewrite be_app. f_equal. f_equal. induction n; [reflexivity|].
  cbn [repeat]. change (255 :: repeat 255 n) with ([255] ++ repeat 255 n). rewrite be_app, IHn, repeat_length.
  change (be_unsigned [255]) with 255. rewrite Nat2Z.inj_succ, Z.pow_succ_r by lia. lia.
Qed.
Lemma land_128 b : byte_ok b -> negb (Z.land b 128 =? 0) = (128 <=? b).
Proof.
  intros Hb. assert (HA : forallb (fun n => Bool.eqb (negb (Z.land (Z.of_nat n) 128 =? 0)) (128 <=? Z.of_nat n)) (seq 0 256) = true)
    by (vm_compute; reflexivity).
  rewrite forallb_forall in HA. specialize (HA (Z.to_nat b)). unfold byte_ok in Hb. rewrite Z2Nat.id in HA by lia.
  apply eqb_prop, HA. apply in_seq. lia.
Qed.
(** sign extension *)
Lemma be_signed_fill n b l : bytes_ok (b :: l) ->
  be_signed (repeat (fill_byte 80 b) n ++ b :: l) = be_signed (b :: l).
Proof.
  intros Hb. pose proof Hb as Hb'. apply Forall_cons_iff in Hb'. destruct Hb' as [Bb Bl]. pose proof (be_range l Bl) as RL.
  pose proof (be_range _ Hb) as R. unfold fill_byte. change (80 =? SML_TYPE_INTEGER) with true. cbn [andb]. rewrite land_128 by auto.
  unfold be_signed. rewrite !pow256, app_length, repeat_length.
  assert (EU : be_unsigned (b :: l) = b * 256 ^ Z.of_nat (length l) + be_unsigned l) by (change (b :: l) with ([b] ++ l); now rewrite be_app).
  assert (EW : 256 ^ Z.of_nat (length (b :: l)) = 256 * 256 ^ Z.of_nat (length l)).
  { cbn [length]. rewrite Nat2Z.inj_succ, Z.pow_succ_r by lia. reflexivity. }
  assert (P0 : 0 < 256 ^ Z.of_nat (length l)) by (apply Z.pow_pos_nonneg; lia).
  assert (PN : 0 < 256 ^ Z.of_nat n) by (apply Z.pow_pos_nonneg; lia).
  rewrite Nat2Z.inj_add, Z.pow_add_r by lia.
  destruct (Z.leb_spec 128 b).
  - rewrite be_ff. rewrite EU, EW in *. set (w := 256 ^ Z.of_nat (length l)) in *. set (m := 256 ^ Z.of_nat n) in *.
    set (u := be_unsigned l) in *.
    destruct (Z.leb_spec (m * (256 * w)) (2 * ((m - 1) * (256 * w) + (b * w + u)))); [|nia].
    destruct (Z.leb_spec (256 * w) (2 * (b * w + u))); nia.
  - rewrite be_zeros. rewrite EU, EW in *. set (w := 256 ^ Z.of_nat (length l)) in *. set (m := 256 ^ Z.of_nat n) in *.
    set (u := be_unsigned l) in *. assert (2 * (b * w + u) < 256 * w) by nia.
    destruct (Z.leb_spec (m * (256 * w)) (2 * (b * w + u))); [nia|].
    destruct (Z.leb_spec (256 * w) (2 * (b * w + u))); [nia|reflexivity].
Qed.

Section WithHost.
Context {H : Host}.
Lemma host_length l : length (host_order l) = length l.
Proof. unfold host_order. destruct sml_number_endian; auto. now rewrite swap_rev, rev_length. Qed.
Lemma host_ok l : bytes_ok l -> bytes_ok (host_order l).
Proof. unfold host_order. destruct sml_number_endian; auto. rewrite swap_rev. apply Forall_rev. Qed.
Lemma mem_i_host l : mem_i (host_order l) = be_signed l.
Proof.
  unfold mem_i, be_signed. rewrite host_length, mem_u_host. set (u := be_unsigned l). rewrite pow256.
  destruct l as [|b l]; [reflexivity|]. cbn [length]. rewrite Nat2Z.inj_succ, Z.pow_succ_r by lia.
  set (w := 256 ^ Z.of_nat (length l)). destruct (Z.ltb_spec 0 (Z.succ (Z.of_nat (length l)))); [|lia]. cbn [andb].
  replace (256 * w / 2) with (128 * w) by (apply Z.div_unique with 0; lia).
  destruct (Z.leb_spec (128 * w) u), (Z.leb_spec (256 * w) (2 * u)); lia.
Qed.
Lemma host_twice l : host_order (host_order l) = l.
Proof. unfold host_order. destruct sml_number_endian; auto. now rewrite !swap_rev, rev_involutive. Qed.

(** *** created numbers *)
Lemma le_length n : forall z, length (le_bytes n z) = n.
Proof. induction n; intros z; cbn [le_bytes length]; auto. Qed.
Lemma le_ok n : forall z, bytes_ok (le_bytes n z).
Proof.
  induction n as [|n IH]; intros z; cbn [le_bytes]; constructor; [|apply IH]. unfold byte_ok. apply Z.mod_pos_bound. lia.
Qed.
Lemma le_firstn n : forall k z, (n <= k)%nat -> firstn n (le_bytes k z) = le_bytes n z.
Proof. induction n; intros [|k] z Hk; try reflexivity; try lia. cbn [le_bytes firstn]. rewrite IHn by lia. reflexivity. Qed.
Lemma le_value_bytes n : forall z, Base.le_value (le_bytes n z) = z mod 256 ^ Z.of_nat n.
Proof.
  induction n as [|n IH]; intros z; cbn [le_bytes Base.le_value]; [change (256 ^ Z.of_nat 0) with 1; now rewrite Z.mod_1_r|].
  rewrite IH, Nat2Z.inj_succ, Z.pow_succ_r by lia. rewrite Z.rem_mul_r; [reflexivity|lia|].
  apply Z.pow_pos_nonneg; lia.
Qed.
Definition big_endian (n : nat) (v : Z) : list Z := rev (le_bytes n v).
Lemma big_length n v : length (big_endian n v) = n.
Proof. unfold big_endian. now rewrite rev_length, le_length. Qed.
Lemma big_ok n v : bytes_ok (big_endian n v).
Proof. apply Forall_rev, le_ok. Qed.
Lemma big_value n v : be_unsigned (big_endian n v) = v mod 256 ^ Z.of_nat n.
Proof. unfold big_endian. rewrite be_le, rev_involutive. apply le_value_bytes. Qed.
Lemma init_host n v : (n <= 8)%nat -> sml_number_init v n = host_order (big_endian n v).
Proof.
  intros Hn. unfold sml_number_init, host_order, mem_of, big_endian, sml_number_endian. destruct host_endian.
  - pose proof (le_length 8 v) as L8.
    rewrite skipn_rev, L8. replace (8 - (8 - n))%nat with n by lia. rewrite le_firstn by lia.
    rewrite firstn_all2; auto. rewrite rev_length, le_length. lia.
  - rewrite swap_rev, rev_involutive. now apply le_firstn.
Qed.
Lemma init_u n v : (n <= 8)%nat -> mem_u (sml_number_init v n) = v mod 256 ^ Z.of_nat n.
Proof. intros. rewrite init_host, mem_u_host by auto. apply big_value. Qed.
Lemma signed_mod n v : (1 <= n)%nat -> - 256 ^ Z.of_nat n <= 2 * v < 256 ^ Z.of_nat n ->
  be_signed (big_endian n v) = v.
Proof.
  intros Hn Hv. unfold be_signed. rewrite big_length, pow256, big_value. set (w := 256 ^ Z.of_nat n) in *.
  destruct (Z.le_gt_cases 0 v).
  - rewrite Z.mod_small by lia. destruct (Z.leb_spec w (2 * v)); lia.
  - replace (v mod w) with (v + w); [destruct (Z.leb_spec w (2 * (v + w))); lia|].
    apply Z.mod_unique with (-1); lia.
Qed.
Lemma init_i n v : (1 <= n <= 8)%nat -> - 256 ^ Z.of_nat n <= 2 * v < 256 ^ Z.of_nat n ->
  mem_i (sml_number_init v n) = v.
Proof. intros. rewrite init_host, mem_i_host by lia. apply signed_mod; auto; lia. Qed.
Lemma init_length n v : (n <= 8)%nat -> length (sml_number_init v n) = n.
Proof. intros. rewrite init_host, host_length by auto. apply big_length. Qed.

(** *** writing numbers *)
Lemma writes_number any type m : (type = 80 \/ type = 96) -> bytes_ok m -> (length m <= 14)%nat ->
  writes any (sml_number_write (Some m) type (Z.of_nat (length m)))
    ([type + 1 + Z.of_nat (length m)] ++ host_order m).
Proof.
  intros Ht Hm Hl. unfold sml_number_write, write_opt.
  assert (HT : In type tl_types) by (unfold tl_types; cbn [In]; destruct Ht as [->| ->]; tauto).
  assert (EC : count type (Z.of_nat (length m)) = Z.of_nat (length m) + 1) by (destruct Ht as [->| ->]; reflexivity).
  apply writes_seq.
  - replace [type + 1 + Z.of_nat (length m)] with (tl_text type (Z.of_nat (length m))).
    + apply writes_tl; auto; lia.
    + rewrite text_one by (auto; lia). f_equal. lia.
  - apply writes_bind_ret with tt.
    { intros s. rewrite Nat2Z.id. now rewrite Nat.ltb_irrefl. }
    rewrite Nat2Z.id, firstn_all.
    change (match sml_number_endian with BigEndian => m | LittleEndian => sml_number_byte_swap m end) with (host_order m).
    replace (Z.of_nat (length m)) with (Z.of_nat (length (host_order m))) by now rewrite host_length.
    apply writes_data. now apply host_ok.
Qed.
End WithHost.
