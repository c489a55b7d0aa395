(** Forward reading: what the parsers return when a given encoding stands at
    the cursor. *)
From Verif Require Import Base Buf Crc16 Number OctetString Boolean Value Time SList Tree Bodies
  Message File Lib Wf Safe Safe2 Safe3 Ctx Ctx2 Ctx3 Scan Spec TL Inv.

(** [p] reads [bs] as [v], in every context in which something follows. *)
Definition reads {A} (p : P A) (bs : list Z) (v : A) : Prop :=
  forall s t, rest s = bs ++ t -> t <> [] -> error s = false -> small s ->
    p s = Ret (v, at_ s (length bs) false).

Lemma at_small s n o : small s -> small (at_ s n o). Proof. auto. Qed.
Lemma at_error s n o : error (at_ s n o) = error s. Proof. reflexivity. Qed.
Lemma at_app s bs t o : rest s = bs ++ t -> rest (at_ s (length bs) o) = t.
Proof. intros R. rewrite at_rest, R, skipn_app, skipn_all, Nat.sub_diag. reflexivity. Qed.
Lemma app_nonnil {A} (a b : list A) : b <> [] -> a ++ b <> [].
Proof. destruct a; cbn; congruence. Qed.

Lemma skip_fwd s t : rest s = 1 :: t -> sml_buf_optional_is_skipped s = Ret (1, at_ s 1 false).
Proof.
  intros R. unfold sml_buf_optional_is_skipped. unfold bind at 1. rewrite (at_end_cons _ _ _ R).
  unfold bind at 1. rewrite (current_cons _ _ _ R). change (1 =? SML_OPTIONAL_SKIPPED) with true. cbv iota.
  unfold bind at 1. rewrite (at_end_cons _ _ _ R). unfold bind at 1. rewrite (update_eq 1).
  unfold at_, set_ovf, ret. destruct s; cbn. now rewrite orb_false_r.
Qed.
Lemma noskip_fwd s b t : rest s = b :: t -> b <> 1 -> sml_buf_optional_is_skipped s = Ret (0, s).
Proof.
  intros R Hb. unfold sml_buf_optional_is_skipped. unfold bind at 1. rewrite (at_end_cons _ _ _ R).
  unfold bind at 1. rewrite (current_cons _ _ _ R). change SML_OPTIONAL_SKIPPED with 1.
  destruct (Z.eqb_spec b 1); [contradiction|]. reflexivity.
Qed.
Lemma unless_skip {A} (k : P (option A)) s t : rest s = 1 :: t ->
  unless_skipped k s = Ret (None, at_ s 1 false).
Proof. intros R. unfold unless_skipped, bind. now rewrite (skip_fwd _ _ R). Qed.
Lemma unless_noskip {A} (k : P (option A)) s b t : rest s = b :: t -> b <> 1 -> unless_skipped k s = k s.
Proof. intros R Hb. unfold unless_skipped, bind. now rewrite (noskip_fwd _ _ _ R Hb). Qed.
Lemma unless_reads_none {A} (k : P (option A)) : reads (unless_skipped k) [1] None.
Proof. intros s t R _ _ _. cbn in R. apply (unless_skip _ _ _ R). Qed.
Lemma unless_reads {A} (k : P (option A)) bs v : hd 1 bs <> 1 -> reads k bs v -> reads (unless_skipped k) bs v.
Proof.
  intros Hh Hk s t R Ht He Sm. destruct bs as [|b bs]; [now cbn in Hh|].
  rewrite (unless_noskip _ _ b (bs ++ t)); auto. now apply (Hk s t).
Qed.

Section WithHost.
Context {H : Host}.

Lemma tl_hd bs : tl_field bs -> exists b l, bs = b :: l.
Proof. intros (i & l & -> & _). destruct i; cbn; eauto. Qed.
Lemma tl_type_1 bs : tl_field bs -> tl_type bs <> 0 -> hd 0 bs <> 1.
Proof. intros Hb Ht. destruct (tl_hd _ Hb) as (b & l & ->). cbn in *. intros ->. now apply Ht. Qed.

Lemma number_fwd type max s tl data t : small s -> rest s = tl ++ data ++ t -> data ++ t <> [] ->
  tl_field tl -> hd 0 tl <> 1 -> tl_type tl = type -> tl_nibbles tl < 2147483648 ->
  tl_length tl = Z.of_nat (length data) -> Z.of_nat (length data) <= max ->
  sml_number_parse type max s =
  Ret (Some (host_order (repeat (fill_byte type (hd 0 (data ++ t))) (Z.to_nat max - length data) ++ data)),
       at_ s (length tl + length data) false).
Proof.
  intros Sm R Hn Hb Hh Ht Hnib Hl Hm. destruct (tl_hd _ Hb) as (b & l & El).
  assert (R0 : rest s = b :: l ++ data ++ t) by (rewrite R, El; reflexivity).
  unfold sml_number_parse. rewrite (unless_noskip _ _ _ _ R0) by (rewrite El in Hh; exact Hh).
  unfold bind at 1. rewrite (at_end_cons _ _ _ R0). unfold bind at 1. rewrite (next_type_eq _ _ _ R0).
  replace (b / 16 mod 8 * 16) with type by (rewrite <- Ht, El; reflexivity).
  rewrite Z.eqb_refl. cbn [negb].
  destruct (next_length_closed s tl (data ++ t) Sm R Hb) as (l0 & E0 & EV). specialize (EV Hnib). subst l0.
  unfold bind at 1. rewrite E0, Hl. unfold big. destruct (Z.leb_spec 2147483648 (tl_nibbles tl)); [lia|].
  destruct (Z.ltb_spec (Z.of_nat (length data)) 0); [lia|].
  destruct (Z.gtb_spec (Z.of_nat (length data)) max); [lia|]. cbn [orb].
  set (s1 := at_ s (length tl) false). assert (R1 : rest s1 = data ++ t) by now apply at_app.
  pose proof (rest_length s1) as RL. rewrite R1, app_length in RL.
  rewrite Nat2Z.id. unfold bind at 1.
  assert (Hpos : (length (data ++ t) > 0)%nat) by (destruct (data ++ t); cbn; [congruence|lia]).
  rewrite app_length in Hpos.
  replace (buffer_len s1 <? cursor s1 + length data)%nat with false by (symmetry; apply Nat.ltb_ge; lia).
  destruct (data ++ t) as [|b0 u] eqn:Ed; [congruence|]. rewrite <- Ed in R1.
  assert (R1' : rest s1 = b0 :: u) by congruence.
  unfold bind at 1. rewrite (at_end_cons _ _ _ R1'). unfold bind at 1. rewrite (current_cons _ _ _ R1').
  unfold bind at 1. unfold read_current.
  replace (cursor s1 + length data <=? buffer_len s1)%nat with true by (symmetry; apply Nat.leb_le; lia).
  fold (rest s1). rewrite R1. rewrite firstn_app, firstn_all, Nat.sub_diag, firstn_O, app_nil_r.
  unfold bind at 1. rewrite update_eq.
  unfold ret. cbn [hd]. replace (Z.to_nat (max - Z.of_nat (length data))) with (Z.to_nat max - length data)%nat by lia.
  f_equal. f_equal. unfold s1, at_, set_ovf, set_cursor. cbn. rewrite Nat.add_assoc, !orb_false_r. reflexivity.
Qed.

Lemma octet_fwd s tl data t : small s -> rest s = tl ++ data ++ t -> t <> [] ->
  tl_field tl -> hd 0 tl <> 1 -> tl_type tl = 0 -> tl_nibbles tl < 2147483648 ->
  tl_length tl = Z.of_nat (length data) ->
  sml_octet_string_parse s = Ret (Some data, at_ s (length tl + length data) false).
Proof.
  intros Sm R Hn Hb Hh Ht Hnib Hl. destruct (tl_hd _ Hb) as (b & l & El).
  assert (R0 : rest s = b :: l ++ data ++ t) by (rewrite R, El; reflexivity).
  unfold sml_octet_string_parse. rewrite (unless_noskip _ _ _ _ R0) by (rewrite El in Hh; exact Hh).
  unfold bind at 1. rewrite (next_type_eq _ _ _ R0).
  replace (b / 16 mod 8 * 16) with 0 by (rewrite <- Ht, El; reflexivity). change (0 =? SML_TYPE_OCTET_STRING) with true.
  cbn [negb].
  destruct (next_length_closed s tl (data ++ t) Sm R Hb) as (l0 & E0 & EV). specialize (EV Hnib). subst l0.
  unfold bind at 1. rewrite E0, Hl. unfold big. destruct (Z.leb_spec 2147483648 (tl_nibbles tl)); [lia|].
  set (s1 := at_ s (length tl) false). assert (R1 : rest s1 = data ++ t) by now apply at_app.
  pose proof (rest_length s1) as RL. rewrite R1, app_length in RL.
  assert (Hpos : (length t > 0)%nat) by (destruct t; cbn; [congruence|lia]).
  assert (Sm1 : Z.of_nat (buffer_len s1) < 2147483648) by exact Sm.
  unfold bind at 1. destruct (Z.ltb_spec (Z.of_nat (length data)) 0); [lia|]. cbn [orb].
  rewrite size_sub_ok by lia. unfold to_size. rewrite Z.mod_small by lia.
  destruct (Z.leb_spec (Z.of_nat (buffer_len s1) - Z.of_nat (cursor s1)) (Z.of_nat (length data))); [lia|].
  rewrite Nat2Z.id. unfold bind at 1. unfold read_current.
  replace (cursor s1 + length data <=? buffer_len s1)%nat with true by (symmetry; apply Nat.leb_le; lia).
  fold (rest s1). rewrite R1. rewrite firstn_app, firstn_all, Nat.sub_diag, firstn_O, app_nil_r.
  unfold bind at 1. rewrite update_eq. unfold ret. f_equal. f_equal.
  - unfold sml_octet_string_init. destruct (Z.gtb_spec (Z.of_nat (length data)) 0).
    + now rewrite Nat2Z.id, firstn_all.
    + destruct data; auto. cbn in *. lia.
  - unfold s1, at_, set_ovf, set_cursor. cbn. rewrite Nat.add_assoc, !orb_false_r. reflexivity.
Qed.

(** the same at the very end of the buffer *)
Lemma octet_end s tl data : small s -> rest s = tl ++ data ->
  tl_field tl -> hd 0 tl <> 1 -> tl_type tl = 0 -> tl_nibbles tl < 2147483648 ->
  tl_length tl = Z.of_nat (length data) ->
  exists s', sml_octet_string_parse s = Ret (None, s') /\ error s' = true.
Proof.
  intros Sm R Hb Hh Ht Hnib Hl. destruct (tl_hd _ Hb) as (b & l & El).
  assert (R0 : rest s = b :: l ++ data) by (rewrite R, El; reflexivity).
  unfold sml_octet_string_parse. rewrite (unless_noskip _ _ _ _ R0) by (rewrite El in Hh; exact Hh).
  unfold bind at 1. rewrite (next_type_eq _ _ _ R0).
  replace (b / 16 mod 8 * 16) with 0 by (rewrite <- Ht, El; reflexivity). change (0 =? SML_TYPE_OCTET_STRING) with true.
  cbn [negb].
  destruct (next_length_closed s tl data Sm R Hb) as (l0 & E0 & EV). specialize (EV Hnib). subst l0.
  unfold bind at 1. rewrite E0, Hl. unfold big. destruct (Z.leb_spec 2147483648 (tl_nibbles tl)); [lia|].
  set (s1 := at_ s (length tl) false). assert (R1 : rest s1 = data) by now apply at_app.
  pose proof (rest_length s1) as RL. rewrite R1 in RL.
  assert (Sm1 : Z.of_nat (buffer_len s1) < 2147483648) by exact Sm.
  assert (Hc : (cursor s1 <= buffer_len s1)%nat).
  { pose proof (rest_length s) as RLs. rewrite R, app_length in RLs. unfold s1. cbn [cursor at_ set_ovf set_cursor].
    unfold buffer_len in *. cbn [buffer at_ set_ovf set_cursor]. destruct (tl_hd _ Hb) as (? & ? & ->). cbn [length] in *. lia. }
  unfold bind at 1. destruct (Z.ltb_spec (Z.of_nat (length data)) 0); [lia|]. cbn [orb].
  rewrite size_sub_ok by lia. unfold to_size. rewrite Z.mod_small by lia.
  destruct (Z.leb_spec (Z.of_nat (buffer_len s1) - Z.of_nat (cursor s1)) (Z.of_nat (length data))); [|lia].
  eexists. split; reflexivity.
Qed.

Lemma list_header n : 0 <= n <= 15 -> tl_field [112 + n] /\ tl_type [112 + n] = 112 /\ tl_nibbles [112 + n] = n /\
  tl_length [112 + n] = n.
Proof.
  intros Hn.
  assert (HA : forallb (fun n => (tl_type [112 + Z.of_nat n] =? 112) && (tl_nibbles [112 + Z.of_nat n] =? Z.of_nat n)) (seq 0 16) = true)
    by reflexivity.
  rewrite forallb_forall in HA. specialize (HA (Z.to_nat n)). rewrite Z2Nat.id in HA by lia.
  rewrite andb_true_iff, !Z.eqb_eq in HA. destruct HA as [HA HB]; [apply in_seq; lia|].
  split; [exists [], (112 + n); repeat split; auto; lia|]. split; auto. split; auto.
  unfold tl_length. rewrite HA, HB. reflexivity.
Qed.
Lemma length_fwd s tl t : small s -> rest s = tl ++ t -> tl_field tl -> tl_nibbles tl < 2147483648 ->
  sml_buf_get_next_length s = Ret (tl_length tl, at_ s (length tl) false).
Proof.
  intros Sm R Hb Hn. destruct (next_length_closed s tl t Sm R Hb) as (l0 & E0 & EV).
  rewrite E0, (EV Hn). unfold big. destruct (Z.leb_spec 2147483648 (tl_nibbles tl)); [lia|]. reflexivity.
Qed.
Lemma type_fwd s tl t : rest s = tl ++ t -> tl_field tl -> sml_buf_get_next_type s = Ret (tl_type tl, s).
Proof. intros R Hb. destruct (tl_hd _ Hb) as (b & l & ->). now apply (next_type_eq s b (l ++ t)). Qed.

Lemma reads_expect {B} n (k : P (option B)) bs v : 0 <= n <= 15 -> reads k bs v ->
  reads (expect_list n k) ([112 + n] ++ bs) v.
Proof.
  intros Hn Hk s t R Ht He Sm. destruct (list_header n Hn) as (Hb & Hty & Hnib & Hlen).
  rewrite <- app_assoc in R. unfold expect_list. unfold bind at 1. rewrite (type_fwd _ _ _ R Hb), Hty.
  change (112 =? SML_TYPE_LIST) with true. cbn [negb]. unfold bind at 1.
  rewrite (length_fwd _ _ _ Sm R Hb) by lia. rewrite Hlen, Z.eqb_refl. cbn [negb].
  rewrite (Hk _ t) by (auto; now apply at_app). rewrite at_at. now rewrite app_length.
Qed.
Lemma reads_field {A B} (p : P A) (k : A -> P (option B)) b1 b2 v r : reads p b1 v -> b2 <> [] -> reads (k v) b2 r ->
  reads (field p k) (b1 ++ b2) r.
Proof.
  intros Hp Hb2 Hk s t R Ht He Sm. rewrite <- app_assoc in R. unfold field. unfold bind at 1.
  rewrite (Hp s (b2 ++ t)) by (auto using app_nonnil). unfold bind, sml_buf_has_errors.
  rewrite at_error, He. rewrite (Hk _ t) by (auto; now apply at_app). rewrite at_at. now rewrite app_length.
Qed.
Lemma reads_last {A B} (p : P A) (k : A -> P (option B)) bs v r : reads p bs v ->
  (forall s, error s = false -> k v s = Ret (r, s)) -> reads (field p k) bs r.
Proof.
  intros Hp Hk s t R Ht He Sm. unfold field. unfold bind at 1. rewrite (Hp s t) by auto.
  unfold bind, sml_buf_has_errors. rewrite at_error, He. now apply Hk.
Qed.
Lemma reads_bind {A B} (p : P A) (k : A -> P B) b1 b2 v r : reads p b1 v -> reads (k v) b2 r ->
  reads (bind p k) (b1 ++ b2) r.
Proof.
  intros Hp Hk s t R Ht He Sm. rewrite <- app_assoc in R. unfold bind.
  rewrite (Hp s (b2 ++ t)) by (auto using app_nonnil).
  rewrite (Hk _ t) by (auto; now apply at_app). rewrite at_at. now rewrite app_length.
Qed.
Lemma reads_ret {A} (v : A) : reads (ret v) [] v.
Proof. intros s t _ _ _ _. unfold ret. cbn [length]. now rewrite at_0. Qed.

(** canonical numbers *)
Lemma reads_number type max data : 1 <= max <= 14 -> (type = 80 \/ type = 96) ->
  (1 <= length data)%nat -> Z.of_nat (length data) <= max ->
  reads (sml_number_parse type max) ([type + 1 + Z.of_nat (length data)] ++ data)
    (Some (host_order (repeat (fill_byte type (hd 0 data)) (Z.to_nat max - length data) ++ data))).
Proof.
  intros Hm Hty Hd Hl s t R Ht He Sm. rewrite <- app_assoc in R.
  set (n := Z.of_nat (length data)) in *.
  assert (HB : tl_field [type + 1 + n] /\ tl_type [type + 1 + n] = type /\ tl_nibbles [type + 1 + n] = 1 + n).
  { assert (HA : forallb (fun k => forallb (fun ty => (tl_type [ty + Z.of_nat k] =? ty) && (tl_nibbles [ty + Z.of_nat k] =? Z.of_nat k)) [80; 96])
      (seq 0 16) = true) by reflexivity.
    rewrite forallb_forall in HA. specialize (HA (Z.to_nat (1 + n))). rewrite forallb_forall in HA.
    assert (HI : In (Z.to_nat (1 + n)) (seq 0 16)) by (apply in_seq; lia). specialize (HA HI type).
    rewrite Z2Nat.id in HA by lia. rewrite andb_true_iff, !Z.eqb_eq in HA. rewrite Z.add_assoc in HA.
    split; [exists [], (type + 1 + n); repeat split; auto; lia|]. apply HA. cbn. destruct Hty; auto. }
  destruct HB as (Hb & Htt & Hnib).
  rewrite (number_fwd type max s [type + 1 + n] data t); auto; try lia.
  - f_equal. f_equal. f_equal. f_equal. destruct data; auto. cbn in Hd. lia.
  - now apply app_nonnil.
  - cbn [hd]. lia.
  - unfold tl_length. rewrite Htt. destruct (Z.eqb_spec type 112); [lia|]. rewrite Hnib. cbn [length]. lia.
Qed.
End WithHost.
