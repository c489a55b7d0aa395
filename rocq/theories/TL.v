(** Reading type-length fields: exact behaviour on every input. *)
From Verif Require Import Base Buf Lib Wf Safe Ctx Spec.

Definition cont (b : Z) : Prop := 128 <= b < 256.
Definition horner (a : Z) (bs : list Z) : Z := fold_left (fun a b => a * 16 + b mod 16) bs a.

(** a property of all bytes, by enumeration *)
Lemma byte_cases (f : Z -> bool) : forallb f (map Z.of_nat (seq 0 256)) = true ->
  forall b, 0 <= b < 256 -> f b = true.
Proof.
  intros Hf b Hb. rewrite forallb_forall in Hf. apply Hf. rewrite <- (Z2Nat.id b) by lia.
  apply in_map, in_seq. lia.
Qed.
Lemma land_cont b : 0 <= b < 256 -> (Z.land b 128 =? 128) = (128 <=? b).
Proof.
  intros Hb. apply eqb_prop. revert b Hb.
  apply (byte_cases (fun b => Bool.eqb (Z.land b 128 =? 128) (128 <=? b))). vm_compute. reflexivity.
Qed.
Lemma land_15 b : Z.land b 15 = b mod 16.
Proof. change 15 with (Z.ones 4). now rewrite Z.land_ones by lia. Qed.
Lemma land_112 b : Z.land b 112 = (b / 16) mod 8 * 16.
Proof.
  change 112 with (Z.shiftl (Z.ones 3) 4). change 16 with (2 ^ 4) at 2. change 16 with (2^4). change 8 with (2 ^ 3).
  rewrite <- Z.land_ones, <- Z.shiftr_div_pow2, <- Z.shiftl_mul_pow2 by lia.
  apply Z.bits_inj'. intros i Hi. rewrite Z.land_spec.
  destruct (Z.ltb_spec i 4).
  - rewrite !Z.shiftl_spec_low by lia. apply andb_false_r.
  - rewrite !Z.shiftl_spec_high by lia. rewrite Z.land_spec, Z.shiftr_spec by lia.
    now replace (i - 4 + 4) with i by lia.
Qed.

Lemma horner_ge bs : forall a, 0 <= a -> a <= horner a bs.
Proof.
  unfold horner. induction bs as [|b bs IH]; intros a Ha; cbn [fold_left]; [lia|].
  pose proof (Z.mod_pos_bound b 16). specialize (IH (a * 16 + b mod 16)). lia.
Qed.

(** every byte string is a TL field and something, or all continuation *)
Lemma tl_split l : bytes_ok l ->
  (exists init last tail, l = init ++ last :: tail /\ Forall cont init /\ 0 <= last < 128) \/ Forall cont l.
Proof.
  induction l as [|b l IH]; intros Hl; [right; constructor|]. inv Hl. unfold byte_ok in *.
  destruct (Z_lt_ge_dec b 128).
  - left. exists [], b, l. split; auto. split; auto. lia.
  - destruct IH as [(i & la & t & -> & Hi & Hla)|Hc]; auto.
    + left. exists (b :: i), la, t. split; auto. split; auto. constructor; auto. unfold cont; lia.
    + right. constructor; auto. unfold cont; lia.
Qed.

Lemma rest_hd s b l : rest s = b :: l -> nth_error (buffer s) (cursor s) = Some b /\ (cursor s < buffer_len s)%nat.
Proof.
  intros E. split.
  - rewrite nth_error_skipn_hd. fold (rest s). now rewrite E.
  - pose proof (rest_length s) as HL. rewrite E in HL. cbn in HL. lia.
Qed.
Lemma rest_nil s : rest s = [] -> (buffer_len s <= cursor s)%nat.
Proof. intros E. pose proof (rest_length s) as HL. rewrite E in HL. cbn in HL. lia. Qed.
Lemma rest_set_cursor s n : rest (set_cursor (cursor s + n) s) = skipn n (rest s).
Proof. unfold rest. cbn. now rewrite skipn_skipn_add. Qed.
Lemma rest_set_ovf s o : rest (set_ovf o s) = rest s. Proof. reflexivity. Qed.

Lemma at_end_cons s b l : rest s = b :: l -> at_end s = Ret (false, s).
Proof. intros E. apply rest_hd in E. unfold at_end. f_equal. f_equal. apply Nat.leb_gt. tauto. Qed.
Lemma at_end_nil s : rest s = [] -> at_end s = Ret (true, s).
Proof. intros E. apply rest_nil in E. unfold at_end. f_equal. f_equal. now apply Nat.leb_le. Qed.
Lemma current_cons s b l : rest s = b :: l -> sml_buf_get_current_byte s = Ret (b, s).
Proof. intros E. apply rest_hd in E. unfold sml_buf_get_current_byte. now rewrite (proj1 E). Qed.
Lemma update_eq n s : sml_buf_update_bytes_read (Z.of_nat n) s = Ret (tt, set_cursor (cursor s + n) s).
Proof.
  unfold sml_buf_update_bytes_read. destruct (Z.ltb_spec (Z.of_nat n) 0); [lia|]. now rewrite Nat2Z.id.
Qed.

(** the state after n bytes, and an overflow if [o] *)
Definition at_ (s : sbuf) (n : nat) (o : bool) : sbuf := set_ovf o (set_cursor (cursor s + n) s).
Lemma at_0 s : at_ s 0 false = s.
Proof. destruct s as [b c e o]. unfold at_, set_ovf, set_cursor. cbn. now rewrite Nat.add_0_r, orb_false_r. Qed.
Lemma at_at s n o n' o' : at_ (at_ s n o) n' o' = at_ s (n + n') (o || o').
Proof.
  destruct s as [b c e ov]. unfold at_, set_ovf, set_cursor. cbn.
  now rewrite Nat.add_assoc, orb_assoc.
Qed.
Lemma at_rest s n o : rest (at_ s n o) = skipn n (rest s).
Proof. unfold at_. rewrite rest_set_ovf. apply rest_set_cursor. Qed.

Definition big (v : Z) : bool := 2147483648 <=? v.

(** One step of the loop keeps the exact value as long as it fits; [v] is the
    exact value, [l] the value of the variable. *)
Definition tracks (v l : Z) (o : bool) : Prop := 0 <= v /\ o = big v /\ (o = false -> l = v).

Lemma tracks_step v l o b : tracks v l o ->
  tracks (v * 16 + b mod 16) (Z.lor (wrap32 (l * 16)) (Z.land b 15))
         (o || negb (int_okb (l * 16)) || big (v * 16 + b mod 16)) /\
  (o = false -> negb (int_okb (l * 16)) = big (v * 16 + b mod 16)).
Proof.
  intros (Hv & Ho & Hl). pose proof (Z.mod_pos_bound b 16) as Hm.
  assert (E1 : o = true -> big (v * 16 + b mod 16) = true) by (subst o; unfold big; lia).
  assert (E2 : o = false -> negb (int_okb (l * 16)) = big (v * 16 + b mod 16)).
  { intros Eo. specialize (Hl Eo). subst l. subst o. unfold big, int_okb in *. lia. }
  split; auto. split; [lia|]. split.
  - destruct o; [now rewrite E1|]. cbn [orb]. rewrite E2 by auto. apply orb_diag.
  - intros Ho'. apply orb_false_iff in Ho'. destruct Ho' as [Ho' Hbig]. apply orb_false_iff in Ho'.
    destruct Ho' as [Ho1 Ho2]. rewrite (Hl Ho1) in *. rewrite land_15. unfold big, int_okb in *.
    rewrite wrap32_ok by (unfold int_ok; lia). apply lor_low. lia.
Qed.

Lemma int_op_at z s : int_op z s = Ret (wrap32 z, set_ovf (negb (int_okb z)) s).
Proof. reflexivity. Qed.

(** The loop on a TL field that is closed stops on the last byte. *)
Lemma set_ovf_at s n o o' : set_ovf o' (at_ s n o) = at_ s n (o || o').
Proof. destruct s. unfold at_, set_ovf, set_cursor. cbn. now rewrite orb_assoc. Qed.
Lemma set_cursor_at s n o : set_cursor (cursor (at_ s n o) + 1) (at_ s n o) = at_ s (n + 1) o.
Proof. destruct s. unfold at_, set_ovf, set_cursor. cbn. now rewrite Nat.add_assoc. Qed.

Lemma loop_closed init : forall last tail fuel v l o li s n,
  rest (at_ s n o) = init ++ last :: tail -> Forall cont init -> 0 <= last < 128 ->
  (length init < fuel)%nat -> tracks v l o ->
  (li = 0 \/ (li < 0 /\ - 2147483648 <= li - Z.of_nat (length init))) ->
  exists l', tracks (horner v (init ++ [last])) l' (big (horner v (init ++ [last]))) /\
    get_next_length_loop fuel l li (at_ s n o) =
    Ret ((l', if li =? 0 then 0 else li - Z.of_nat (length init)),
         at_ s (n + length init) (big (horner v (init ++ [last])))).
Proof.
  induction init as [|b init IH]; intros last tail fuel v l o li s n Er Hc Hlast Hf Ht Hli;
    (destruct fuel as [|fuel]; [cbn in Hf; lia|]); cbn [get_next_length_loop app] in *.
  - unfold bind at 1. rewrite (at_end_cons _ _ _ Er). unfold bind at 1.
    rewrite (current_cons _ _ _ Er). unfold bind at 1. rewrite int_op_at, set_ovf_at.
    destruct (tracks_step v l o last Ht) as [Ht' Ho'].
    unfold SML_ANOTHER_TL, SML_LENGTH_FIELD. rewrite (land_cont last) by lia.
    destruct (Z.leb_spec 128 last); [lia|]. cbn [negb].
    exists (Z.lor (wrap32 (l * 16)) (Z.land last 15)).
    cbn [length horner fold_left app]. rewrite Nat.add_0_r.
    assert (E : o || negb (int_okb (l * 16)) = big (v * 16 + last mod 16)).
    { destruct o; [|cbn; auto]. cbn. destruct Ht as (? & Hb & _). unfold big in *.
      pose proof (Z.mod_pos_bound last 16). lia. }
    unfold horner. cbn [fold_left]. split.
    + rewrite E, orb_diag in Ht'. exact Ht'.
    + rewrite E. unfold ret. do 3 f_equal. destruct (Z.eqb_spec li 0); lia.
  - unfold bind at 1. rewrite (at_end_cons _ _ _ Er). unfold bind at 1.
    rewrite (current_cons _ _ _ Er). unfold bind at 1. rewrite int_op_at, set_ovf_at.
    destruct (tracks_step v l o b Ht) as [Ht' Ho'].
    inversion Hc as [|? ? Hb Hc']; subst. unfold cont in Hb.
    unfold SML_ANOTHER_TL, SML_LENGTH_FIELD. rewrite (land_cont b) by lia.
    destruct (Z.leb_spec 128 b); [|lia]. cbn [negb].
    assert (E : o || negb (int_okb (l * 16)) = big (v * 16 + b mod 16)).
    { destruct o; [|cbn; auto]. cbn. destruct Ht as (? & Hb' & _). unfold big in *.
      pose proof (Z.mod_pos_bound b 16). lia. }
    rewrite E in *. rewrite orb_diag in Ht'.
    unfold bind at 1. rewrite (update_eq 1), set_cursor_at.
    cbn [length] in *.
    assert (Er' : forall x, rest (at_ s (n + 1) x) = init ++ last :: tail).
    { intros x. rewrite at_rest. rewrite at_rest in Er. rewrite <- skipn_skipn_add, Er. reflexivity. }
    unfold bind at 1. destruct (Z.eqb_spec li 0) as [->|Hn]; cbn [negb].
    + cbn [ret].
      destruct (IH last tail fuel _ _ _ 0 s (n + 1)%nat (Er' _) Hc' Hlast ltac:(lia) Ht' ltac:(auto))
        as (l' & HT & ->).
      exists l'. split; [exact HT|]. cbn [Z.eqb]. unfold horner. cbn [fold_left]. f_equal. f_equal. f_equal. lia.
    + rewrite int_op_at, set_ovf_at.
      replace (int_okb (li + -1)) with true by (unfold int_okb; lia). cbn [negb]. rewrite orb_false_r.
      rewrite (wrap32_ok (li + -1)) by (unfold int_ok; lia).
      destruct (IH last tail fuel _ _ _ (li + -1) s (n + 1)%nat (Er' _) Hc' Hlast ltac:(lia) Ht' ltac:(lia))
        as (l' & HT & ->).
      exists l'. split; [exact HT|]. unfold horner. cbn [fold_left].
      destruct (Z.eqb_spec (li + -1) 0); [lia|]. do 2 f_equal; f_equal; lia.
Qed.

(** The loop on continuation bytes up to the end of the buffer. *)
Lemma loop_open l0 : forall fuel v l o li s n,
  rest (at_ s n o) = l0 -> Forall cont l0 -> (length l0 < fuel)%nat -> tracks v l o ->
  (li = 0 \/ (li < 0 /\ - 2147483648 <= li - Z.of_nat (length l0))) ->
  exists r, get_next_length_loop fuel l li (at_ s n o) =
    Ret (r, at_ s (n + length l0) (big (horner v l0))).
Proof.
  induction l0 as [|b l0 IH]; intros fuel v l o li s n Er Hc Hf Ht Hli;
    (destruct fuel as [|fuel]; [cbn in Hf; lia|]); cbn [get_next_length_loop] in *.
  - unfold bind at 1. rewrite (at_end_nil _ Er). cbn [length]. rewrite Nat.add_0_r.
    destruct Ht as (_ & -> & _). eexists. reflexivity.
  - unfold bind at 1. rewrite (at_end_cons _ _ _ Er). unfold bind at 1.
    rewrite (current_cons _ _ _ Er). unfold bind at 1. rewrite int_op_at, set_ovf_at.
    destruct (tracks_step v l o b Ht) as [Ht' Ho'].
    inversion Hc as [|? ? Hb Hc']; subst. unfold cont in Hb.
    unfold SML_ANOTHER_TL, SML_LENGTH_FIELD. rewrite (land_cont b) by lia.
    destruct (Z.leb_spec 128 b); [|lia]. cbn [negb].
    assert (E : o || negb (int_okb (l * 16)) = big (v * 16 + b mod 16)).
    { destruct o; [|cbn; auto]. cbn. destruct Ht as (? & Hb' & _). unfold big in *.
      pose proof (Z.mod_pos_bound b 16). lia. }
    rewrite E in *. rewrite orb_diag in Ht'.
    unfold bind at 1. rewrite (update_eq 1), set_cursor_at.
    cbn [length] in *.
    assert (Er' : forall x, rest (at_ s (n + 1) x) = l0).
    { intros x. rewrite at_rest. rewrite at_rest in Er. rewrite <- skipn_skipn_add, Er. reflexivity. }
    unfold bind at 1. destruct (Z.eqb_spec li 0) as [->|Hn]; cbn [negb].
    + cbn [ret].
      destruct (IH fuel _ _ _ 0 s (n + 1)%nat (Er' _) Hc' ltac:(lia) Ht' ltac:(auto)) as (r & ->).
      exists r. unfold horner. cbn [fold_left]. do 3 f_equal. lia.
    + rewrite int_op_at, set_ovf_at.
      replace (int_okb (li + -1)) with true by (unfold int_okb; lia). cbn [negb]. rewrite orb_false_r.
      rewrite (wrap32_ok (li + -1)) by (unfold int_ok; lia).
      destruct (IH fuel _ _ _ (li + -1) s (n + 1)%nat (Er' _) Hc' ltac:(lia) Ht' ltac:(lia)) as (r & ->).
      exists r. unfold horner. cbn [fold_left]. do 3 f_equal. lia.
Qed.

Lemma tl_type_app init last t : tl_type (init ++ last :: t) = tl_type (init ++ [last]).
Proof. destruct init; reflexivity. Qed.
Lemma tl_bytes_field init last : Forall cont init -> 0 <= last < 128 -> tl_field (init ++ [last]).
Proof. exists init, last. auto. Qed.

(** sml_buf_get_next_length on a closed TL field. *)
Lemma next_length_closed s bs tail : small s -> rest s = bs ++ tail -> tl_field bs ->
  exists l, sml_buf_get_next_length s = Ret (l, at_ s (length bs) (big (tl_nibbles bs))) /\
    (tl_nibbles bs < 2147483648 -> l = tl_length bs).
Proof.
  intros Sm Er (init & last & -> & Hc & Hl). rewrite <- app_assoc in Er. cbn [app] in Er.
  assert (Hlen : Z.of_nat (length init) < 2147483647).
  { unfold small in Sm. pose proof (rest_length s) as HL. rewrite Er, app_length in HL. cbn in HL. lia. }
  assert (Ne : exists b t, rest s = b :: t /\ Z.land b 112 = tl_type (init ++ [last])).
  { rewrite Er. destruct init; cbn; eexists; eexists; split; try reflexivity; apply land_112. }
  destruct Ne as (b & t & Eb & Et).
  unfold sml_buf_get_next_length. unfold bind at 1. rewrite (at_end_cons _ _ _ Eb).
  unfold bind at 1. rewrite (current_cons _ _ _ Eb).
  unfold SML_TYPE_FIELD, SML_TYPE_LIST. rewrite Et.
  set (li := if tl_type (init ++ [last]) =? 112 then 0 else -1).
  unfold bind at 1, with_fuel. rewrite <- (at_0 s).
  destruct (loop_closed init last tail (fuel_of (at_ s 0 false)) 0 0 false li s 0) as (l' & HT & ->); auto.
  { now rewrite at_0. }
  { rewrite at_0. unfold fuel_of. pose proof (rest_length s) as HL. rewrite Er, app_length in HL. cbn in HL. lia. }
  { unfold tracks, big. lia. }
  { subst li. destruct (_ =? 112); lia. }
  change (horner 0 (init ++ [last])) with (tl_nibbles (init ++ [last])) in *.
  cbn [fst snd]. rewrite Nat.add_0_l. rewrite at_0.
  set (o := big (tl_nibbles (init ++ [last]))) in *.
  assert (Er2 : rest (at_ s (length init) o) = last :: tail).
  { rewrite at_rest, Er. rewrite skipn_app, skipn_all, Nat.sub_diag. reflexivity. }
  unfold bind at 1. rewrite (at_end_cons _ _ _ Er2).
  unfold bind at 1. rewrite (update_eq 1), set_cursor_at. rewrite int_op_at, set_ovf_at.
  destruct HT as (HV & _ & HE).
  set (ls := if li =? 0 then 0 else li - Z.of_nat (length init)).
  assert (Hls : ls = if tl_type (init ++ [last]) =? 112 then 0 else - Z.of_nat (length (init ++ [last]))).
  { subst ls li. rewrite app_length. cbn [length]. destruct (_ =? 112); cbn [Z.eqb]; lia. }
  assert (Hr : o = false -> int_ok (l' + ls) /\ l' + ls = tl_length (init ++ [last])).
  { intros Ho. rewrite (HE Ho). subst o. unfold big in Ho. rewrite Hls. unfold tl_length.
    rewrite app_length. cbn [length]. unfold int_ok. destruct (_ =? 112); lia. }
  exists (wrap32 (l' + ls)). split.
  - f_equal. f_equal. rewrite app_length. cbn [length].
    destruct o eqn:Eo; [reflexivity|]. destruct (Hr eq_refl) as [Hi _].
    rewrite int_okb_true by auto. reflexivity.
  - intros Hs. assert (Eo : o = false) by (subst o; unfold big; lia).
    destruct (Hr Eo) as [Hi E]. rewrite wrap32_ok by exact Hi. exact E.
Qed.

(** ... and on one that is not closed before the end of the buffer. *)
Lemma next_length_open s : small s -> okbuf s -> Forall cont (rest s) ->
  exists o, sml_buf_get_next_length s = Ret (-1, set_err (at_ s (length (rest s)) o)) /\
    o = big (tl_nibbles (rest s)).
Proof.
  intros Sm Hs Hc. unfold sml_buf_get_next_length. destruct (rest s) as [|b t] eqn:Er.
  - unfold bind at 1. rewrite (at_end_nil _ Er). exists false. cbn [length]. rewrite at_0. split; reflexivity.
  - unfold bind at 1. rewrite (at_end_cons _ _ _ Er).
    unfold bind at 1. rewrite (current_cons _ _ _ Er).
    set (li := if _ =? SML_TYPE_LIST then 0 else -1).
    assert (Hlen : Z.of_nat (length (b :: t)) < 2147483648).
    { unfold small in Sm. pose proof (rest_length s) as HL. rewrite Er in HL. lia. }
    unfold bind at 1, with_fuel. rewrite <- (at_0 s).
    destruct (loop_open (b :: t) (fuel_of (at_ s 0 false)) 0 0 false li s 0) as (r & ->); auto.
    { now rewrite at_0. }
    { rewrite at_0. unfold fuel_of. pose proof (rest_length s) as HL. rewrite Er in HL. lia. }
    { unfold tracks, big. lia. }
    { subst li. destruct (_ =? SML_TYPE_LIST); [now left|right]. lia. }
    rewrite Nat.add_0_l, at_0. unfold bind at 1. rewrite at_end_nil.
    2: { now rewrite at_rest, Er, skipn_all. }
    eexists. split; reflexivity.
Qed.

Lemma next_type_eq s b t : rest s = b :: t -> sml_buf_get_next_type s = Ret ((b / 16) mod 8 * 16, s).
Proof.
  intros Er. unfold sml_buf_get_next_type. unfold bind at 1. rewrite (at_end_cons _ _ _ Er).
  unfold bind at 1. rewrite (current_cons _ _ _ Er). unfold ret, SML_TYPE_FIELD. now rewrite land_112.
Qed.
