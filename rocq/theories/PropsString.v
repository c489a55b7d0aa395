(** Properties C16 - C21: TL fields and octet strings. *)
From Verif Require Import Base Buf Number OctetString Boolean Value Lib Wf Ctx Scan Spec TL Inv Reads
  Write TLWrite TLRound NumFacts PropsNumber.

Lemma zeros_less s m n : zeros_ahead s n -> (m <= n)%nat -> zeros_ahead s m.
Proof.
  unfold zeros_ahead. intros HZ HL. replace m with (Nat.min m n) at 1 by lia. rewrite <- firstn_firstn, HZ.
  replace n with (m + (n - m))%nat by lia. rewrite repeat_app, firstn_app, repeat_length, Nat.sub_diag, firstn_O, app_nil_r.
  rewrite firstn_all2; [reflexivity|]. rewrite repeat_length. lia.
Qed.

(** *** C16 *)
Definition lost_length (n : Z) : Prop :=
  n = 254 \/ 4093 <= n <= 4094 \/ 65532 <= n <= 65534 \/ 1048571 <= n <= 1048574 \/
  16777210 <= n <= 16777214 \/ 268435449 <= n <= 268435454.
Lemma lost_crossing n : 0 <= n < 2 ^ 28 - 1 -> lost_length n <-> crossing (n + 1) = true.
Proof.
  intros Hn. change (2 ^ 28) with 268435456 in Hn. rewrite crossing_iff by (change (16 ^ 7) with 268435456; lia).
  unfold lost_length. split.
  - intros HL. destruct HL as [HL|[HL|[HL|[HL|[HL|HL]]]]];
      [exists 1; change (16 ^ (1 + 1)) with 256|exists 2; change (16 ^ (2 + 1)) with 4096|exists 3; change (16 ^ (3 + 1)) with 65536|
       exists 4; change (16 ^ (4 + 1)) with 1048576|exists 5; change (16 ^ (5 + 1)) with 16777216|exists 6; change (16 ^ (6 + 1)) with 268435456]; lia.
  - intros (k & Hk & HC). assert (k = 1 \/ k = 2 \/ k = 3 \/ k = 4 \/ k = 5 \/ k = 6) as HX by lia.
    destruct HX as [->|[->|[->|[->|[->| ->]]]]];
      [change (16 ^ (1 + 1)) with 256 in HC|change (16 ^ (2 + 1)) with 4096 in HC|change (16 ^ (3 + 1)) with 65536 in HC|
       change (16 ^ (4 + 1)) with 1048576 in HC|change (16 ^ (5 + 1)) with 16777216 in HC|change (16 ^ (6 + 1)) with 268435456 in HC]; lia.
Qed.
(** a lost length is read as a negative one *)
Lemma lost_negative type l : In type tl_types -> type <> 112 -> 0 <= l -> l + 1 < 16 ^ 7 -> crossing (l + 1) = true ->
  tl_length (tl_text type l) < 0.
Proof.
  intros Ht Hn H0 H1 C. change (16 ^ 7) with 268435456 in H1.
  assert (EC : count type l = l + 1) by (unfold count; destruct (Z.eqb_spec type 112); [contradiction|reflexivity]).
  pose proof (text_nibbles type l Ht) as HN. rewrite EC in HN. change (16 ^ 7) with 268435456 in HN. specialize (HN ltac:(lia)).
  unfold tl_length. rewrite text_type by auto. destruct (Z.eqb_spec type 112); [contradiction|].
  rewrite text_length, EC, HN. rewrite C.
  assert (HR : 1 <= l + 1 < 16 ^ Z.of_nat 8) by (change (16 ^ Z.of_nat 8) with 4294967296; lia).
  pose proof (extra_spec 8 _ HR) as HE. unfold crossing in C. set (k := extra 8 (l + 1)) in *. apply Z.leb_le in C.
  assert (Hk : Z.of_nat k <= 7).
  { destruct (Z.le_gt_cases (Z.of_nat k) 7); auto. assert (16 ^ 8 <= 16 ^ Z.of_nat k) by (apply Z.pow_le_mono_r; lia).
    change (16 ^ 8) with 4294967296 in *. lia. }
  assert (EP : 16 ^ (Z.of_nat k + 1) = 16 * 16 ^ Z.of_nat k) by (rewrite Z.pow_add_r by lia; change (16 ^ 1) with 16; lia).
  replace (l + 1 + Z.of_nat k + 1) with (l + 2 + Z.of_nat k - 16 ^ (Z.of_nat k + 1) + 16 ^ Z.of_nat k * 16) by lia.
  rewrite Z.mod_add by lia. rewrite Z.mod_small by lia. lia.
Qed.
Lemma tl_roundtrip any type n s : In type tl_types -> 0 <= n -> 0 <= count type n < 2 ^ 28 ->
  (any = true -> count type n <= 15) ->
  bytes_ok (buffer s) -> (cursor s + 9 <= buffer_len s)%nat -> Z.of_nat (buffer_len s) < 2147483648 ->
  zeros_ahead s 9 \/ any = true ->
  tl_nibbles (tl_text type n) < 2147483648 ->
  exists s1, sml_buf_set_type_and_length type n s = Ret (tt, s1) /\
    (cursor s < cursor s1 <= cursor s + 8)%nat /\ length (buffer s1) = length (buffer s) /\
    sml_buf_get_next_type (set_cursor (cursor s) s1) = Ret (type, set_cursor (cursor s) s1) /\
    exists s2, sml_buf_get_next_length (set_cursor (cursor s) s1) = Ret (tl_length (tl_text type n), s2) /\
      cursor s2 = cursor s1 /\ error s2 = error s.
Proof.
  intros Ht H0 Hn Ha Hb Hc Hs Hz Hnib. change (2 ^ 28) with 268435456 in Hn.
  pose proof (writes_tl any type n Ht H0 ltac:(change (16 ^ 7) with 268435456; lia) Ha) as HW.
  assert (HL : (1 <= length (tl_text type n) <= 8)%nat).
  { rewrite text_length. assert (extra 8 (count type n) <= 7)%nat; [|lia].
    destruct (Z.eq_dec (count type n) 0) as [->|]; [cbn; lia|].
    assert (HR : 1 <= count type n < 16 ^ Z.of_nat 8) by (change (16 ^ Z.of_nat 8) with 4294967296; lia).
    pose proof (extra_spec 8 _ HR) as HE. destruct (Nat.le_gt_cases (extra 8 (count type n)) 7); auto.
    assert (16 ^ 8 <= 16 ^ Z.of_nat (extra 8 (count type n))) by (apply Z.pow_le_mono_r; lia).
    change (16 ^ 8) with 4294967296 in *. lia. }
  assert (HE : exists o, sml_buf_set_type_and_length type n s = Ret (tt, mkBuf (written s (tl_text type n)) (cursor s + length (tl_text type n)) (error s) o)).
  { destruct Hz as [Hz|Hz].
    - apply (writes_at any); auto; [lia|]. apply (zeros_less s _ 9); [exact Hz|lia].
    - subst any. apply writes_any; auto. lia. }
  destruct HE as (o & E). set (s1 := mkBuf _ _ _ _) in E. exists s1. split; [exact E|].
  split; [unfold s1; cbn [cursor]; lia|].
  assert (WL : length (buffer s1) = length (buffer s)) by (unfold s1; cbn [buffer]; apply written_length; lia).
  split; [exact WL|].
  assert (R : rest (set_cursor (cursor s) s1) = tl_text type n ++ skipn (cursor s + length (tl_text type n)) (buffer s)).
  { unfold rest, set_cursor, s1. cbn [buffer cursor].
    exact (written_rest s (tl_text type n) (cursor s) (error s) o ltac:(lia) eq_refl). }
  pose proof (text_field type n Ht) as TF.
  split. { rewrite (type_fwd _ (tl_text type n) _ R TF). now rewrite text_type. }
  eexists. split; [eapply (length_fwd _ (tl_text type n) _); [|exact R|exact TF|exact Hnib]|].
  { unfold small, buffer_len, set_cursor in *. cbn [buffer]. now rewrite WL. }
  split; reflexivity.
Qed.

Theorem C16_tl_round_trip type n s :
  In type [0; 64; 80; 96] -> 0 <= n < 2 ^ 28 - 1 -> bytes_ok (buffer s) ->
  (cursor s + 9 <= buffer_len s)%nat -> Z.of_nat (buffer_len s) < 2147483648 -> zeros_ahead s 9 ->
  exists s1 l s2, sml_buf_set_type_and_length type n s = Ret (tt, s1) /\
    (cursor s < cursor s1 <= cursor s + 8)%nat /\
    sml_buf_get_next_type (set_cursor (cursor s) s1) = Ret (type, set_cursor (cursor s) s1) /\
    sml_buf_get_next_length (set_cursor (cursor s) s1) = Ret (l, s2) /\ cursor s2 = cursor s1 /\ error s2 = error s /\
    (l = n <-> ~ lost_length n) /\ (lost_length n -> l < 0).
Proof.
  intros Ht Hn Hb Hc Hs Hz.
  assert (HT : In type tl_types /\ type <> 112).
  { cbn [In] in Ht. unfold tl_types. cbn [In]. repeat (destruct Ht as [<-|Ht]; [split; [tauto|lia]|]). contradiction. }
  destruct HT as [HT HN]. assert (EC : count type n = n + 1) by (unfold count; destruct (Z.eqb_spec type 112); [contradiction|reflexivity]).
  destruct (text_read type n HT HN ltac:(lia) ltac:(change (16 ^ 7) with (2 ^ 28); lia)) as [T1 T2].
  destruct (tl_roundtrip false type n s HT ltac:(lia) ltac:(lia) ltac:(discriminate) Hb Hc Hs (or_introl Hz) T1) as (s1 & E1 & C1 & _ & E2 & s2 & E3 & C2 & Er).
  exists s1, (tl_length (tl_text type n)), s2. repeat (split; [assumption|]).
  rewrite T2. rewrite (lost_crossing n Hn). split; [destruct (crossing (n + 1)); intuition congruence|].
  intros HL. apply lost_negative; auto; [lia|change (16 ^ 7) with (2 ^ 28); lia].
Qed.
Print Assumptions C16_tl_round_trip.
Example C16_example : let s := sml_buffer_init 20 in zeros_ahead s 9 /\ bytes_ok (buffer s) /\
  (exists s1 s2, sml_buf_set_type_and_length 0 254 s = Ret (tt, s1) /\ sml_buf_get_next_length (set_cursor 0 s1) = Ret (-1, s2)) /\
  (exists s1 s2, sml_buf_set_type_and_length 0 253 s = Ret (tt, s1) /\ sml_buf_get_next_length (set_cursor 0 s1) = Ret (253, s2)).
Proof.
  split; [reflexivity|]. split; [apply Forall_forall; intros x Hx; apply repeat_spec in Hx; unfold byte_ok; lia|].
  split; eexists _, _; (split; [vm_compute; reflexivity|]; vm_compute; reflexivity).
Qed.

(** *** C17 *)
Theorem C17_list_header_round_trip n s :
  0 <= n < 2 ^ 28 -> bytes_ok (buffer s) ->
  (cursor s + 9 <= buffer_len s)%nat -> Z.of_nat (buffer_len s) < 2147483648 -> zeros_ahead s 9 ->
  exists s1 l s2, sml_buf_set_type_and_length 112 n s = Ret (tt, s1) /\
    sml_buf_get_next_type (set_cursor (cursor s) s1) = Ret (112, set_cursor (cursor s) s1) /\
    sml_buf_get_next_length (set_cursor (cursor s) s1) = Ret (l, s2) /\ cursor s2 = cursor s1 /\ error s2 = error s /\
    (l = n <-> n <= 15).
Proof.
  intros Hn Hb Hc Hs Hz. assert (HT : In 112 tl_types) by (unfold tl_types; cbn [In]; tauto).
  assert (HR : tl_nibbles (tl_text 112 n) < 2147483648 /\ (tl_length (tl_text 112 n) = n <-> n <= 15)).
  { destruct (Z.eq_dec n 0) as [->|]; [vm_compute; intuition congruence|]. apply list_read; [lia|].
    change (16 ^ 7) with (2 ^ 28). lia. }
  destruct HR as [T1 T2].
  destruct (tl_roundtrip false 112 n s HT ltac:(lia) ltac:(unfold count; cbn; lia) ltac:(discriminate) Hb Hc Hs (or_introl Hz) T1)
    as (s1 & E1 & C1 & _ & E2 & s2 & E3 & C2 & Er).
  exists s1, (tl_length (tl_text 112 n)), s2. repeat (split; [assumption|]). exact T2.
Qed.
Print Assumptions C17_list_header_round_trip.
Example C17_example : let s := sml_buffer_init 20 in
  (exists s1 s2, sml_buf_set_type_and_length 112 16 s = Ret (tt, s1) /\ sml_buf_get_next_length (set_cursor 0 s1) = Ret (17, s2)).
Proof. eexists _, _. split; [vm_compute; reflexivity|]. vm_compute. reflexivity. Qed.

(** *** C18 *)
Lemma writes_octet any v : bytes_ok v -> Z.of_nat (length v) < 2 ^ 28 - 1 -> (any = true -> (length v <= 14)%nat) ->
  writes any (sml_octet_string_write (Some v)) (tl_text 0 (Z.of_nat (length v)) ++ v).
Proof.
  intros Hb Hl Ha. change (2 ^ 28) with 268435456 in Hl. unfold sml_octet_string_write, write_opt.
  replace (to_u32 (Z.of_nat (length v))) with (Z.of_nat (length v)) by (unfold to_u32; rewrite Z.mod_small; lia).
  apply writes_seq; [|now apply writes_data]. apply writes_tl; unfold count, tl_types; cbn [In Z.eqb]; try tauto; try lia.
Qed.
Lemma octet_negative s tl t : small s -> rest s = tl ++ t -> tl_field tl -> hd 0 tl <> 1 ->
  tl_type tl = 0 -> tl_nibbles tl < 2147483648 -> tl_length tl < 0 ->
  exists s', sml_octet_string_parse s = Ret (None, s') /\ error s' = true.
Proof.
  intros Sm R Hb Hh Ht Hnib Hl. destruct (tl_hd _ Hb) as (b & l & El).
  assert (R0 : rest s = b :: l ++ t) by (rewrite R, El; reflexivity).
  unfold sml_octet_string_parse. rewrite (unless_noskip _ _ _ _ R0) by (rewrite El in Hh; exact Hh).
  unfold bind at 1. rewrite (next_type_eq _ _ _ R0).
  replace (b / 16 mod 8 * 16) with 0 by (rewrite <- Ht, El; reflexivity). change (0 =? SML_TYPE_OCTET_STRING) with true.
  cbn [negb]. unfold bind at 1. rewrite (length_fwd s tl t) by auto.
  unfold bind at 1. destruct (Z.ltb_spec (tl_length tl) 0); [|lia]. cbn [orb].
  eexists. split; reflexivity.
Qed.
Theorem C18_octet_string_round_trip v s :
  let n := Z.of_nat (length v) in
  bytes_ok v -> (1 <= length v)%nat -> n < 2 ^ 28 - 1 ->
  bytes_ok (buffer s) -> error s = false -> Z.of_nat (buffer_len s) < 2147483648 ->
  (cursor s + length v + 9 <= buffer_len s)%nat -> zeros_ahead s (length v + 9) ->
  exists s1 r s2, sml_octet_string_write (Some v) s = Ret (tt, s1) /\
    sml_octet_string_parse (set_cursor (cursor s) s1) = Ret (r, s2) /\
    (~ lost_length n -> r = Some v /\ cursor s2 = cursor s1 /\ error s2 = false) /\
    (lost_length n -> r = None /\ error s2 = true).
Proof.
  intros n Hv H1 Hn Hb He Hs Hc Hz.
  assert (HT : In 0 tl_types) by (unfold tl_types; cbn [In]; tauto).
  pose proof (writes_octet false v Hv Hn ltac:(discriminate)) as HW.
  change (2 ^ 28) with 268435456 in Hn.
  destruct (text_read 0 n HT ltac:(lia) ltac:(lia) ltac:(change (16 ^ 7) with 268435456; lia)) as [T1 T2].
  pose proof (text_field 0 n HT) as TF. pose proof (text_type 0 n HT) as TT.
  assert (HL : (1 <= length (tl_text 0 n) <= 8)%nat).
  { rewrite text_length. unfold count. change (0 =? 112) with false. cbv iota. assert (extra 8 (n + 1) <= 7)%nat; [|lia].
    assert (HR : 1 <= n + 1 < 16 ^ Z.of_nat 8) by (change (16 ^ Z.of_nat 8) with 4294967296; lia).
    pose proof (extra_spec 8 _ HR) as HE. destruct (Nat.le_gt_cases (extra 8 (n + 1)) 7); auto.
    assert (16 ^ 8 <= 16 ^ Z.of_nat (extra 8 (n + 1))) by (apply Z.pow_le_mono_r; lia).
    change (16 ^ 8) with 4294967296 in *. lia. }
  assert (H11 : hd 0 (tl_text 0 n) <> 1).
  { unfold n. destruct (Nat.le_gt_cases (length v) 14).
    - rewrite text_one by (auto; unfold count; cbn; lia). cbn [hd]. unfold count. change (0 =? 112) with false. cbv iota. lia.
    - fold n. assert (length (tl_text 0 n) > 1)%nat.
      { rewrite text_length. unfold count. change (0 =? 112) with false. cbv iota. cbn [extra]. destruct (Z.leb_spec (n + 1) 15); lia. }
      destruct TF as (i & x & E & Hi & Hx). rewrite E in *. destruct i as [|y i]; [cbn in *; lia|]. cbn [app hd]. apply Forall_cons_iff in Hi. lia. }
  destruct (writes_at false _ _ s HW Hb) as (o & E).
  { rewrite app_length. fold n. lia. }
  { apply (zeros_less s _ (length v + 9)); [exact Hz|]. rewrite app_length. fold n. lia. }
  fold n in E. rewrite app_length in E. set (s1 := mkBuf _ _ _ _) in E.
  assert (WL : length (buffer s1) = length (buffer s)) by (unfold s1; cbn [buffer]; apply written_length; rewrite app_length; lia).
  set (t := skipn (cursor s + length (tl_text 0 n ++ v)) (buffer s)).
  assert (R : rest (set_cursor (cursor s) s1) = tl_text 0 n ++ v ++ t).
  { unfold rest, set_cursor, s1. cbn [buffer cursor]. rewrite app_assoc.
    exact (written_rest s (tl_text 0 n ++ v) (cursor s) (error s) o ltac:(lia) eq_refl). }
  assert (Sm : small (set_cursor (cursor s) s1)) by (unfold small, buffer_len, set_cursor in *; cbn [buffer]; now rewrite WL).
  assert (Ht : t <> []).
  { intros E0. apply (f_equal (@length Z)) in E0. unfold t in E0. rewrite skipn_length, app_length in E0. unfold buffer_len in Hc. cbn in E0. lia. }
  assert (LC : lost_length n <-> crossing (n + 1) = true) by (apply lost_crossing; change (2 ^ 28) with 268435456; lia).
  destruct (crossing (n + 1)) eqn:C.
  - destruct (octet_negative _ _ _ Sm R TF H11 TT T1) as (s2 & E2 & Er2).
    { apply lost_negative; auto; try lia. }
    exists s1, None, s2. split; [exact E|]. split; [exact E2|]. split; [tauto|]. auto.
  - pose proof (octet_fwd _ _ _ _ Sm R Ht TF H11 TT T1 (proj2 T2 eq_refl)) as E2.
    exists s1, (Some v). eexists. split; [exact E|]. split; [exact E2|]. split; [|intros HX; apply LC in HX; discriminate].
    intros _. split; [reflexivity|]. split; [|exact He]. unfold at_, set_ovf, set_cursor, s1. cbn [cursor]. lia.
Qed.
Print Assumptions C18_octet_string_round_trip.
(** absent strings and strings without bytes come back as absent, whatever the
    memory was *)
Theorem C18_absent_round_trip (v : option octet_string) s : v = None \/ v = Some [] ->
  bytes_ok (buffer s) -> (cursor s < buffer_len s)%nat ->
  exists s1 s2, sml_octet_string_write v s = Ret (tt, s1) /\
    sml_octet_string_parse (set_cursor (cursor s) s1) = Ret (None, s2) /\ cursor s2 = cursor s1 /\ error s2 = error s.
Proof.
  intros Hv Hb Hc.
  assert (HW : writes true (sml_octet_string_write v) [1]).
  { destruct Hv as [->| ->]; [apply writes_skipped|].
    change [1] with (tl_text 0 (Z.of_nat (length (@nil Z))) ++ []). apply writes_octet; cbn; auto; lia || constructor. }
  destruct (writes_any _ _ s HW Hb) as (o & E); [cbn [length]; lia|].
  exists (mkBuf (written s [1]) (cursor s + length [1]) (error s) o). eexists. split; [exact E|].
  unfold sml_octet_string_parse. rewrite (unless_skip _ _ (skipn (cursor s + 1) (buffer s))).
  - split; [reflexivity|]. split; reflexivity.
  - unfold rest, set_cursor. cbn [buffer cursor]. exact (written_rest s [1] (cursor s) (error s) o ltac:(lia) eq_refl).
Qed.
Print Assumptions C18_absent_round_trip.
Example C18_example : let s := sml_buffer_init 40 in let v := [1; 2; 3; 4; 5; 6; 7; 8; 9; 10; 11; 12; 13; 14; 15; 16; 17] in
  zeros_ahead s (length v + 9) /\ ~ lost_length (Z.of_nat (length v)) /\ (cursor s + length v + 9 <= buffer_len s)%nat /\
  exists s1, sml_octet_string_write (Some v) s = Ret (tt, s1) /\ firstn 4 (buffer s1) = [129; 3; 1; 2].
Proof.
  split; [reflexivity|]. split; [unfold lost_length; cbn; lia|]. split; [vm_compute; lia|].
  eexists. split; [vm_compute; reflexivity|]. vm_compute. reflexivity.
Qed.

(** *** C19 *)
Theorem C19_last_octet_string_refuted tl data s :
  tl_field tl -> tl <> [1] -> tl_type tl = 0 -> tl_nibbles tl < 2147483648 -> tl_length tl = Z.of_nat (length data) ->
  Z.of_nat (buffer_len s) < 2147483648 -> skipn (cursor s) (buffer s) = tl ++ data ->
  exists s', sml_octet_string_parse s = Ret (None, s') /\ error s' = true.
Proof.
  intros Hf H1 Ht Hn Hl Sm R. apply (octet_end s tl data); auto.
  destruct Hf as (i & x & -> & Hi & Hx). intros E. apply H1. destruct i as [|y i]; cbn [app hd] in *; [now subst|].
  apply Forall_cons_iff in Hi. lia.
Qed.
Print Assumptions C19_last_octet_string_refuted.
(** the same octet string is read as soon as one more byte follows *)
Theorem C19_one_more_byte tl data t s :
  tl_field tl -> tl <> [1] -> tl_type tl = 0 -> tl_nibbles tl < 2147483648 -> tl_length tl = Z.of_nat (length data) ->
  Z.of_nat (buffer_len s) < 2147483648 -> t <> [] -> skipn (cursor s) (buffer s) = tl ++ data ++ t ->
  exists s', sml_octet_string_parse s = Ret (Some data, s') /\ error s' = error s /\
    cursor s' = (cursor s + length tl + length data)%nat.
Proof.
  intros Hf H1 Ht Hn Hl Sm HT R. eexists. split.
  - apply (octet_fwd s tl data t); auto.
    destruct Hf as (i & x & -> & Hi & Hx). intros E. apply H1. destruct i as [|y i]; cbn [app hd] in *; [now subst|].
    apply Forall_cons_iff in Hi. lia.
  - split; [reflexivity|]. unfold at_, set_ovf, set_cursor. cbn [cursor]. lia.
Qed.
Print Assumptions C19_one_more_byte.
Example C19_example : tl_field [4] /\ tl_type [4] = 0 /\ tl_length [4] = 3 /\
  (exists s', sml_octet_string_parse (mkBuf [4; 65; 66; 67] 0 false false) = Ret (None, s')) /\
  (exists s', sml_octet_string_parse (mkBuf [4; 65; 66; 67; 0] 0 false false) = Ret (Some [65; 66; 67], s')).
Proof.
  split; [exists [], 4; split; [reflexivity|split; [constructor|lia]]|]. split; [reflexivity|]. split; [reflexivity|].
  split; eexists; vm_compute; reflexivity.
Qed.

(** *** C20 *)
(** the hexadecimal digits of both letter cases *)
Inductive hex_digit : Z -> Z -> Prop :=
| hex_decimal v : 0 <= v <= 9 -> hex_digit (48 + v) v
| hex_lower v : 10 <= v <= 15 -> hex_digit (97 + (v - 10)) v
| hex_upper v : 10 <= v <= 15 -> hex_digit (65 + (v - 10)) v.
(** a text of digit pairs and the bytes it denotes *)
Inductive hex_text : list Z -> list Z -> Prop :=
| hex_nil : hex_text [] []
| hex_cons c1 c2 h l t bs : hex_digit c1 h -> hex_digit c2 l -> hex_text t bs ->
    hex_text (c1 :: c2 :: t) (h * 16 + l :: bs).

Lemma memcmp_zero a : forall b, length a = length b -> memcmp a b = 0 <-> a = b.
Proof.
  induction a as [|x a IH]; intros [|y b] HL; try discriminate; [cbn; tauto|]. cbn [memcmp].
  destruct (Z.eqb_spec x y) as [->|].
  - rewrite IH by (cbn in HL; lia). split; [now intros ->|]. now intros [= ->].
  - split; [lia|intros [= -> ->]; congruence].
Qed.
Lemma digit_value c v : hex_digit c v -> ctoi c = v /\ 0 <= v <= 15.
Proof.
  intros [w Hw|w Hw|w Hw]; unfold ctoi; (split; [|lia]);
  repeat match goal with |- context [?a <=? ?b] => destruct (Z.leb_spec a b) end; cbn [andb]; lia.
Qed.
Lemma pair_value c1 c2 h l : hex_digit c1 h -> hex_digit c2 l -> c2toi c1 c2 = h * 16 + l.
Proof.
  intros H1 H2. apply digit_value in H1. apply digit_value in H2. destruct H1 as [E1 B1], H2 as [E2 B2].
  unfold c2toi. rewrite E1, E2, Z.shiftl_mul_pow2 by lia. change (2 ^ 4) with 16.
  rewrite Safe.lor_low by lia. unfold to_u8. apply Z.mod_small. lia.
Qed.
Lemma hex_pairs_text t bs : hex_text t bs -> hex_pairs t = bs /\ length t = (2 * length bs)%nat.
Proof.
  induction 1 as [|c1 c2 h l t bs H1 H2 HT [IH IL]]; [split; reflexivity|]. cbn [hex_pairs length]. rewrite (pair_value _ _ _ _ H1 H2), IH.
  split; [reflexivity|lia].
Qed.
Lemma from_hex t bs : hex_text t bs -> sml_octet_string_init_from_hex t = Some bs.
Proof.
  intros HT. apply hex_pairs_text in HT. destruct HT as [E L]. unfold sml_octet_string_init_from_hex.
  rewrite L, Nat2Z.inj_mul. change (Z.of_nat 2) with 2. rewrite Z.mul_comm, Z.mod_mul, Z.div_mul by lia. change (0 =? 0) with true. cbn [negb].
  unfold sml_octet_string_init. rewrite E, Nat2Z.id, firstn_all. destruct (Z.gtb_spec (Z.of_nat (length bs)) 0); [reflexivity|].
  destruct bs; [reflexivity|cbn [length] in *; lia].
Qed.
Theorem C20_cmp a b : exists r, sml_octet_string_cmp (Some a) (Some b) = Ret r /\ (r = 0 <-> a = b).
Proof.
  unfold sml_octet_string_cmp. destruct (Z.eqb_spec (Z.of_nat (length a)) (Z.of_nat (length b))) as [E|N]; cbn [negb]; eexists; (split; [reflexivity|]).
  - apply memcmp_zero. lia.
  - split; [lia|]. intros ->. congruence.
Qed.
Print Assumptions C20_cmp.
Theorem C20_cmp_with_hex a txt bs : hex_text txt bs ->
  exists r, sml_octet_string_cmp_with_hex (Some a) txt = Ret r /\ (r = 0 <-> a = bs).
Proof. intros HT. unfold sml_octet_string_cmp_with_hex. rewrite (from_hex _ _ HT). apply C20_cmp. Qed.
Print Assumptions C20_cmp_with_hex.
Theorem C20_odd_text_crashes a txt :
  sml_octet_string_cmp_with_hex (Some a) txt = Fault NullDeref <-> Nat.Odd (length txt).
Proof.
  unfold sml_octet_string_cmp_with_hex, sml_octet_string_init_from_hex.
  rewrite <- Nat.odd_spec. pose proof (Zmod_odd (Z.of_nat (length txt))) as HO. rewrite HO.
  assert (EO : Z.odd (Z.of_nat (length txt)) = Nat.odd (length txt)).
  { clear. induction (length txt) as [|n IH]; [reflexivity|]. rewrite Nat2Z.inj_succ, Z.odd_succ, Nat.odd_succ, <- Z.negb_odd, IH. apply Nat.negb_odd. }
  rewrite EO. destruct (Nat.odd (length txt)); cbn [negb].
  - tauto.
  - change (0 =? 0) with true. cbn [negb].
    match goal with |- (if ?c then _ else _) = _ <-> _ => destruct c end; split; discriminate.
Qed.
Print Assumptions C20_odd_text_crashes.
(** characters that are no hexadecimal digits count as the digit 0 *)
Theorem C20_other_characters_refuted : exists a txt, sml_octet_string_cmp_with_hex (Some a) txt = Ret 0 /\
  forall bs, ~ hex_text txt bs.
Proof.
  exists [1], [122; 49]. split; [vm_compute; reflexivity|]. intros bs HT. inversion HT as [|c1 c2 h l t b H1 H2 H3 E1 E2]. subst.
  remember 122 as c eqn:EC. destruct H1; lia.

Qed.
Print Assumptions C20_other_characters_refuted.
Example C20_example : hex_text [48; 49; 65; 102] [1; 175] /\
  sml_octet_string_cmp_with_hex (Some [1; 175]) [48; 49; 65; 102] = Ret 0 /\
  sml_octet_string_cmp_with_hex (Some [1; 174]) [48; 49; 65; 102] = Ret (-1).
Proof.
  split; [|split; vm_compute; reflexivity].
  apply (hex_cons 48 49 0 1); [apply (hex_decimal 0); lia|apply (hex_decimal 1); lia|].
  apply (hex_cons 65 102 10 15); [apply (hex_upper 10); lia|apply (hex_lower 15); lia|constructor].
Qed.

(** *** C21 *)
Theorem C21_from_hex txt bs : hex_text txt bs -> sml_octet_string_init_from_hex txt = Some bs.
Proof. apply from_hex. Qed.
Print Assumptions C21_from_hex.
(** every byte string has such texts *)
Theorem C21_hex_exists bs : bytes_ok bs -> exists txt, hex_text txt bs /\ sml_octet_string_init_from_hex txt = Some bs.
Proof.
  intros HB. assert (HX : exists txt, hex_text txt bs).
  { induction HB as [|b bs Hb HB [t IH]]; [exists []; constructor|].
    assert (HD : forall v, 0 <= v <= 15 -> exists c, hex_digit c v).
    { intros v Hv. destruct (Z.le_gt_cases v 9); eexists; [apply (hex_decimal v); lia|apply (hex_lower v); lia]. }
    unfold byte_ok in Hb. destruct (HD (b / 16)) as [c1 H1]; [pose proof (Z.div_lt_upper_bound b 16 16); pose proof (Z.div_pos b 16); lia|].
    destruct (HD (b mod 16)) as [c2 H2]; [pose proof (Z.mod_pos_bound b 16); lia|].
    exists (c1 :: c2 :: t). rewrite (Z.div_mod b 16) at 1 by lia. replace (16 * (b / 16)) with (b / 16 * 16) by lia. now constructor. }
  destruct HX as [t HT]. exists t. split; [exact HT|now apply from_hex].
Qed.
Print Assumptions C21_hex_exists.

(** What strhex prints: lower case digit pairs, each followed by a blank; in
    mixed mode the leading printable characters stay as they are. *)
Definition lower_digit (v : Z) : Z := if v <=? 9 then 48 + v else 97 + (v - 10).
Definition hex_dump (bs : list Z) : list Z := flat_map (fun b => [lower_digit (b / 16); lower_digit (b mod 16); 32]) bs.
Definition printable (b : Z) : Prop := 33 <= b <= 122.

Lemma lower_digit_eq v : 0 <= v <= 15 -> nth (Z.to_nat v) hex_str 0 = lower_digit v.
Proof.
  intros Hv. assert (HI : In v [0;1;2;3;4;5;6;7;8;9;10;11;12;13;14;15]) by (cbn [In]; lia).
  cbn [In] in HI. repeat (destruct HI as [<-|HI]; [reflexivity|]). contradiction.
Qed.
Lemma put_at done todo c : put_char (done ++ repeat 0 (S todo), length done) c = Ret ((done ++ [c]) ++ repeat 0 todo, length (done ++ [c])).
Proof.
  unfold put_char. cbn [fst snd]. rewrite app_length, repeat_length. destruct (Nat.ltb_spec (length done) (length done + S todo)); [|lia].
  f_equal. f_equal; [|rewrite app_length; cbn [length]; lia].
  cbn [repeat]. rewrite <- app_assoc. cbn [app]. clear. induction done as [|x d IH]; [reflexivity|]. cbn [app length upd]. now rewrite IH.
Qed.
Lemma high_nibble c : byte_ok c -> Z.land (Z.shiftr c 4) 15 = c / 16.
Proof.
  unfold byte_ok. intros Hc. rewrite Z.shiftr_div_pow2 by lia. change (2 ^ 4) with 16.
  change 15 with (Z.ones 4). rewrite Z.land_ones by lia. change (2 ^ 4) with 16. apply Z.mod_small.
  split; [apply Z.div_pos; lia|apply Z.div_lt_upper_bound; lia].
Qed.
Lemma low_nibble c : Z.land c 15 = c mod 16.
Proof. change 15 with (Z.ones 4). now rewrite Z.land_ones by lia. Qed.
Lemma strhex_plain str : forall done todo, bytes_ok str -> (3 * length str <= todo)%nat ->
  strhex_loop str false (done ++ repeat 0 todo, length done)
  = Ret ((done ++ hex_dump str) ++ repeat 0 (todo - 3 * length str), length (done ++ hex_dump str)).
Proof.
  induction str as [|c str IH]; intros done todo HB HT; cbn [strhex_loop hex_dump flat_map].
  - rewrite app_nil_r. cbn [length]. now replace (todo - 3 * 0)%nat with todo by lia.
  - apply Forall_cons_iff in HB. destruct HB as [Hc HB]. cbn [andb].
    rewrite high_nibble, low_nibble by auto.
    assert (B1 : 0 <= c / 16 <= 15) by (unfold byte_ok in Hc; pose proof (Z.div_lt_upper_bound c 16 16); pose proof (Z.div_pos c 16); lia).
    assert (B2 : 0 <= c mod 16 <= 15) by (pose proof (Z.mod_pos_bound c 16); lia).
    rewrite !lower_digit_eq by auto. cbn [length] in HT.
    destruct todo as [|[|[|todo]]]; [lia|lia|lia|].
    rewrite put_at; cbn [obind]; rewrite put_at; cbn [obind]; rewrite put_at; cbn [obind].
    rewrite IH by (auto; lia). rewrite <- !app_assoc. cbn [app length]. f_equal. f_equal.
    f_equal. f_equal. f_equal. f_equal. f_equal. f_equal. lia.
Qed.
Lemma strhex_mixed str : forall done todo, bytes_ok str -> (3 * length str <= todo)%nat ->
  exists pre post, str = pre ++ post /\ Forall printable pre /\ (forall b t, post = b :: t -> ~ printable b) /\
  strhex_loop str true (done ++ repeat 0 todo, length done)
  = Ret ((done ++ pre ++ hex_dump post) ++ repeat 0 (todo - length pre - 3 * length post), length (done ++ pre ++ hex_dump post)).
Proof.
  induction str as [|c str IH]; intros done todo HB HT.
  - exists [], []. split; [reflexivity|]. split; [constructor|]. split; [discriminate|]. cbn [strhex_loop app hex_dump flat_map]. rewrite app_nil_r.
    cbn [length]. now replace (todo - 0 - 3 * 0)%nat with todo by lia.
  - destruct ((c >? 32) && (c <? 123)) eqn:E.
    + apply Forall_cons_iff in HB. destruct HB as [Hc HB]. cbn [strhex_loop]. rewrite E. cbn [andb].
      cbn [length] in HT. destruct todo as [|todo]; [lia|]. rewrite put_at. cbn [obind].
      destruct (IH (done ++ [c]) todo HB ltac:(lia)) as (pre & post & -> & HP & HN & EQ).
      exists (c :: pre), post. split; [reflexivity|]. split.
      { constructor; [|exact HP]. apply andb_true_iff in E. unfold printable. rewrite Z.gtb_lt, Z.ltb_lt in E. lia. }
      split; [exact HN|]. rewrite EQ. rewrite <- !app_assoc. cbn [app length]. reflexivity.
    + exists [], (c :: str). split; [reflexivity|]. split; [constructor|]. split.
      { intros b t [= <- <-] HP. unfold printable in HP. apply andb_false_iff in E. rewrite Z.gtb_ltb, !Z.ltb_ge in E. lia. }
      pose proof (strhex_plain (c :: str) done todo HB HT) as EQ. cbn [strhex_loop] in *. rewrite E. cbn [andb] in *. rewrite EQ.
      cbn [app length]. now replace (todo - 0 - 3 * S (length str))%nat with (todo - 3 * S (length str))%nat by lia.
Qed.
Lemma dump_length bs : length (hex_dump bs) = (3 * length bs)%nat.
Proof. unfold hex_dump. induction bs as [|b bs IH]; [reflexivity|]. cbn [flat_map app length]. rewrite IH. lia. Qed.
(** [sml_value_to_strhex] returns a block of 3 * length + 1 bytes that starts with
    the text and its terminator; being a result and not a fault, every write
    was inside the block. *)
Theorem C21_strhex type bs mixed : bytes_ok bs -> bs <> [] ->
  exists pre post block, bs = pre ++ post /\ Forall printable pre /\ (mixed = false -> pre = []) /\
    (mixed = true -> forall b t, post = b :: t -> ~ printable b) /\
    sml_value_to_strhex (Some (mkValue type (VBytes bs))) mixed = Ret (Some (block, length (pre ++ hex_dump post))) /\
    length block = (3 * length bs + 1)%nat /\ firstn (S (length (pre ++ hex_dump post))) block = pre ++ hex_dump post ++ [0].
Proof.
  intros HB HN. unfold sml_value_to_strhex. cbn [v_data]. destruct bs as [|b0 bs0] eqn:E0; [congruence|]. rewrite <- E0 in *. clear E0 HN b0 bs0.
  assert (HX : exists pre post, bs = pre ++ post /\ Forall printable pre /\ (mixed = false -> pre = []) /\
    (mixed = true -> forall b t, post = b :: t -> ~ printable b) /\
    strhex_loop bs mixed (repeat 0 (length bs * 3 + 1), O) = Ret ((pre ++ hex_dump post) ++ repeat 0 (length bs * 3 + 1 - length pre - 3 * length post), length (pre ++ hex_dump post))).
  { destruct mixed.
    - destruct (strhex_mixed bs [] (length bs * 3 + 1) HB ltac:(lia)) as (pre & post & E & HP & HN & EQ).
      exists pre, post. repeat (split; [auto; discriminate|]). exact EQ.
    - exists [], bs. split; [reflexivity|]. split; [constructor|]. split; [reflexivity|]. split; [discriminate|].
      pose proof (strhex_plain bs [] (length bs * 3 + 1) HB ltac:(lia)) as EQ. cbn [app length] in *. rewrite EQ.
      now replace (length bs * 3 + 1 - 0 - 3 * length bs)%nat with (length bs * 3 + 1 - 3 * length bs)%nat by lia. }
  destruct HX as (pre & post & E & HP & HF & HM & EQ). rewrite EQ. cbn [obind fst snd].
  assert (EL : length bs = (length pre + length post)%nat) by (rewrite E, app_length; reflexivity).
  assert (ET : length (pre ++ hex_dump post) = (length pre + 3 * length post)%nat) by (rewrite app_length, dump_length; reflexivity).
  destruct (length bs * 3 + 1 - length pre - 3 * length post)%nat as [|room] eqn:ER; [lia|].
  exists pre, post. eexists. split; [exact E|]. split; [exact HP|]. split; [exact HF|]. split; [exact HM|].
  assert (HW : (length (pre ++ hex_dump post) <? length ((pre ++ hex_dump post) ++ repeat 0%Z (S room)))%nat = true).
  { apply Nat.ltb_lt. rewrite (app_length (pre ++ hex_dump post)), repeat_length. lia. }
  rewrite HW. split; [reflexivity|].
  pose proof (put_at (pre ++ hex_dump post) room 0) as HQ. unfold put_char in HQ. cbn [fst snd] in HQ. rewrite HW in HQ. clear -EL ET ER HQ.
  apply (f_equal (fun o => match o with Ret (a, _) => a | _ => [] end)) in HQ. cbv beta iota in HQ. rewrite HQ. split.
  - rewrite !app_length, repeat_length, dump_length. cbn [length]. lia.
  - rewrite app_assoc. replace (S (length (pre ++ hex_dump post))) with (length ((pre ++ hex_dump post) ++ [0])) by (rewrite app_length; cbn [length]; lia).
    now rewrite firstn_app, Nat.sub_diag, firstn_O, app_nil_r, firstn_all.
Qed.
Print Assumptions C21_strhex.
Example C21_example : 
  sml_value_to_strhex (Some (mkValue 0 (VBytes [65; 1; 66]))) true = Ret (Some ([65; 48; 49; 32; 52; 50; 32; 0; 0; 0], 7%nat)) /\
  sml_value_to_strhex (Some (mkValue 0 (VBytes [65; 171]))) false = Ret (Some ([52; 49; 32; 97; 98; 32; 0], 6%nat)).
Proof. split; vm_compute; reflexivity. Qed.
