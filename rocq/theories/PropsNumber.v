(** Properties C10 - C14: integer fields. *)
From Verif Require Import Base Buf Number OctetString Boolean Value Lib Wf Ctx Scan Spec TL Inv Reads
  Write TLWrite TLRound NumFacts.

(** The eight integer types of the library: size, C functions, the type nibble
    of their TL field and the meaning of their memory and of their data bytes. *)
Record number_kind {H : Host} : Type := mkKind {
  k_signed : bool; k_size : nat;
  k_init : Z -> mem; k_write : option mem -> P unit; k_parse : P (option mem) }.
Definition number_kinds {H : Host} : list number_kind :=
  [ mkKind H false 1 sml_u8_init sml_u8_write sml_u8_parse;
    mkKind H false 2 sml_u16_init sml_u16_write sml_u16_parse;
    mkKind H false 4 sml_u32_init sml_u32_write sml_u32_parse;
    mkKind H false 8 sml_u64_init sml_u64_write sml_u64_parse;
    mkKind H true 1 sml_i8_init sml_i8_write sml_i8_parse;
    mkKind H true 2 sml_i16_init sml_i16_write sml_i16_parse;
    mkKind H true 4 sml_i32_init sml_i32_write sml_i32_parse;
    mkKind H true 8 sml_i64_init sml_i64_write sml_i64_parse ].
Definition tl_kind (signed : bool) : Z := if signed then 80 else 96.
Definition data_value (signed : bool) (data : list Z) : Z := if signed then be_signed data else be_unsigned data.
Definition mem_value {H : Host} (signed : bool) (m : mem) : Z := if signed then mem_i m else mem_u m.

Ltac kinds HK := cbn [In number_kinds] in HK; repeat (destruct HK as [<-|HK]; [|]); [..|contradiction].

Lemma kind_parse {H : Host} k : In k number_kinds ->
  k_parse k = sml_number_parse (tl_kind (k_signed k)) (Z.of_nat (k_size k)) /\ (1 <= k_size k <= 8)%nat.
Proof. intros HK. kinds HK; cbn; (split; [reflexivity|lia]). Qed.
Lemma kind_write {H : Host} k m : In k number_kinds ->
  k_write k m = sml_number_write m (tl_kind (k_signed k)) (Z.of_nat (k_size k)).
Proof. intros HK. kinds HK; reflexivity. Qed.
Lemma kind_init {H : Host} k v : In k number_kinds -> k_init k v = sml_number_init v (k_size k).
Proof. intros HK. kinds HK; reflexivity. Qed.
Lemma tl_kind_type signed : In (tl_kind signed) tl_types /\ tl_kind signed <> 0 /\ tl_kind signed <> 112 /\
  (tl_kind signed = 80 \/ tl_kind signed = 96).
Proof. destruct signed; cbn; (split; [tauto|]); repeat split; try lia; discriminate. Qed.
Lemma fill_value {H : Host} signed n b l : bytes_ok (b :: l) ->
  mem_value signed (host_order (repeat (fill_byte (tl_kind signed) b) n ++ b :: l)) = data_value signed (b :: l).
Proof.
  intros Hb. destruct signed; cbn [mem_value data_value tl_kind].
  - rewrite mem_i_host. now apply be_signed_fill.
  - rewrite mem_u_host. change (fill_byte 96 b) with 0. apply be_zeros.
Qed.

(** *** C10 *)
Theorem C10_integer_fields (H : Host) k pre tl data post :
  In k number_kinds ->
  tl_field tl -> tl_type tl = tl_kind (k_signed k) -> tl_length tl = Z.of_nat (length data) ->
  (1 <= length data <= k_size k)%nat ->
  bytes_ok (pre ++ tl ++ data ++ post) -> Z.of_nat (length (pre ++ tl ++ data ++ post)) < 2147483648 ->
  exists m s',
    k_parse k (mkBuf (pre ++ tl ++ data ++ post) (length pre) false false) = Ret (Some m, s') /\
    length m = k_size k /\ mem_value (k_signed k) m = data_value (k_signed k) data /\
    buffer s' = pre ++ tl ++ data ++ post /\ cursor s' = (length pre + length tl + length data)%nat /\
    error s' = false /\ ovf s' = false.
Proof.
  intros HK Ht Hty Hl Hd Hb Hs. destruct (kind_parse k HK) as [-> Hsz]. destruct (tl_kind_type (k_signed k)) as (_ & T0 & T112 & _).
  assert (Hnib : tl_nibbles tl < 2147483648).
  { unfold tl_length in Hl. rewrite Hty in Hl. destruct (Z.eqb_spec (tl_kind (k_signed k)) 112); [contradiction|].
    rewrite !app_length in Hs. lia. }
  set (s := mkBuf _ _ _ _).
  assert (R : rest s = tl ++ data ++ post) by (unfold rest, s; cbn [buffer cursor]; now rewrite skipn_app, skipn_all, Nat.sub_diag).
  destruct data as [|b data]; [cbn in Hd; lia|].
  rewrite (number_fwd (tl_kind (k_signed k)) _ s tl (b :: data) post) by
    (auto; try discriminate; try lia; apply tl_type_1; auto; congruence).
  cbn [app hd]. eexists _, _. split; [reflexivity|]. rewrite host_length, app_length, repeat_length.
  split; [cbn [length] in *; lia|].
  split. { apply fill_value. unfold bytes_ok in *. rewrite !Forall_app in Hb. tauto. }
  unfold at_, set_ovf, set_cursor, s. cbn [buffer cursor error ovf]. repeat split; auto. cbn [length app]. lia.
Qed.
Print Assumptions C10_integer_fields.
(** -2 in two bytes, read into eight *)
Example C10_example : exists m s', @sml_i64_parse LittleEndian (mkBuf ([9] ++ [83] ++ [255; 254] ++ [7]) 1 false false) = Ret (Some m, s')
  /\ @mem_i LittleEndian m = -2 /\ tl_field [83] /\ tl_type [83] = 80 /\ tl_length [83] = 2 /\
  data_value true [255; 254] = -2.
Proof.
  eexists _, _. split; [vm_compute; reflexivity|]. split; [vm_compute; reflexivity|].
  split; [exists [], 83; repeat split; auto; lia|]. repeat split.
Qed.

(** Every other field is refused, with the error flag: another type, more bytes
    than the variable has, a length that is no length, and bytes that are missing
    at the end of the buffer. *)
Theorem C10_other_fields_refused (H : Host) k pre tl post :
  In k number_kinds ->
  tl_field tl -> tl <> [1] -> tl_nibbles tl < 2147483648 ->
  tl_type tl <> tl_kind (k_signed k) \/ tl_length tl < 0 \/ Z.of_nat (k_size k) < tl_length tl \/
    Z.of_nat (length post) < tl_length tl \/ post = [] ->
  Z.of_nat (length (pre ++ tl ++ post)) < 2147483648 ->
  exists s',
    k_parse k (mkBuf (pre ++ tl ++ post) (length pre) false false) = Ret (None, s') /\ error s' = true.
Proof.
  intros HK Ht Hne Hnib HC Hs. destruct (kind_parse k HK) as [-> Hsz].
  set (s := mkBuf _ _ _ _).
  assert (R : rest s = tl ++ post) by (unfold rest, s; cbn [buffer cursor]; now rewrite skipn_app, skipn_all, Nat.sub_diag).
  assert (Hh : hd 0 tl <> 1).
  { destruct Ht as (init & last & -> & Hi & Hl). destruct init as [|b0 init]; [|inversion Hi; cbn; lia].
    cbn in *. intros ->. contradiction. }
  destruct (tl_hd _ Ht) as (b & l & El).
  assert (R0 : rest s = b :: l ++ post) by (rewrite R, El; reflexivity).
  unfold sml_number_parse. rewrite (unless_noskip _ _ _ _ R0) by (rewrite El in Hh; exact Hh).
  unfold bind at 1. rewrite (at_end_cons _ _ _ R0). unfold bind at 1. rewrite (type_fwd _ _ _ R Ht).
  destruct (Z.eqb_spec (tl_type tl) (tl_kind (k_signed k))) as [Ety|Nty]; cbn [negb]; [|eexists; split; reflexivity].
  unfold bind at 1. rewrite (length_fwd s tl post) by auto.
  destruct (Z.ltb_spec (tl_length tl) 0); [eexists; split; reflexivity|].
  destruct (Z.gtb_spec (tl_length tl) (Z.of_nat (k_size k))); [eexists; split; reflexivity|]. cbn [orb].
  set (s1 := at_ s (length tl) false). assert (R1 : rest s1 = post) by now apply at_app.
  pose proof (rest_length s1) as RL. rewrite R1 in RL.
  unfold bind at 1. destruct (Nat.ltb_spec (buffer_len s1) (cursor s1 + Z.to_nat (tl_length tl))); [eexists; split; reflexivity|].
  unfold bind at 1. assert (post = []) as ->.
  { destruct HC as [HC|[HC|[HC|[HC|HC]]]]; try congruence; exfalso; lia. }
  replace (at_end s1) with (Ret (true, s1)) by (symmetry; now apply at_end_nil).
  eexists; split; reflexivity.
Qed.
Print Assumptions C10_other_fields_refused.
(** three bytes for an 8-bit variable; a field of the other kind; a field cut off *)
Example C10_example_refused :
  (tl_field [100] /\ [100] <> [1] /\ tl_nibbles [100] < 2147483648 /\ 1 < tl_length [100]) /\
  (tl_field [82] /\ tl_type [82] <> tl_kind false) /\
  (tl_field [101] /\ Z.of_nat (length [7; 8]) < tl_length [101]).
Proof.
  assert (HT : forall b, 0 <= b < 128 -> tl_field [b]) by (intros b Hb; exists [], b; repeat split; auto; lia).
  repeat split; try (apply HT; lia); try discriminate.
Qed.

(** *** C11 *)
Theorem C11_next_byte_decides (H : Host) k pre b post :
  In k number_kinds -> k_signed k = true ->
  bytes_ok (pre ++ [81] ++ b :: post) -> Z.of_nat (length (pre ++ [81] ++ b :: post)) < 2147483648 ->
  exists m s', k_parse k (mkBuf (pre ++ [81] ++ b :: post) (length pre) false false) = Ret (Some m, s') /\
    mem_i m = (if 128 <=? b then -1 else 0) /\
    cursor s' = S (length pre) /\ error s' = false.
Proof.
  intros HK Hsg Hb Hs. destruct (kind_parse k HK) as [-> Hsz]. rewrite Hsg. cbn [tl_kind].
  set (s := mkBuf _ _ _ _).
  assert (R : rest s = [81] ++ [] ++ b :: post) by (unfold rest, s; cbn [buffer cursor]; now rewrite skipn_app, skipn_all, Nat.sub_diag).
  assert (Ht : tl_field [81]) by (exists [], 81; repeat split; auto; lia).
  rewrite (number_fwd 80 _ s [81] [] (b :: post)) by (auto; try discriminate; try reflexivity; cbn; lia).
  cbn [app hd length]. rewrite app_nil_r, Nat.sub_0_r, Nat2Z.id. eexists _, _. split; [reflexivity|].
  rewrite mem_i_host. split; [|split; [unfold at_, set_ovf, set_cursor, s; cbn [cursor]; lia|reflexivity]].
  assert (Bb : byte_ok b).
  { unfold bytes_ok in Hb. rewrite !Forall_app in Hb. destruct Hb as (_ & _ & Hb). now apply Forall_cons_iff in Hb. }
  unfold fill_byte. change (80 =? SML_TYPE_INTEGER) with true. cbn [andb]. rewrite land_128 by auto.
  assert (Hk : (k_size k = 1 \/ k_size k = 2 \/ k_size k = 4 \/ k_size k = 8)%nat) by (kinds HK; cbn; auto).
  destruct (128 <=? b); destruct Hk as [->|[->|[->| ->]]]; vm_compute; reflexivity.
Qed.
Print Assumptions C11_next_byte_decides.
(** "the value of a field depends on that field only" is false *)
Theorem C11_field_alone_decides_refuted : exists (H : Host) k post1 post2 m1 m2 s1 s2,
  In k number_kinds /\ length post1 = length post2 /\
  k_parse k (mkBuf ([81] ++ post1) 0 false false) = Ret (Some m1, s1) /\ error s1 = false /\ cursor s1 = 1%nat /\
  k_parse k (mkBuf ([81] ++ post2) 0 false false) = Ret (Some m2, s2) /\ error s2 = false /\ cursor s2 = 1%nat /\
  mem_value (k_signed k) m1 <> mem_value (k_signed k) m2.
Proof.
  exists LittleEndian, (@mkKind LittleEndian true 1 (@sml_i8_init LittleEndian) (@sml_i8_write LittleEndian) (@sml_i8_parse LittleEndian)), [0], [128].
  eexists _, _, _, _. split; [cbn; tauto|]. split; [reflexivity|].
  split; [vm_compute; reflexivity|]. split; [reflexivity|]. split; [reflexivity|].
  split; [vm_compute; reflexivity|]. split; [reflexivity|]. split; [reflexivity|]. vm_compute. discriminate.
Qed.
Print Assumptions C11_field_alone_decides_refuted.
Example C11_example : In (mkKind BigEndian true 4 (@sml_i32_init BigEndian) (@sml_i32_write BigEndian) (@sml_i32_parse BigEndian)) (@number_kinds BigEndian) /\
  bytes_ok ([5] ++ [81] ++ 200 :: [3]) /\ exists m s', @sml_i32_parse BigEndian (mkBuf ([5] ++ [81] ++ 200 :: [3]) 1 false false) = Ret (Some m, s')
  /\ @mem_i BigEndian m = -1.
Proof.
  split; [cbn; tauto|]. split; [repeat constructor; lia|]. eexists _, _. split; vm_compute; reflexivity.
Qed.

(** *** C12: whatever the buffer contained, and also at its very end *)
Theorem C12_integer_round_trip (H : Host) k v s :
  In k number_kinds -> bytes_ok (buffer s) -> error s = false -> Z.of_nat (buffer_len s) < 2147483648 ->
  (cursor s + 1 + k_size k <= buffer_len s)%nat ->
  exists s1 s2,
    k_write k (Some (k_init k v)) s = Ret (tt, s1) /\
    buffer s1 = firstn (cursor s) (buffer s)
                ++ ((tl_kind (k_signed k) + 1 + Z.of_nat (k_size k)) :: rev (le_bytes (k_size k) v))
                ++ skipn (cursor s + 1 + k_size k) (buffer s) /\
    cursor s1 = (cursor s + 1 + k_size k)%nat /\ error s1 = false /\
    k_parse k (set_cursor (cursor s) s1) = Ret (Some (k_init k v), s2) /\
    buffer s2 = buffer s1 /\ cursor s2 = cursor s1 /\ error s2 = false.
Proof.
  intros HK Hb He Hs Hr. destruct (kind_parse k HK) as [-> Hsz]. rewrite kind_write, kind_init by auto.
  destruct (tl_kind_type (k_signed k)) as (TT & T0 & T112 & T).
  set (n := k_size k) in *. set (type := tl_kind (k_signed k)) in *.
  rewrite init_host by lia.
  pose proof (writes_number true type (host_order (big_endian n v)) T (host_ok _ (big_ok n v))) as HW.
  rewrite host_length, big_length, host_twice in HW. specialize (HW ltac:(lia)).
  destruct (writes_any _ _ s HW Hb) as (o & E). { cbn [length app]. rewrite big_length. lia. }
  cbn [length app] in E. rewrite big_length in E. exists (mkBuf (written s (type + 1 + Z.of_nat n :: big_endian n v)) (cursor s + S n) (error s) o).
  set (s1 := mkBuf _ _ _ _) in *.
  assert (R : rest (set_cursor (cursor s) s1) = [type + 1 + Z.of_nat n] ++ big_endian n v ++ skipn (cursor s + 1 + n) (buffer s)).
  { unfold rest. cbn [cursor set_cursor]. unfold s1, set_cursor. cbn [buffer error ovf]. unfold buffer_len in Hr.
    pose proof (fun bs => written_rest s bs (cursor s) (error s) o ltac:(unfold buffer_len; lia) eq_refl) as W. cbn [buffer] in W.
    rewrite W. cbn [length]. rewrite big_length.
    replace (cursor s + 1 + n)%nat with (cursor s + S n)%nat by lia. reflexivity. }
  assert (Hwl : length (written s (type + 1 + Z.of_nat n :: big_endian n v)) = buffer_len s)
    by (apply written_length; cbn [length]; rewrite big_length; lia).
  assert (Sm : small (set_cursor (cursor s) s1)) by (unfold small, set_cursor, s1, buffer_len in *; cbn [buffer]; now rewrite Hwl).
  assert (TF : tl_field [type + 1 + Z.of_nat n] /\ tl_type [type + 1 + Z.of_nat n] = type /\
               tl_nibbles [type + 1 + Z.of_nat n] = Z.of_nat n + 1 /\ hd 0 [type + 1 + Z.of_nat n] <> 1).
  { assert (EC : count type (Z.of_nat n) = Z.of_nat n + 1) by (unfold count; destruct (Z.eqb_spec type 112); [contradiction|reflexivity]).
    assert (ET : tl_text type (Z.of_nat n) = [type + 1 + Z.of_nat n]) by (rewrite text_one by (auto; lia); f_equal; lia).
    rewrite <- ET. split; [now apply text_field|]. split; [now apply text_type|]. split.
    - rewrite text_nibbles, EC by (auto; rewrite ?EC; change (16 ^ 7) with 268435456; lia).
      assert (HX : crossing (Z.of_nat n + 1) = false).
      { destruct (crossing (Z.of_nat n + 1)) eqn:C; auto. apply crossing_iff in C; [|change (16 ^ 7) with 268435456; lia].
        destruct C as (j & Hj & C). assert (16 ^ 2 <= 16 ^ (j + 1)) by (apply Z.pow_le_mono_r; lia). change (16 ^ 2) with 256 in *. lia. }
      rewrite HX. cbn [extra]. destruct (Z.leb_spec (Z.of_nat n + 1) 15); [|lia]. cbn [Z.of_nat]. lia.
    - rewrite ET. cbn [hd]. lia. }
  destruct TF as (TF & TTy & TN & TH).
  pose proof (number_fwd type (Z.of_nat n) _ _ _ _ Sm R) as HF. rewrite big_length, Nat2Z.id, Nat.sub_diag in HF. cbn [repeat app] in HF.
  assert (Hne : big_endian n v ++ skipn (cursor s + 1 + n) (buffer s) <> []).
  { intros E0. apply (f_equal (@length Z)) in E0. rewrite app_length, big_length in E0. cbn in E0. lia. }
  specialize (HF Hne TF TH TTy). rewrite TN in HF. specialize (HF ltac:(lia)).
  assert (HLn : tl_length [type + 1 + Z.of_nat n] = Z.of_nat n).
  { unfold tl_length. rewrite TTy, TN. destruct (Z.eqb_spec type 112); [contradiction|]. cbn [length]. lia. }
  specialize (HF HLn ltac:(lia)).
  eexists. split; [exact E|]. split.
  { unfold s1. cbn [buffer]. unfold written. cbn [length]. rewrite big_length. replace (cursor s + 1 + n)%nat with (cursor s + S n)%nat by lia. reflexivity. }
  split; [unfold s1; cbn [cursor]; lia|]. split; [exact He|]. split; [exact HF|].
  split; [reflexivity|]. split; [unfold at_, set_ovf, set_cursor, s1; cbn [cursor length]; lia|exact He].
Qed.
Print Assumptions C12_integer_round_trip.
(** and the number created from a value of its type has that value *)
Theorem C12_created_value (H : Host) k v : In k number_kinds ->
  let w := 2 ^ (8 * Z.of_nat (k_size k)) in
  (if k_signed k then - w <= 2 * v < w else 0 <= v < w) ->
  length (k_init k v) = k_size k /\ mem_value (k_signed k) (k_init k v) = v.
Proof.
  intros HK w Hv. destruct (kind_parse k HK) as [_ Hsz]. unfold w in Hv. rewrite kind_init by auto.
  split; [apply init_length; lia|].
  destruct (k_signed k); cbn [mem_value]; rewrite pow256 in Hv.
  - apply init_i; lia.
  - rewrite init_u by lia. now apply Z.mod_small.
Qed.
Print Assumptions C12_created_value.
Example C12_example : exists s1 s2, let s := mkBuf [7; 255; 255; 255; 255; 255] 1 false false in
  @sml_i32_write LittleEndian (Some (@sml_i32_init LittleEndian (-3))) s = Ret (tt, s1) /\
  buffer s1 = [7; 85; 255; 255; 255; 253] /\
  @sml_i32_parse LittleEndian (set_cursor 1 s1) = Ret (Some [253; 255; 255; 255], s2) /\ @mem_i LittleEndian [253; 255; 255; 255] = -3.
Proof. eexists _, _. split; [vm_compute; reflexivity|]. split; [vm_compute; reflexivity|]. split; vm_compute; reflexivity. Qed.

(** *** C13, C14: values *)
Definition width (n : nat) : Z :=
  if (n <=? 1)%nat then 1 else if (n <=? 2)%nat then 2 else if (n <=? 4)%nat then 4 else if (n <=? 8)%nat then 8 else 16.
Lemma width_ok n : (1 <= n <= 14)%nat -> forall type s, type = 80 \/ type = 96 ->
  number_width (type + 1 + Z.of_nat n) s =
  Ret (width n, s).
Proof.
  intros Hn type s Ht. do 15 (destruct n as [|n]; [try lia; destruct Ht as [->| ->]; reflexivity|]). lia.
Qed.
Lemma width_range n : 1 <= width n <= 16 /\ ((n <= 14)%nat -> Z.of_nat n <= width n) /\ ((n <= 8)%nat -> width n <= 8).
Proof.
  unfold width.
  destruct (Nat.leb_spec n 1), (Nat.leb_spec n 2), (Nat.leb_spec n 4), (Nat.leb_spec n 8); lia.
Qed.
Lemma one_tl type n : type = 80 \/ type = 96 -> 0 <= n <= 14 ->
  let tl := [type + 1 + n] in
  tl_field tl /\ tl_type tl = type /\ tl_nibbles tl = n + 1 /\ tl_length tl = n /\ hd 0 tl <> 1.
Proof.
  intros Ht Hn tl. subst tl.
  assert (HA : forallb (fun ty => forallb (fun n => (tl_type [ty + 1 + Z.of_nat n] =? ty) && (tl_nibbles [ty + 1 + Z.of_nat n] =? Z.of_nat n + 1)) (seq 0 15)) [80; 96] = true)
    by reflexivity.
  rewrite forallb_forall in HA. specialize (HA type). rewrite forallb_forall in HA. 
  specialize (HA ltac:(cbn; lia) (Z.to_nat n) ltac:(apply in_seq; lia)). rewrite Z2Nat.id in HA by lia.
  rewrite andb_true_iff, !Z.eqb_eq in HA. destruct HA as [HA HB].
  split; [exists [], (type + 1 + n); repeat split; auto; lia|]. split; auto. split; auto. split.
  - unfold tl_length. rewrite HA, HB. destruct (Z.eqb_spec type 112); [lia|]. cbn [length]. lia.
  - cbn [hd]. lia.
Qed.
Lemma lor_width type n : type = 80 \/ type = 96 -> (n <= 14)%nat ->
  to_u8 (Z.lor (to_u8 type) (width n)) = if (n <=? 8)%nat then type + width n else if type =? 96 then 112 else 80.
Proof.
  intros Ht Hn. do 15 (destruct n as [|n]; [destruct Ht as [->| ->]; reflexivity|]). lia.
Qed.
Lemma value_number {H : Host} signed data t s :
  let type := tl_kind signed in let n := length data in
  small s -> error s = false -> rest s = [type + 1 + Z.of_nat n] ++ data ++ t -> (1 <= n <= 14)%nat ->
  exists m, m = host_order (repeat (fill_byte type (hd 0 data)) (Z.to_nat (width n) - n) ++ data) /\
    sml_value_parse s = Ret (Some (mkValue (to_u8 (Z.lor (to_u8 type) (width n))) (VNum m)), at_ s (S n) false) /\
    (signed = false -> sml_status_parse s = Ret (Some (mkStatus (to_u8 (Z.lor (to_u8 type) (width n))) (Some m)), at_ s (S n) false)).
Proof.
  intros type n Sm He R Hn. destruct (tl_kind_type signed) as (TT & T0 & T112 & T). fold type in TT, T0, T112, T.
  destruct (one_tl type (Z.of_nat n) T ltac:(lia)) as (TF & TTy & TN & TL & TH).
  pose proof (width_range n) as (W1 & W2 & _). specialize (W2 ltac:(lia)).
  assert (HN : data ++ t <> []) by (destruct data; [cbn in *; lia|discriminate]).
  assert (R0 := R). cbn [app] in R0.
  eexists. split; [reflexivity|].
  assert (HF := number_fwd type (width n) s [type + 1 + Z.of_nat n] data t Sm R HN TF TH TTy ltac:(lia) TL W2).
  assert (EH : hd 0 (data ++ t) = hd 0 data) by (destruct data; [cbn in *; lia|reflexivity]). rewrite EH in HF.
  cbn [length] in HF. rewrite Nat.add_1_l in HF. fold n in HF.
  assert (HW : number_width (type + 1 + Z.of_nat n) s = Ret (width n, s)) by now apply width_ok.
  split; [|intros ->; cbn [tl_kind] in *].
  - unfold sml_value_parse. rewrite (unless_noskip _ _ _ _ R0 TH). unfold bind at 1. rewrite (next_type_eq _ _ _ R0).
    replace ((type + 1 + Z.of_nat n) / 16 mod 8 * 16) with type by (symmetry; exact TTy).
    unfold bind at 1. rewrite (current_cons _ _ _ R0).
    replace (type =? SML_TYPE_OCTET_STRING) with false by (symmetry; now apply Z.eqb_neq).
    replace (type =? SML_TYPE_BOOLEAN) with false by (symmetry; apply Z.eqb_neq; change SML_TYPE_BOOLEAN with 64; lia).
    replace ((type =? SML_TYPE_UNSIGNED) || (type =? SML_TYPE_INTEGER)) with true by (destruct T as [->| ->]; reflexivity).
    unfold bind. rewrite HW, HF. unfold ret, sml_buf_has_errors. rewrite at_error, He. reflexivity.
  - unfold sml_status_parse. rewrite (unless_noskip _ _ _ _ R0 TH). unfold bind at 1. rewrite (next_type_eq _ _ _ R0).
    replace ((type + 1 + Z.of_nat n) / 16 mod 8 * 16) with type by (symmetry; exact TTy).
    unfold bind at 1. rewrite (current_cons _ _ _ R0). change (type =? SML_TYPE_UNSIGNED) with true. cbv iota.
    unfold bind. rewrite HW, HF. unfold ret, sml_buf_has_errors. rewrite at_error, He. reflexivity.
Qed.
Lemma start_rest pre l : rest (mkBuf (pre ++ l) (length pre) false false) = l.
Proof. unfold rest. cbn [buffer cursor]. now rewrite skipn_app, skipn_all, Nat.sub_diag. Qed.
(** the smallest power of two that is not less *)
Definition least_power (n w : Z) : Prop := (exists i, 0 <= i /\ w = 2 ^ i) /\ n <= w /\ (forall i, 0 <= i -> n <= 2 ^ i -> w <= 2 ^ i).
Lemma width_least n : (1 <= n <= 8)%nat -> least_power (Z.of_nat n) (width n).
Proof.
  intros Hn. assert (K : forall j, 0 <= j -> 2 ^ j < Z.of_nat n \/ j = 0 -> 
     forall w, w = (if Z.of_nat n <=? 2 ^ j then 2 ^ j else 2 ^ (j + 1)) -> forall i, 0 <= i -> Z.of_nat n <= 2 ^ i -> w <= 2 ^ i).
  { intros j Hj HL w -> i Hi HI. destruct HL as [HL| ->].
    - destruct (Z.leb_spec (Z.of_nat n) (2 ^ j)); [lia|]. apply Z.pow_le_mono_r; [lia|].
      assert (~ i <= j); [|lia]. intros Hij. assert (2 ^ i <= 2 ^ j) by (apply Z.pow_le_mono_r; lia). lia.
    - change (2 ^ 0) with 1. destruct (Z.leb_spec (Z.of_nat n) 1); [pose proof (Z.pow_pos_nonneg 2 i); lia|].
      change (2 ^ (0 + 1)) with (2 ^ 1). apply Z.pow_le_mono_r; [lia|]. assert (i <> 0); [|lia]. intros ->. change (2 ^ 0) with 1 in HI. lia. }
  unfold least_power.
  assert (Hw : width n = 1 \/ width n = 2 \/ width n = 4 \/ width n = 8)
    by (do 9 (destruct n as [|n]; [try lia; cbn; tauto|]); lia).
  split. { destruct Hw as [->|[->|[->| ->]]]; [exists 0|exists 1|exists 2|exists 3]; split; try lia; reflexivity. }
  split; [apply width_range; lia|].
  do 9 (destruct n as [|n]; [try lia; 
    (apply (K 0); [lia|right; reflexivity|reflexivity]) ||
    (apply (K 1); [lia|left; reflexivity|reflexivity]) || (apply (K 2); [lia|left; reflexivity|reflexivity])|]). lia.
Qed.

Theorem C13_value_width (H : Host) signed pre data post :
  let text := pre ++ [tl_kind signed + 1 + Z.of_nat (length data)] ++ data ++ post in
  (1 <= length data <= 8)%nat -> bytes_ok text -> Z.of_nat (length text) < 2147483648 ->
  exists w m s', least_power (Z.of_nat (length data)) w /\
    sml_value_parse (mkBuf text (length pre) false false) = Ret (Some (mkValue (tl_kind signed + w) (VNum m)), s') /\
    (signed = false ->
     sml_status_parse (mkBuf text (length pre) false false) = Ret (Some (mkStatus (tl_kind signed + w) (Some m)), s')) /\
    Z.of_nat (length m) = w /\ mem_value signed m = data_value signed data /\
    error s' = false /\ cursor s' = (length pre + 1 + length data)%nat.
Proof.
  intros text Hd Hb Hs. set (s := mkBuf text _ _ _).
  assert (R : rest s = [tl_kind signed + 1 + Z.of_nat (length data)] ++ data ++ post) by apply start_rest.
  destruct (value_number signed data post s Hs eq_refl R ltac:(lia)) as (m & Em & E1 & E2).
  destruct (tl_kind_type signed) as (_ & _ & _ & T). rewrite lor_width in * by (auto; lia).
  destruct (Nat.leb_spec (length data) 8); [|lia]. pose proof (width_range (length data)) as (W1 & W2 & _).
  exists (width (length data)), m, (at_ s (S (length data)) false).
  split; [now apply width_least|]. split; [exact E1|]. split; [exact E2|].
  split. { rewrite Em, host_length, app_length, repeat_length. lia. }
  split. { rewrite Em. destruct data as [|b data]; [cbn in Hd; lia|]. cbn [hd]. apply fill_value.
           unfold text, bytes_ok in Hb. rewrite !Forall_app in Hb. tauto. }
  split; [reflexivity|]. unfold at_, set_ovf, set_cursor, s. cbn [cursor]. lia.
Qed.
Print Assumptions C13_value_width.
Example C13_example : let text := [0] ++ [tl_kind true + 1 + 3] ++ [255; 0; 1] ++ [1] in
  bytes_ok text /\ data_value true [255; 0; 1] = -65535 /\ least_power 3 4.
Proof. split; [repeat constructor; cbn; lia|]. split; [reflexivity|]. apply (width_least 3). lia. Qed.
(** The width comes from the first TL byte: the same field with a two byte TL
    (which the number parsers accept) is rejected. *)
Theorem C13_long_tl_refuted (H : Host) : exists tl data s1 s2 m,
  tl_field tl /\ tl_type tl = 96 /\ tl_length tl = Z.of_nat (length data) /\ length data = 2%nat /\
  sml_u16_parse (mkBuf (tl ++ data) 0 false false) = Ret (Some m, s1) /\ error s1 = false /\
  sml_value_parse (mkBuf (tl ++ data) 0 false false) = Ret (None, s2) /\ error s2 = true.
Proof.
  destruct H; exists [224; 4], [1; 2]; eexists _, _, _; (split; [exists [224], 4; repeat split; auto; try lia; constructor; auto; lia|];
  split; [reflexivity|]; split; [reflexivity|]; split; [reflexivity|];
  split; [vm_compute; reflexivity|]; split; [reflexivity|]; split; [vm_compute; reflexivity|reflexivity]).
Qed.
Print Assumptions C13_long_tl_refuted.

(** *** C14 *)
Definition number_types : list Z := [81; 82; 84; 88; 97; 98; 100; 104].
Theorem C14_long_integers_refuted (H : Host) signed pre data post :
  let text := pre ++ [tl_kind signed + 1 + Z.of_nat (length data)] ++ data ++ post in
  (9 <= length data <= 14)%nat -> bytes_ok text -> Z.of_nat (length text) < 2147483648 ->
  exists v s', sml_value_parse (mkBuf text (length pre) false false) = Ret (Some v, s') /\
    error s' = false /\ cursor s' = (length pre + 1 + length data)%nat /\
    v_type v = (if signed then 80 else 112) /\ ~ In (v_type v) number_types /\
    (* what sml_value_write makes of it: an empty integer, or nothing at all *)
    forall w, bytes_ok (buffer w) -> (cursor w < buffer_len w)%nat ->
      exists o, sml_value_write (Some v) w =
        Ret (tt, if signed then mkBuf (upd (buffer w) (cursor w) 81) (S (cursor w)) (error w) o else w).
Proof.
  intros text Hd Hb Hs. set (s := mkBuf text _ _ _).
  assert (R : rest s = [tl_kind signed + 1 + Z.of_nat (length data)] ++ data ++ post) by apply start_rest.
  destruct (value_number signed data post s Hs eq_refl R ltac:(lia)) as (m & Em & E1 & _).
  destruct (tl_kind_type signed) as (_ & _ & _ & T). rewrite lor_width in * by (auto; lia).
  destruct (Nat.leb_spec (length data) 8); [lia|].
  eexists _, _. split; [exact E1|]. split; [reflexivity|].
  split; [unfold at_, set_ovf, set_cursor, s; cbn [cursor]; lia|].
  destruct signed; cbn [v_type tl_kind].
  - split; [reflexivity|]. split; [cbn; lia|]. intros w Bw Hw. change (80 =? 96) with false. cbv iota.
    unfold sml_value_write, write_opt. cbn [v_type v_data].
    change (Z.land 80 SML_TYPE_FIELD) with 80. change (Z.land 80 SML_LENGTH_FIELD) with 0.
    change (80 =? SML_TYPE_OCTET_STRING) with false. change (80 =? SML_TYPE_BOOLEAN) with false.
    change ((80 =? SML_TYPE_UNSIGNED) || (80 =? SML_TYPE_INTEGER)) with true. cbv iota.
    unfold as_num_sized. unfold bind at 1. unfold ret at 1.
    pose proof (writes_tl true 80 0) as HW. change (count 80 0) with 1 in HW.
    specialize (HW ltac:(cbn; tauto) ltac:(lia) ltac:(change (16 ^ 7) with 268435456; lia) ltac:(lia)).
    destruct (writes_any _ _ w HW Bw) as (o & E). { change (length (tl_text 80 0)) with 1%nat. lia. }
    exists o. unfold sml_number_write, write_opt. unfold bind at 1. rewrite E.
    change (Z.to_nat 0) with 0%nat. replace (length m <? 0)%nat with false by (symmetry; apply Nat.ltb_ge; lia).
    unfold bind at 1. unfold ret. cbn [firstn].
    replace (match sml_number_endian with BigEndian => [] | LittleEndian => sml_number_byte_swap [] end) with (@nil Z) by now destruct sml_number_endian.
    change (tl_text 80 0) with [81].
    unfold bind, write_current, buffer_len. cbn [length cursor buffer upds].
    replace (_ <=? _)%nat with true.
    2:{ symmetry. apply Nat.leb_le. pose proof (written_length w [81]) as L. rewrite L by (cbn [length]; lia). lia. }
    unfold sml_buf_update_bytes_read, set_buffer, set_cursor. cbn [Z.ltb Z.compare buffer cursor error ovf Z.to_nat].
    rewrite Nat.add_0_r, Nat.add_1_r. f_equal. f_equal. f_equal.
    unfold written. cbn [length app]. rewrite Nat.add_1_r. unfold buffer_len in Hw.
    clear - Hw. revert Hw. generalize (buffer w) (cursor w). intros l. induction l as [|x l IH]; intros n Hn; cbn [length] in Hn; [lia|].
    destruct n; cbn; [reflexivity|]. f_equal. apply IH. lia.
  - change (96 =? 96) with true. cbv iota. split; [reflexivity|]. split; [cbn; lia|]. intros w _ _. exists false. reflexivity.
Qed.
Print Assumptions C14_long_integers_refuted.
Example C14_example : let text := [] ++ [tl_kind false + 1 + 9] ++ repeat 7 9 ++ [1] in
  bytes_ok text /\ exists v s', @sml_value_parse LittleEndian (mkBuf text 0 false false) = Ret (Some v, s') /\ v_type v = 112.
Proof. split; [cbn; repeat (apply Forall_cons; [unfold byte_ok; lia|]); apply Forall_nil|]. eexists _, _. split; vm_compute; reflexivity. Qed.
