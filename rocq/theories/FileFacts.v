(** Facts about whole files, on top of Scan. *)
From Verif Require Import Base Buf Crc16 Number OctetString Boolean Value Time SList Tree Bodies
  Message File Lib Wf Safe Safe2 Safe3 Ctx Ctx2 Ctx3 Scan Spec TL Inv MinSize Reads CrcProof.

Lemma fits_app_r a b : fits (a ++ b) -> fits b.
Proof. unfold fits. rewrite app_length. lia. Qed.

Section WithHost.
Context {H : Host}.

Lemma one_min l m k : bytes_ok l -> fits l -> one l (Some m) k -> (9 <= k <= length l)%nat /\ (10 <= length l)%nat.
Proof.
  intros Hb Hf Ho. pose proof (one_len _ _ _ Hb Ho). destruct Ho as (s & E & Er & <-).
  pose proof (message_min _ _ _ (start_ok _ Hb) Hf eq_refl E Er) as HM. cbn in HM. unfold buffer_len in HM. cbn in HM. lia.
Qed.
Lemma scan_count l ms e : bytes_ok l -> fits l -> scan l ms e ->
  ms = [] \/ (9 * length ms + 1 <= length l)%nat.
Proof.
  intros Hb Hf HS. induction HS as [|l ms e HS IH|b l Hnz HF|b l m k ms e Hnz HO HS IH|b l k ms e Hnz HO HS IH]; auto.
  - destruct IH; auto. { now inv Hb. } { apply (fits_app_r [0]), Hf. } right. cbn. lia.
  - right. pose proof (one_min _ _ _ Hb Hf HO). destruct IH as [->|IH].
    + now apply Forall_skipn. + now apply fits_skipn. + cbn [length] in *. lia.
    + rewrite skipn_length in IH. cbn [length] in *. lia.
  - pose proof (one_len _ _ _ Hb HO). destruct IH as [->|IH]; auto.
    + now apply Forall_skipn. + now apply fits_skipn.
    + rewrite skipn_length in IH. lia.
Qed.

(** No fault below the bound. *)
Lemma file_parse_ret bytes : bytes_ok bytes -> Z.of_nat (length bytes) <= 294912 ->
  exists f, sml_file_parse bytes = Ret f /\ scan bytes (f_messages f) (error (f_buf f)).
Proof.
  intros Hb Hl. assert (Hf : fits bytes) by (unfold fits; lia).
  destruct (scan_total _ Hb Hf) as (ms & e & HS). pose proof (file_parse_scan _ _ _ Hb Hf HS) as HP.
  destruct (sml_file_parse bytes) as [f|f|].
  - exists f. destruct HP as (-> & -> & _). auto.
  - destruct HP as [_ HP]. destruct (scan_count _ _ _ Hb Hf HS) as [->|HC]; cbn in *; lia.
  - contradiction.
Qed.

(** a number of copies of an error-free text *)
Fixpoint copies {A} (n : nat) (l : list A) : list A := match n with O => [] | S n' => l ++ copies n' l end.
Lemma copies_length {A} n (l : list A) : length (copies n l) = (n * length l)%nat.
Proof. induction n; cbn; auto. rewrite app_length, IHn. lia. Qed.
Lemma copies_ok n l : bytes_ok l -> bytes_ok (copies n l).
Proof. intros Hl. induction n; cbn; [constructor|]. apply Forall_app. auto. Qed.

Lemma scan_copies msg m : bytes_ok msg -> hd 0 msg <> 0 -> (2 <= length msg)%nat ->
  one (msg ++ firstn 2 msg) (Some m) (length msg) -> one (msg ++ [0]) (Some m) (S (length msg)) ->
  forall n, fits (copies n msg ++ [0]) -> scan (copies n msg ++ [0]) (repeat m n) false.
Proof.
  intros Hb Hh Hl H1 H2. induction n as [|n IH]; intros Hf.
  - cbn. repeat constructor.
  - cbn [copies repeat] in *. rewrite <- app_assoc in *. pose proof (IH (fits_app_r _ _ Hf)) as HS.
    assert (Hall : bytes_ok (msg ++ copies n msg ++ [0])).
    { apply Forall_app. split; auto. apply Forall_app. split; [now apply copies_ok|]. repeat constructor; lia. }
    destruct n as [|n].
    + cbn [copies app repeat] in *. destruct msg as [|b msg]; [now cbn in Hl|]. cbn [app] in *.
      eapply scan_some; [exact Hh|exact H2|]. cbn [length]. rewrite skipn_cons.
      replace (S (length msg)) with (length (msg ++ [0])) by (rewrite app_length; cbn; lia).
      rewrite skipn_all. constructor.
    + assert (H3 : one (msg ++ copies (S n) msg ++ [0]) (Some m) (length msg)).
      { assert (E : msg ++ copies (S n) msg ++ [0] = (msg ++ firstn 2 msg) ++ skipn 2 msg ++ copies n msg ++ [0]).
        { cbn [copies]. rewrite <- !app_assoc. f_equal. rewrite (app_assoc (firstn 2 msg)), firstn_skipn. reflexivity. }
        rewrite E in *. now apply one_app. }
      remember (copies (S n) msg ++ [0]) as t eqn:Et. destruct msg as [|b msg]; [now cbn in Hl|].
      cbn [app] in *. eapply scan_some; [exact Hh|exact H3|]. cbn [length skipn].
      replace (skipn (length msg) (msg ++ t)) with t; auto.
      rewrite skipn_app, skipn_all, Nat.sub_diag. reflexivity.
Qed.

Lemma crc_bad_spec c bs : bytes_ok bs -> crc_bad c bs = false <->
  mem_u c = swap16 (crc16_x25 bs) \/ mem_u c = crc16_kermit bs.
Proof.
  intros Hb. unfold crc_bad. rewrite (x25_ok _ Hb), (kermit_ok _ Hb).
  destruct (Z.eqb_spec (mem_u c) (swap16 (crc16_x25 bs))), (Z.eqb_spec (mem_u c) (crc16_kermit bs)); cbn; split; intros; auto; try discriminate.
  destruct H0; contradiction.
Qed.

(** *** Where the messages of a file stand (C07) *)

(** [field] is the encoding of an unsigned integer of at most two bytes with the
    value [v]. *)
Definition crc_field (field : list Z) (v : Z) : Prop := exists tl data,
  field = tl ++ data /\ tl_field tl /\ tl_type tl = 96 /\
  (tl_nibbles tl < 2147483648 -> tl_length tl = Z.of_nat (length data)) /\
  (length data <= 2)%nat /\ be_unsigned data = v.

Lemma rest_split s n : rest s = firstn n (rest s) ++ skipn n (rest s).
Proof. symmetry. apply firstn_skipn. Qed.

Lemma message_parts l m k : bytes_ok l -> fits l -> one l (Some m) k ->
  exists body field post c, l = body ++ field ++ post /\ m_crc m = Some c /\
    crc_field field (mem_u c) /\ (mem_u c = swap16 (crc16_x25 body) \/ mem_u c = crc16_kermit body) /\
    post <> [] /\ (k = (length body + length field) + if (hd 0 post =? 0)%Z then 1 else 0)%nat.
Proof.
  intros Hb Hf (s' & E & Er & <-).
  pose proof (start_ok _ Hb) as Hs. 
  destruct (message_inv _ _ _ Hs Hf eq_refl E Er)
    as (ti & gi & ab & mb & s1 & c & s2 & Eh & Er1 & Hs1 & St1 & Ec & Er2 & St2 & Hfew & HR).
  destruct (crc_bad c _) eqn:Hbad; [destruct HR; discriminate|]. destruct HR as (Em & b & t & R2 & Mv).
  injection Em as ->. pose proof (mono_rest _ _ (mono_step _ _ St1)) as R1.
  pose proof (mono_small (start l) _ Hf (mono_step _ _ St1)) as Sm1. rewrite start_rest in *.
  set (n := (cursor s1 - cursor (start l))%nat) in *.
  destruct (number_inv SML_TYPE_UNSIGNED 2 s1 (Some c) s2) as [(? & _ & ? & _)|(tl & data & t2 & m & Rn & _ & Htl & Hty & Hdl & Hlen & _ & Em & Emm & Mv2)]; auto; try lia; try discriminate.
  injection Em as <-.
  exists (firstn n l), (tl ++ data), t2, c. split.
  { rewrite <- app_assoc, <- Rn, R1. symmetry. apply firstn_skipn. }
  split; [reflexivity|]. split.
  { exists tl, data. split; auto. split; auto. split; auto. split; [intros; symmetry; auto|]. split; [lia|].
    change (fill_byte SML_TYPE_UNSIGNED _) with 0 in Emm. rewrite Emm, mem_u_host, be_zeros. reflexivity. }
  split; [apply crc_bad_spec; auto; now apply Forall_firstn|].
  pose proof (moved_rest _ _ _ Mv2) as R2'. rewrite Rn, app_assoc in R2'.
  rewrite <- app_length, skipn_app, skipn_all, Nat.sub_diag in R2'. cbn in R2'. rewrite R2 in R2'. subst t2.
  split; [discriminate|]. cbn [hd]. destruct Mv as (_ & C & _). destruct Mv2 as (_ & C2 & _).
  rewrite firstn_length, app_length.
  pose proof (st_cur _ _ St1) as C1. rewrite C, C2. unfold buffer_len in C1. cbn in C1.
  unfold n. cbn [cursor start]. rewrite Nat.min_l by lia. lia.
Qed.

(** alone, the same bytes give the same message *)
Lemma one_alone l m k n : bytes_ok l -> fits l -> one l (Some m) k -> (k + 2 <= n)%nat ->
  one (firstn n l) (Some m) k.
Proof.
  intros Hb Hf (s' & E & Er & Ek) Hn.
  assert (Hf' : fits (firstn n l)) by (unfold fits in *; rewrite firstn_length; lia).
  assert (Hb' : bytes_ok (firstn n l)) by now apply Forall_firstn.
  destruct (message_ctx _ _ _ (start_ok _ Hb) Hf E Er (start (firstn n l)) (start_ok _ Hb') Hf' eq_refl) as (s2 & E2 & A2).
  { unfold fitting2. rewrite !start_rest, Ek. apply prefix_firstn_le. cbn. lia. }
  exists s2. split; auto. split; [apply A2|]. rewrite (ad_cur _ _ _ A2). cbn. lia.
Qed.
Lemma scan_short l ms e : bytes_ok l -> fits l -> scan l ms e -> (length l < 10)%nat -> ms = [].
Proof. intros Hb Hf HS Hl. destruct (scan_count _ _ _ Hb Hf HS) as [|HC]; auto. destruct ms; auto. cbn in HC. lia. Qed.

Lemma alone_scan l m k : bytes_ok l -> fits l -> hd 0 l <> 0 -> one l (Some m) k ->
  exists e, scan (firstn (k + 2) l) [m] e.
Proof.
  intros Hb Hf Hh Ho. pose proof (one_alone _ _ _ (k + 2) Hb Hf Ho (le_n _)) as H1.
  assert (Hb' : bytes_ok (firstn (k + 2) l)) by now apply Forall_firstn.
  assert (Hf' : fits (firstn (k + 2) l)) by (unfold fits in *; rewrite firstn_length; lia).
  destruct (scan_total (skipn k (firstn (k + 2) l))) as (ms & e & HS).
  { now apply Forall_skipn. } { now apply fits_skipn. }
  assert (ms = []) as ->.
  { eapply scan_short; [| |exact HS|]; [now apply Forall_skipn|now apply fits_skipn|].
    rewrite skipn_length, firstn_length. lia. }
  exists e. destruct l as [|b l]; [now cbn in Hh|]. rewrite Nat.add_comm in *. cbn [Nat.add firstn] in *.
  eapply scan_some; eauto.
Qed.

(** *** Messages with the usual crc field (C08) *)

Definition fields : Type := option octet_string * option mem * option mem * option sml_message_body.

(** [body] is everything of a message up to its crc field (0x63 is the TL byte of
    a two byte checksum): the list header with six elements, transaction id,
    group id, abort flag and message body, read without an error. *)
Definition head_of (body : list Z) (f : fields) : Prop := exists s,
  msg_head (start (body ++ [99])) = Ret (Some f, s) /\ error s = false /\ cursor s = length body.

Definition message_of (f : fields) (hi lo : Z) : sml_message :=
  let '(ti, gi, ab, mb) := f in mkMsg ti gi ab mb (Some (host_order [hi; lo])).

Lemma u16_reads hi lo : reads sml_u16_parse [99; hi; lo] (Some (host_order [hi; lo])).
Proof. apply (reads_number 96 2 [hi; lo]); cbn; auto; lia. Qed.

Lemma seg_one body f hi lo t : head_of body f -> 
  bytes_ok (body ++ [99; hi; lo; 0] ++ t) -> fits (body ++ [99; hi; lo; 0] ++ t) ->
  let bad := crc_bad (host_order [hi; lo]) body in
  one (body ++ [99; hi; lo; 0] ++ t) (if bad then None else Some (message_of f hi lo))
    (length body + if bad then 3 else 4).
Proof.
  intros (s1 & E1 & Er1 & C1) Hb Hf bad. set (l := body ++ [99; hi; lo; 0] ++ t) in *.
  assert (El : l = (body ++ [99]) ++ [hi; lo; 0] ++ t) by (unfold l; now rewrite <- app_assoc).
  assert (Hb1 : bytes_ok (body ++ [99])) by (rewrite El in Hb; apply Forall_app in Hb; tauto).
  assert (Hf1 : fits (body ++ [99])) by (rewrite El in Hf; eapply fits_app_l; eauto).
  pose proof (start_ok _ Hb1) as O1. pose proof (start_ok _ Hb) as O2.
  destruct (cx_head (length l) (start (body ++ [99])) _ s1 O1 Hf1 E1) as [M1 R1].
  destruct (R1 Er1 eq_refl (start l) O2 Hf eq_refl (le_n _)) as (s2 & E2 & A2).
  { unfold fitting. rewrite !start_rest. eapply prefix_trans; [apply prefix_firstn_self|]. rewrite El. apply prefix_app. }
  rewrite C1 in A2. cbn [cursor start] in A2. rewrite Nat.sub_0_r in A2.
  assert (R2 : rest s2 = [99; hi; lo] ++ 0 :: t).
  { rewrite (adv_rest _ _ _ A2), start_rest. unfold l. rewrite skipn_app, skipn_all, Nat.sub_diag. reflexivity. }
  assert (Hl2 : (length body <= length (rest (start l)))%nat) by (rewrite start_rest; unfold l; rewrite app_length; lia).
  pose proof (adv_ok _ _ _ O2 A2 Hl2) as O2'. pose proof (adv_small (start l) _ _ Hf A2) as S2.
  pose proof (ad_buf _ _ _ A2) as B2. pose proof (ad_cur _ _ _ A2) as C2. cbn [cursor start buffer] in B2, C2.
  destruct f as [[[ti gi] ab] mb].
  assert (HR : exists s', sml_message_parse (start l) = Ret (if bad then None else Some (message_of (ti, gi, ab, mb) hi lo), s') /\
    error s' = false /\ cursor s' = (length body + if bad then 3 else 4)%nat).
  { rewrite message_split. unfold bind at 1. rewrite E2. cbv zeta beta. unfold msg_tail. unfold bind at 1, cursor_int at 1.
    unfold bind at 1. rewrite few_ok by auto. rewrite R2. cbn [app length Nat.ltb Nat.leb].
    unfold bind at 1. rewrite (u16_reads hi lo s2 (0 :: t) R2) by (auto; try discriminate; apply A2).
    set (s3 := at_ s2 (length [99; hi; lo]) false). unfold bind at 1, sml_buf_has_errors.
    assert (Er3 : error s3 = false) by (cbn; apply A2). rewrite Er3.
    assert (R3 : rest s3 = 0 :: t) by (now apply at_app).
    unfold bind at 1. unfold buffer_slice at 1. cbn [cursor start]. change (wrap32 (Z.of_nat 0)) with 0.
    rewrite C2. cbn [Nat.add]. rewrite Z.sub_0_r. unfold fits in Hf.
    assert (Hlb : Z.of_nat (length body) < 2147483648) by (unfold l in Hf; rewrite app_length in Hf; lia).
    rewrite wrap32_ok by (unfold int_ok; lia). cbn [Z.ltb Z.compare].
    destruct (Z.ltb_spec (Z.of_nat (length body)) 0); [lia|]. rewrite Nat2Z.id. change (Z.to_nat 0) with 0%nat.
    assert (B3 : buffer s3 = l) by (cbn; exact B2).
    replace (0 + length body <=? buffer_len s3)%nat with true.
    2: { symmetry. apply Nat.leb_le. unfold buffer_len. rewrite B3. unfold l. rewrite app_length. lia. }
    cbn [skipn]. rewrite B3. unfold l at 1 2. rewrite firstn_app, firstn_all, Nat.sub_diag, firstn_O, app_nil_r.
    fold (crc_bad (host_order [hi; lo]) body). fold bad. destruct bad.
    - exists s3. split; [reflexivity|]. split; auto. unfold s3. cbn [at_ set_ovf set_cursor cursor length]. lia.
    - unfold bind at 1. rewrite (at_end_cons _ _ _ R3). unfold bind at 1. rewrite (current_cons _ _ _ R3).
      change (0 =? SML_MESSAGE_END) with true. cbv iota. unfold bind at 1. rewrite (update_eq 1).
      eexists. split; [reflexivity|]. split; [cbn; apply A2|]. unfold s3. cbn [at_ set_ovf set_cursor cursor length]. lia. }
  destruct HR as (s' & EM & Er & Ec). exists s'. auto.
Qed.

Lemma head_hd body f : bytes_ok body -> fits (body ++ [99]) -> head_of body f -> exists b l, body = b :: l /\ b <> 0.
Proof.
  intros Hb Hf (s & E & Er & C).
  assert (Hb' : bytes_ok (body ++ [99])) by (apply Forall_app; split; auto; repeat constructor; lia).
  pose proof (start_ok _ Hb') as Hs.
  pose proof (head_safeS _ Hs) as HW. unfold wp in HW. rewrite E in HW. destruct HW as [_ HW].
  destruct (HW Er _ eq_refl) as [HC _]. cbn in HC. rewrite C in HC.
  unfold msg_head in E. unfold expect_list in E. apply bind_inv in E. destruct E as (ty & s1 & E1 & E2).
  destruct body as [|b l]; [cbn in HC; lia|]. exists b, l. split; auto. intros ->.
  rewrite (next_type_eq (start ((0 :: l) ++ [99])) 0 (l ++ [99]) eq_refl) in E1. injection E1 as <- <-.
  discriminate E2.
Qed.

Lemma seg_scan body f hi lo t ms e : head_of body f -> 
  bytes_ok (body ++ [99; hi; lo; 0] ++ t) -> fits (body ++ [99; hi; lo; 0] ++ t) -> scan t ms e ->
  scan (body ++ [99; hi; lo; 0] ++ t)
    ((if crc_bad (host_order [hi; lo]) body then [] else [message_of f hi lo]) ++ ms) e.
Proof.
  intros Hh Hb Hf HS. pose proof (seg_one _ _ _ _ _ Hh Hb Hf) as HO. cbv zeta in HO.
  destruct (head_hd body f) as (b & l & Eb & Hnz); auto.
  { apply Forall_app in Hb; tauto. }
  { apply (fits_app_l _ ([hi; lo; 0] ++ t)). now rewrite <- app_assoc. }
  assert (Hsk : forall j, skipn (length body + j) (body ++ [99; hi; lo; 0] ++ t) = skipn j ([99; hi; lo; 0] ++ t)).
  { intros j. rewrite <- skipn_skipn_add, skipn_app, skipn_all, Nat.sub_diag. reflexivity. }
  destruct (crc_bad _ body) eqn:Bad.
  - cbn [app]. set (k := (length body + 3)%nat) in *. assert (HS2 : scan (skipn k (body ++ [99; hi; lo; 0] ++ t)) ms e).
    { unfold k. rewrite Hsk. cbn. now constructor. }
    rewrite Eb in *. cbn [app] in *. eapply scan_none; eauto.
  - cbn [app]. set (k := (length body + 4)%nat) in *. assert (HS2 : scan (skipn k (body ++ [99; hi; lo; 0] ++ t)) ms e).
    { unfold k. rewrite Hsk. cbn. auto. }
    rewrite Eb in *. cbn [app] in *. eapply scan_some; eauto.
Qed.
End WithHost.
