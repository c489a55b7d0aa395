(** Property C66: what the library writes is standard SML that says what was written.

    [message false] and [file false] (Grammar.v) are the standard.  They mention
    neither writers nor parsers; so a mistake that the writer and the parser share
    (and that a round trip does not show) is a mistake here. *)
From Verif Require Import Base Buf Crc16 Number OctetString Boolean Value Time SList Tree Bodies Message File
  Lib Wf Safe Ctx Ctx2 Ctx3 Spec TL Inv CrcProof Reads Write TLWrite TLRound NumFacts PropsString Item Enc Dzg Round Round2 Round3 PropsRound
  FileFacts PropsParse Scan Grammar Accept9 Speak PropsGrammar.

(** The messages of C25 (their fields have the C types, no element is one the
    library writes wrongly) whose body is one of the standard. *)
Definition speakable (H : Host) (m : sml_message) : Prop := round_trippable m /\ known m.
(** The same message but for the checksum. *)
Definition same_content (m m' : sml_message) : Prop :=
  m_transaction_id m' = m_transaction_id m /\ m_group_id m' = m_group_id m /\ m_abort_on_error m' = m_abort_on_error m /\ m_message_body m' = m_message_body m.

(** Written anywhere in a buffer whose memory was zero there: the bytes written are
    the message, with its checksum, whatever follows. *)
Theorem C66_message_written (H : Host) m pre n post e o t :
  speakable H m -> n = length (message_bytes m) -> bytes_ok (pre ++ post) -> Z.of_nat (length pre + n + length post) < 2147483648 ->
  exists m' out s, sml_message_write m (mkBuf (pre ++ repeat 0 n ++ post) (length pre) e o) = Ret (m', s) /\
    buffer s = pre ++ out ++ post /\ cursor s = (length pre + length out)%nat /\ error s = e /\
    same_content m m' /\ message false m' out t.
Proof.
  intros ((W & Rd & St) & HK) -> HB HL. pose proof (mwrites_message false m W (readable_sizes _ Rd)) as HM.
  assert (HB' : bytes_ok (pre ++ repeat 0 (length (message_bytes m)) ++ post)).
  { unfold bytes_ok in *. rewrite !Forall_app in *. split; [tauto|]. split; [|tauto]. apply Forall_forall. intros x Hx. apply repeat_spec in Hx. unfold byte_ok. lia. }
  destruct (proj1 (HM pre (repeat 0 (length (message_bytes m))) post e o HB' ltac:(rewrite !app_length, repeat_length; lia)) (repeat_length _ _))
    as (out & v & o' & E & Lo & Bo & Z). destruct Z as [-> ->]; [now right|].
  eexists (sealed m), (message_bytes m), _. split; [exact E|]. do 3 (split; [reflexivity|]). split; [repeat split|]. apply says_message; [exact (conj W (conj Rd St))|exact HK].
Qed.
Print Assumptions C66_message_written.
(** Hence it is the only thing a reader of the standard can take the bytes for. *)
Theorem C66_only_reading (H : Host) m pre n post e o t m2 out2 t2 :
  speakable H m -> n = length (message_bytes m) -> bytes_ok (pre ++ post) -> Z.of_nat (length pre + n + length post) < 2147483648 ->
  bytes_ok t -> Z.of_nat (n + length t) < 2147483648 ->
  exists m' out s, sml_message_write m (mkBuf (pre ++ repeat 0 n ++ post) (length pre) e o) = Ret (m', s) /\
    buffer s = pre ++ out ++ post /\ cursor s = (length pre + length out)%nat /\ same_content m m' /\
    (out ++ t = out2 ++ t2 -> message false m2 out2 t2 -> m2 = m' /\ out2 = out).
Proof.
  intros HS Hn HB HL Ht HLt. destruct (C66_message_written H m pre n post e o t HS Hn HB HL) as (m' & out & s & E & EB & EC & _ & ES & X).
  exists m', out, s. do 4 (split; [assumption|]). intros ET X2.
  assert (Lo : length out = n /\ bytes_ok out).
  { destruct HS as ((W & Rd & St) & HK). pose proof (mwrites_message false m W (readable_sizes _ Rd)) as HM.
    assert (HB' : bytes_ok (pre ++ repeat 0 (length (message_bytes m)) ++ post)).
    { unfold bytes_ok in *. rewrite !Forall_app in *. split; [tauto|]. split; [|tauto]. apply Forall_forall. intros x Hx. apply repeat_spec in Hx. unfold byte_ok. lia. }
    destruct (proj1 (HM pre (repeat 0 (length (message_bytes m))) post e o HB' ltac:(rewrite !app_length, repeat_length; lia)) (repeat_length _ _))
      as (out1 & v & o' & E1 & Lo & Bo & _). rewrite <- Hn in E1. rewrite E in E1. injection E1 as -> ->. cbn [buffer] in EB.
    apply app_inv_head in EB. apply app_inv_tail in EB. subst out1. split; [congruence|exact Bo]. }
  destruct Lo as [Lo Bo].
  destruct (C65_unambiguous H m' m2 out out2 t t2) as (-> & -> & _); auto.
  - now apply Forall_app.
  - rewrite app_length. lia.
  - now apply sub_message.
  - now apply sub_message.
Qed.
Print Assumptions C66_only_reading.

(** Files: the messages one after the other; the rest of the zeroed buffer is fill
    bytes. *)
Lemma file_of (H : Host) l k t : Forall (speakable H) l -> file false (map sealed l) (flat_map message_bytes l ++ repeat 0 k) t.
Proof.
  induction 1 as [|m l [HR HK] _ IH]; cbn [map flat_map app].
  - induction k as [|k IH]; cbn [repeat]; [apply file_end|now apply file_fill].
  - rewrite <- app_assoc. apply file_message; [now apply says_message|exact IH].
Qed.
Theorem C66_file_written (H : Host) l n k : Forall (speakable H) l -> (length (flat_map message_bytes l) + k <= n)%nat -> Z.of_nat n < 2147483648 ->
  exists f, sml_file_write (mkFile l (sml_buffer_init n)) = Ret f /\
    Forall2 same_content l (f_messages f) /\
    file false (f_messages f) (firstn (cursor (f_buf f) + k) (buffer (f_buf f))) [].
Proof.
  intros HA Hn Hs. set (bs := flat_map message_bytes l) in *.
  assert (HW : Forall writable l) by (eapply Forall_impl; [|exact HA]; intros m [Hm _]; apply Hm).
  assert (HS : Forall (fun m => Forall (every (size_ok false)) (message_items m)) l) by (eapply Forall_impl; [|exact HA]; intros m [Hm _]; apply readable_sizes, Hm).
  assert (HB : bytes_ok ([] ++ repeat 0 (length bs) ++ repeat 0 (n - length bs))).
  { cbn [app]. rewrite <- repeat_app. apply Forall_forall. intros x Hx. apply repeat_spec in Hx. unfold byte_ok. lia. }
  destruct (proj1 (mwrites_messages false l HW HS [] (repeat 0 (length bs)) (repeat 0 (n - length bs)) false false HB ltac:(rewrite !app_length, !repeat_length; cbn [length]; lia)) (repeat_length _ _))
    as (out & v & o' & E & Lo & Bo & Z). fold bs in E, Z. destruct Z as [-> ->]; [now right|].
  assert (E0 : write_messages l (sml_buffer_init n) = Ret (map sealed l, mkBuf ([] ++ bs ++ repeat 0 (n - length bs)) (length (@nil Z) + length bs) false o')).
  { rewrite <- E. unfold sml_buffer_init. cbn [app length]. rewrite <- repeat_app. do 3 f_equal. lia. }
  eexists. unfold sml_file_write. cbn [f_messages f_buf]. rewrite E0.
  cbn [app length Nat.add cursor buffer f_buf f_messages]. split; [reflexivity|]. split.
  - clear. induction l as [|m l IH]; cbn [map]; constructor; [repeat split|exact IH].
  - cbn [f_buf cursor buffer]. replace (firstn (length bs + k) (bs ++ repeat 0 (n - length bs))) with (bs ++ repeat 0 k).
    + now apply file_of.
    + rewrite firstn_app. rewrite firstn_all2 by lia. replace (length bs + k - length bs)%nat with k by lia.
      f_equal. replace (n - length bs)%nat with (k + (n - length bs - k))%nat by lia. rewrite repeat_app, firstn_app, repeat_length, Nat.sub_diag, firstn_O, app_nil_r.
      symmetry. apply firstn_all2. rewrite repeat_length. lia.
Qed.
Print Assumptions C66_file_written.

(** Examples: these messages are written as standard SML. *)
Example C66_example_list : speakable LittleEndian (sample_list LittleEndian).
Proof. split; [apply sample_list_ok|]. intros b E. injection E as <-. discriminate. Qed.
Example C66_example_tree : speakable BigEndian (sample_tree BigEndian).
Proof. split; [apply sample_tree_ok|]. intros b E. injection E as <-. discriminate. Qed.
Example C66_example_bytes : let H : Host := LittleEndian in
  match sml_file_write (mkFile [sample_list H; sample_list H] (sml_buffer_init 600)) with
  | Ret f => file false (f_messages f) (firstn (cursor (f_buf f) + 3) (buffer (f_buf f))) [] /\ length (f_messages f) = 2%nat /\ cursor (f_buf f) = 260%nat
  | _ => False end.
Proof.
  intros H. destruct (C66_file_written H [sample_list H; sample_list H] 600 3) as (f & E & HF & X).
  - apply Forall_cons; [|apply Forall_cons; [|apply Forall_nil]]; apply C66_example_list.
  - vm_compute. lia.
  - cbn. lia.
  - rewrite E. split; [exact X|]. split; [now inversion HF as [|? ? ? ? _ HF1]; subst; inversion HF1 as [|? ? ? ? _ HF2]; subst; inversion HF2|].
    assert (EC : match sml_file_write (mkFile [sample_list H; sample_list H] (sml_buffer_init 600)) with Ret g => cursor (f_buf g) = 260%nat | _ => False end) by (vm_compute; reflexivity).
    now rewrite E in EC.
Qed.

(** The body must be one of the standard: a message with an unknown tag is read back
    (C25), but it is not standard SML. *)
Definition unknown_body (H : Host) : sml_message :=
  mkMsg (Some [1; 2]) (Some (u8 0)) (Some (u8 0)) (Some (mkBody (Some (sml_u32_init 999)) BNull)) None.
Theorem C66_unknown_body_refuted (H : Host) : exists m m' s, round_trippable m /\ sml_message_write m (sml_buffer_init 30) = Ret (m', s) /\
  forall m2, ~ message false m2 (firstn (cursor s) (buffer s)) [].
Proof.
  exists (unknown_body H).
  assert (HR : round_trippable (unknown_body H)).
  { unfold unknown_body. split; [constructor; [wfs..|]; eexists; split; [reflexivity|]; eexists; split; [reflexivity|]; split|split].
    - destruct H; wfs.
    - cbn [mb_data wf_body_data]. replace (mem_u (sml_u32_init 999)) with 999 by (destruct H; reflexivity). cbn [In]. lia.
    - apply all_readable. destruct H; vm_compute; reflexivity.
    - exact I. }
  assert (X : match sml_message_write (unknown_body H) (sml_buffer_init 30) with
    | Ret (m', s) => match sml_message_parse (start (firstn (cursor s) (buffer s))) with
                     | Ret (Some m, s') => m_message_body m = Some (mkBody (Some (sml_u32_init 999)) BNull) /\ s' = mkBuf (firstn (cursor s) (buffer s)) 18 false false /\
                         length (firstn (cursor s) (buffer s)) = 18%nat /\ forallb (fun b => (0 <=? b) && (b <? 256)) (firstn (cursor s) (buffer s)) = true
                     | _ => False end
    | _ => False end) by (destruct H; vm_compute; auto).
  destruct (sml_message_write (unknown_body H) (sml_buffer_init 30)) as [[m' s]| |] eqn:EW; try contradiction. exists m', s. split; [exact HR|]. split; [reflexivity|].
  set (bytes := firstn (cursor s) (buffer s)) in *. clearbody bytes.
  destruct (sml_message_parse (start bytes)) as [[[m|] s']| |] eqn:E; try contradiction. destruct X as (EB & -> & EL & HF).
  assert (HB : bytes_ok ([] ++ bytes)).
  { apply Forall_forall. intros x Hx. rewrite forallb_forall in HF. specialize (HF x Hx). unfold byte_ok. lia. }
  assert (HL : Z.of_nat (length ([] ++ bytes)) < 2147483648) by (cbn [app]; rewrite EL; lia).
  intros m2 X2.
  pose proof (C65_standard_message H [] m2 bytes [] ltac:(rewrite app_nil_r; exact HB) ltac:(rewrite app_nil_r; exact HL) X2) as EP.
  rewrite app_nil_r in EP. cbn [app length] in EP. unfold start in E. rewrite E in EP. injection EP as <- _.
  destruct X2 as (tl & b & cb & e & c & _ & _ & (x1 & x2 & _ & _ & x3 & x4 & _ & _ & x5 & x6 & _ & _ & x7 & x8 & _ & B & _) & _). rewrite EB in B.
  destruct B as [(m3 & d & (y1 & y2 & _ & _ & z1 & z2 & _ & _ & z3 & z4 & _ & C & _) & B)|[B _]]; [|discriminate]. injection B as _ <-.
  repeat (destruct C as [(_ & w & _ & C)|C]; [discriminate|]). destruct C as (C & _). discriminate.
Qed.
Print Assumptions C66_unknown_body_refuted.
