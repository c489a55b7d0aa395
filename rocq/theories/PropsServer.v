(** Messages without a body (C31) and the example receiver (C48-C50). *)
From Coq Require Import SpecFloat.
From Verif Require Import Base Buf Crc16 Number OctetString Boolean Value Time SList Tree Bodies Message File Server
  Lib Wf Safe Safe2 Safe3 Ctx MinSize Spec TL Reads Write PropsString Item Enc Dzg Round Round2 Round3 PropsRound.

(** ** C31 *)
(** A message whose body is a list of two elements that is over after the
    skipped tag; [seal] is the checksum field and the end byte. *)
Definition bodiless (H : Host) (tid : option octet_string) (gid ab : option mem) : list Z :=
  [118] ++ enc (oct_item tid) ++ enc (num_item 96 gid) ++ enc (num_item 96 ab) ++ [114; 1].
Definition framed (payload : list Z) : list Z := [27; 27; 27; 27; 1; 1; 1; 1] ++ payload ++ [27; 27; 27; 27; 26; 0; 0; 0].
Lemma framed_receiver (H : Host) payload : transport_receiver (framed payload) =
  obind (sml_file_parse payload) (fun f => receive_messages (f_messages f)).
Proof.
  unfold transport_receiver. assert (HL : length (framed payload) = (length payload + 16)%nat) by (unfold framed; rewrite !app_length; cbn [length]; lia).
  rewrite HL. destruct (Nat.ltb_spec (length payload + 16) 16); [lia|]. replace (length payload + 16 - 16)%nat with (length payload) by lia.
  replace (firstn (length payload) (skipn 8 (framed payload))) with payload; [reflexivity|].
  unfold framed. cbn [app skipn]. rewrite firstn_app, Nat.sub_diag, firstn_O, app_nil_r, firstn_all. reflexivity.
Qed.
Lemma reads_no_body (H : Host) : reads sml_message_body_parse [114; 1] None.
Proof.
  assert (HP : reads (expect_list 2 (field sml_u32_parse (fun tag => match tag with
      | None => ret None | Some m => bind (body_data_parse (mem_u m)) (fun d => ret (Some (mkBody tag d))) end))) ([112 + 2] ++ [1]) None).
  { apply reads_expect; [lia|]. change [1] with ([1] ++ [] : list Z). apply reads_fld with (v := None); [exact (reads_u32 None I)|apply reads_ret]. }
  intros s t R Hu He Sm. unfold sml_message_body_parse. unfold bind at 1. rewrite (at_end_cons s 114 (1 :: t) R). exact (HP s t R Hu He Sm).
Qed.
Theorem C31_null_body (H : Host) tid gid ab : every readable (oct_item tid) -> opt (wf_num 1) gid -> opt (wf_num 1) ab ->
  Z.of_nat (length (bodiless H tid gid ab)) + 4 < 2147483648 ->
  let bytes := bodiless H tid gid ab ++ seal (bodiless H tid gid ab) in
  exists f m, sml_file_parse bytes = Ret f /\ error (f_buf f) = false /\ f_messages f = [m] /\
    m_transaction_id m = tid /\ m_group_id m = gid /\ m_abort_on_error m = ab /\ m_message_body m = None /\
    sml_file_print f = Fault NullDeref /\ transport_receiver (framed bytes) = Fault NullDeref.
Proof.
  intros HO Hg Ha HL bytes. set (s := mkBuf bytes 0 false false).
  assert (LB : length bytes = (length (bodiless H tid gid ab) + 4)%nat) by (unfold bytes; rewrite app_length, seal_length; reflexivity).
  assert (R : rest s = bytes ++ []) by (rewrite app_nil_r; reflexivity).
  assert (Sm : small s) by (unfold small, buffer_len, s; cbn [buffer]; lia).
  pose proof (message_fwd_gen tid gid ab [114; 1] None s [] HO Hg Ha (reads_no_body H) R eq_refl Sm) as E.
  set (m := mkMsg tid gid ab None _) in E. set (s1 := at_ s _ _) in E.
  assert (R1 : rest s1 = []) by (apply at_app with (bs := bytes) (t := []); exact R).
  assert (EF : sml_file_parse bytes = Ret (mkFile [m] s1)).
  { unfold sml_file_parse. fold s. rewrite LB. set (n := length (bodiless H tid gid ab)). cbn [file_loop].
    assert (R0 : exists t, rest s = 118 :: t) by (rewrite R; unfold bytes, bodiless; eexists; reflexivity). destruct R0 as (t & R0).
    unfold bind at 1. rewrite (at_end_cons _ _ _ R0). unfold bind at 1. rewrite (current_cons _ _ _ R0). change (118 =? SML_MESSAGE_END) with false. cbv iota.
    unfold bind at 1. rewrite E. unfold bind at 1, sml_buf_has_errors. change (error s1) with false. cbv iota.
    unfold bind at 1, sml_file_add_message. change (Z.of_nat (length (@nil sml_message)) + 1 <=? 32767) with true. cbv iota. unfold ret at 1. cbn [app].
    replace (n + 4)%nat with (S (n + 3)) by lia. cbn [file_loop]. unfold bind at 1. rewrite (at_end_nil _ R1). reflexivity. }
  exists (mkFile [m] s1), m. split; [exact EF|]. split; [reflexivity|]. repeat split. rewrite framed_receiver, EF. reflexivity.
Qed.
Print Assumptions C31_null_body.
Example C31_example : let H : Host := LittleEndian in every readable (oct_item (Some [1; 2])) /\
  bodiless H (Some [1; 2]) (Some [0]) (Some [0]) = [118; 3; 1; 2; 98; 0; 98; 0; 114; 1] /\
  transport_receiver (framed ([118; 3; 1; 2; 98; 0; 98; 0; 114; 1] ++ seal [118; 3; 1; 2; 98; 0; 98; 0; 114; 1])) = Fault NullDeref.
Proof. intros H. split; [pose proof (all_readable [oct_item (Some [1; 2])] eq_refl) as HA; now inversion HA|]. vm_compute. auto. Qed.

(** ** C48, C49 *)
Definition has_name (e : list_entry) : Prop := exists n, le_obj_name e = Some n /\ (6 <= length n)%nat.
(** What the receiver needs of an entry: a value is shown (unless its type is the
    one of integers of 9 bytes and more, C14) with the first six bytes of the
    name; an octet string must not be empty. *)
Definition showable (e : list_entry) : Prop := match le_value e with
  | None => True
  | Some v => v_type v = 112 \/ (has_name e /\ v <> mkValue 0 (VBytes []))
  end.
(** What is shown of it. *)
Inductive shows (H : Host) : list_entry -> list line -> Prop :=
| shows_no_value e : le_value e = None -> shows H e []
| shows_long_integer e v : le_value e = Some v -> v_type v = 112 -> shows H e []
| shows_text e n bs pre post : le_obj_name e = Some n -> le_value e = Some (mkValue 0 (VBytes bs)) ->
    bs = pre ++ post -> Forall printable pre -> (forall b t, post = b :: t -> ~ printable b) ->
    shows H e [LStr (firstn 6 n) (pre ++ hex_dump post)]
| shows_bool e n b : le_obj_name e = Some n -> le_value e = Some (mkValue 64 (VBool b)) -> shows H e [LBool (firstn 6 n) true]
| shows_number e n v d unit : le_obj_name e = Some n -> le_value e = Some v -> (80 <= v_type v < 112) ->
    sml_value_to_double (Some v) = Ret d ->
    unit = match le_unit e with None => None | Some u => match find (fun p => fst p =? mem_u u) (removelast dlms_units) with Some p => Some (snd p) | None => None end end ->
    shows H e [LNum (firstn 6 n) d (match le_scaler e with None => 0 | Some m => mem_i m end) unit].
Lemma unit_found tab u : forall code, tab <> [] -> Forall (fun p => fst p <> 0) tab ->
  unit_search (tab ++ [(0, u)]) code = Ret (match find (fun p => fst p =? code) tab with Some p => Some (snd p) | None => None end).
Proof.
  induction tab as [|[c x] tab IH]; intros code HN HZ; [congruence|]. inversion HZ as [|? ? HC HT]; subst. cbn [fst] in HC.
  cbn [app unit_search find fst]. destruct (c =? code); [reflexivity|]. destruct tab as [|[c' x'] tab]; [reflexivity|].
  rewrite <- IH by (auto; discriminate). inversion HT as [|? ? HC' _]; subst. cbn [fst] in HC'. cbn [app]. destruct (Z.eqb_spec c' 0); [lia|]. reflexivity.
Qed.
Lemma get_unit code : dlms_get_unit code = Ret (match find (fun p => fst p =? code) (removelast dlms_units) with Some p => Some (snd p) | None => None end).
Proof.
  unfold dlms_get_unit. change dlms_units with (removelast dlms_units ++ [(0, [])]) at 1. apply unit_found; [discriminate|].
  apply Forall_forall. intros p HI. assert (HB : forallb (fun p => negb (fst p =? 0)) (removelast dlms_units) = true) by reflexivity.
  rewrite forallb_forall in HB. specialize (HB p HI). destruct (Z.eqb_spec (fst p) 0); [discriminate|auto].
Qed.
Section Entry.
Context {H : Host}.
Lemma to_double_ok v : wf_entry_value v -> exists d, sml_value_to_double (Some v) = Ret d.
Proof.
  assert (K : forall t m, wf_num (Z.to_nat (t mod 16)) m -> In t [81; 82; 84; 88; 97; 98; 100; 104] -> exists d, sml_value_to_double (Some (mkValue t (VNum m))) = Ret d).
  { intros t m [HL _] HI. cbn [In] in HI. unfold sml_value_to_double, num_to_double, deref_num. cbn [v_type v_data].
    repeat (destruct HI as [<-|HI]; [cbn in HL; rewrite HL; cbn; eexists; reflexivity|]). contradiction. }
  intros [HV|(v0 & HV & ->)].
  - inversion HV as [b [HB HL]|b Hb|w m Hw Hm|w m Hw Hm|m Hm|m Hm]; subst; try (eexists; reflexivity);
    destruct Hw as [->|[->|[->| ->]]]; (apply K; [exact Hm|cbn; auto 10]).
  - inversion HV as [b [HB HL]|b Hb|w m Hw Hm|w m Hw Hm|m Hm|m Hm]; subst; try (eexists; reflexivity);
    destruct Hw as [->|[->|[->| ->]]]; (apply K; [exact Hm|cbn; auto 10]).
Qed.
(** the types of values in lists *)
Lemma value_types v : wf_entry_value v -> 
  (exists bs, wf_oct bs /\ v = mkValue 0 (VBytes bs)) \/ (exists b, v = mkValue 64 (VBool b)) \/ v_type v = 112 \/ 80 <= v_type v < 112.
Proof.
  intros [HV|(v0 & HV & ->)].
  - inversion HV as [b Hb|b Hb|w m Hw Hm|w m Hw Hm|m Hm|m Hm]; subst; cbn [v_type]; eauto; try (right; right; right; lia); try (right; right; left; reflexivity);
    right; right; right; destruct Hw as [->|[->|[->| ->]]]; lia.
  - right; right; right. inversion HV as [b Hb|b Hb|w m Hw Hm|w m Hw Hm|m Hm|m Hm]; subst; unfold force_unsigned; cbn [v_type]; try (vm_compute; split; congruence);
    destruct Hw as [->|[->|[->| ->]]]; vm_compute; split; congruence.
Qed.
Lemma obis_ok o : (exists n, o = Some n /\ (6 <= length n)%nat) -> exists n, o = Some n /\ obis_of o = Ret (firstn 6 n).
Proof.
  intros (n & -> & HL). exists n. split; [reflexivity|]. unfold obis_of. destruct n as [|x n]; [cbn in HL; lia|]. destruct (Nat.ltb_spec (length (x :: n)) 6); [lia|]. reflexivity.
Qed.
Lemma obis_bad o : ~ (exists n, o = Some n /\ (6 <= length n)%nat) -> exists x, obis_of o = Fault x.
Proof.
  intros HN. unfold obis_of. destruct o as [[|x n]|]; eauto. destruct (Nat.ltb_spec (length (x :: n)) 6); eauto. exfalso. apply HN. eauto.
Qed.
Lemma type_number t : 80 <= t < 112 -> (Z.land t SML_TYPE_FIELD =? SML_TYPE_INTEGER) || (Z.land t SML_TYPE_FIELD =? SML_TYPE_UNSIGNED) = true.
Proof.
  intros HT. pose proof (byte_cases (fun t => negb ((80 <=? t) && (t <? 112)) || (Z.land t SML_TYPE_FIELD =? SML_TYPE_INTEGER) || (Z.land t SML_TYPE_FIELD =? SML_TYPE_UNSIGNED)) eq_refl t ltac:(lia)) as E.
  cbv beta in E. destruct (Z.leb_spec 80 t); [|lia]. destruct (Z.ltb_spec t 112); [|lia]. exact E.
Qed.
Lemma entry_shows e : wf_entry e -> showable e -> exists ls, receive_entry e = Ret ls /\ shows H e ls.
Proof.
  intros [W1 _ _ W4 W5 W6 _] HS. unfold showable in HS. unfold receive_entry. destruct (le_value e) as [v|] eqn:EV; [|eexists; split; [reflexivity|now constructor]].
  cbn [opt] in W6. destruct (to_double_ok v W6) as (d & Hd). destruct (value_types v W6) as [(bs & [HB HL] & ->)|[(b & ->)|[HT|HT]]].
  - destruct HS as [HS|[HN HE]]; [discriminate|]. destruct (obis_ok _ HN) as (n & En & ->). cbn [v_type]. change (0 =? SML_TYPE_OCTET_STRING) with true. cbv iota. cbn [obind].
    destruct (C21_strhex 0 bs true HB ltac:(congruence)) as (pre & post & blk & Eb & P1 & P2 & P3 & -> & L1 & F1). cbn [obind]. eexists. split; [reflexivity|].
    replace (firstn (length (pre ++ hex_dump post)) blk) with (pre ++ hex_dump post); [eapply shows_text; eauto|].
    apply (f_equal (firstn (length (pre ++ hex_dump post)))) in F1. rewrite firstn_firstn, Nat.min_l in F1 by lia. rewrite F1, app_assoc, firstn_app, Nat.sub_diag, firstn_O, app_nil_r, firstn_all. reflexivity.
  - destruct HS as [HS|[HN HE]]; [discriminate|]. destruct (obis_ok _ HN) as (n & En & ->). cbn [v_type v_data]. eexists. split; [reflexivity|]. eapply shows_bool; eauto.
  - rewrite HT. eexists. split; [reflexivity|]. eapply shows_long_integer; eauto.
  - destruct HS as [HS|[HN HE]]; [lia|]. destruct (obis_ok _ HN) as (n & En & EO).
    destruct (Z.eqb_spec (v_type v) SML_TYPE_OCTET_STRING) as [EX|_]; [unfold SML_TYPE_OCTET_STRING in EX; lia|].
    destruct (Z.eqb_spec (v_type v) SML_TYPE_BOOLEAN) as [EX|_]; [unfold SML_TYPE_BOOLEAN in EX; lia|]. rewrite (type_number _ HT), Hd, EO. cbn [obind].
    destruct (le_unit e) as [u|] eqn:EU; [rewrite get_unit|]; cbn [obind]; eexists; (split; [reflexivity|]); eapply shows_number; eauto; rewrite EU; reflexivity.
Qed.
Lemma entry_crash e : wf_entry e -> ~ showable e -> exists x, receive_entry e = Fault x.
Proof.
  intros [W1 _ _ W4 W5 W6 _] HS. unfold showable in HS. unfold receive_entry. destruct (le_value e) as [v|] eqn:EV; [|now exfalso].
  cbn [opt] in W6. destruct (to_double_ok v W6) as (d & Hd). destruct (value_types v W6) as [(bs & [HB HL] & ->)|[(b & ->)|[HT|HT]]].
  - cbn [v_type] in *. change (0 =? SML_TYPE_OCTET_STRING) with true. cbv iota.
    assert (HD : (exists n, le_obj_name e = Some n /\ (6 <= length n)%nat) \/ ~ exists n, le_obj_name e = Some n /\ (6 <= length n)%nat).
    { destruct (le_obj_name e) as [n|]; [destruct (Nat.le_gt_cases 6 (length n)); [left; eauto|]|]; right; intros (x & Ex & Lx); try discriminate. injection Ex as <-. lia. }
    destruct HD as [HD|HD]; [|destruct (obis_bad _ HD) as (x & ->); eexists; reflexivity].
    destruct (obis_ok _ HD) as (n & En & ->). cbn [obind]. destruct bs as [|b bs]; [eexists; reflexivity|]. exfalso. apply HS. right. split; [exact HD|discriminate].
  - cbn [v_type] in *. change (64 =? SML_TYPE_OCTET_STRING) with false. change (64 =? SML_TYPE_BOOLEAN) with true. cbv iota.
    destruct (obis_bad (le_obj_name e)) as (x & ->); [intros HN; apply HS; right; split; [exact HN|discriminate]|]. eexists; reflexivity.
  - tauto.
  - destruct (Z.eqb_spec (v_type v) SML_TYPE_OCTET_STRING) as [EX|_]; [unfold SML_TYPE_OCTET_STRING in EX; lia|].
    destruct (Z.eqb_spec (v_type v) SML_TYPE_BOOLEAN) as [EX|_]; [unfold SML_TYPE_BOOLEAN in EX; lia|]. rewrite (type_number _ HT), Hd. cbn [obind].
    destruct (obis_bad (le_obj_name e)) as (x & ->); [intros HN; apply HS; right; split; [exact HN|intros ->; cbn in HT; lia]|]. eexists; reflexivity.
Qed.
Lemma showable_dec e : showable e \/ ~ showable e.
Proof.
  unfold showable. destruct (le_value e) as [v|]; [|now left]. destruct (Z.eq_dec (v_type v) 112); [now left; left|].
  assert (HD : has_name e \/ ~ has_name e).
  { unfold has_name. destruct (le_obj_name e) as [m|]; [destruct (Nat.le_gt_cases 6 (length m)); [left; eauto|]|]; right; intros (x & Ex & Lx); try discriminate. injection Ex as <-. lia. }
  assert (HV : v = mkValue 0 (VBytes []) \/ v <> mkValue 0 (VBytes [])).
  { destruct v as [t d]. destruct (Z.eq_dec t 0) as [->|]; [|right; congruence]. destruct d as [|[|]| |]; try (right; congruence). now left. }
  destruct HD, HV; try tauto; right; intros [?|[? ?]]; tauto.
Qed.
Lemma entries_shows l : Forall wf_entry l -> Forall showable l -> exists lss, receive_entries l = Ret (concat lss) /\ Forall2 (shows H) l lss.
Proof.
  induction l as [|e l IH]; intros HW HS; [exists []; split; [reflexivity|constructor]|].
  inversion HW as [|? ? We Wl]; subst. inversion HS as [|? ? Se Sl]; subst. destruct (entry_shows e We Se) as (ls & E & SH). destruct (IH Wl Sl) as (lss & El & F).
  exists (ls :: lss). split; [|now constructor]. cbn [receive_entries]. rewrite E, El. reflexivity.
Qed.
Lemma entries_crash l : Forall wf_entry l -> ~ Forall showable l -> exists x, receive_entries l = Fault x.
Proof.
  induction l as [|e l IH]; intros HW HS; [exfalso; apply HS; constructor|]. inversion HW as [|? ? We Wl]; subst. cbn [receive_entries].
  destruct (showable_dec e) as [He|He]; [|destruct (entry_crash e We He) as (x & ->); eexists; reflexivity].
  destruct (entry_shows e We He) as (ls & -> & _). cbn [obind]. destruct IH as (x & ->); auto. eexists; reflexivity.
Qed.
(** the entries of the list response in a message *)
Definition entries_of (m : sml_message) : list list_entry :=
  match m_message_body m with Some (mkBody _ (BListRes b)) => lr_val_list b | _ => [] end.
Lemma message_entries m : wf_message m -> m_message_body m <> None -> receive_message m = receive_entries (entries_of m) /\ Forall wf_entry (entries_of m).
Proof.
  intros [_ _ _ W _] HN. unfold receive_message, print_tag, entries_of. destruct (m_message_body m) as [[t d]|]; [|congruence].
  destruct W as (tm & Et & Ht & Hd). cbn [mb_tag mb_data] in *. subst t. cbn [obind].
  destruct (Z.eqb_spec (mem_u tm) SML_MESSAGE_GET_LIST_RESPONSE) as [E|E]; unfold SML_MESSAGE_GET_LIST_RESPONSE in E; destruct d; cbn [wf_body_data] in Hd; try (destruct Hd as [Hd1 Hd2]);
    try (split; [reflexivity|constructor]; fail); try lia.
  - exfalso. apply Hd. cbn [In]. lia.
  - split; [reflexivity|]. now destruct Hd2.
Qed.
Lemma messages_shows l : Forall wf_message l -> Forall (fun m => m_message_body m <> None) l -> Forall showable (flat_map entries_of l) ->
  exists lss, receive_messages l = Ret (concat lss) /\ Forall2 (shows H) (flat_map entries_of l) lss.
Proof.
  induction l as [|m l IH]; intros HW HB HS; [exists []; split; [reflexivity|constructor]|].
  inversion HW as [|? ? Wm Wl]; subst. inversion HB as [|? ? Bm Bl]; subst. cbn [flat_map] in *. apply Forall_app in HS. destruct HS as [Sm Sl].
  destruct (message_entries m Wm Bm) as [Em We]. destruct (entries_shows _ We Sm) as (a & Ea & Fa). destruct (IH Wl Bl Sl) as (b & Eb & Fb).
  exists (a ++ b). split; [|now apply Forall2_app]. cbn [receive_messages]. rewrite Em, Ea, Eb. cbn [obind]. now rewrite concat_app.
Qed.
Lemma fine_dec l : (Forall (fun m => m_message_body m <> None) l /\ Forall showable (flat_map entries_of l)) \/
  ~ (Forall (fun m => m_message_body m <> None) l /\ Forall showable (flat_map entries_of l)).
Proof.
  assert (DS : forall l, Forall showable l \/ ~ Forall showable l).
  { clear. induction l as [|e l IH]; [left; constructor|]. destruct (showable_dec e) as [He|He]; [destruct IH as [IH|IH]; [left; now constructor|]|]; right; intros HX; inversion HX; auto. }
  assert (DB : Forall (fun m => m_message_body m <> None) l \/ ~ Forall (fun m => m_message_body m <> None) l).
  { clear. induction l as [|m l IH]; [left; constructor|]. destruct (m_message_body m) eqn:E; [destruct IH as [IH|IH]; [left; constructor; auto; congruence|]|]; right; intros HX; inversion HX; auto. }
  destruct (DS (flat_map entries_of l)), DB; tauto.
Qed.
Lemma messages_crash l : Forall wf_message l -> ~ (Forall (fun m => m_message_body m <> None) l /\ Forall showable (flat_map entries_of l)) ->
  exists x, receive_messages l = Fault x.
Proof.
  induction l as [|m l IH]; intros HW HN; [exfalso; apply HN; split; constructor|].
  inversion HW as [|? ? Wm Wl]; subst. cbn [receive_messages flat_map] in *.
  assert (HD : m_message_body m = None \/ m_message_body m <> None) by (destruct (m_message_body m); [right; discriminate|now left]).
  destruct HD as [HD|HD]; [unfold receive_message, print_tag; rewrite HD; eexists; reflexivity|].
  destruct (message_entries m Wm HD) as [Em We]. rewrite Em.
  assert (DS : forall l, Forall showable l \/ ~ Forall showable l).
  { clear. induction l as [|e l IH]; [left; constructor|]. destruct (showable_dec e) as [He|He]; [destruct IH as [IH|IH]; [left; now constructor|]|]; right; intros HX; inversion HX; auto. }
  destruct (DS (entries_of m)) as [SE|SE]; [|destruct (entries_crash _ We SE) as (x & ->); eexists; reflexivity].
  destruct (entries_shows _ We SE) as (a & -> & _). cbn [obind]. destruct IH as (x & ->); auto; [|eexists; reflexivity].
  intros [HB HS]. apply HN. split; [now constructor|]. now apply Forall_app.
Qed.
End Entry.

(** Every frame the transport layer can deliver: at least 16 bytes; the upper
    bound is that of C01. *)
Definition receivable (f : sml_file) : Prop := (forall m, In m (f_messages f) -> m_message_body m <> None) /\
  (forall m t b e, In m (f_messages f) -> m_message_body m = Some (mkBody t (BListRes b)) -> In e (lr_val_list b) -> showable e).
Theorem C48_receiver_crashes_iff (H : Host) frame : bytes_ok frame -> (16 <= length frame)%nat -> Z.of_nat (length frame) < 229376 ->
  exists f, sml_file_parse (firstn (length frame - 16) (skipn 8 frame)) = Ret f /\
    (receivable f -> exists lss, transport_receiver frame = Ret (concat lss) /\ Forall2 (shows H) (flat_map entries_of (f_messages f)) lss) /\
    (~ receivable f -> exists x, transport_receiver frame = Fault x).
Proof.
  intros HB HL HU. set (p := firstn _ _). assert (HP : bytes_ok p) by (apply Forall_firstn, Forall_skipn, HB).
  assert (LP : (length p <= length frame)%nat) by (unfold p; rewrite firstn_length, skipn_length; lia).
  pose proof (file_parse_safe 7 p min_size_7 HP) as HF. unfold transport_receiver. destruct (Nat.ltb_spec (length frame) 16); [lia|]. fold p.
  destruct (sml_file_parse p) as [f|x|]; [|exfalso; change (Z.of_nat 7 * 32768) with 229376 in HF; lia|contradiction].
  destruct HF as (_ & _ & _ & HF & _). exists f. split; [reflexivity|]. cbn [obind].
  assert (HW : Forall wf_message (f_messages f)) by (eapply Forall_impl; [|exact HF]; intros m Hm; eapply parsed_in_wf; eauto).
  assert (FE : receivable f <-> Forall (fun m => m_message_body m <> None) (f_messages f) /\ Forall showable (flat_map entries_of (f_messages f))).
  { unfold receivable. rewrite !Forall_forall. split; intros [H1 H2]; (split; [exact H1|]).
    - intros e He. apply in_flat_map in He. destruct He as (m & Hm & He). unfold entries_of in He. destruct (m_message_body m) as [[t d]|] eqn:EM; [|contradiction].
      destruct d; try contradiction. eauto.
    - intros m t b e Hm EM He. apply H2. apply in_flat_map. exists m. split; [exact Hm|]. unfold entries_of. now rewrite EM. }
  rewrite FE. split.
  - intros [H1 H2]. now apply messages_shows.
  - intros HN. now apply messages_crash.
Qed.
Print Assumptions C48_receiver_crashes_iff.
(** Each of the conditions is needed, for input with a valid checksum: a message
    without body, an entry without a name, with a short name, with an empty
    string (the length byte 0x80 0x02 is needed for it). *)
Definition server_bytes (entry : list Z) : list Z :=
  let cb := [118; 3; 1; 2; 98; 0; 98; 0; 114; 99; 7; 1; 119; 1; 3; 5; 5; 1; 1; 113; 119] ++ entry ++ [1; 1] in cb ++ seal cb.
Definition good_entry : list Z := [7; 1; 0; 1; 8; 0; 255; 1; 1; 98; 30; 82; 255; 85; 0; 0; 1; 0; 1].
Theorem C48_conditions_needed : let H : Host := LittleEndian in
  transport_receiver (framed (server_bytes ([1; 1; 1; 98; 30; 82; 255; 85; 0; 0; 1; 0; 1]))) = Fault NullDeref /\
  transport_receiver (framed (server_bytes ([6; 1; 0; 1; 8; 0; 1; 1; 98; 30; 82; 255; 85; 0; 0; 1; 0; 1]))) = Fault OobRead /\
  transport_receiver (framed (server_bytes ([7; 1; 0; 1; 8; 0; 255; 1; 1; 1; 1; 128; 2; 1]))) = Fault UninitRead /\
  transport_receiver (framed (bodiless H None None None ++ seal (bodiless H None None None))) = Fault NullDeref /\
  transport_receiver (framed (server_bytes good_entry)) = Ret [LNum [1; 0; 1; 8; 0; 255] (double_of_Z 256) (-1) (Some [87; 104])].
Proof. vm_compute. repeat split. Qed.

(** ** C49 *)
Theorem C49_booleans_print_true (H : Host) frame lines o b : bytes_ok frame -> (16 <= length frame)%nat -> Z.of_nat (length frame) < 229376 ->
  transport_receiver frame = Ret lines -> In (LBool o b) lines -> b = true.
Proof.
  intros HB HL HU E HI. set (p := firstn (length frame - 16) (skipn 8 frame)). assert (HP : bytes_ok p) by (apply Forall_firstn, Forall_skipn, HB).
  pose proof (file_parse_safe 7 p min_size_7 HP) as HF. unfold transport_receiver in E. destruct (Nat.ltb_spec (length frame) 16); [lia|]. fold p in E.
  destruct (sml_file_parse p) as [f|x|]; [|discriminate|discriminate]. destruct HF as (_ & _ & _ & HF & _). cbn [obind] in E.
  assert (HW : Forall wf_message (f_messages f)) by (eapply Forall_impl; [|exact HF]; intros m Hm; eapply parsed_in_wf; eauto).
  destruct (fine_dec (f_messages f)) as [[F1 F2]|HN]; [|destruct (messages_crash _ HW HN); congruence].
  destruct (messages_shows _ HW F1 F2) as (lss & EM & F). assert (lines = concat lss) as -> by congruence. apply in_concat in HI. destruct HI as (ls & I1 & I2).
  clear - F I1 I2. induction F as [|e l0 es lss0 HS F IH]; [contradiction|]. destruct I1 as [->|I1]; [|auto].
  inversion HS; subst; cbn [In] in I2; try contradiction; destruct I2 as [I2|[]]; try discriminate. congruence.
Qed.
Print Assumptions C49_booleans_print_true.
(** Two entries that differ in a boolean only are printed in the same way. *)
Theorem C49_booleans_look_alike (H : Host) e b b' : le_value e = Some (mkValue 64 (VBool b)) ->
  receive_entry e = receive_entry (mkEntry (le_obj_name e) (le_status e) (le_val_time e) (le_unit e) (le_scaler e) (Some (mkValue 64 (VBool b'))) (le_value_signature e)).
Proof. intros E. unfold receive_entry. rewrite E. reflexivity. Qed.
Example C49_example : let H : Host := LittleEndian in
  transport_receiver (framed (server_bytes [7; 1; 0; 1; 8; 0; 255; 1; 1; 1; 1; 66; 0; 1])) = Ret [LBool [1; 0; 1; 8; 0; 255] true] /\
  transport_receiver (framed (server_bytes [7; 1; 0; 1; 8; 0; 255; 1; 1; 1; 1; 66; 1; 1])) = Ret [LBool [1; 0; 1; 8; 0; 255] true].
Proof. vm_compute. auto. Qed.

(** ** C50 *)
(** For any code at all the search stops inside the table. *)
Theorem C50_unit_lookup c : (exists u, dlms_get_unit c = Ret (Some u)) \/ dlms_get_unit c = Ret None.
Proof. rewrite get_unit. destruct (find _ _) as [p|]; eauto. Qed.
Theorem C50_unit_codes c : (exists u, dlms_get_unit c = Ret (Some u)) <-> 1 <= c <= 57 \/ 60 <= c <= 64 \/ 253 <= c <= 255.
Proof.
  rewrite get_unit.
  assert (HF : forall c, (exists p, find (fun p => fst p =? c) (removelast dlms_units) = Some p) <-> In c (map fst (removelast dlms_units))).
  { intros x. rewrite in_map_iff. split.
    - intros (p & Ep). apply find_some in Ep. destruct Ep as [Ip Ep]. apply Z.eqb_eq in Ep. eauto.
    - intros (p & Ep & Ip). destruct (find (fun p => fst p =? x) (removelast dlms_units)) as [q|] eqn:EF; [eauto|]. exfalso.
      pose proof (find_none _ _ EF p Ip) as HN. cbv beta in HN. apply Z.eqb_neq in HN. congruence. }
  assert (HI : In c (map fst (removelast dlms_units)) <-> 1 <= c <= 57 \/ 60 <= c <= 64 \/ 253 <= c <= 255).
  { change (map fst (removelast dlms_units)) with (map Z.of_nat (seq 1 57 ++ seq 60 5 ++ seq 253 3)). rewrite in_map_iff. split.
    - intros (n & <- & Hn). rewrite !in_app_iff, !in_seq in Hn. lia.
    - intros HC. exists (Z.to_nat c). split; [lia|]. rewrite !in_app_iff, !in_seq. lia. }
  rewrite <- HI, <- HF. split.
  - intros (u & E). destruct (find _ _) as [p|]; [eauto|discriminate].
  - intros (p & ->). eauto.
Qed.
Print Assumptions C50_unit_codes.
Theorem C50_zero : dlms_get_unit 0 = Ret None.
Proof. reflexivity. Qed.
(** The text is the one in the table, which has no code twice. *)
Theorem C50_unit_text c u : c <> 0 -> (dlms_get_unit c = Ret (Some u) <-> In (c, u) dlms_units).
Proof.
  intros HC. rewrite get_unit.
  assert (ND : NoDup (map fst (removelast dlms_units))).
  { assert (E : nodup Z.eq_dec (map fst (removelast dlms_units)) = map fst (removelast dlms_units)) by (vm_compute; reflexivity). rewrite <- E. apply NoDup_nodup. }
  assert (HU : forall l (p q : Z * list Z), NoDup (map fst l) -> In p l -> In q l -> fst p = fst q -> p = q).
  { clear. induction l as [|x l IH]; intros p q HN Hp Hq E; [contradiction|]. cbn [map] in HN. inversion HN as [|? ? H1 H2]; subst.
    destruct Hp as [->|Hp], Hq as [->|Hq]; auto; exfalso; apply H1; [rewrite E|rewrite <- E]; now apply in_map. }
  assert (EL : dlms_units = removelast dlms_units ++ [(0, [])]) by reflexivity.
  assert (EI : In (c, u) dlms_units <-> In (c, u) (removelast dlms_units) \/ In (c, u) [(0, [])]) by (rewrite EL at 1; apply in_app_iff).
  rewrite EI. split.
  - destruct (find _ _) as [p|] eqn:EF; [|discriminate]. intros E. apply find_some in EF. destruct EF as [Ip Ep]. apply Z.eqb_eq in Ep. left. destruct p. cbn in *. congruence.
  - intros [HI|[HI|[]]]; [|congruence]. destruct (find (fun p => fst p =? c) (removelast dlms_units)) as [q|] eqn:EF.
    + apply find_some in EF. destruct EF as [Iq Eq]. apply Z.eqb_eq in Eq. assert (q = (c, u)) as -> by (eapply HU; eauto). reflexivity.
    + pose proof (find_none _ _ EF _ HI) as HN. cbn [fst] in HN. rewrite Z.eqb_refl in HN. discriminate.
Qed.
Example C50_example : map dlms_get_unit [27; 30; 35; 255; 58] = [Ret (Some [87]); Ret (Some [87; 104]); Ret (Some [86]); Ret (Some [40; 117; 110; 105; 116; 108; 101; 115; 115; 41]); Ret None].
Proof. reflexivity. Qed.
