(** Memory (C52): writing messages leaves the old checksum behind.

    The functions are those of HeapModel and HeapWriteModel.  [holds (rep_msg m p) b]
    says that the blocks [b] are exactly the memory of the message [m] at [p]. *)
From stdpp Require Import gmap.
From iris.proofmode Require Import tactics.
From Verif Require Import Base Buf Number OctetString Boolean Value Time SList Tree Bodies Message File Wf Tests
  HeapBase HeapModel HeapLogic HeapRep HeapFree HeapSim HeapParse HeapParse2 HeapParse3 HeapParse4 HeapParse5 HeapWriteModel HeapWrite
  PropsParse PropsHeap Safe3 FileFacts.

(** the same memory, with another buffer to write into *)
Definition use_buf (s : sbuf) (st : hstate) : hstate := mkH s (hmem st) (hconf st) (hpeak st).

Lemma run_quiet {AL : Allocator} {A} (c : H A) st (Φ : A -> sbuf -> hprop) h m :
  hmem st = h ∪ m -> h ##ₘ m -> holds (wp (WA := quiet) c (hbuf st) Φ) m ->
  exists a st' m', c st = Ret (a, st') /\ hmem st' = h ∪ m' /\ h ##ₘ m' /\ hconf st' = hconf st /\ holds (Φ a (hbuf st')) m'.
Proof.
  intros E D W. destruct st as [s mm n pk]. cbn [hbuf hmem hconf] in *. subst mm.
  destruct (wp_run (WA := quiet) c s Φ h m ∅ n pk (fun l b F => match lookup_empty_Some l b F with end)
    (map_disjoint_empty_r _)) as (a & s' & k & m' & pk' & ER & _ & D1 & D2 & [_ K] & HP); [by rewrite right_id_L|done|].
  destruct K as [->|[]]. rewrite !right_id_L map_size_empty Nat.add_0_r in ER. rewrite right_id_L in D2.
  by exists a, (mkH s' (h ∪ m') n pk'), m'.
Qed.
Lemma run_post {AL : Allocator} {B} (R : B -> unit -> hprop) b s1 a s2 m :
  holds (PostR R b s1 a s2) m -> s2 = s1 /\ holds (R b a) m.
Proof.
  intros (m1 & m2 & -> & D & [Em1 Es] & HR). assert (m1 = ∅) as -> by exact Em1. rewrite left_id_L. done.
Qed.

Section WithHost.
Context {HO : Host} {AL : Allocator}.

Lemma run_write st h b m q p m' s' :
  hmem st = h ∪ b -> h ##ₘ b -> holds (rep_msg_body m q p) b -> sml_message_write m (hbuf st) = Ret (m', s') ->
  exists st1 b1, h_message_write p st = Ret (tt, st1) /\ hbuf st1 = s' /\ hmem st1 = h ∪ b1 /\ h ##ₘ b1 /\
    hconf st1 = hconf st /\ holds (rep_msg m' p) b1.
Proof.
  intros EM D HR E. assert (W := w_msg_body m q p (hbuf st) m' s' E).
  apply (proj1 (entails_holds _ _)) with (m := b) in W; [|done].
  destruct (run_quiet _ st _ h b EM D W) as ([] & st1 & b1 & ER & EM1 & D1 & EC & HP).
  apply run_post in HP as [Es HP]. by exists st1, b1.
Qed.
Lemma run_free st h b m p : hmem st = h ∪ b -> h ##ₘ b -> holds (rep_msg m p) b ->
  exists st1, h_message_free p st = Ret (tt, st1) /\ hmem st1 = h /\ hconf st1 = hconf st /\ hbuf st1 = hbuf st.
Proof.
  intros EM D HR.
  assert (W : rep_msg m p ⊢ wp (WA := quiet) (h_message_free p) (hbuf st) (fun _ s => ⟨s = hbuf st⟩%I)).
  { iIntros "M". iApply (f_msg (Some m)). by iFrame. }
  apply (proj1 (entails_holds _ _)) with (m := b) in W; [|done].
  destruct (run_quiet _ st _ h b EM D W) as ([] & st1 & b1 & ER & EM1 & D1 & EC & [HP Es]).
  assert (b1 = ∅) as -> by exact HP. rewrite right_id_L in EM1. by exists st1.
Qed.
Lemma split_msg m p b : holds (rep_msg m p) b ->
  exists q b0 old, b = b0 ∪ old /\ b0 ##ₘ old /\ holds (rep_msg_body m q p) b0 /\
    match m_crc m with Some c => exists l, old = {[l := Bytes c]} | None => old = ∅ end.
Proof.
  intros HR. assert (S := rep_msg_split m p). apply bi.equiv_entails_1_1 in S.
  apply (proj1 (entails_holds _ _)) with (m := b) in S; [|done].
  destruct S as (q & b0 & old & -> & D & H0 & HO1). exists q, b0, old. split_and!; auto.
  destruct (m_crc m) as [c|]; cbn [rep_opt] in HO1.
  - destruct HO1 as (l & _ & ->). by exists l.
  - destruct HO1 as [HO1 _]. exact HO1.
Qed.

(** *** One message *)

(** A message in memory (its blocks are [b], everything else is [h]) is written
    and then freed.  Both succeed; nothing outside the message is touched; and of
    the blocks of the message the one that held the checksum it had before is
    still there.  A message that had no checksum leaves nothing. *)
Theorem C52_write_then_free st h b m p m' s' :
  hmem st = h ∪ b -> h ##ₘ b -> holds (rep_msg m p) b -> sml_message_write m (hbuf st) = Ret (m', s') ->
  exists st1 st2 old,
    h_message_write p st = Ret (tt, st1) /\ hbuf st1 = s' /\
    h_message_free p st1 = Ret (tt, st2) /\ hmem st2 = h ∪ old /\
    old ⊆ b /\ match m_crc m with Some c => exists l, old = {[l := Bytes c]} | None => old = ∅ end.
Proof.
  intros EM D HR E. destruct (split_msg m p b HR) as (q & b0 & old & -> & D0 & H0 & HC).
  apply map_disjoint_union_r in D as [DA DB].
  destruct (run_write st (h ∪ old) b0 m q p m' s') as (st1 & b1 & ER & Es & EM1 & D1 & EC & H1); auto.
  { rewrite EM -assoc_L. f_equal. by apply map_union_comm. }
  { apply map_disjoint_union_l. done. }
  destruct (run_free st1 (h ∪ old) b1 m' p EM1 D1 H1) as (st2 & EF & EM2 & _).
  exists st1, st2, old. split_and!; auto. by apply map_union_subseteq_r.
Qed.

(** *** Several times *)

(** writing the message at [p] into one buffer after the other *)
Fixpoint h_write_to (p : slot) (ss : list sbuf) (st : hstate) : outcome hstate :=
  match ss with
  | [] => Ret st
  | s :: t =>
      match h_message_write p (use_buf s st) with
      | Ret (_, st1) => h_write_to p t st1
      | Fault f => Fault f
      | NoFuel => NoFuel
      end
  end.
Lemma write_keeps m s m' s' : sml_message_write m s = Ret (m', s') ->
  (exists c, m_crc m' = Some c) /\ (forall s1, sml_message_write m' s1 = sml_message_write m s1).
Proof.
  unfold sml_message_write at 1. intros E.
  repeat (apply bind_inv in E as (? & ? & _ & E)). injection E as <- <-. split; [by eexists|]. intros s1. reflexivity.
Qed.
Theorem C52_writing_repeatedly m p ss : forall st h b,
  hmem st = h ∪ b -> h ##ₘ b -> holds (rep_msg m p) b ->
  Forall (fun s => exists r, sml_message_write m s = Ret r) ss ->
  exists st1 st2 old,
    h_write_to p ss st = Ret st1 /\ h_message_free p st1 = Ret (tt, st2) /\ hmem st2 = h ∪ old /\ h ##ₘ old /\
    size old = match m_crc m with Some _ => length ss | None => (length ss - 1)%nat end /\
    forall l x, old !! l = Some x -> exists bs, x = Bytes bs.
Proof.
  revert m. induction ss as [|s ss IH]; intros m st h b EM D HR HF.
  - destruct (run_free st h b m p EM D HR) as (st1 & E1 & E2 & _). exists st, st1, ∅.
    rewrite right_id_L map_size_empty. split_and!; auto; [apply map_disjoint_empty_r|by destruct (m_crc m)|].
    intros l x F. by rewrite lookup_empty in F.
  - inversion HF as [|? ? [[m' s'] Ew] HF']; subst.
    destruct (split_msg m p b HR) as (q & b0 & old & -> & D0 & H0 & HC). apply map_disjoint_union_r in D as [DA DB].
    destruct (run_write (use_buf s st) (h ∪ old) b0 m q p m' s') as (st1 & b1 & ER & Es & EM1 & D1 & EC & H1); auto.
    { cbn [use_buf hmem]. rewrite EM -assoc_L. f_equal. by apply map_union_comm. }
    { apply map_disjoint_union_l. done. }
    destruct (write_keeps m s m' s' Ew) as ((c' & Ec) & HK).
    destruct (IH m' st1 (h ∪ old) b1 EM1 D1 H1) as (st2 & st3 & old2 & E2 & E3 & EM3 & D3 & ES & HB).
    { eapply Forall_impl; [|exact HF']. intros s1 [r Er]. exists r. by rewrite HK. }
    apply map_disjoint_union_l in D3 as [D3 D4].
    exists st2, st3, (old ∪ old2). cbn [h_write_to]. rewrite ER. split_and!; auto.
    + by rewrite assoc_L.
    + by apply map_disjoint_union_r.
    + rewrite map_size_disj_union // ES Ec. destruct (m_crc m) as [c|].
      * destruct HC as [l ->]. rewrite map_size_singleton. cbn [length]. lia.
      * subst old. rewrite map_size_empty. cbn [length]. lia.
    + intros l x Hx. apply lookup_union_Some in Hx as [Hx|Hx]; [|by apply HB with l|done].
      destruct (m_crc m) as [c|]; [|by subst old; rewrite lookup_empty in Hx].
      destruct HC as [l' ->]. apply lookup_singleton_Some in Hx as [_ <-]. by exists c.
Qed.

(** *** A whole file *)

Definition has_crc (m : sml_message) : bool := match m_crc m with Some _ => true | None => false end.
Lemma old_size : forall l o, holds ([∗ list] m ∈ l, old_crc m)%I o ->
  size o = length (filter has_crc l) /\ forall x y, o !! x = Some y -> exists m c, In m l /\ m_crc m = Some c /\ y = Bytes c.
Proof.
  induction l as [|m l IH]; intros o HL.
  - assert (o = ∅) as -> by exact HL. split; [apply map_size_empty|]. intros x y F. by rewrite lookup_empty in F.
  - destruct HL as (o1 & o2 & -> & D & [q Hq] & H2). apply IH in H2 as [S2 B2].
    rewrite map_size_disj_union // S2. cbn [filter]. unfold has_crc at 2.
    destruct (m_crc m) as [c|] eqn:Ec; cbn [rep_opt] in Hq.
    + destruct Hq as (l' & _ & ->).
      rewrite map_size_singleton. split; [done|].
      intros x y Hx. apply lookup_union_Some in Hx as [Hx|Hx]; [| |done].
      * apply lookup_singleton_Some in Hx as [_ <-]. exists m, c. split; [by left|done].
      * destruct (B2 x y Hx) as (m1 & c1 & I & ?). exists m1, c1. split; [by right|done].
    + destruct Hq as [Hq _]. assert (o1 = ∅) as -> by exact Hq. 
      rewrite map_size_empty. split; [done|]. rewrite left_id_L.
      intros x y Hx. destruct (B2 x y Hx) as (m1 & c1 & I & ?). exists m1, c1. split; [by right|done].
Qed.

(** The messages of a parsed file are written into a buffer [s] with room for
    them, and the file is freed: every message leaves one block behind.  ([k] is
    what parsing itself loses for DZG meters, see C51_parse_then_free.) *)
Theorem C52_parse_write_free bytes f s ms s' st :
  bytes_ok bytes -> sml_file_parse bytes = Ret f ->
  write_messages (f_messages f) s = Ret (ms, s') ->
  exists file st1 st2 st3 k old,
    h_file_parse bytes st = Ret (file, st1) /\
    h_file_write file (use_buf s st1) = Ret (tt, st2) /\ hbuf st2 = s' /\
    h_file_free file st2 = Ret (tt, st3) /\
    hmem st3 = hmem st ∪ k ∪ old /\ hmem st ##ₘ k /\ hmem st ∪ k ##ₘ old /\
    (k = ∅ \/ mentions_dzg bytes) /\
    size old = length (f_messages f) /\
    forall l x, old !! l = Some x -> exists m c, In m (f_messages f) /\ m_crc m = Some c /\ x = Bytes c.
Proof.
  intros HB EP EW.
  destruct (C51_parse_then_free bytes f st EP) as (file & st1 & _ & k & E1 & _). clear k.
  destruct (C51_parse_builds bytes f st EP) as (file' & st1' & k & m & E1' & Es & EM & D1 & D2 & L & EC & HR).
  rewrite E1 in E1'. injection E1' as <- <-.
  assert (HK : k = ∅ \/ mentions_dzg bytes).
  { destruct (C51_parse_then_free bytes f st EP) as (file2 & st2 & st3 & k2 & F1 & F2 & FM & FD & _ & FC & FK).
    rewrite E1 in F1. injection F1 as <- <-. destruct FK as [->|FK]; [left|by right].
    assert (W : rep_file (f_messages f) bytes file ⊢ wp (WA := quiet) (h_file_free file) (hbuf st1) (fun _ _ => emp%I)).
    { iIntros "F". iApply f_file. by iFrame. }
    apply (proj1 (entails_holds _ _)) with (m := m) in W; [|done].
    destruct (run_quiet _ st1 _ _ m EM D2 W) as ([] & st4 & m4 & ER & EM4 & D4 & EC4 & HP).
    rewrite F2 in ER. injection ER as <-. rewrite map_size_empty Nat.add_0_r EC4 EC in FC.
    apply map_size_empty_inv. lia. }
  assert (W := w_file (f_messages f) bytes file s ms s' EW). apply (proj1 (entails_holds _ _)) with (m := m) in W; [|done].
  destruct (run_quiet _ (use_buf s st1) _ _ m EM D2 W) as ([] & st2 & m2 & ER & EM2 & D2' & _ & HP).
  apply run_post in HP as [Es2 (mf & old & -> & DF & HF & HO2)].
  apply map_disjoint_union_r in D2' as [DA DB].
  assert (WF : rep_file ms bytes file ⊢ wp (WA := quiet) (h_file_free file) (hbuf st2) (fun _ _ => emp%I)).
  { iIntros "F". iApply f_file. by iFrame. }
  apply (proj1 (entails_holds _ _)) with (m := mf) in WF; [|done].
  assert (EM2' : hmem st2 = hmem st ∪ k ∪ old ∪ mf).
  { rewrite EM2 (map_union_comm mf old DF). by rewrite assoc_L. }
  assert (D3 : hmem st ∪ k ∪ old ##ₘ mf) by (apply map_disjoint_union_l; done).
  destruct (run_quiet _ st2 _ (hmem st ∪ k ∪ old) mf EM2' D3 WF) as ([] & st3 & m3 & E3 & EM3 & _ & _ & HP).
  assert (m3 = ∅) as -> by exact HP. rewrite right_id_L in EM3.
  destruct (old_size _ _ HO2) as [SO BO].
  exists file, st1, st2, st3, k, old. split_and!; auto.
  rewrite SO. f_equal. assert (HA : Forall (parsed_in bytes) (f_messages f)).
  { pose proof (file_parse_safe 7 bytes min_size_7 HB) as P7. rewrite EP in P7. apply P7. }
  clear -HA. induction HA as [|x l Hx HA IH]; [done|]. cbn [filter]. unfold has_crc at 1.
  destruct (wfm_crc _ (parsed_in_wf _ _ Hx)) as (c & -> & _). by rewrite IH.
Qed.
End WithHost.
Print Assumptions C52_write_then_free.
Print Assumptions C52_writing_repeatedly.
Print Assumptions C52_parse_write_free.

(** *** Examples *)
Definition room : sbuf := mkBuf (repeat 0 600) 0 false false.
(** parse, write the messages into another buffer, free: what is left *)
Definition parse_write_free {HO : Host} {AL : Allocator} (bytes : list Z) (s : sbuf) (st : hstate)
  : outcome (list (nat * block)) :=
  match h_file_parse bytes st with
  | Ret (file, st1) =>
      match h_file_write file (use_buf s st1) with
      | Ret (_, st2) => match h_file_free file st2 with Ret (_, st3) => Ret (map_to_list (hmem st3)) | Fault f => Fault f | NoFuel => NoFuel end
      | Fault f => Fault f | NoFuel => NoFuel
      end
  | Fault f => Fault f | NoFuel => NoFuel
  end.
Example C52_example_file : bytes_ok (text1 ++ text2) /\
  match @sml_file_parse LittleEndian (text1 ++ text2) with
  | Ret f => match @write_messages LittleEndian (f_messages f) room with Ret (ms, _) => length ms = 2%nat | _ => False end
  | _ => False
  end.
Proof. split; [unfold text1, text2; bytes|]. vm_compute. reflexivity. Qed.
Example C52_example_file_left :
  @parse_write_free LittleEndian top (text1 ++ text2) room st0 =
  Ret [(7%nat, Bytes [1; 2; 3]); (39%nat, Bytes [162; 35]); (19%nat, Bytes [77; 138])].
Proof. vm_compute. reflexivity. Qed.
(** a message as a program builds it, without a checksum: a close request *)
Definition built : sml_message :=
  mkMsg None None None (Some (mkBody (Some [0; 2; 0; 0]) (BCloseReq (mkCloseReq None)))) None.
Definition built_mem : heap :=
  {[1%nat := Struct [Nul; Nul; Nul; Ptr 2; Nul]]} ∪ ({[2%nat := Struct [Ptr 3; Ptr 4]]} ∪
  ({[3%nat := Bytes [0; 2; 0; 0]]} ∪ {[4%nat := Struct [Nul]]})).
Lemma built_holds : holds (@rep_msg LittleEndian built (Ptr 1)) built_mem.
Proof.
  assert (W : (Ptr 1 ↦ Struct [Nul; Nul; Nul; Ptr 2; Nul] ∗ Ptr 2 ↦ Struct [Ptr 3; Ptr 4] ∗ Ptr 3 ↦ Bytes [0; 2; 0; 0] ∗
    Ptr 4 ↦ Struct [Nul])%I ⊢ @rep_msg LittleEndian built (Ptr 1)).
  { iIntros "(A & B & C & D)". iExists [Nul; Nul; Nul; Ptr 2; Nul]. iFrame "A". unfold fields. cbn. iSplit; [done|].
    iSplit; [done|]. iSplit; [done|]. iSplitL; [|by iSplit]. iExists [0; 2; 0; 0]. iSplit; [done|].
    iExists [Ptr 3; Ptr 4]. iFrame "B". cbn. iFrame "C". iSplitL; [|done]. iExists [Nul]. iFrame "D". cbn. by iSplit. }
  apply (proj1 (entails_holds _ _) W).
  unfold built_mem.
  do 3 (eexists _, _; split; [reflexivity|]; split; [apply map_disjoint_singleton_l; vm_compute; reflexivity|]; split; [by eexists|]).
  by eexists.
Qed.
Example C52_example_twice : exists st1 st2 old,
  @h_write_to LittleEndian top (Ptr 1) [room; room] (mkH room built_mem 0 0) = Ret st1 /\
  @h_message_free LittleEndian (Ptr 1) st1 = Ret (tt, st2) /\ hmem st2 = old /\ size old = 1%nat.
Proof.
  destruct (@C52_writing_repeatedly LittleEndian top built (Ptr 1) [room; room] (mkH room built_mem 0 0) ∅ built_mem)
    as (st1 & st2 & old & E1 & E2 & E3 & _ & E4 & _).
  - by rewrite left_id_L.
  - apply map_disjoint_empty_l.
  - apply built_holds.
  - assert (HR : exists r, @sml_message_write LittleEndian built room = Ret r).
    { destruct (@sml_message_write LittleEndian built room) as [r|x|] eqn:E; [by exists r|..]; exfalso; revert E; vm_compute; discriminate. }
    repeat constructor; done.
  - rewrite left_id_L in E3. exists st1, st2, old. exact (conj E1 (conj E2 (conj E3 E4))).
Qed.
