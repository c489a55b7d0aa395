(** C83: sending when memory runs out. *)
From stdpp Require Import gmap.
From iris.proofmode Require Import tactics.
From Verif Require Import Base Buf Crc16 Number OctetString Boolean Value Time SList Tree Bodies Message File Transport
  Lib Spec Wf Write Item Enc CrcProof Round3 PropsRound
  HeapBase HeapModel HeapLogic HeapRep HeapFree HeapSim HeapWriteModel HeapWrite HeapBuildModel HeapBuild PropsHeap PropsHeapWrite PropsHeapBuild ShortWrite ShortRead ShortHeap.
Local Existing Instance quiet.

(** *** Specification *)

(** a message on the wire: with its checksum and the end byte, or with the octet 1, which
    says "nothing", in the place of the checksum *)
Definition on_wire {HO : Host} (g : bool) (m : sml_message) : list Z :=
  if g then message_bytes m else checked_bytes m ++ [1; 0].
(** the frame of C43 *)
Definition frame_around (payload sent : list Z) : Prop :=
  exists pad c1 c2, let body := payload ++ repeat 0 pad in
    let head := [27; 27; 27; 27; 1; 1; 1; 1] ++ body ++ [27; 27; 27; 27; 26; Z.of_nat pad] in
    sent = head ++ [c1; c2] /\ (pad <= 3)%nat /\ (length sent mod 4 = 0)%nat /\ byte_ok c1 /\ byte_ok c2 /\ c1 + 256 * c2 = crc16_x25 head.
(** malloc granted or refused a request for a checksum (two bytes) *)
Definition checksum_request (ME : Memory) (g : bool) : Prop := exists st c, length c = 2%nat /\ grants st (Bytes c) = g.

Section WithHost.
Context {HO : Host} {AL : Allocator}.

Lemma flat_on_wire gs : forall l, length gs = length l ->
  flat_map bytes_as (combine gs l) = concat (zip_with on_wire gs l).
Proof.
  induction gs as [|g gs IH]; intros [|m l] L; try discriminate L; [done|]. cbn [combine flat_map zip_with concat]. rewrite IH //. by injection L.
Qed.

(** The memory holds the file with the messages [l]; [ME] refuses whatever it likes. *)
Theorem C83_sent (ME : Memory) l bytes n c e o file st h b wr :
  Forall round_trippable l -> (length (flat_map message_bytes l) + 19 <= n)%nat -> Z.of_nat n < 2147483648 ->
  hbuf st = mkBuf (repeat 0 n) c e o -> hmem st = h ∪ b -> h ##ₘ b -> holds (rep_file l bytes file) b ->
  exists gs r sent st2 st3,
    length gs = length l /\ Forall (checksum_request ME) gs /\
    h_transport_write (ME := ME) wr file st = Ret (r, sent, st2) /\
    frame_around (concat (zip_with on_wire gs l)) sent /\
    (wr (length sent) = Z.of_nat (length sent) -> r = Z.of_nat (length sent)) /\
    h_file_free file st2 = Ret (tt, st3) /\ ((forall m, In m l -> m_crc m = None) -> hmem st3 = h).
Proof.
  intros HR Hn Hs EB EM D HF.
  destruct (frame_choice (ME := ME) file st) as (gs & HA & EC).
  set (fl := map gs (seq 0 (length l))). assert (LF : length fl = length l) by (unfold fl; rewrite map_length seq_length //).
  assert (ET : tagged gs 0 l = combine fl l) by apply tagged_combine.
  assert (HR2 : Forall (fun x => round_trippable (snd x)) (combine fl l)).
  { rewrite Forall_forall. intros [g m] Hx. apply in_combine_r in Hx. rewrite Forall_forall in HR. by apply HR. }
  assert (SH := as_shorter fl l LF).
  destruct (frame_as_sent (combine fl l) n c e o HR2 ltac:(lia) Hs) as (sent & b' & c1 & c2 & pad & o' & E & EF & ES & BO & L4 & LP & CR & B1 & B2 & EBd).
  assert (W := w_frame_as gs l bytes file (mkBuf (repeat 0 n) c e o) (map sealed_as (combine fl l)) (mkBuf b' (length sent) e o')). rewrite ET in W. specialize (W E).
  apply (proj1 (entails_holds _ _)) with (m := b) in W; [|done]. rewrite -EB in W.
  destruct (run_quiet _ st _ h b EM D W) as ([] & st2 & b2 & ER & EM2 & D2 & _ & HP).
  apply run_post in HP as [Es2 (mf & old & -> & DF & HF2 & HO2)].
  set (ms := map sealed_as (combine fl l)) in *.
  assert (WF : rep_file ms bytes file ⊢ wp (WA := quiet) (h_file_free file) (hbuf st2) (fun _ _ => emp%I)).
  { iIntros "F". iApply f_file. by iFrame. }
  apply (proj1 (entails_holds _ _)) with (m := mf) in WF; [|done].
  assert (D3 : h ∪ old ##ₘ mf) by (apply map_disjoint_union_l; apply map_disjoint_union_r in D2; split; [tauto|by apply map_disjoint_sym]).
  assert (EM2' : hmem st2 = (h ∪ old) ∪ mf).
  { rewrite EM2 -(assoc_L (∪)). f_equal. by apply map_union_comm. }
  destruct (run_quiet _ st2 _ (h ∪ old) mf EM2' D3 WF) as ([] & st3 & m3 & E3 & EM3 & _ & _ & HP).
  assert (m3 = ∅) as -> by exact HP. rewrite right_id_L in EM3.
  exists fl. eexists. exists sent, st2, st3. split_and!.
  - exact LF.
  - unfold fl. rewrite Forall_map. apply Forall_forall. intros j _. apply HA.
  - unfold h_transport_write, bind. rewrite EC ER Es2. cbn [cursor buffer]. rewrite EF. reflexivity.
  - rewrite flat_on_wire // in ES CR. exists pad, c1, c2. cbv zeta in *. split_and!; try done.
    + rewrite {1}ES. rewrite -!(assoc_L (++)). reflexivity.
    + rewrite CR. f_equal. rewrite -!(assoc_L (++)). reflexivity.
  - intros HWr. rewrite HWr. assert (LS : Z.of_nat (length sent) < 2147483648).
    { rewrite ES. rewrite !app_length repeat_length. cbn [length]. lia. }
    unfold to_size. rewrite Z.mod_small; [|lia]. rewrite Z.eqb_refl. apply wrap32_small. lia.
  - exact E3.
  - intros HN. apply old_size in HO2 as [SO _].
    assert (EN : List.filter has_crc l = []).
    { clear -HN. induction l as [|m l IH]; [done|]. cbn [List.filter]. unfold has_crc at 1. rewrite (HN m); [|by left]. apply IH. intros x Hx. apply HN. by right. }
    rewrite EN in SO. apply map_size_empty_inv in SO as ->. by rewrite right_id_L in EM3.
Qed.

(** The receiver: exactly the messages before the first one whose checksum was refused;
    if there is one, the buffer says that there was an error. *)
Theorem C83_received gs l sent : Forall round_trippable l -> (length l <= Z.to_nat 32767)%nat -> length gs = length l ->
  Z.of_nat (length sent) < 2147483648 -> frame_around (concat (zip_with on_wire gs l)) sent ->
  exists g k, sml_file_parse (firstn (length sent - 16) (skipn 8 sent)) = Ret g /\
    map m_transaction_id (f_messages g) = map m_transaction_id (firstn k l) /\
    map m_message_body (f_messages g) = map m_message_body (firstn k l) /\
    Forall (eq true) (firstn k gs) /\
    ((k = length l /\ error (f_buf g) = false) \/ (nth_error gs k = Some false /\ error (f_buf g) = true)).
Proof.
  intros HR HC HL HS (pad & c1 & c2 & ES & LP & _). cbv zeta in ES. rewrite -flat_on_wire // in ES. set (bs := flat_map bytes_as (combine gs l)) in *.
  assert (EBd : firstn (length sent - 16) (skipn 8 sent) = bs ++ repeat 0 pad).
  { assert (LS : (length sent - 16)%nat = length (bs ++ repeat 0 pad)) by (rewrite ES !app_length; cbn [length]; lia).
    rewrite LS ES. cbn [app skipn]. rewrite -!(assoc_L (++)). rewrite (assoc_L (++) bs). rewrite firstn_app firstn_all Nat.sub_diag firstn_O app_nil_r. reflexivity. }
  rewrite EBd. destruct (file_parse_as gs l pad HR HC HL) as (g & EG & EMs & EE).
  { rewrite ES !app_length repeat_length in HS. cbn [length] in HS. fold bs. lia. }
  exists g, (leading gs). split; [exact EG|]. rewrite EMs !map_map. split; [by apply map_ext|]. split; [by apply map_ext|]. split.
  - clear. induction gs as [|[] gs IH]; cbn [leading firstn]; [constructor| |constructor]. by constructor.
  - destruct (leading_split gs l HL) as [[EL _]|(m & t & Lt & _ & EN & _)].
    + left. split; [exact EL|]. rewrite EE EL. apply Nat.ltb_irrefl.
    + right. split; [exact EN|]. rewrite EE. by apply Nat.ltb_lt.
Qed.

(** From the sender's memory to the receiver's messages: what arrives is a prefix of what
    was sent, and all of it if no request for a checksum was refused. *)
Theorem C83_prefix (ME : Memory) l bytes n c e o file st h b wr :
  Forall round_trippable l -> (length l <= Z.to_nat 32767)%nat -> (length (flat_map message_bytes l) + 19 <= n)%nat -> Z.of_nat n < 2147483648 ->
  hbuf st = mkBuf (repeat 0 n) c e o -> hmem st = h ∪ b -> h ##ₘ b -> holds (rep_file l bytes file) b ->
  exists r sent st2 g k,
    h_transport_write (ME := ME) wr file st = Ret (r, sent, st2) /\
    sml_file_parse (firstn (length sent - 16) (skipn 8 sent)) = Ret g /\
    map m_transaction_id (f_messages g) = map m_transaction_id (firstn k l) /\
    map m_message_body (f_messages g) = map m_message_body (firstn k l) /\
    ((k = length l /\ error (f_buf g) = false) \/ (k < length l)%nat /\ checksum_request ME false /\ error (f_buf g) = true) /\
    ((0 < k)%nat -> checksum_request ME true).
Proof.
  intros HR HC Hn Hs EB EM D HF.
  destruct (C83_sent ME l bytes n c e o file st h b wr HR Hn Hs EB EM D HF) as (gs & r & sent & st2 & st3 & LG & HA & ES & HW & _).
  assert (LS : Z.of_nat (length sent) < 2147483648).
  { destruct HW as (pad & c1 & c2 & ESe & LP & _). cbv zeta in ESe. rewrite ESe. rewrite -flat_on_wire // !app_length repeat_length. cbn [length].
    pose proof (as_shorter gs l LG). lia. }
  destruct (C83_received gs l sent HR HC LG LS HW) as (g & k & EG & E1 & E2 & HT & HK).
  destruct (Nat.le_gt_cases k (length l)) as [Lk|Lk]; last first.
  { exfalso. destruct HK as [[-> _]|[HK _]]; [lia|]. assert (nth_error gs k <> None) as HN by (by rewrite HK). apply nth_error_Some in HN. lia. }
  exists r, sent, st2, g, k. split_and!; auto.
  - destruct HK as [HK|[HK HE]]; [by left|]. right. assert (nth_error gs k <> None) as HN by (by rewrite HK). apply nth_error_Some in HN.
    split_and!; [lia| |done]. apply nth_error_In in HK. rewrite Forall_forall in HA. by apply HA.
  - intros Hk. destruct gs as [|g0 gs]; [cbn in LG; lia|]. destruct k as [|k]; [lia|]. cbn [firstn] in HT. apply Forall_inv in HT as <-. by apply Forall_inv in HA.
Qed.

(** A program that built its messages while there was memory, and sends them when there is
    none: nothing arrives, and the sender is told that all went well. *)
Definition exhausted : Memory := {| grants _ _ := false |}.
Theorem C83_nothing_left random m l st wr : (forall i, length (random i) = 16%nat) -> Forall buildable (m :: l) -> Forall round_trippable (m :: l) ->
  (length (m :: l) <= Z.to_nat 32767)%nat -> (length (flat_map message_bytes (m :: l)) + 19 <= 512)%nat -> (forall n, wr n = Z.of_nat n) ->
  exists file st1 sent st2 g,
    b_file random (m :: l) st = Ret (file, st1) /\
    h_transport_write (ME := exhausted) wr file st1 = Ret (Z.of_nat (length sent), sent, st2) /\
    sml_file_parse (firstn (length sent - 16) (skipn 8 sent)) = Ret g /\ f_messages g = [] /\ error (f_buf g) = true.
Proof.
  intros HR HB HT HL HS HW. destruct (C57_build random (m :: l) st HR HB HL) as (file & st1 & b & E1 & Es & EM & D & HF).
  destruct (C83_sent exhausted (m :: l) (repeat 0 512) 512 0 false false file st1 (hmem st) b wr HT HS ltac:(done) Es EM D HF)
    as (gs & r & sent & st2 & st3 & LG & HA & ES & HFr & Hr & _).
  assert (LS : Z.of_nat (length sent) < 2147483648).
  { destruct HFr as (pad & c1 & c2 & ESe & LP & _). cbv zeta in ESe. rewrite ESe. rewrite -flat_on_wire // !app_length repeat_length. cbn [length].
    pose proof (as_shorter gs (m :: l) LG). lia. }
  destruct (C83_received gs (m :: l) sent HT HL LG LS HFr) as (g & k & EG & _ & EBd & HTr & HK).
  rewrite (Hr (HW _)) in ES. exists file, st1, sent, st2, g. split_and!; auto.
  - destruct gs as [|g0 gs]; [discriminate LG|]. apply Forall_inv in HA as (? & ? & _ & <-). destruct k as [|k]; [by destruct (f_messages g)|].
    cbn [firstn] in HTr. by apply Forall_inv in HTr.
  - destruct HK as [[-> _]|[_ HK]]; [|done]. destruct gs as [|g0 gs]; [discriminate LG|]. apply Forall_inv in HA as (? & ? & _ & <-). cbn [length firstn] in HTr. by apply Forall_inv in HTr.
Qed.
End WithHost.
Print Assumptions C83_sent.
Print Assumptions C83_received.
Print Assumptions C83_prefix.
Print Assumptions C83_nothing_left.

(** *** Examples *)

(** memory for the first checksum of two, or for none; the sender's return value, the
    number of messages that arrive, the error flag of the receiver *)
Definition stingy (n : nat) : Memory := {| grants st _ := (cursor (hbuf st) <? n)%nat |}.
Definition build_send_receive (ME : Memory) : outcome (Z * nat * bool) :=
  match @b_file LittleEndian top plenty some_random two_messages st0 with
  | Ret (file, st1) =>
      match @h_transport_write LittleEndian top ME (fun n => Z.of_nat n) file st1 with
      | Ret (r, sent, _) =>
          match @sml_file_parse LittleEndian (firstn (length sent - 16) (skipn 8 sent)) with
          | Ret g => Ret (r, length (f_messages g), error (f_buf g))
          | Fault f => Fault f | NoFuel => NoFuel
          end
      | Fault f => Fault f | NoFuel => NoFuel
      end
  | Fault f => Fault f | NoFuel => NoFuel
  end.
Example C83_example : build_send_receive plenty = Ret (184, 2%nat, false) /\ build_send_receive (stingy 150) = Ret (180, 1%nat, true) /\
  build_send_receive exhausted = Ret (180, O, true).
Proof. vm_compute. repeat split. Qed.
(** the hypotheses of the theorems, on memory that the init functions made *)
Example C83_example_hypotheses : Forall (@round_trippable LittleEndian) two_messages /\ (length two_messages <= Z.to_nat 32767)%nat /\
  (length (flat_map (@message_bytes LittleEndian) two_messages) + 19 <= 512)%nat /\
  exists file st h b, @b_file LittleEndian top plenty some_random two_messages st0 = Ret (file, st) /\ hbuf st = mkBuf (repeat 0 512) 0 false false /\ hmem st = h ∪ b /\ h ##ₘ b /\
    holds (@rep_file LittleEndian two_messages (repeat 0 512) file) b.
Proof.
  destruct C57_example_hypotheses as (HR & HB & HT & HL & HS). split_and!; auto.
  destruct (@C57_build LittleEndian top some_random two_messages st0 HR HB HL) as (file & st1 & b & E1 & Es & EM & D & HF).
  exists file, st1, (hmem st0), b. by split_and!.
Qed.
