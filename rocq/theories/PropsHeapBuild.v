(** Memory (C57): building messages with the init and add functions, sending the
    file and freeing it.

    The functions are those of HeapModel, HeapWriteModel and HeapBuildModel.
    [holds (rep_file l bs file) b] says that the blocks [b] are exactly the memory
    of a file at [file] with the messages [l] (and the buffer made of [bs]). *)
From stdpp Require Import gmap.
From iris.proofmode Require Import tactics.
From Verif Require Import Base Buf Number OctetString Boolean Value Time SList Tree Bodies Message File Transport Wf Tests
  Enc Inv TL NumFacts HeapBase HeapModel HeapLogic HeapRep HeapFree HeapSim HeapWriteModel HeapWrite HeapBuildModel HeapBuild
  PropsParse PropsRound PropsSend PropsHeap PropsHeapWrite.

(** The messages a program can build: well-formed, with a body, without a
    checksum (the writer adds it), and with the data of each value of the kind its
    type byte says: [buildable] and [typed] in HeapBuild. *)

Lemma run_alone {AL : Allocator} {A} (c : H A) st (Φ : A -> sbuf -> hprop) : (emp%I ⊢ wp (WA := quiet) c (hbuf st) Φ) ->
  exists a st' m', c st = Ret (a, st') /\ hmem st' = hmem st ∪ m' /\ hmem st ##ₘ m' /\ hconf st' = hconf st /\ holds (Φ a (hbuf st')) m'.
Proof.
  intros W. apply (proj1 (entails_holds _ _)) with (m := ∅) in W; [|done].
  apply (run_quiet c st Φ (hmem st) ∅); [by rewrite right_id_L|apply map_disjoint_empty_r|exact W].
Qed.

Section WithHost.
Context {HO : Host} {AL : Allocator}.

(** *** Building *)
Theorem C57_build random l st : (forall i, length (random i) = 16%nat) -> Forall buildable l -> (length l <= Z.to_nat 32767)%nat ->
  exists file st1 b, b_file random l st = Ret (file, st1) /\ hbuf st1 = sml_buffer_init 512 /\
    hmem st1 = hmem st ∪ b /\ hmem st ##ₘ b /\ holds (rep_file l (repeat 0 512) file) b.
Proof.
  intros HR HW HL.
  assert (W : emp%I ⊢ wp (WA := quiet) (file <- h_file_init_run ;; add_all (h_file_add_message file) (b_msgs random 0 l) ;;; ret file)
    (sml_buffer_init 512) (fun file s => ⟨s = sml_buffer_init 512⟩ ∗ rep_file l (repeat 0 512) file)%I).
  { iIntros "_". iApply wp_bind. iApply file_init_ok. iIntros (p) "F". iApply wp_bind.
    iApply (add_messages_ok random (repeat 0 512) p HR l 0 []); [done|done|]. iFrame "F". iIntros "F". iApply wp_ret. by iFrame. }
  destruct (run_alone _ (use_buf (sml_buffer_init 512) st) _ W) as (file & st1 & b & ER & EM & D & EC & HP).
  destruct HP as (b0 & b1 & -> & D1 & [E0 Es] & HF). assert (b0 = ∅) as -> by exact E0. rewrite left_id_L in EM D.
  exists file, st1, b1. split_and!; auto.
Qed.

(** *** Building, sending, freeing *)

(** If the messages fit into the 512 bytes of the buffer (the value-level
    sml_transport_write succeeds; C43 and C35 say when), the heap program hands
    the same bytes to write(), returns the same value, and afterwards
    sml_file_free leaves the memory as it was before sml_file_init. *)
Theorem C57_build_send_free random l st wr r sent f :
  (forall i, length (random i) = 16%nat) -> Forall buildable l -> (length l <= Z.to_nat 32767)%nat ->
  sml_transport_write wr (mkFile l (sml_buffer_init 512)) = Ret (r, sent, f) ->
  exists file st1 st2 st3,
    b_file random l st = Ret (file, st1) /\
    h_transport_write wr file st1 = Ret (r, sent, st2) /\
    h_file_free file st2 = Ret (tt, st3) /\
    hmem st3 = hmem st.
Proof.
  intros HR HW HL E. destruct (C57_build random l st HR HW HL) as (file & st1 & b & E1 & Es & EM & D & HF).
  unfold sml_transport_write in E. cbn [f_messages f_buf] in E.
  destruct (transport_frame l (sml_buffer_init 512)) as [[ms s']|x|] eqn:ET; [|discriminate..]. injection E as <- <- <-.
  assert (W := w_frame l (repeat 0 512) file (sml_buffer_init 512) ms s' ET).
  apply (proj1 (entails_holds _ _)) with (m := b) in W; [|done]. rewrite -Es in W.
  destruct (run_quiet _ st1 _ (hmem st) b EM D W) as ([] & st2 & b2 & ER & EM2 & D2 & _ & HP).
  apply run_post in HP as [Es2 (mf & old & -> & DF & HF2 & HO2)]. apply old_size in HO2 as [SO _].
  assert (HN : List.filter has_crc l = []).
  { clear -HW. induction HW as [|m l Hm HW IH]; [done|]. cbn [List.filter]. unfold has_crc at 1. by rewrite (bu_crc m Hm). }
  rewrite HN in SO. apply map_size_empty_inv in SO as ->. rewrite right_id_L in EM2 D2.
  assert (WF : rep_file ms (repeat 0 512) file ⊢ wp (WA := quiet) (h_file_free file) (hbuf st2) (fun _ _ => emp%I)).
  { iIntros "F". iApply f_file. by iFrame. }
  apply (proj1 (entails_holds _ _)) with (m := mf) in WF; [|done].
  destruct (run_quiet _ st2 _ (hmem st) mf EM2 D2 WF) as ([] & st3 & m3 & E3 & EM3 & _ & _ & HP).
  assert (m3 = ∅) as -> by exact HP. rewrite right_id_L in EM3.
  exists file, st1, st2, st3. split_and!; auto. unfold h_transport_write, bind. rewrite ER. by rewrite Es2.
Qed.

(** From the calls of the init functions to the messages the receiver's parser
    returns, for messages that survive the encoding (C25) and fit the buffer. *)
Theorem C57_build_send_parse random l st wr :
  (forall i, length (random i) = 16%nat) -> Forall buildable l -> Forall round_trippable l -> (length l <= Z.to_nat 32767)%nat ->
  (length (flat_map message_bytes l) + 19 <= 512)%nat ->
  exists file st1 r sent st2 st3 g,
    b_file random l st = Ret (file, st1) /\
    h_transport_write wr file st1 = Ret (r, sent, st2) /\
    h_file_free file st2 = Ret (tt, st3) /\ hmem st3 = hmem st /\
    sml_file_parse (firstn (length sent - 16) (skipn 8 sent)) = Ret g /\ error (f_buf g) = false /\
    map m_transaction_id (f_messages g) = map m_transaction_id l /\
    map m_message_body (f_messages g) = map m_message_body l.
Proof.
  intros HR HW HT HL HS.
  destruct (C43_transport_round_trip HO l 512 0 false false wr HT HL HS ltac:(done))
    as (r & sent & f & body & pad & c1 & c2 & E & _ & _ & _ & _ & _ & _ & _ & _ & EB & EI & _ & g & EG & EM & EE).
  destruct (C57_build_send_free random l st wr r sent f HR HW HL E) as (file & st1 & st2 & st3 & E1 & E2 & E3 & EH).
  exists file, st1, r, sent, st2, st3, g. rewrite EM. split_and!; auto.
Qed.

(** *** sml_list_add on an entry that already has a successor *)

(** The entries that followed it are lost: freeing the list leaves exactly their
    memory behind. *)
Theorem C57_list_add_loses_successors st h b e l l2 p q :
  hmem st = h ∪ b -> h ##ₘ b -> holds (rep_list (e :: l) p ∗ rep_list l2 q)%I b ->
  exists st1 st2 old n,
    h_list_add p q st = Ret (tt, st1) /\ h_list_free p st1 = Ret (tt, st2) /\
    hmem st2 = h ∪ old /\ h ##ₘ old /\ holds (rep_list l n) old.
Proof.
  intros EM D HR.
  assert (W : (rep_list (e :: l) p ∗ rep_list l2 q)%I ⊢ wp (WA := quiet) (h_list_add p q) (hbuf st)
    (fun _ s => rep_list (e :: l2) p ∗ ∃ n, rep_list l n)%I).
  { iIntros "[(%n & (%ss & P & F) & L) Q]". unfold h_list_add. iDestruct (fields_length with "F") as %LF.
    iApply wp_store; last (iFrame "P"; iIntros "P").
    { exists n. rewrite lookup_app_r -LF; [|done]. by rewrite Nat.sub_diag. }
    iSplitR "L"; [|iExists n; iFrame]. iExists q. iFrame "Q". iExists ss. iFrame "F".
    replace 7%nat with (length ss + 0)%nat by (by rewrite -LF). rewrite insert_app_r. iFrame. }
  apply (proj1 (entails_holds _ _)) with (m := b) in W; [|done].
  destruct (run_quiet _ st _ h b EM D W) as ([] & st1 & b1 & ER & EM1 & D1 & _ & (m1 & old & -> & DO & H1 & (n & H2))).
  apply map_disjoint_union_r in D1 as [DA DB].
  assert (WF : rep_list (e :: l2) p ⊢ wp (WA := quiet) (h_list_free p) (hbuf st1) (fun _ _ => emp%I)).
  { iIntros "F". iApply f_list. by iFrame. }
  apply (proj1 (entails_holds _ _)) with (m := m1) in WF; [|done].
  assert (EM1' : hmem st1 = h ∪ old ∪ m1) by (rewrite EM1 (map_union_comm m1 old DO); by rewrite assoc_L).
  assert (D3 : h ∪ old ##ₘ m1) by (apply map_disjoint_union_l; done).
  destruct (run_quiet _ st1 _ (h ∪ old) m1 EM1' D3 WF) as ([] & st2 & m2 & E2 & EM2 & _ & _ & HP).
  assert (m2 = ∅) as -> by exact HP. rewrite right_id_L in EM2.
  by exists st1, st2, old, n.
Qed.

(** *** A body with a tag that is none of the fourteen *)

(** sml_message_body_free frees the tag and the body, not the data. *)
Theorem C57_unknown_tag_loses_data st tag data : 0 <= tag < 4294967296 ->
  ~ In tag [256; 257; 512; 513; 768; 769; 1024; 1025; 1280; 1281; 1536; 1792; 1793; 65281] ->
  exists body st1 st2, h_message_body_init tag data st = Ret (body, st1) /\ h_message_body_free body st1 = Ret (tt, st2) /\ hmem st2 = hmem st.
Proof.
  intros HT HN.
  assert (W : emp%I ⊢ wp (WA := quiet) (body <- h_message_body_init tag data ;; h_message_body_free body) (hbuf st) (fun _ _ => emp%I)).
  { iIntros "_". unfold h_message_body_init, h_number_init. iApply wp_bind. iApply wp_bind. iApply wp_malloc. iIntros (t) "T".
    iApply wp_malloc. iIntros (p) "P". unfold h_message_body_free. iApply wp_if_ptr. iFrame "P". iIntros "P".
    iApply wp_bind. hload "P". iApply wp_bind. iApply wp_load_bytes. iFrame "T". iIntros "T". iApply wp_bind. hload "P".
    iApply wp_bind. rewrite init_u; [|lia]. change (256 ^ Z.of_nat 4) with 4294967296. rewrite Z.mod_small; [|done].
    assert (EN : h_body_data_free tag data = ret tt).
    { unfold h_body_data_free.
      repeat match goal with |- context [Z.eqb tag ?c] => destruct (Z.eqb_spec tag c) as [->|_]; [exfalso; apply HN; vm_compute; tauto|] end. done. }
    rewrite EN. iApply wp_ret. iApply wp_bind. iApply (f_num (Some _)). iFrame "T". iApply wp_free. by iFrame "P". }
  destruct (run_alone _ st _ W) as ([] & st2 & m2 & E2 & EM2 & _ & _ & HP).
  assert (m2 = ∅) as -> by exact HP. rewrite right_id_L in EM2.
  apply bind_inv in E2 as (body & st1 & E1 & E2). by exists body, st1, st2.
Qed.

(** *** The id a new message gets *)

(** Whatever the 16 random bytes are, it is a UUID of version 4 (RFC 4122: the
    high half of byte 6 is 4, the two top bits of byte 8 are 10), and all other
    bits are the random ones. *)
Theorem C57_uuid random : length random = 16%nat -> bytes_ok random ->
  length (uuid_of random) = 16%nat /\ bytes_ok (uuid_of random) /\
  nth 6 (uuid_of random) 0 = 64 + nth 6 random 0 mod 16 /\
  nth 8 (uuid_of random) 0 = 128 + nth 8 random 0 mod 64 /\
  (forall i, i <> 6%nat -> i <> 8%nat -> nth i (uuid_of random) 0 = nth i random 0).
Proof.
  intros L HB.
  assert (H6 : forall x, 0 <= x < 256 -> Z.lor (Z.land x 15) 64 = 64 + x mod 16).
  { intros x Hx. apply Z.eqb_eq. revert x Hx. apply (byte_cases (fun x => Z.eqb (Z.lor (Z.land x 15) 64) (64 + x mod 16))). vm_compute. reflexivity. }
  assert (H8 : forall x, 0 <= x < 256 -> Z.lor (Z.land x 63) 128 = 128 + x mod 64).
  { intros x Hx. apply Z.eqb_eq. revert x Hx. apply (byte_cases (fun x => Z.eqb (Z.lor (Z.land x 63) 128) (128 + x mod 64))). vm_compute. reflexivity. }
  do 16 (destruct random as [|? random]; [discriminate|]). destruct random; [|discriminate]. clear L.
  do 16 (apply Forall_cons_1 in HB as [? HB]).
  unfold uuid_of. cbn [nth_error firstn skipn app nth length]. rewrite H6; [|done]. rewrite H8; [|done].
  split_and!; [done| |done|done|].
  - unfold bytes_ok. repeat (apply Forall_cons); [..|apply Forall_nil]; try done; unfold byte_ok.
    + pose proof (Z.mod_pos_bound z5 16 ltac:(lia)). lia.
    + pose proof (Z.mod_pos_bound z7 64 ltac:(lia)). lia.
  - intros i N6 N8. do 16 (destruct i as [|i]; [done|]). done.
Qed.
End WithHost.
Print Assumptions C57_build.
Print Assumptions C57_build_send_free.
Print Assumptions C57_build_send_parse.
Print Assumptions C57_list_add_loses_successors.
Print Assumptions C57_unknown_tag_loses_data.
Print Assumptions C57_uuid.

(** *** Examples *)
Definition some_random : nat -> list Z := fun i => map (fun j => Z.of_nat ((i * 37 + j * 11) mod 256)) (seq 0 16).
Definition own_id : sml_message :=
  let H : Host := LittleEndian in
  mkMsg (Some (uuid_of (some_random 1))) (Some [0]) None (Some (mkBody (Some (sml_u32_init 512)) (BCloseReq (mkCloseReq (Some [9]))))) None.
Definition two_messages : list sml_message := [sample_list LittleEndian; own_id].
Lemma sample_list_buildable : @buildable LittleEndian (sample_list LittleEndian).
Proof.
  split; [apply sample_list_ok| |done]. intros b E. injection E as <-. cbn [body_typed mb_data lr_val_list].
  repeat (apply Forall_cons); [..|apply Forall_nil]; cbn [SList.le_value opt]; unfold typed; cbn [v_data v_type].
  - split; [done|]. split; [|done]. bytes.
  - split; [done|]. exists 8%nat. split; [done|]. bytes.
  - split; [done|]. exists 2%nat. split; [done|]. bytes.
Qed.
Lemma own_id_round_trip : @round_trippable LittleEndian own_id.
Proof. unfold own_id. sample. exact I. Qed.
Lemma own_id_buildable : @buildable LittleEndian own_id.
Proof. split; [apply own_id_round_trip| |done]. intros b E. by injection E as <-. Qed.
Example C57_example_hypotheses : (forall i, length (some_random i) = 16%nat) /\ Forall (@buildable LittleEndian) two_messages /\
  Forall (@round_trippable LittleEndian) two_messages /\ (length two_messages <= Z.to_nat 32767)%nat /\
  (length (flat_map (@message_bytes LittleEndian) two_messages) + 19 <= 512)%nat.
Proof.
  split; [done|]. split; [constructor; [apply sample_list_buildable|constructor; [apply own_id_buildable|constructor]]|].
  split; [constructor; [apply sample_list_ok|constructor; [apply own_id_round_trip|constructor]]|].
  split; [apply Nat.leb_le; vm_compute; reflexivity|]. apply Nat.leb_le. vm_compute. reflexivity.
Qed.
(** what happens: the number of blocks after building, the bytes sent, and the
    heap after freeing *)
Definition build_send_free {HO : Host} {AL : Allocator} (l : list sml_message) (st : hstate) : outcome (nat * Z * nat * list (nat * block)) :=
  match b_file some_random l st with
  | Ret (file, st1) =>
      match h_transport_write (fun n => Z.of_nat n) file st1 with
      | Ret (r, sent, st2) =>
          match h_file_free file st2 with Ret (_, st3) => Ret (size (hmem st1), r, length sent, map_to_list (hmem st3)) | Fault f => Fault f | NoFuel => NoFuel end
      | Fault f => Fault f | NoFuel => NoFuel
      end
  | Fault f => Fault f | NoFuel => NoFuel
  end.
Example C57_example_run : @build_send_free LittleEndian top two_messages st0 = Ret (54%nat, 184, 184%nat, [(7%nat, Bytes [1; 2; 3])]).
Proof. vm_compute. reflexivity. Qed.

(** a list of two entries; a third one is added to the first: the second is lost *)
Definition entry_named (n : Z) : list_entry := mkEntry (Some [n]) None None None None None None.
Definition add_to_first {HO : Host} {AL : Allocator} (st : hstate) : outcome (list (nat * block)) :=
  match (p <- b_list [entry_named 1; entry_named 2] ;; q <- b_list [entry_named 3] ;; h_list_add p q ;;; h_list_free p) st with
  | Ret (_, st1) => Ret (map_to_list (hmem st1))
  | Fault f => Fault f | NoFuel => NoFuel
  end.
Example C57_example_list_add : @add_to_first LittleEndian top st0 =
  Ret [(7%nat, Bytes [1; 2; 3]); (11%nat, Struct [Ptr 12; Nul; Nul; Nul; Nul; Nul; Nul; Nul]);
       (13%nat, Bytes [2]); (12%nat, Struct [Ptr 13; Int 1])].
Proof. vm_compute. reflexivity. Qed.
(** the hypotheses of C57_list_add_loses_successors *)
Example C57_example_list_holds :
  holds (rep_list [entry_named 1; entry_named 2] (Ptr 1) ∗ rep_list [entry_named 3] (Ptr 7))%I
    ({[1%nat := Struct [Ptr 2; Nul; Nul; Nul; Nul; Nul; Nul; Ptr 4]]} ∪ ({[2%nat := Struct [Ptr 3; Int 1]]} ∪ ({[3%nat := Bytes [1]]} ∪
    ({[4%nat := Struct [Ptr 5; Nul; Nul; Nul; Nul; Nul; Nul; Nul]]} ∪ ({[5%nat := Struct [Ptr 6; Int 1]]} ∪ ({[6%nat := Bytes [2]]} ∪
    ({[7%nat := Struct [Ptr 8; Nul; Nul; Nul; Nul; Nul; Nul; Nul]]} ∪ ({[8%nat := Struct [Ptr 9; Int 1]]} ∪ {[9%nat := Bytes [3]]})))))))).
Proof.
  assert (W : (Ptr 1 ↦ Struct [Ptr 2; Nul; Nul; Nul; Nul; Nul; Nul; Ptr 4] ∗ Ptr 2 ↦ Struct [Ptr 3; Int 1] ∗ Ptr 3 ↦ Bytes [1] ∗
    Ptr 4 ↦ Struct [Ptr 5; Nul; Nul; Nul; Nul; Nul; Nul; Nul] ∗ Ptr 5 ↦ Struct [Ptr 6; Int 1] ∗ Ptr 6 ↦ Bytes [2] ∗
    Ptr 7 ↦ Struct [Ptr 8; Nul; Nul; Nul; Nul; Nul; Nul; Nul] ∗ Ptr 8 ↦ Struct [Ptr 9; Int 1] ∗ Ptr 9 ↦ Bytes [3])%I
    ⊢ (rep_list [entry_named 1; entry_named 2] (Ptr 1) ∗ rep_list [entry_named 3] (Ptr 7))%I).
  { assert (HE : forall n p q r nx, (p ↦ Struct [q; Nul; Nul; Nul; Nul; Nul; Nul; nx] ∗ q ↦ Struct [r; Int 1] ∗ r ↦ Bytes [n])%I
      ⊢ cell [nx] (entry_fields (entry_named n)) p).
    { intros n p q r nx. iIntros "(A & B & C)". iExists [q; Nul; Nul; Nul; Nul; Nul; Nul]. iFrame "A". unfold fields. cbn.
      iSplitL; [|by repeat iSplit]. iExists r. by iFrame. }
    iIntros "(A1 & A2 & A3 & B1 & B2 & B3 & C1 & C2 & C3)". iSplitL "A1 A2 A3 B1 B2 B3".
    - iExists (Ptr 4). iSplitL "A1 A2 A3"; [iApply HE; iFrame|]. iExists Nul. iSplitL; [iApply HE; iFrame|]. done.
    - iExists Nul. iSplitL; [iApply HE; iFrame|]. done. }
  apply (proj1 (entails_holds _ _) W).
  do 8 (eexists _, _; split; [reflexivity|]; split; [apply map_disjoint_singleton_l; vm_compute; reflexivity|]; split; [by eexists|]).
  by eexists.
Qed.
(** a body with a close request as its data, with its tag 0x0200 and with the
    tag 0x0202: building, freeing, what is left *)
Definition body_with_tag {HO : Host} {AL : Allocator} (tag : Z) (st : hstate) : outcome (list (nat * block)) :=
  match (d <- b_close_req (mkCloseReq None) ;; p <- h_message_body_init tag d ;; h_message_body_free p) st with
  | Ret (_, st1) => Ret (map_to_list (hmem st1))
  | Fault f => Fault f | NoFuel => NoFuel
  end.
Example C57_example_tags :
  @body_with_tag LittleEndian top 512 st0 = Ret [(7%nat, Bytes [1; 2; 3])] /\
  @body_with_tag LittleEndian top 514 st0 = Ret [(7%nat, Bytes [1; 2; 3]); (8%nat, Struct [Nul])].
Proof. vm_compute. split; reflexivity. Qed.
Example C57_example_uuid : uuid_of (some_random 1) =
  [37; 48; 59; 70; 81; 92; 71; 114; 189; 136; 147; 158; 169; 180; 191; 202].
Proof. vm_compute. reflexivity. Qed.
