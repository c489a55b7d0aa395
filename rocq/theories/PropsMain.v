(** Plain times (C54), the result of sending (C55) and the example program as a
    whole (C56). *)
From Coq Require Import SpecFloat.
From Verif Require Import Base Buf Crc16 Number OctetString Boolean Value Time SList Tree Bodies Message File Transport Server ServerMain
  Lib Wf Safe Safe2 Safe3 Ctx Inv MinSize Spec TL Reads Write NumFacts PropsNumber PropsString Item Enc Dzg Round Round2 Round3 PropsRound
  TransportFacts TransportWrite PropsTransport PropsSend PropsServer PropsLost.

(** ** C54 *)
(** Some meters send a time as a bare number of four bytes. *)
Theorem C54_plain_time (H : Host) pre data post : length data = 4%nat ->
  bytes_ok (pre ++ [101] ++ data ++ post) -> Z.of_nat (length (pre ++ [101] ++ data ++ post)) < 2147483648 ->
  exists tm tag v s',
    sml_time_parse (mkBuf (pre ++ [101] ++ data ++ post) (length pre) false false) = Ret (Some tm, s') /\
    tm = mkTime (Some tag) (Some v) /\ length tag = 1%nat /\ mem_u tag = 1 /\ length v = 4%nat /\ mem_u v = be_unsigned data /\
    cursor s' = (length pre + 5)%nat /\ buffer s' = pre ++ [101] ++ data ++ post /\ error s' = false /\
    (* it is written in the standard form, which reads as the same time *)
    (forall pre' post' o, fits pre' 8 post' ->
       exists o', sml_time_write (Some tm) (zeros_at pre' 8 post' o) =
         Ret (tt, mkBuf (pre' ++ [114; 98; 1; 101] ++ data ++ post') (length pre' + 8) false o')) /\
    forall pre' post', post' <> [] -> Z.of_nat (length (pre' ++ [114; 98; 1; 101] ++ data ++ post')) < 2147483648 ->
      exists s2, sml_time_parse (mkBuf (pre' ++ [114; 98; 1; 101] ++ data ++ post') (length pre') false false) = Ret (Some tm, s2) /\
        cursor s2 = (length pre' + 8)%nat /\ error s2 = false.
Proof.
  intros HL HB HS. set (s := mkBuf _ _ _ _).
  assert (R : rest s = [101] ++ data ++ post) by (unfold rest, s; cbn [buffer cursor]; now rewrite skipn_app, skipn_all, Nat.sub_diag).
  assert (TF : tl_field [101]) by (exists [], 101; repeat split; auto; lia).
  assert (BD : bytes_ok data) by (unfold bytes_ok in *; rewrite !Forall_app in HB; tauto).
  assert (WT : wf_time (mkTime (Some [1]) (Some (host_order data)))).
  { split; (split; [|]); cbn [tm_tag tm_data opt]; auto. - apply Forall_cons; [unfold byte_ok; lia|constructor]. - now rewrite host_length. - now apply host_ok. }
  assert (EE : enc (time_item (Some (mkTime (Some [1]) (Some (host_order data))))) = [114; 98; 1; 101] ++ data).
  { cbn [time_item tm_tag tm_data]. rewrite enc_list, flat_cons, flat_one. cbn [num_item enc]. rewrite host_twice, host_length. cbn [length]. rewrite HL.
    assert (E1 : host_order [1] = [1]) by (unfold host_order; destruct sml_number_endian; [reflexivity|now rewrite swap_rev]). rewrite E1. reflexivity. }
  exists (mkTime (Some [1]) (Some (host_order data))), [1], (host_order data), (at_ s 5 false).
  split.
  { unfold sml_time_parse. rewrite (unless_noskip _ _ _ _ R) by lia. unfold bind at 1. rewrite (current_cons _ _ _ R).
    change (101 =? Z.lor SML_TYPE_UNSIGNED 5) with true. cbv iota. unfold sml_time_value. unfold bind at 1. rewrite (type_fwd _ _ _ R TF).
    change (tl_type [101]) with 96. change (96 =? SML_TYPE_UNSIGNED) with true. cbv iota.
    unfold sml_u32_parse. unfold field, bind. rewrite (number_fwd 96 4 s [101] data post); auto; try lia.
    all: try (change (tl_type [101]) with 96; reflexivity). all: try (change (tl_length [101]) with 4; lia).
    all: try (apply tl_type_1; auto; discriminate).
    all: try (intros ->; discriminate HL).
    2: { destruct data; [discriminate HL|discriminate]. }
    rewrite HL. reflexivity. }
  split; [reflexivity|]. split; [reflexivity|]. split; [destruct H; reflexivity|]. split; [now rewrite host_length|]. split; [apply mem_u_host|].
  split; [reflexivity|]. split; [reflexivity|]. split; [reflexivity|]. split.
  - intros pre' post' o HF. assert (EL : 8%nat = length (enc (time_item (Some (mkTime (Some [1]) (Some (host_order data))))))) by (rewrite EE, app_length, HL; reflexivity).
    destruct (written _ _ pre' 8 post' o (writes_time false (Some (mkTime (Some [1]) (Some (host_order data)))) WT) EL HF) as (_ & o' & E). exists o'. rewrite E, EE, <- app_assoc. reflexivity.
  - intros pre' post' HP HL'.
    assert (RD : every readable (time_item (Some (mkTime (Some [1]) (Some (host_order data)))))).
    { cbn [time_item tm_tag tm_data num_item every readable length]. repeat split; lia. }
    set (s2 := mkBuf (pre' ++ [114; 98; 1; 101] ++ data ++ post') (length pre') false false).
    assert (R2 : rest s2 = enc (time_item (Some (mkTime (Some [1]) (Some (host_order data))))) ++ post').
    { rewrite EE, <- app_assoc. unfold rest, s2. cbn [buffer cursor]. now rewrite skipn_app, skipn_all, Nat.sub_diag. }
    eexists. split; [exact (reads_time (Some (mkTime (Some [1]) (Some (host_order data)))) WT RD s2 post' R2 HP eq_refl HL')|]. rewrite EE, app_length, HL. split; reflexivity.
Qed.
Print Assumptions C54_plain_time.
Example C54_example : match @sml_time_parse LittleEndian (mkBuf ([9] ++ [101] ++ [0; 1; 2; 3] ++ [7]) 1 false false) with
  | Ret (Some (mkTime (Some t) (Some v)), s') => @mem_u LittleEndian t = 1 /\ @mem_u LittleEndian v = 66051 /\ cursor s' = 6%nat /\
      match @sml_time_write LittleEndian (Some (mkTime (Some t) (Some v))) (zeros_at [5] 8 [] false) with
      | Ret (_, s2) => buffer s2 = [5; 114; 98; 1; 101; 0; 1; 2; 3] | _ => False end
  | _ => False end.
Proof. vm_compute. auto. Qed.

(** ** C55 *)
Lemma bind_ret {A B} (p : P A) (k : A -> P B) s r s2 : bind p k s = Ret (r, s2) -> exists a s1, p s = Ret (a, s1) /\ k a s1 = Ret (r, s2).
Proof. unfold bind. destruct (p s) as [[a s1]| |]; try discriminate. eauto. Qed.
Lemma store_inc v s r s2 k : (store_current v ;;; inc_cursor ;;; ret k : P (list sml_message)) s = Ret (r, s2) -> (cursor s2 <= buffer_len s2)%nat.
Proof.
  intros E. apply bind_ret in E. destruct E as ([] & s1 & E1 & E). apply bind_ret in E. destruct E as ([] & s3 & E3 & E). inversion E; subst s3. clear E.
  unfold store_current in E1. destruct (Nat.ltb_spec (cursor s) (buffer_len s)) as [HC|]; [|discriminate]. inversion E1; subst s1. inversion E3; subst s2.
  unfold buffer_len, set_cursor, set_buffer in *. cbn [buffer cursor]. rewrite upd_length. lia.
Qed.
Lemma frame_fits (H : Host) l s ms s2 : transport_frame l s = Ret (ms, s2) -> (cursor s2 <= buffer_len s2)%nat.
Proof.
  unfold transport_frame. intros E. do 14 (apply bind_ret in E; destruct E as (? & ? & _ & E)). exact (store_inc _ _ _ _ _ E).
Qed.
(** What write() answers is the number of bytes it took, or -1.  The result is
    the number of bytes of the frame if write() took all of them, and 0
    otherwise; a part that was sent is not reported. *)
Theorem C55_result_of_sending (H : Host) wr f r sent f' : sml_transport_write wr f = Ret (r, sent, f') ->
  Z.of_nat (length (buffer (f_buf f'))) < 2147483648 -> (forall n, -1 <= wr n <= Z.of_nat n) ->
  (wr (length sent) = Z.of_nat (length sent) /\ r = Z.of_nat (length sent)) \/
  (wr (length sent) < Z.of_nat (length sent) /\ r = 0).
Proof.
  unfold sml_transport_write. intros E HS HW. destruct (transport_frame _ _) as [[ms s]| |] eqn:EF; try discriminate. inversion E; subst; clear E. cbn [f_buf] in HS.
  pose proof (frame_fits _ _ _ _ _ EF) as HC. unfold buffer_len in HC. rewrite firstn_length, Nat.min_l by lia. specialize (HW (cursor s)).
  destruct (Z.eqb_spec (to_size (wr (cursor s))) (Z.of_nat (cursor s))) as [EQ|NE].
  - left. assert (wr (cursor s) = Z.of_nat (cursor s)) as ->.
    { unfold to_size in EQ. destruct (Z.eq_dec (wr (cursor s)) (-1)) as [X|X]; [rewrite X in EQ; change (-1 mod 18446744073709551616) with 18446744073709551615 in EQ; lia|].
      rewrite Z.mod_small in EQ by lia. exact EQ. }
    split; [reflexivity|]. apply wrap32_small. lia.
  - right. split; [|reflexivity]. destruct (Z.eq_dec (wr (cursor s)) (Z.of_nat (cursor s))) as [X|X]; [|lia]. exfalso. apply NE. rewrite X. unfold to_size. apply Z.mod_small. lia.
Qed.
Print Assumptions C55_result_of_sending.
Example C55_example : let H : Host := LittleEndian in
  match sml_transport_write (fun n => Z.of_nat n) (mkFile [sample_list H] (sml_buffer_init 512)) with Ret (r, sent, _) => r = Z.of_nat (length sent) /\ r = 148 | _ => False end /\
  match sml_transport_write (fun n => Z.min 100 (Z.of_nat n)) (mkFile [sample_list H] (sml_buffer_init 512)) with Ret (r, sent, _) => r = 0 /\ length sent = 148%nat | _ => False end /\
  match sml_transport_write (fun _ => -1) (mkFile [sample_list H] (sml_buffer_init 512)) with Ret (r, sent, _) => r = 0 | _ => False end.
Proof. vm_compute. auto. Qed.

(** ** C56 *)
Section Program.
Context {H : Host}.
(** The frame's content parses to messages that can be shown (C48). *)
Definition payload_of (fr : list Z) : list Z := firstn (length fr - 16) (skipn 8 fr).
Definition showable_frame (fr : list Z) : Prop := exists f, sml_file_parse (payload_of fr) = Ret f /\ receivable f.
Definition frame_entries (fr : list Z) : list list_entry :=
  match sml_file_parse (payload_of fr) with Ret f => flat_map entries_of (f_messages f) | _ => [] end.

Fixpoint receive_all (fs : list (list Z)) : outcome (list line) :=
  match fs with
  | [] => Ret []
  | f :: t => obind (transport_receiver f) (fun a => obind (receive_all t) (fun b => Ret (a ++ b)))
  end.
Lemma receiver_plain fr : receiver false false fr = obind (transport_receiver fr) (fun ls => Ret (map OLine ls, false)).
Proof.
  unfold receiver, transport_receiver. destruct (length fr <? 16)%nat; [reflexivity|]. destruct (sml_file_parse _) as [f| |]; try reflexivity.
  cbn [obind]. destruct (receive_messages (f_messages f)); reflexivity.
Qed.
Lemma server_of_listen fuel : forall d fs d', listen_loop fuel d = Ret (fs, d') ->
  server_loop fuel false false d = obind (receive_all fs) (fun ls => Ret (map OLine ls, d')).
Proof.
  induction fuel as [|fuel IH]; intros d fs d' E; [discriminate|]. cbn [listen_loop server_loop] in *.
  destruct (sml_transport_read _ d) as [[[n bs] d1]| |]; try discriminate. cbn [obind]. destruct (n =? 0)%nat; [inversion E; reflexivity|].
  destruct (listen_loop fuel d1) as [[l d2]| |] eqn:EL; try discriminate. inversion E; subst. rewrite receiver_plain. cbn [receive_all].
  destruct (transport_receiver bs) as [a| |]; try reflexivity. cbn [obind fst snd]. rewrite (IH _ _ _ EL). destruct (receive_all l) as [b| |]; try reflexivity.
  cbn [obind fst snd]. now rewrite map_app.
Qed.
Definition device_bytes (d : fd) : Prop := Forall (fun x => match x with Some b => byte_ok b | None => True end) (delivered d).
Lemma listen_shape fuel : forall d fs d', listen_loop fuel d = Ret (fs, d') -> device_bytes d ->
  Forall (fun f => bytes_ok f /\ (16 <= length f)%nat /\ Z.of_nat (length f) < 8096) fs.
Proof.
  induction fuel as [|fuel IH]; intros d fs d' E HB; [discriminate|]. cbn [listen_loop] in *.
  destruct (C37_reads_only_frames MC_SML_BUFFER_LEN d) as (n & bs & d1 & E1 & HL & HC). rewrite E1 in E. destruct (Nat.eqb_spec n 0) as [->|HN]; [inversion E; constructor|].
  destruct HC as [->|((_ & HF & _) & noise & HD)]; [contradiction|]. destruct (listen_loop fuel d1) as [[l d2]| |] eqn:EL; try discriminate. inversion E; subst.
  unfold device_bytes in HB. rewrite HD, map_app, !Forall_app in HB. destruct HB as [[_ HB] HB1]. constructor; [|eapply IH; eauto]. split; [|unfold MC_SML_BUFFER_LEN in HF; lia].
  rewrite Forall_map in HB. exact HB.
Qed.
Lemma receivable_dec f : receivable f \/ ~ receivable f.
Proof.
  assert (FE : receivable f <-> Forall (fun m => m_message_body m <> None) (f_messages f) /\ Forall showable (flat_map entries_of (f_messages f))).
  { unfold receivable. rewrite !Forall_forall. split; intros [H1 H2]; (split; [exact H1|]).
    - intros e He. apply in_flat_map in He. destruct He as (m & Hm & He). unfold entries_of in He. destruct (m_message_body m) as [[t d]|] eqn:EM; [|contradiction].
      destruct d; try contradiction. eauto.
    - intros m t b e Hm EM He. apply H2. apply in_flat_map. exists m. split; [exact Hm|]. unfold entries_of. now rewrite EM. }
  rewrite FE. apply fine_dec.
Qed.
Lemma receive_all_shows fs : Forall (fun f => bytes_ok f /\ (16 <= length f)%nat /\ Z.of_nat (length f) < 8096) fs ->
  (Forall showable_frame fs -> exists lss, receive_all fs = Ret (concat lss) /\ Forall2 (shows H) (flat_map frame_entries fs) lss) /\
  (~ Forall showable_frame fs -> exists x, receive_all fs = Fault x).
Proof.
  induction fs as [|fr fs IH]; intros HF; [split; [exists []; split; [reflexivity|constructor]|intros HN; exfalso; apply HN; constructor]|].
  inversion HF as [|? ? (HB & HL & HU) HF']; subst. destruct (IH HF') as [IH1 IH2]. cbn [receive_all flat_map].
  destruct (C48_receiver_crashes_iff H fr HB HL ltac:(lia)) as (f & EF & H1 & H2). fold (payload_of fr) in EF.
  destruct (receivable_dec f) as [HR|HR].
  - destruct (H1 HR) as (a & Ea & Fa). rewrite Ea. cbn [obind]. split.
    + intros HA. inversion HA; subst. destruct IH1 as (b & Eb & Fb); [assumption|]. rewrite Eb. exists (a ++ b). split; [cbn [obind]; now rewrite concat_app|].
      apply Forall2_app; [|exact Fb]. unfold frame_entries. now rewrite EF.
    + intros HN. destruct IH2 as (x & Ex); [|rewrite Ex; exists x; reflexivity]. intros HA. apply HN. constructor; [|exact HA]. exists f. auto.
  - destruct (H2 HR) as (x & Ex). split; [|intros _; rewrite Ex; exists x; reflexivity]. intros HA. inversion HA as [|? ? (f' & EF' & HR') _]; subst. congruence.
Qed.
End Program.

(** Whatever is delivered, in whatever pieces: the program prints what C48 says
    for the frames that sml_transport_listen finds, in their order, and it
    crashes exactly if one of them has a message without body or an entry that
    cannot be shown. *)
Theorem C56_program (H : Host) d : device_bytes d ->
  exists fs d', sml_transport_listen d = Ret (fs, d') /\
    (Forall showable_frame fs -> exists lss, sml_server false false d = Ret (map OLine (concat lss), d') /\
       Forall2 (shows H) (flat_map frame_entries fs) lss) /\
    (~ Forall showable_frame fs -> exists x, sml_server false false d = Fault x).
Proof.
  intros HB. destruct (C38_listen_schedule_independent d d eq_refl) as (fs & d' & _ & E & _ & _). exists fs, d'. split; [exact E|].
  pose proof (listen_shape _ _ _ _ E HB) as HF. destruct (receive_all_shows fs HF) as [H1 H2]. unfold sml_server. rewrite (server_of_listen _ _ _ _ E). split.
  - intros HA. destruct (H1 HA) as (lss & -> & F). exists lss. auto.
  - intros HN. destruct (H2 HN) as (x & ->). exists x. reflexivity.
Qed.
Print Assumptions C56_program.

(** The messages [l] were sent as [sent]: sml_transport_write on a file with a
    zeroed buffer handed these bytes to write(). *)
Definition sent_as (H : Host) (l : list sml_message) (sent : list Z) : Prop :=
  exists n c e o wr r f, Z.of_nat n < 2147483648 /\
    sml_transport_write wr (mkFile l (mkBuf (repeat 0 n) c e o)) = Ret (r, sent, f).
(** Noise on the line, the messages, and the bytes they are sent as. *)
Definition transmission (H : Host) (x : list Z * list sml_message * list Z) : Prop :=
  let '(noise, l, sent) := x in
  ~ In 27 noise /\ Forall round_trippable l /\ (length l <= Z.to_nat 32767)%nat /\ Forall showable (flat_map entries_of l) /\
  sent_as H l sent /\ unescaped (payload_of sent) /\ (length sent < Z.to_nat 8096)%nat.
Lemma entries_of_body l l' : map m_message_body l = map m_message_body l' -> flat_map entries_of l = flat_map entries_of l'.
Proof.
  revert l'. induction l as [|m l IH]; intros [|m' l'] E; try discriminate; [reflexivity|]. cbn [map] in E. inversion E as [[E1 E2]]. cbn [flat_map]. rewrite (IH _ E2).
  f_equal. unfold entries_of. now rewrite E1.
Qed.
Lemma receivable_body g l : map m_message_body (f_messages g) = map m_message_body l -> Forall (fun m => m_message_body m <> None) l ->
  Forall showable (flat_map entries_of l) -> receivable g.
Proof.
  intros EM HB HS. split.
  - intros m Hm. apply (in_map m_message_body) in Hm. rewrite EM in Hm. apply in_map_iff in Hm. destruct Hm as (m' & <- & Hm'). rewrite Forall_forall in HB. now apply HB.
  - intros m t b e Hm Eb He. rewrite <- (entries_of_body _ _ EM) in HS. rewrite Forall_forall in HS. apply HS. apply in_flat_map. exists m. split; [exact Hm|]. unfold entries_of. now rewrite Eb.
Qed.
Lemma transmission_frame (H : Host) noise l sent : transmission H (noise, l, sent) ->
  frame sent /\ bytes_ok sent /\ showable_frame sent /\ frame_entries sent = flat_map entries_of l.
Proof.
  intros (HN & HR & HC & HS & (n & c & e & o & wr & r & f & Hn & E) & HU & HL).
  assert (HW : Forall writable l) by (eapply Forall_impl; [|exact HR]; intros m Hm; apply Hm).
  assert (HZ : Forall (fun m => Forall (every (size_ok false)) (message_items m)) l) by (eapply Forall_impl; [|exact HR]; intros m Hm; apply readable_sizes, Hm).
  assert (HF : (frame_size (length (flat_map message_bytes l)) <= n)%nat).
  { destruct (Nat.le_gt_cases (frame_size (length (flat_map message_bytes l))) n) as [HX|HX]; [exact HX|]. exfalso.
    pose proof (proj2 (frame_write false l (repeat 0 n) HW HZ (zero_bytes n) ltac:(rewrite repeat_length; lia) c e o)) as HO.
    unfold sml_transport_write in E. cbn [f_messages f_buf] in E. rewrite HO in E; [discriminate|]. rewrite repeat_length. exact HX. }
  destruct (round_trip_exact H l n c e o wr HR HC HF Hn) as (r' & sent' & f' & body & pad & c1 & c2 & E' & ES & BS & L4 & _ & _ & _ & _ & _ & EB & _ & _ & g & EG & EM & _).
  rewrite E in E'. assert (sent' = sent) as -> by congruence. assert (f' = f) as -> by congruence. clear E'.
  assert (EP : payload_of sent = body).
  { assert (LS : (length sent - 16 = length body)%nat) by (rewrite ES, !app_length; cbn [length]; lia).
    unfold payload_of. rewrite LS, ES, <- !app_assoc. cbn [app skipn]. rewrite firstn_app, Nat.sub_diag, firstn_O, app_nil_r, firstn_all. reflexivity. }
  split.
  { exists body, pad, c1, c2. split; [rewrite ES, <- !app_assoc; reflexivity|]. rewrite EP in HU. split; [|exact HU].
    rewrite ES in L4. rewrite !app_length in L4. cbn [length] in L4. replace (8 + (length body + 5) + 3)%nat with (length body + 4 * 4)%nat in L4 by lia. rewrite Nat.mod_add in L4 by discriminate. exact L4. }
  split; [exact BS|]. fold (payload_of sent) in EG. rewrite <- EM in EB.
  split; [exists g; split; [exact EG|]; eapply receivable_body; eauto|unfold frame_entries; rewrite EG; now apply entries_of_body].
  eapply Forall_impl; [|exact HR]. intros m Hm. destruct Hm as ([_ _ _ (b & -> & _)] & _). discriminate.
Qed.
(** From the sender's messages to the lines on the screen. *)
Theorem C56_meter_to_screen (H : Host) w tail d : Forall (transmission H) w -> ~ In 27 tail ->
  delivered d = map Some (flat_map (fun x => fst (fst x) ++ snd x) w ++ tail) ->
  exists lss d', sml_server false false d = Ret (map OLine (concat lss), d') /\ delivered d' = [] /\
    Forall2 (shows H) (flat_map entries_of (flat_map (fun x => snd (fst x)) w)) lss.
Proof.
  intros HW HT HD. set (fs := map (fun x : list Z * list sml_message * list Z => (fst (fst x), snd x)) w).
  assert (HC : clean fs).
  { unfold fs, clean. rewrite Forall_map. eapply Forall_impl; [|exact HW]. intros [[noise l] sent] HX. cbn [fst snd]. destruct (transmission_frame _ _ _ _ HX) as (HF & _).
    destruct HX as (HN & _ & _ & _ & _ & _ & HL). auto. }
  destruct (C41_listen_delivers_every_frame d fs tail HC HT) as (d' & E & ED).
  { rewrite HD. unfold fs. rewrite !flat_map_concat_map, map_map. reflexivity. }
  assert (EM : map snd fs = map snd w) by (unfold fs; rewrite map_map; reflexivity). rewrite EM in E.
  destruct (receive_all_shows (map snd w)) as [HR _].
  { rewrite Forall_map. eapply Forall_impl; [|exact HW]. intros [[noise l] sent] HX. cbn [snd]. destruct (transmission_frame _ _ _ _ HX) as (HF & HB & _).
    destruct HX as (_ & _ & _ & _ & _ & _ & HL). split; [exact HB|]. split; [|lia]. destruct HF as (p & a & b & c & -> & _). rewrite !app_length. cbn [length]. lia. }
  destruct HR as (lss & ER & F).
  { rewrite Forall_map. eapply Forall_impl; [|exact HW]. intros [[noise l] sent] HX. apply (transmission_frame _ _ _ _ HX). }
  exists lss, d'. unfold sml_server. rewrite (server_of_listen _ _ _ _ E), ER. split; [reflexivity|]. split; [exact ED|].
  replace (flat_map entries_of (flat_map (fun x => snd (fst x)) w)) with (flat_map frame_entries (map snd w)); [exact F|].
  clear - HW. induction HW as [|[[noise l] sent] w HX HW IH]; [reflexivity|]. cbn [map flat_map fst snd]. rewrite flat_map_app, IH. f_equal. apply (transmission_frame _ _ _ _ HX).
Qed.
Print Assumptions C56_meter_to_screen.

(** *** With -s *)
Definition is_list_response (m : sml_message) : Prop := exists t b, m_message_body m = Some (mkBody t (BListRes b)).
(** Messages with bodies, none of which is a list response. *)
Definition passed_over (l : list sml_message) : Prop := Forall (fun m => m_message_body m <> None /\ ~ is_list_response m) l.
Lemma tag_list (H : Host) m : wf_message m -> m_message_body m <> None ->
  exists t, print_tag m = Ret t /\ (t =? SML_MESSAGE_GET_LIST_RESPONSE = true <-> is_list_response m).
Proof.
  intros [_ _ _ W _] HN. unfold print_tag, is_list_response. destruct (m_message_body m) as [[t d]|]; [|congruence].
  destruct W as (tm & Et & Ht & Hd). cbn [mb_tag mb_data] in *. subst t. exists (mem_u tm). split; [reflexivity|]. rewrite Z.eqb_eq. unfold SML_MESSAGE_GET_LIST_RESPONSE.
  split.
  - intros E. destruct d; cbn [wf_body_data] in Hd; try (destruct Hd as [Hd1 Hd2]); try lia; [exfalso; apply Hd; cbn [In]; lia|eauto].
  - intros (t & b & E). inversion E; subst. cbn [wf_body_data] in Hd. lia.
Qed.
Lemma first_passed (H : Host) l1 : forall l2, Forall wf_message l1 -> passed_over l1 -> receive_first (l1 ++ l2) = receive_first l2.
Proof.
  induction l1 as [|m l1 IH]; intros l2 HW HP; [reflexivity|]. inversion HW as [|? ? Wm Wl]; subst. inversion HP as [|? ? [Bm Nm] Pl]; subst. cbn [app receive_first].
  destruct (message_entries m Wm Bm) as [-> _]. destruct (tag_list H m Wm Bm) as (t & -> & HT).
  assert (entries_of m = []) as ->. { unfold entries_of. destruct (m_message_body m) as [[tg d]|] eqn:EB; [|reflexivity]. destruct d; try reflexivity. exfalso. apply Nm. eexists _, _. exact EB. }
  cbn [receive_entries obind]. destruct (t =? SML_MESSAGE_GET_LIST_RESPONSE); [exfalso; tauto|]. rewrite (IH l2 Wl Pl). destruct (receive_first l2) as [[a b]| |]; reflexivity.
Qed.
Lemma first_found (H : Host) m l2 : wf_message m -> is_list_response m -> Forall showable (entries_of m) ->
  exists lss, receive_first (m :: l2) = Ret (concat lss, true) /\ Forall2 (shows H) (entries_of m) lss.
Proof.
  intros HW HL HS. assert (Bm : m_message_body m <> None) by (destruct HL as (t & b & ->); discriminate).
  destruct (message_entries m HW Bm) as [E1 We]. destruct (tag_list H m HW Bm) as (t & Et & HT). destruct (entries_shows _ We HS) as (lss & E2 & F).
  exists lss. split; [|exact F]. cbn [receive_first]. rewrite E1, E2, Et. cbn [obind]. now rewrite (proj2 HT HL).
Qed.
(** Frames whose messages are all passed over are read; the entries of the first
    list response are printed, and the program ends.  Nothing is asked of the
    messages that follow and of the bytes behind the frame, which are not read. *)
Theorem C56_single (H : Host) d fs noise fr rest f l1 m l2 : clean (fs ++ [(noise, fr)]) -> Forall (fun x => bytes_ok (snd x)) fs -> bytes_ok fr ->
  Forall (fun x => exists g, sml_file_parse (payload_of (snd x)) = Ret g /\ passed_over (f_messages g)) fs ->
  sml_file_parse (payload_of fr) = Ret f -> f_messages f = l1 ++ m :: l2 -> passed_over l1 -> is_list_response m -> Forall showable (entries_of m) ->
  delivered d = map Some (flat_map (fun x => fst x ++ snd x) fs ++ noise ++ fr) ++ rest ->
  exists lss d', sml_server false true d = Ret (map OLine (concat lss), d') /\ Forall2 (shows H) (entries_of m) lss /\ delivered d' = rest.
Proof.
  intros HC HB HBf HP EF EM P1 Lm Sm HD.
  assert (HW : forall p g, bytes_ok p -> sml_file_parse p = Ret g -> Forall wf_message (f_messages g)).
  { intros p g Bp Ep. pose proof (file_parse_safe 7 p min_size_7 Bp) as HF. rewrite Ep in HF. destruct HF as (_ & _ & _ & HF & _).
    eapply Forall_impl; [|exact HF]. intros x Hx. eapply parsed_in_wf; eauto. }
  assert (HPB : forall x, bytes_ok x -> bytes_ok (payload_of x)) by (intros; apply Forall_firstn, Forall_skipn; assumption).
  assert (HL : forall x, frame x -> (length x <? 16)%nat = false).
  { intros x (p & a & b & c & -> & _). apply Nat.ltb_ge. rewrite !app_length. cbn [length]. lia. }
  unfold sml_server. assert (HFu : (length fs < S (fd_size d))%nat).
  { pose proof (delivered_size d) as HS. rewrite HD, app_length, map_length, app_length in HS.
    assert (length fs <= length (flat_map (fun x => fst x ++ snd x) fs))%nat; [|lia]. apply Forall_app in HC. destruct HC as [HC _]. clear - HC.
    induction fs as [|[n x] fs IH]; [cbn; lia|]. apply Forall_cons_iff in HC. destruct HC as [(_ & (p & a & b & c & HF & _) & _) HC]. specialize (IH HC).
    cbn [fst snd] in HF. cbn [flat_map fst snd length]. rewrite HF, !app_length. cbn [length]. lia. }
  revert HFu HD. generalize (S (fd_size d)) as fuel. intros fuel. revert fuel d.
  induction fs as [|[n x] fs IH]; intros fuel d HFu HD; (destruct fuel as [|fuel]; [cbn in HFu; lia|]); cbn [server_loop].
  - cbn [flat_map app] in *. inversion HC as [|? ? (HN & HFr & HLen) _]; subst. cbn [fst snd] in *.
    destruct (C39_frame_found_after_noise MC_SML_BUFFER_LEN d noise fr rest HD HN HFr HLen) as (d1 & E1 & ED). rewrite E1. cbn [obind].
    destruct (Nat.eqb_spec (length fr) 0) as [HZ|_]; [pose proof (HL _ HFr) as HX; rewrite HZ in HX; discriminate|].
    unfold receiver. rewrite (HL _ HFr). fold (payload_of fr). rewrite EF. cbn [obind]. rewrite EM.
    pose proof (HW _ _ (HPB _ HBf) EF) as WF. rewrite EM in WF. apply Forall_app in WF. destruct WF as [W1 W2]. inversion W2; subst.
    rewrite first_passed by auto. destruct (first_found H m l2) as (lss & E & F); auto. rewrite E. cbn [obind fst snd app]. exists lss, d1. auto.
  - cbn [app] in HC. inversion HC as [|? ? (HN & HFr & HLen) HC']; subst. inversion HB as [|? ? Bx HB']; subst. inversion HP as [|? ? (g & EG & PG) HP']; subst. cbn [fst snd flat_map] in *.
    destruct (C39_frame_found_after_noise MC_SML_BUFFER_LEN d n x (map Some (flat_map (fun x => fst x ++ snd x) fs ++ noise ++ fr) ++ rest)) as (d1 & E1 & ED); auto.
    { rewrite HD, <- !app_assoc, !map_app, <- !app_assoc. reflexivity. }
    rewrite E1. cbn [obind]. destruct (Nat.eqb_spec (length x) 0) as [HZ|_]; [pose proof (HL _ HFr) as HX; rewrite HZ in HX; discriminate|].
    unfold receiver at 1. rewrite (HL _ HFr). fold (payload_of x). rewrite EG. cbn [obind]. rewrite <- (app_nil_r (f_messages g)), first_passed by eauto. cbn [receive_first obind fst snd map app].
    destruct (IH HC' HB' HP' fuel d1) as (lss & d' & E & F & ED'); [cbn in HFu; lia|exact ED|]. rewrite E. cbn [obind fst snd app]. exists lss, d'. auto.
Qed.
Print Assumptions C56_single.

(** *** With -v *)
Definition is_line (o : output) : bool := match o with OLine _ => true | _ => false end.
Lemma lines_kept ls : filter is_line (map OLine ls) = map OLine ls.
Proof. induction ls as [|l ls IH]; [reflexivity|]. cbn. now rewrite IH. Qed.
Lemma tags_dropped ts : filter is_line (map OTag ts) = [].
Proof. induction ts as [|t ts IH]; [reflexivity|]. exact IH. Qed.
Lemma tags_of (H : Host) l : forall ts, print_tags l = Ret ts ->
  Forall2 (fun m t => exists tm b, m_message_body m = Some (mkBody (Some tm) b) /\ mem_u tm = t) l ts.
Proof.
  induction l as [|m l IH]; intros ts E; cbn [print_tags] in E; [inversion E; constructor|]. destruct (print_tag m) as [t| |] eqn:ET; try discriminate.
  destruct (print_tags l) as [us| |]; try discriminate. inversion E; subst. constructor; [|now apply IH]. unfold print_tag in ET.
  destruct (m_message_body m) as [[[tm|] b]|]; try discriminate. cbn [mb_tag] in ET. inversion ET. eauto.
Qed.
(** For each frame the number of messages, the number of bytes read, and the tag
    of every message are printed in front. *)
Theorem C56_verbose_frame (H : Host) s fr o e : receiver true s fr = Ret (o, e) ->
  exists f ts ls, sml_file_parse (payload_of fr) = Ret f /\ receiver false s fr = Ret (map OLine ls, e) /\
    o = OFile (Z.of_nat (length (f_messages f))) (Z.of_nat (cursor (f_buf f))) :: map OTag ts ++ [OHeader] ++ map OLine ls /\
    Forall2 (fun m t => exists tm b, m_message_body m = Some (mkBody (Some tm) b) /\ mem_u tm = t) (f_messages f) ts.
Proof.
  unfold receiver. fold (payload_of fr). destruct (length fr <? 16)%nat; [discriminate|]. destruct (sml_file_parse (payload_of fr)) as [f| |]; try discriminate. cbn [obind].
  unfold print_file. destruct (print_tags (f_messages f)) as [ts| |] eqn:ET; try discriminate. cbn [obind].
  destruct (if s then receive_first (f_messages f) else _) as [[ls e']| |]; try discriminate. cbn [obind fst snd]. intros E. inversion E; subst.
  exists f, ts, ls. split; [reflexivity|]. split; [reflexivity|]. split; [reflexivity|]. now apply tags_of.
Qed.
Print Assumptions C56_verbose_frame.
(** Apart from that nothing changes. *)
Theorem C56_verbose_same_lines (H : Host) s d o d' : sml_server true s d = Ret (o, d') -> sml_server false s d = Ret (filter is_line o, d').
Proof.
  unfold sml_server. generalize (S (fd_size d)) as fuel. intros fuel. revert d o d'.
  induction fuel as [|fuel IH]; intros d o d' E; [discriminate|]. cbn [server_loop] in *. destruct (sml_transport_read _ d) as [[[n bs] d1]| |]; try discriminate. cbn [obind] in *.
  destruct (n =? 0)%nat; [inversion E; reflexivity|]. destruct (receiver true s bs) as [[o1 e]| |] eqn:ER; try discriminate. cbn [obind fst snd] in E.
  destruct (C56_verbose_frame H s bs o1 e ER) as (f & ts & ls & _ & EQ & EO & _). rewrite EQ. cbn [obind fst snd].
  assert (EL : filter is_line o1 = map OLine ls) by (rewrite EO; cbn [filter is_line]; rewrite !filter_app, tags_dropped, lines_kept; reflexivity).
  destruct e; [inversion E; subst; now rewrite EL|]. destruct (server_loop fuel true s d1) as [[o2 d2]| |] eqn:E2; try discriminate. cbn [obind fst snd] in E. inversion E; subst.
  rewrite (IH _ _ _ E2). cbn [obind fst snd]. now rewrite filter_app, EL.
Qed.
Print Assumptions C56_verbose_same_lines.


(** *** An example run *)
Fixpoint unescapedb (fuel : nat) (p : list Z) : bool :=
  match fuel, p with
  | S fuel', a :: b :: c :: d :: t => negb (list_eqb [a; b; c; d] esc_seq) && unescapedb fuel' t
  | _, [] => true
  | _, _ => false
  end.
Lemma unescapedb_ok fuel : forall p, unescapedb fuel p = true -> unescaped p.
Proof.
  induction fuel as [|fuel IH]; intros [|a [|b [|c [|d t]]]] E; try discriminate; try apply unescaped_nil. cbn [unescapedb] in E. apply andb_prop in E. destruct E as [E1 E2].
  change (a :: b :: c :: d :: t) with ([a; b; c; d] ++ t). apply unescaped_cons; [reflexivity|]. split; [|now apply IH].
  intros EQ. rewrite EQ in E1. discriminate.
Qed.
Definition sample_close (H : Host) : sml_message :=
  mkMsg (Some [1; 2]) (Some (u8 0)) None (Some (mkBody (Some (sml_u32_init 512)) (BCloseReq (mkCloseReq (Some [1; 2; 3]))))) None.
Example sample_close_ok : round_trippable (H := LittleEndian) (sample_close LittleEndian).
Proof. unfold sample_close. sample. exact I. Qed.
Definition run_sent : list Z :=
  match @sml_transport_write LittleEndian (fun n => Z.of_nat n) (mkFile [sample_close LittleEndian; sample_list LittleEndian; sample_close LittleEndian] (sml_buffer_init 512)) with
  | Ret (_, sent, _) => sent | _ => [] end.
Example C56_example_transmission : transmission LittleEndian ([1; 2], [sample_close LittleEndian; sample_list LittleEndian; sample_close LittleEndian], run_sent).
Proof.
  split; [cbn [In]; lia|]. split; [apply Forall_cons; [exact sample_close_ok|]; apply Forall_cons; [exact sample_list_ok|]; apply Forall_cons; [exact sample_close_ok|apply Forall_nil]|]. split; [cbn [length]; lia|].
  split; [repeat (apply Forall_cons; [right; split; [eexists; split; [reflexivity|cbn [length]; lia]|discriminate]|]); constructor|].
  split; [exists 512%nat, 0%nat, false, false, (fun n => Z.of_nat n); eexists _, _; split; [lia|vm_compute; reflexivity]|].
  split; [apply (unescapedb_ok 200); vm_compute; reflexivity|]. apply Nat.ltb_lt. vm_compute. reflexivity.
Qed.
Definition run_lines : list line :=
  [LStr [1; 0; 96; 50; 1; 1] [69; 77; 72]; LNum [1; 0; 1; 8; 0; 255] (double_of_Z 578437695752307201) (-1) (Some [87; 104]);
   LNum [1; 0; 16; 7; 0; 255] (double_of_Z 4351) (-2) (Some [87])].
Example C56_example_run : let dev := [Chunk [1; 2]; Intr; Chunk (firstn 50 run_sent); Chunk (skipn 50 run_sent); Chunk run_sent] in
  @sml_server LittleEndian false false dev = Ret (map OLine (run_lines ++ run_lines), []) /\
  @sml_server LittleEndian false true dev = Ret (map OLine run_lines, [Chunk run_sent]) /\
  match @sml_server LittleEndian true true dev with
  | Ret (o, d) => o = [OFile 3 176; OTag 512; OTag 1793; OTag 512; OHeader] ++ map OLine run_lines /\ d = [Chunk run_sent] | _ => False end.
Proof. vm_compute. repeat split. Qed.
