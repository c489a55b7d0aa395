(** C84, on the heap: a file built once and sent many times. *)
From stdpp Require Import gmap.
From iris.proofmode Require Import tactics.
From Verif Require Import Base Buf Crc16 Number OctetString Boolean Value Time SList Tree Bodies Message File Transport
  Lib Spec Wf Write Item Enc CrcProof Round3 PropsRound TransportWrite PropsSend Cells EncCells OverFrame PropsResend
  HeapBase HeapModel HeapLogic HeapRep HeapFree HeapSim HeapWriteModel HeapWrite HeapBuildModel HeapBuild PropsHeap PropsHeapWrite PropsHeapBuild.
Local Existing Instance quiet.

Section WithHost.
Context {HO : Host} {AL : Allocator}.

(** A program that sends the file [n] times. *)
Fixpoint h_send_times (n : nat) (wr : nat -> Z) (file : slot) : H (list (Z * list Z)) :=
  match n with
  | O => ret []
  | S n' => x <- h_transport_write wr file ;; t <- h_send_times n' wr file ;; ret (x :: t)
  end.

(** the buffer holds zeros, or the messages themselves, where they will be written *)
Definition ready (l : list sml_message) (b : list Z) : Prop :=
  bytes_ok b /\ length b = 512%nat /\ fits_over (firstn (length (flat_map message_bytes l)) (skipn 8 b)) (flat_map message_cells l).
Lemma sealed_same l : map sealed (map sealed l) = map sealed l.
Proof. rewrite map_map. by apply map_ext. Qed.
Lemma sealed_bytes l : flat_map message_bytes (map sealed l) = flat_map message_bytes l.
Proof. rewrite flat_map_concat_map map_map -flat_map_concat_map. done. Qed.
Lemma sealed_cells l : flat_map message_cells (map sealed l) = flat_map message_cells l.
Proof. rewrite flat_map_concat_map map_map -flat_map_concat_map. done. Qed.
Lemma sealed_sized l : sized HO false l -> sized HO false (map sealed l).
Proof.
  intros [HW HS]. split; rewrite List.Forall_map.
  - eapply List.Forall_impl; [|exact HW]. intros x [W1 W2 W3 W4]. by constructor.
  - exact HS.
Qed.
Lemma frame_ready l b c e o : sized HO false l -> (length (flat_map message_bytes l) + 19 <= 512)%nat -> ready l b -> exists b' o',
  transport_frame l (mkBuf b c e o) = Ret (map sealed l, mkBuf b' (frame_size (length (flat_map message_bytes l))) e o') /\
  firstn (frame_size (length (flat_map message_bytes l))) b' = frame_of (flat_map message_bytes l) /\ ready (map sealed l) b'.
Proof.
  intros HS HR (HB & LB & HF). assert (HN : Z.of_nat (length b) < 2147483648) by lia. set (bs := flat_map message_bytes l) in *.
  assert (HR' : (frame_size (length bs) <= length b)%nat) by (unfold frame_size; pose proof (pad_bound (length bs)); lia).
  destruct (frame_over l b (proj1 HS) (proj2 HS) HB HN HR' c e o) as (o' & E). fold bs in E.
  destruct (send_over l b c e o (fun n => Z.of_nat n) HS HB HN HR') as (r & f & E2 & _ & LM & LO & BF & EBf & _).
  unfold sml_transport_write in E2. cbn [f_messages f_buf] in E2. rewrite E in E2. injection E2 as _ _ <-. fold bs in LM, LO, BF, EBf. cbn [f_buf buffer] in BF, EBf.
  assert (EM : messages_over (firstn (length bs) (skipn 8 b)) l = bs) by (apply messages_fit; [exact LO|exact HF]).
  rewrite (sealed_fits l _ LO EM) EM in E. rewrite EM in BF. eexists _, o'. split; [exact E|]. split.
  { rewrite -(frame_of_length bs) firstn_app Nat.sub_diag firstn_O app_nil_r firstn_all. done. }
  split_and!; [exact BF| |].
  - rewrite app_length frame_of_length skipn_length. lia.
  - rewrite sealed_bytes sealed_cells. fold bs.
    assert (EX : firstn (length bs) (skipn 8 (frame_of bs ++ skipn (frame_size (length bs)) b)) = bs).
    { unfold frame_of, frame_head. rewrite -!(assoc_L (++)). change start_seq with [27; 27; 27; 27; 1; 1; 1; 1]. cbn [app skipn].
      rewrite firstn_app Nat.sub_diag firstn_O app_nil_r. apply firstn_all. }
    rewrite EX. unfold bs. rewrite -messages_cells_bytes. by apply same_marks_fit.
Qed.
Lemma transport_once l bytes file st h b wr : sized HO false l -> (length (flat_map message_bytes l) + 19 <= 512)%nat -> ready l (buffer (hbuf st)) ->
  hmem st = h ∪ b -> h ##ₘ b -> holds (rep_file l bytes file) b ->
  let k := frame_size (length (flat_map message_bytes l)) in
  exists st2 mf old, h_transport_write wr file st = Ret ((if to_size (wr k) =? Z.of_nat k then wrap32 (wr k) else 0)%Z, frame_of (flat_map message_bytes l), st2) /\
    ready (map sealed l) (buffer (hbuf st2)) /\ hmem st2 = (h ∪ old) ∪ mf /\ h ##ₘ old /\ h ∪ old ##ₘ mf /\ holds (rep_file (map sealed l) bytes file) mf /\
    size old = length (List.filter has_crc l) /\ (forall x y, old !! x = Some y -> exists c, y = Bytes c).
Proof.
  intros HS HR HB EM D HF k. destruct (hbuf st) as [bb cc ee oo] eqn:EB. cbn [buffer] in HB.
  destruct (frame_ready l bb cc ee oo HS HR HB) as (b' & o' & E & EF & HB2). fold k in E, EF.
  assert (W := w_frame l bytes file (mkBuf bb cc ee oo) (map sealed l) _ E).
  apply (proj1 (entails_holds _ _)) with (m := b) in W; [|done]. rewrite -EB in W.
  destruct (run_quiet _ st _ h b EM D W) as ([] & st2 & b2 & ER & EM2 & D2 & _ & HP).
  apply run_post in HP as [Es2 (mf & old & -> & DF & HF2 & HO2)]. apply old_size in HO2 as [SO TO].
  apply map_disjoint_union_r in D2 as [D2a D2b].
  exists st2, mf, old. split_and!; auto.
  - unfold h_transport_write, bind. rewrite ER Es2. cbn [cursor buffer]. by rewrite EF.
  - rewrite Es2. exact HB2.
  - rewrite EM2 -(assoc_L (∪)). f_equal. by apply map_union_comm.
  - apply map_disjoint_union_l. split; [done|by apply map_disjoint_sym].
  - intros x y Hx. destruct (TO x y Hx) as (m & c & _ & _ & ->). by eexists.
Qed.
Lemma times_sealed n : forall l bytes file st h b wr, sized HO false l -> (length (flat_map message_bytes l) + 19 <= 512)%nat -> ready l (buffer (hbuf st)) ->
  hmem st = h ∪ b -> h ##ₘ b -> holds (rep_file l bytes file) b -> l = map sealed l ->
  let k := frame_size (length (flat_map message_bytes l)) in
  exists st2 mf old, h_send_times n wr file st = Ret (repeat ((if to_size (wr k) =? Z.of_nat k then wrap32 (wr k) else 0)%Z, frame_of (flat_map message_bytes l)) n, st2) /\
    hmem st2 = (h ∪ old) ∪ mf /\ h ##ₘ old /\ h ∪ old ##ₘ mf /\ holds (rep_file l bytes file) mf /\
    size old = (n * length l)%nat /\ (forall x y, old !! x = Some y -> exists c, y = Bytes c).
Proof.
  induction n as [|n IH]; intros l bytes file st h b wr HS HR HB EM D HF EL k.
  - exists st, b, ∅. cbn [h_send_times repeat]. rewrite right_id_L. split; [done|]. split; [done|]. split; [by apply map_disjoint_empty_r|]. split; [done|]. split; [done|].
    split; [by rewrite map_size_empty|]. intros x y Hx. by rewrite lookup_empty in Hx.
  - destruct (transport_once l bytes file st h b wr HS HR HB EM D HF) as (st1 & mf & old & E1 & HB1 & EM1 & D1 & D2 & HF1 & SO & TO).
    rewrite -EL in HB1 HF1. destruct (IH l bytes file st1 (h ∪ old) mf wr HS HR HB1 EM1 D2 HF1 EL) as (st2 & mf2 & old2 & E2 & EM2 & D3 & D4 & HF2 & SO2 & TO2).
    fold k in E1, E2. exists st2, mf2, (old ∪ old2). cbn [h_send_times repeat]. unfold bind. rewrite E1 E2.
    apply map_disjoint_union_l in D3 as [D3a D3b].
    split_and!; auto.
    + by rewrite (assoc_L (∪)).
    + apply map_disjoint_union_r. done.
    + by rewrite (assoc_L (∪)).
    + rewrite map_size_disj_union // SO SO2. assert (EN : List.filter has_crc l = l); [|rewrite EN; lia].
      rewrite EL. clear. induction l as [|m l IH]; [done|]. cbn [map List.filter]. unfold has_crc at 1. cbn [sealed m_crc]. by rewrite IH.
    + intros x y Hx. apply lookup_union_Some in Hx as [Hx|Hx]; [by apply (TO x)|by apply (TO2 x)|done].
Qed.

(** Built once, sent [n + 1] times, freed: the same bytes each time, those of the first
    transmission; what stays behind is one checksum of each message for every transmission
    after the first. *)
Theorem C84_many_times random l st wr n : (forall i, length (random i) = 16%nat) -> Forall buildable l -> (length l <= Z.to_nat 32767)%nat ->
  sized HO false l -> (length (flat_map message_bytes l) + 19 <= 512)%nat ->
  exists file st1 r sent f st2 st3 old,
    b_file random l st = Ret (file, st1) /\
    sml_transport_write wr (mkFile l (sml_buffer_init 512)) = Ret (r, sent, f) /\
    h_send_times (S n) wr file st1 = Ret (repeat (r, sent) (S n), st2) /\
    h_file_free file st2 = Ret (tt, st3) /\ hmem st3 = hmem st ∪ old /\ hmem st ##ₘ old /\
    size old = (n * length l)%nat /\ (forall x y, old !! x = Some y -> exists c, y = Bytes c).
Proof.
  intros HR HW HL HS HN. destruct (C57_build random l st HR HW HL) as (file & st1 & b & E1 & Es & EM & D & HF).
  set (m := length (flat_map message_bytes l)) in *.
  assert (HB : ready l (buffer (hbuf st1))).
  { rewrite Es. unfold sml_buffer_init. cbn [buffer]. split_and!; [apply zero_bytes|apply repeat_length|]. fold m. rewrite zeros_inside; [|lia]. apply zeros_fit. by rewrite messages_cells_length. }
  destruct (send_fresh l 512 0 false false wr HS ltac:(done)) as (f & E0 & _); [fold m; unfold frame_size; pose proof (pad_bound m); lia|]. cbv zeta in E0. fold m in E0.
  destruct (transport_once l _ file st1 (hmem st) b wr HS HN HB EM D HF) as (st2 & mf & old & E2 & HB2 & EM2 & D1 & D2 & HF2 & SO & _). fold m in E2.
  assert (HC : List.filter has_crc l = []).
  { clear -HW. induction HW as [|x l Hm HW IH]; [done|]. cbn [List.filter]. unfold has_crc at 1. by rewrite (bu_crc x Hm). }
  rewrite HC in SO. apply map_size_empty_inv in SO as ->. rewrite right_id_L in EM2 D2.
  destruct (times_sealed n (map sealed l) _ file st2 (hmem st) mf wr (sealed_sized l HS) ltac:(by rewrite sealed_bytes) HB2 EM2 D2 HF2 (eq_sym (sealed_same l)))
    as (st3 & mf3 & old & E3 & EM3 & D3 & D4 & HF3 & SO & TO). rewrite sealed_bytes in E3. fold m in E3. rewrite map_length in SO.
  assert (WF : rep_file (map sealed l) (repeat 0%Z 512) file ⊢ wp (WA := quiet) (h_file_free file) (hbuf st3) (fun _ _ => emp%I)).
  { iIntros "F". iApply f_file. by iFrame. }
  apply (proj1 (entails_holds _ _)) with (m := mf3) in WF; [|done].
  destruct (run_quiet _ st3 _ (hmem st ∪ old) mf3 EM3 D4 WF) as ([] & st4 & m4 & E4 & EM4 & _ & _ & HP).
  assert (m4 = ∅) as -> by exact HP. rewrite right_id_L in EM4.
  exists file, st1. eexists _, _, f, st3, st4, old. split; [exact E1|]. split; [exact E0|]. split; [|split_and!; auto].
  change (h_send_times (S n) wr file) with (x <- h_transport_write wr file ;; t <- h_send_times n wr file ;; ret (x :: t)).
  unfold bind. rewrite E2 E3. done.
Qed.
End WithHost.
Print Assumptions C84_many_times.

(** two messages, the first with a signature of 20 bytes, sent three times: the same bytes
    each time, and four checksums are left when the file has been freed *)
Definition build_send_thrice : outcome (bool * Z * list (nat * block)) :=
  match @b_file LittleEndian top plenty some_random two_messages st0 with
  | Ret (file, st1) =>
      match @h_send_times LittleEndian top 3 (fun n => Z.of_nat n) file st1 with
      | Ret ([(r1, s1); (r2, s2); (r3, s3)], st2) =>
          match @h_file_free LittleEndian file st2 with
          | Ret (_, st3) => Ret (bool_decide (s1 = s2) && bool_decide (s2 = s3) && bool_decide (r1 = r2) && bool_decide (r2 = r3), r3, map_to_list (hmem st3))
          | Fault f => Fault f | NoFuel => NoFuel
          end
      | Ret _ => NoFuel | Fault f => Fault f | NoFuel => NoFuel
      end
  | Fault f => Fault f | NoFuel => NoFuel
  end.
Example C84_example_heap : match build_send_thrice with Ret (same, r, rest) => same = true /\ r = 184 /\ length rest = 5%nat | _ => False end.
Proof. vm_compute. repeat split. Qed.
Example C84_example_heap_hypotheses : (forall i, length (some_random i) = 16%nat) /\ Forall (@buildable LittleEndian) two_messages /\
  (length two_messages <= Z.to_nat 32767)%nat /\ sized LittleEndian false two_messages /\ (length (flat_map (@message_bytes LittleEndian) two_messages) + 19 <= 512)%nat.
Proof.
  destruct C57_example_hypotheses as (HR & HB & HT & HL & HS). split_and!; auto. split; apply List.Forall_forall; intros m Hm.
  - rewrite List.Forall_forall in HT. apply HT, Hm.
  - rewrite List.Forall_forall in HT. apply readable_sizes. by apply HT.
Qed.
