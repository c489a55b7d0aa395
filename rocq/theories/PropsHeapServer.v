(** Memory of the example program (C72): sml_server run on a heap.

    [h_server] is HeapServerModel: main's loop, with every frame parsed, printed and
    freed on the heap; [sml_server] is the same program on values (C56). *)
From stdpp Require Import gmap.
From iris.proofmode Require Import tactics.
From Verif Require Import Base Buf Number OctetString Boolean Value Time SList Tree Bodies Message File Transport Server ServerMain Wf
  HeapBase HeapModel HeapLogic HeapRep HeapFree HeapSim HeapParse HeapParse2 HeapParse3 HeapParse4 HeapParse5 HeapCost Safe3 PropsParse PropsHeap
  HeapServerModel HeapServer HeapServerCost PropsMain TransportFacts TransportWrite.

Section WithHost.
Context {HO : Host} {AL : Allocator}.

(** the content of a frame: without the eight bytes at each end *)
Definition content (frame : list Z) : list Z := firstn (length frame - 16) (skipn 8 frame).

Lemma receiver_run v sf buffer out e st : receiver v sf buffer = Ret (out, e) ->
  exists st', h_receiver v sf buffer st = Ret ((out, e), st') /\
    (e = false -> exists k, hmem st' = hmem st ∪ k /\ hmem st ##ₘ k /\ lost k /\ hconf st' = (hconf st + size k)%nat /\
       (k = ∅ \/ mentions_dzg (content buffer))).
Proof.
  intros E. unfold receiver in E. unfold h_receiver. destruct (length buffer <? 16)%nat; [discriminate|]. fold (content buffer) in *.
  set (bytes := content buffer) in *. apply obind_inv in E as (f & EF & E). set (WA := dzg_watch).
  assert (W : holds (wp (file <- h_file_parse_run bytes ;; h_show v sf file) (mkBuf bytes 0 false false)
    (fun r _ => ⟨r = (out, e)⟩ ∗ if e then ∃ p, rep_file (f_messages f) bytes p else emp)%I) ∅).
  { assert (WP : ⊢ wp (file <- h_file_parse_run bytes ;; h_show v sf file) (mkBuf bytes 0 false false)
      (fun r _ => ⟨r = (out, e)⟩ ∗ if e then ∃ p, rep_file (f_messages f) bytes p else emp)%I).
    { iApply wp_bind. iApply wp_wand. iSplitR; [iApply (r_file bytes f EF)|]. iIntros (p s2) "[-> F]".
      iApply wp_wand. iSplitL "F".
      - iApply (show_spec v sf (f_messages f) bytes p (f_buf f) out e (KC := ltac:(intros s a s' X; injection X as <- <-; done))); [|iExact "F"].
        destruct f. exact E.
      - iIntros (r s3) "[%X F]". destruct X as [-> ->]. iSplit; [done|]. destruct e; [|done]. by iExists p. }
    by apply (proj1 (entails_holds _ _) WP ∅). }
  destruct (wp_run _ _ _ (hmem st) ∅ ∅ (hconf st) (hpeak st) (fun l b F => match lookup_empty_Some l b F with end)
    (map_disjoint_empty_r _) (map_disjoint_empty_r _) W) as (u & s' & k & m & pk & ER & L & D1 & D2 & [_ K] & Em).
  rewrite !right_id_L map_size_empty Nat.add_0_r in ER.
  destruct Em as (m1 & m2 & -> & D & [Em1 Es] & R). assert (m1 = ∅) as -> by exact Em1. rewrite left_id_L in D2, ER. assert (u = (out, e)) as -> by exact Es.
  exists (mkH s' (hmem st ∪ k ∪ m2) (hconf st + size k) pk). split; [unfold h_file_parse; exact ER|].
  intros ->. assert (m2 = ∅) as -> by exact (proj1 (emp_holds m2) R). exists k. cbn [hmem hconf]. rewrite right_id_L. split_and!; auto.
Qed.

Lemma loop_run v sf : forall fuel d out d' st, server_loop fuel v sf d = Ret (out, d') ->
  exists st', h_server_loop fuel v sf d st = Ret ((out, d'), st').
Proof.
  induction fuel as [|fuel IH]; intros d out d' st E; [discriminate|]. cbn [server_loop h_server_loop] in *.
  apply obind_inv in E as ([[n bs] d1] & E1 & E). unfold bind at 1. rewrite E1. cbn [pure_step].
  destruct (n =? 0)%nat; [injection E as <- <-; by exists st|]. apply obind_inv in E as ([o e] & E2 & E).
  destruct (receiver_run v sf bs o e st E2) as (st1 & R1 & _). unfold bind at 1. rewrite R1. cbn [fst snd] in *.
  destruct e; [injection E as <- <-; by exists st1|]. apply obind_inv in E as ([o2 d2] & E3 & E). injection E as <- <-.
  destruct (IH d1 o2 d2 st1 E3) as (st2 & R2). exists st2. unfold bind. rewrite R2. done.
Qed.
(** the largest frame the program accepts has 8095 bytes (C37) *)
Definition frame_ok (f : list Z) : Prop := bytes_ok f /\ (16 <= length f)%nat /\ Z.of_nat (length f) < 8096.

Lemma content_ok f : frame_ok f -> bytes_ok (content f) /\ Z.of_nat (length (content f)) <= 8079.
Proof.
  intros (HB & HL & HU). unfold content. split.
  - apply Forall_take, Forall_drop, HB.
  - rewrite firstn_length skipn_length. lia.
Qed.
Lemma receiver_peak v sf buffer st r st' : frame_ok buffer -> h_receiver v sf buffer st = Ret (r, st') ->
  hpeak st' <= Z.max (hpeak st) (4 * (used (hmem st) + 800000)).
Proof.
  intros HF E. apply content_ok in HF as [HB HL]. unfold h_receiver in E. destruct (length buffer <? 16)%nat; [discriminate|].
  fold (content buffer) in E. set (bytes := content buffer) in *.
  apply HeapCost.bind_inv in E as (file & st1 & E1 & E2). destruct (modest_show _ _ _ _ _ _ E2) as [_ HP].
  destruct (C01_parse_memory_safe HO bytes HB ltac:(lia)) as (f & EF & _).
  destruct (C51_parse_builds bytes f st EF) as (file' & st1' & k & m & E1' & EB & _). rewrite E1 in E1'. injection E1' as <- <-.
  destruct (c_file bytes _ _ _ E1) as (_ & _ & _ & HU & HQ & _). unfold paid in HU, HQ. cbn [hbuf hmem cursor hpeak] in HU, HQ. rewrite EB in HU, HQ.
  pose proof (file_parse_safe 7 bytes min_size_7 HB) as HS. rewrite EF in HS. destruct HS as (_ & HC & _). pose proof (used_nonneg (hmem st)).
  unfold rate in HU, HQ. destruct (error (f_buf f)); lia.
Qed.
Lemma loop_memory v : forall fuel d out d' fs d1 st, server_loop fuel v false d = Ret (out, d') -> listen_loop fuel d = Ret (fs, d1) -> Forall frame_ok fs ->
  exists st' k, h_server_loop fuel v false d st = Ret ((out, d'), st') /\
    hmem st' = hmem st ∪ k /\ hmem st ##ₘ k /\ lost k /\ hconf st' = (hconf st + size k)%nat /\
    (k = ∅ \/ Exists (fun f => mentions_dzg (content f)) fs) /\
    hpeak st' <= Z.max (hpeak st) (4 * (used (hmem st') + 800000)).
Proof.
  induction fuel as [|fuel IH]; intros d out d' fs d1 st E EL HF; [discriminate|]. cbn [server_loop h_server_loop listen_loop] in *.
  apply obind_inv in E as ([[n bs] d2] & E1 & E). unfold bind at 1. rewrite E1 in EL |- *. cbn [pure_step].
  destruct (n =? 0)%nat.
  { injection E as <- <-. exists st, ∅. rewrite right_id_L map_size_empty Nat.add_0_r. injection EL as <- <-.
    assert (L0 : lost ∅) by (intros l b F; by apply lookup_empty_Some in F). pose proof (map_disjoint_empty_r (hmem st)). split_and!; auto. lia. }
  apply obind_inv in E as ([o e] & E2 & E). destruct (listen_loop fuel d2) as [[l d3]| |] eqn:EL2; try discriminate. injection EL as <- <-. inversion HF as [|? ? HF1 HF2]; subst.
  assert (e = false) as ->.
  { unfold receiver in E2. destruct (length bs <? 16)%nat; [discriminate|]. apply obind_inv in E2 as (f & _ & E2). apply obind_inv in E2 as (h & _ & E2).
    apply obind_inv in E2 as (r & ER & E2). apply obind_inv in ER as (ls & _ & ER). by injection ER as <-; injection E2 as _ <-. }
  destruct (receiver_run v false bs o false st E2) as (st1 & R1 & HM). destruct (HM eq_refl) as (k1 & M1 & D1 & L1 & C1 & K1).
  unfold bind at 1. rewrite R1. cbn [fst snd] in *. apply obind_inv in E as ([o2 d4] & E3 & E). injection E as <- <-.
  destruct (IH d2 o2 d4 l d3 st1 E3 EL2 HF2) as (st2 & k2 & R2 & M2 & D2 & L2 & C2 & K2 & P2). exists st2, (k1 ∪ k2).
  pose proof (receiver_peak _ _ _ _ _ _ HF1 R1) as P1.
  assert (HU : used (hmem st) <= used (hmem st2)).
  { rewrite M2 used_union // M1 used_union //. pose proof (used_nonneg k1). pose proof (used_nonneg k2). lia. }
  rewrite M1 in M2, D2. apply map_disjoint_union_l in D2 as [D2 D3]. split_and!.
  - unfold bind. rewrite R2. done.
  - by rewrite (assoc_L (∪)).
  - by apply map_disjoint_union_r.
  - intros a b F. apply lookup_union_Some in F as [F|F]; eauto.
  - rewrite map_size_disj_union //. lia.
  - destruct K1 as [->|K1]; [|right; by constructor]. destruct K2 as [->|K2]; [left; by rewrite left_id_L|right; by constructor].
  - lia.
Qed.
End WithHost.

(** ** C72 *)

(** With pointers the program prints exactly what it prints on values (C56), with
    the options -v and -s or without, from any memory and with any addresses: if it
    is not one of the runs that crash on values, nothing goes wrong on the heap
    either (NULL, freed or foreign memory, double free). *)
Theorem C72_same_output {HO : Host} {AL : Allocator} v sf d out d' st :
  sml_server v sf d = Ret (out, d') -> exists st', h_server v sf d st = Ret ((out, d'), st').
Proof. apply loop_run. Qed.
Print Assumptions C72_same_output.

(** Without -s: however many frames arrive, at the end the memory is what it was
    before the first, and what the DZG workaround has lost (C47): only texts of one
    or two bytes, and only if a frame contains the serial number of such a meter.
    And at no moment was more than four times that and 3.2 million bytes in use. *)
Theorem C72_memory {HO : Host} {AL : Allocator} v d out d' fs d1 st :
  device_bytes d -> sml_server v false d = Ret (out, d') -> sml_transport_listen d = Ret (fs, d1) ->
  exists st' k, h_server v false d st = Ret ((out, d'), st') /\ hmem st' = hmem st ∪ k /\ hmem st ##ₘ k /\ lost k /\
    (k = ∅ \/ Exists (fun f => mentions_dzg (content f)) fs) /\
    hpeak st' <= Z.max (hpeak st) (4 * (used (hmem st') + 800000)).
Proof.
  intros HB E EL. destruct (loop_memory v _ d out d' fs d1 st E EL (listen_shape _ _ _ _ EL HB)) as (st' & k & R & M & D & L & _ & K & P).
  exists st', k. auto 7.
Qed.
Print Assumptions C72_memory.

(** So a meter that is not one of those can be read for ever. *)
Theorem C72_constant_memory {HO : Host} {AL : Allocator} v d out d' fs d1 st :
  device_bytes d -> sml_server v false d = Ret (out, d') -> sml_transport_listen d = Ret (fs, d1) ->
  Forall (fun f => ~ mentions_dzg (content f)) fs ->
  exists st', h_server v false d st = Ret ((out, d'), st') /\ hmem st' = hmem st /\
    hpeak st' <= Z.max (hpeak st) (4 * (used (hmem st) + 800000)).
Proof.
  intros HB E EL HN. destruct (C72_memory v d out d' fs d1 st HB E EL) as (st' & k & R & M & D & L & [->|K] & P).
  - rewrite right_id_L in M. exists st'. rewrite M in P. auto.
  - apply Exists_exists in K as (f & Hf & K). by apply (proj1 (Forall_forall _ _) HN f Hf) in K.
Qed.
Print Assumptions C72_constant_memory.

(** *** Examples *)
(** The transmission of C56, twice and in pieces: the block that was there before is
    all there is afterwards; 2136 bytes were needed.  The meter of C47, three times: three
    texts are lost. *)
Definition dzg_sent : list Z :=
  let fill := Nat.modulo (4 - Nat.modulo (length dzg_message) 4) 4 in
  [27; 27; 27; 27; 1; 1; 1; 1] ++ dzg_message ++ repeat 0 fill ++ [27; 27; 27; 27; 26; Z.of_nat fill; 0; 0].
Example C72_example : let dev := [Chunk [1; 2]; Intr; Chunk (firstn 50 run_sent); Chunk (skipn 50 run_sent); Chunk run_sent] in
  match @h_server LittleEndian top plenty false false dev st0 with
  | Ret ((o, _), st) => o = map OLine (run_lines ++ run_lines) /\ map_to_list (hmem st) = [(7%nat, Bytes [1; 2; 3])] /\ hpeak st = 2136
  | _ => False end.
Proof. vm_compute. repeat split. Qed.
Example C72_example_hypotheses : device_bytes [Chunk [1; 2]; Intr; Chunk run_sent; Chunk run_sent] /\
  exists d1, sml_transport_listen [Chunk [1; 2]; Intr; Chunk run_sent; Chunk run_sent] = Ret ([run_sent; run_sent], d1) /\
    Forall (fun f => ~ mentions_dzg (content f)) [run_sent; run_sent].
Proof.
  split.
  { assert (X : forallb (fun x => match x with Some b => (0 <=? b) && (b <? 256) | None => true end)
      (delivered [Chunk [1; 2]; Intr; Chunk run_sent; Chunk run_sent]) = true) by (vm_compute; reflexivity).
    apply List.Forall_forall. intros x Hx. apply (proj1 (forallb_forall _ _) X) in Hx. destruct x; [|exact I]. unfold byte_ok. lia. }
  eexists. split; [vm_compute; reflexivity|].
  assert (N : ~ mentions_dzg (content run_sent)).
  { intros (a & b & E). assert (X : In 90 (content run_sent)) by (rewrite E; apply in_app_iff; right; cbn [app In]; do 3 right; left; reflexivity).
    assert (Y : existsb (Z.eqb 90) (content run_sent) = true) by (apply existsb_exists; exact (ex_intro _ 90 (conj X eq_refl))).
    vm_compute in Y. discriminate. }
  apply List.Forall_cons; [exact N|]. apply List.Forall_cons; [exact N|]. apply List.Forall_nil.
Qed.
Example C72_example_dzg : Exists (fun f => mentions_dzg (content f)) [dzg_sent; dzg_sent; dzg_sent] /\
  match sml_transport_listen [Chunk dzg_sent; Chunk dzg_sent; Chunk dzg_sent] with Ret (fs, _) => fs = [dzg_sent; dzg_sent; dzg_sent] | _ => False end /\
  match @h_server LittleEndian top plenty false false [Chunk dzg_sent; Chunk dzg_sent; Chunk dzg_sent] st0 with
  | Ret ((o, _), st) => length o = 9%nat /\ map snd (map_to_list (hmem st)) = [Bytes [1; 2; 3]; Bytes [128; 37]; Bytes [128; 37]; Bytes [128; 37]]
  | _ => False end.
Proof.
  split; [left; exists (firstn 30 (content dzg_sent)), (skipn 35 (content dzg_sent)); vm_compute; reflexivity|]. vm_compute. repeat split.
Qed.
