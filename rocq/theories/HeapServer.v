(** The receiver with pointers prints what the value-level receiver prints, and
    leaves the structures it reads as they are. *)
From Coq Require Import SpecFloat.
From stdpp Require Import gmap.
From iris.proofmode Require Import tactics.
From Verif Require Import Base Buf Number OctetString Boolean Value Time SList Tree Bodies Message File
  Transport Server ServerMain HeapBase HeapModel HeapLogic HeapRep HeapFree HeapServerModel.

Lemma obind_inv {A B} (o : outcome A) (k : A -> outcome B) b : obind o k = Ret b -> exists a, o = Ret a /\ k a = Ret b.
Proof. destruct o; try discriminate. cbn. eauto. Qed.

Section WithAllocator.
Context {AL : Allocator} {WA : Watch}.

(** [f] finds out what [o] says, and changes nothing *)
Definition tells {A} (f : slot -> H A) (o : outcome A) (R : slot -> hprop) : Prop :=
  forall p s a Φ, o = Ret a -> R p ∗ (R p -∗ Φ a s) ⊢ wp (f p) s Φ.

Lemma cell_acc rest Rs p i R s Φ : Rs !! i = Some R ->
  cell rest Rs p ∗ (∀ x, R x -∗ (R x -∗ cell rest Rs p) -∗ Φ x s) ⊢ wp (load p i) s Φ.
Proof.
  intros E. iIntros "[(%ss & P & F) K]". iDestruct (fields_length with "F") as %L.
  assert (exists x, ss !! i = Some x) as [x Ex].
  { apply lookup_lt_is_Some. rewrite -L. apply lookup_lt_is_Some. by exists R. }
  iDestruct (big_sepL2_lookup_acc with "F") as "[R F]"; [exact E|exact Ex|].
  iApply wp_load; last (iFrame "P"; iIntros "P"; iApply ("K" with "R"); iIntros "R"; iExists ss; iFrame "P"; by iApply "F").
  rewrite lookup_app_l //. by eapply lookup_lt_Some.
Qed.
Lemma wp_pure {A} (o : outcome A) a s Φ : o = Ret a -> Φ a s ⊢ wp (pure_step o) s Φ.
Proof. intros ->. apply (wp_ret a). Qed.

(** arrays *)
Lemma gather_spec {A B} f (o : A -> outcome (list B)) (R : A -> slot -> hprop) (all : list A -> outcome (list B)) p s Φ :
  all [] = Ret [] -> (forall a l, all (a :: l) = obind (o a) (fun x => obind (all l) (fun y => Ret (x ++ y)))) ->
  (forall a, tells f (o a) (R a)) ->
  forall l pre ss r, all l = Ret r ->
  p ↦ Struct (pre ++ ss) ∗ fields (map R l) ss ∗ (p ↦ Struct (pre ++ ss) ∗ fields (map R l) ss -∗ Φ r s)
  ⊢ wp (gather (length l) (length pre) p f) s Φ.
Proof.
  intros HN HC HT l. revert Φ. induction l as [|a l IH]; intros Φ pre ss r E; cbn [map length gather].
  - rewrite HN in E. injection E as <-. iIntros "(P & F & K)". iApply wp_ret. iApply "K". iFrame.
  - rewrite HC in E. apply obind_inv in E as (x & E1 & E). apply obind_inv in E as (y & E2 & E). injection E as <-.
    iIntros "(P & F & K)". iDestruct (fields_cons_inv with "F") as (q ss' ->) "[R F]".
    iApply wp_bind. iApply (wp_load p _ q (pre ++ q :: ss')).
    { rewrite lookup_app_r // Nat.sub_diag //. }
    iFrame "P". iIntros "P". iApply wp_bind. iApply (HT a q _ _ _ E1). iFrame "R". iIntros "R". iApply wp_bind.
    iPoseProof (IH (fun b s' => ⟨b = y /\ s' = s⟩ ∗ p ↦ Struct (pre ++ q :: ss') ∗ fields (map R l) ss')%I (pre ++ [q]) ss' y E2) as "W".
    rewrite -!(assoc_L (++)) app_length Nat.add_1_r. cbn [app].
    iApply wp_wand. iSplitL "W P F"; [iApply "W"; iFrame; iIntros "[P F]"; iFrame; done|].
    iIntros (b s2) "[%Eb [P F]]". destruct Eb as [-> ->]. iApply wp_ret. iApply "K". iFrame "P". rewrite fields_cons. iFrame.
Qed.
Lemma gather_array {A B} f (o : A -> outcome (list B)) (R : A -> slot -> hprop) (all : list A -> outcome (list B)) arr l r s Φ :
  all [] = Ret [] -> (forall a l, all (a :: l) = obind (o a) (fun x => obind (all l) (fun y => Ret (x ++ y)))) ->
  (forall a, tells f (o a) (R a)) -> all l = Ret r ->
  array (map R l) arr ∗ (array (map R l) arr -∗ Φ r s) ⊢ wp (gather (length l) 0 arr f) s Φ.
Proof.
  intros HN HC HT E. destruct l as [|a l].
  - rewrite HN in E. injection E as <-. iIntros "[A K]". iApply wp_ret. by iApply "K".
  - cbn [map array]. iIntros "[(%ss & P & F) K]". rewrite app_nil_r.
    iPoseProof (gather_spec f o R all arr s Φ HN HC HT (a :: l) [] ss r E) as "W". cbn [List.app List.map length].
    iApply "W". iFrame. iIntros "[P F]". iApply "K". iExists ss. rewrite app_nil_r. iFrame.
Qed.

Context {HO : Host}.

(** *** One entry *)
Lemma t_obis o : tells h_obis (obis_of o) (rep_opt rep_str o).
Proof.
  intros p s a Φ E. destruct o as [[|c t]|]; try discriminate. unfold obis_of in E.
  destruct (length (c :: t) <? 6)%nat eqn:EL; [discriminate|]. injection E as <-. cbn [rep_opt rep_str].
  iIntros "[(%d & P & D) K]". unfold h_obis. iApply wp_bind. hload "P". iApply wp_bind. iApply wp_load_bytes. iFrame "D". iIntros "D".
  rewrite EL. iApply wp_ret. iApply "K". iExists d. iFrame.
Qed.
Lemma wp_strhex v p blk n s Φ : v_type v = SML_TYPE_OCTET_STRING -> sml_value_to_strhex (Some v) true = Ret (Some (blk, n)) ->
  rep_value v p ∗ (∀ q, rep_value v p -∗ q ↦ Bytes blk -∗ Φ (Some (q, n)) s) ⊢ wp (h_value_to_strhex p true) s Φ.
Proof.
  intros HT E. unfold sml_value_to_strhex in E. unfold rep_value, rep_vdata. rewrite HT.
  destruct (v_data v) as [|[|c t]| |]; try discriminate. change (SML_TYPE_OCTET_STRING =? SML_TYPE_OCTET_STRING) with true.
  apply obind_inv in E as ([b m] & E1 & E). destruct (snd (b, m) <? length (fst (b, m)))%nat eqn:EL; [|discriminate].
  injection E as <- <-. cbn [fst snd] in *. cbn [rep_str].
  iIntros "[(%d & P & (%tx & D & T)) K]". iDestruct (pts_ptr with "P") as "[P (%lp & ->)]". iDestruct (pts_ptr with "D") as "[D (%ld & ->)]".
  iDestruct (pts_ptr with "T") as "[T (%lt & ->)]". unfold h_value_to_strhex.
  iApply wp_bind. hload "P". iApply wp_bind. hload "D". iApply wp_bind. hload_int "D". iApply wp_bind. iApply wp_load_bytes. iFrame "T". iIntros "T".
  rewrite Nat2Z.id Nat.ltb_irrefl firstn_all. iApply wp_bind. iApply (wp_pure _ _ _ _ E1). cbn [fst snd]. rewrite EL.
  iApply wp_bind. change (@try_malloc AL plenty) with (@malloc AL plenty). iApply wp_malloc. iIntros (q) "Q". iApply wp_ret. iApply ("K" with "[-Q] Q").
  iExists (Ptr ld). iFrame. iExists (Ptr lt). iFrame.
Qed.
Lemma t_num_to_double sg ty d k : tells (fun p => h_num_to_double sg p k) (num_to_double sg d k) (rep_vdata ty d).
Proof.
  intros p s a Φ E. unfold num_to_double, deref_num in E. destruct d as [| | |m]; try discriminate.
  destruct (length m <? k)%nat eqn:EL; [discriminate|]. injection E as <-. cbn [rep_vdata]. unfold rep_num.
  iIntros "[[%HN P] K]". unfold h_num_to_double, h_deref. iApply wp_bind. iApply wp_bind. iApply wp_load_bytes. iFrame "P". iIntros "P".
  rewrite EL. iApply wp_ret. iApply wp_ret. iApply "K". by iFrame.
Qed.
Lemma t_double v : tells h_value_to_double (sml_value_to_double (Some v)) (rep_value v).
Proof.
  intros p s a Φ E. unfold rep_value. iIntros "[(%d & P & D) K]". unfold h_value_to_double.
  iApply wp_bind. hload_int "P". iApply wp_bind. hload "P". unfold sml_value_to_double in E. cbv zeta in E.
  iAssert (rep_vdata (v_type v) (v_data v) d -∗ Φ a s)%I with "[P K]" as "K"; [iIntros "D"; iApply "K"; iExists d; iFrame|].
  repeat match type of E with (if ?c then _ else _) = _ => destruct c eqn:?;
    [iApply (t_num_to_double _ (v_type v) _ _ d s a Φ E); iFrame|] end.
  injection E as <-. iApply wp_ret. by iApply "K".
Qed.
Lemma t_optional {A} (o : option mem) (none : A) (f : mem -> H A) (g : mem -> outcome A) :
  (forall m s a Φ, g m = Ret a -> Φ a s ⊢ wp (f m) s Φ) ->
  tells (fun p => h_optional p none f) (match o with Some m => g m | None => Ret none end) (rep_opt rep_num o).
Proof.
  intros HF p s a Φ E. destruct o as [m|]; cbn [rep_opt]; unfold rep_num.
  - iIntros "[P K]". iDestruct (pts_ptr with "P") as "[P (%l & ->)]". cbn [h_optional]. iApply wp_bind. iApply wp_load_bytes.
    iFrame "P". iIntros "P". iApply (HF _ _ _ _ E). by iApply "K".
  - injection E as <-. iIntros "[-> K]". iApply wp_ret. by iApply "K".
Qed.

Lemma nothing_left ss : fields [] ss ⊢ ⟨ss = []⟩.
Proof. destruct ss; cbn; [by iIntros "_"|by iIntros "[]"]. Qed.
(** the members of an entry *)
Lemma entry_open n e p : cell [n] (entry_fields e) p ⊢ ∃ nm st tm un sc va sg,
  p ↦ Struct [nm; st; tm; un; sc; va; sg; n] ∗ rep_opt rep_str (le_obj_name e) nm ∗ rep_opt rep_num (le_unit e) un ∗
  rep_opt rep_num (le_scaler e) sc ∗ rep_opt rep_value (SList.le_value e) va ∗
  (p ↦ Struct [nm; st; tm; un; sc; va; sg; n] -∗ rep_opt rep_str (le_obj_name e) nm -∗ rep_opt rep_num (le_unit e) un -∗
   rep_opt rep_num (le_scaler e) sc -∗ rep_opt rep_value (SList.le_value e) va -∗ cell [n] (entry_fields e) p).
Proof.
  unfold cell, entry_fields. iIntros "(%ss & P & F)".
  iDestruct (fields_cons_inv with "F") as (nm s1 ->) "[R0 F]". iDestruct (fields_cons_inv with "F") as (st s2 ->) "[R1 F]".
  iDestruct (fields_cons_inv with "F") as (tm s3 ->) "[R2 F]". iDestruct (fields_cons_inv with "F") as (un s4 ->) "[R3 F]".
  iDestruct (fields_cons_inv with "F") as (sc s5 ->) "[R4 F]". iDestruct (fields_cons_inv with "F") as (va s6 ->) "[R5 F]".
  iDestruct (fields_cons_inv with "F") as (sg s7 ->) "[R6 F]".
  iDestruct (nothing_left with "F") as "->".
  iExists nm, st, tm, un, sc, va, sg. cbn [app]. iFrame "P R0 R3 R4 R5". iIntros "P R0 R3 R4 R5". iExists [nm; st; tm; un; sc; va; sg]. cbn [app].
  iFrame "P". rewrite !fields_cons fields_nil. iFrame. done.
Qed.

Lemma t_entry n e : tells h_receive_entry (receive_entry e) (cell [n] (entry_fields e)).
Proof.
  intros p s a Φ E. iIntros "[C K]". iDestruct (entry_open with "C") as (nm st tm un sc va sg) "(P & N & U & S & V & C)".
  iAssert (p ↦ Struct [nm; st; tm; un; sc; va; sg; n] -∗ rep_opt rep_str (le_obj_name e) nm -∗ rep_opt rep_num (le_unit e) un -∗
    rep_opt rep_num (le_scaler e) sc -∗ rep_opt rep_value (SList.le_value e) va -∗ Φ a s)%I with "[C K]" as "K".
  { iIntros "P N U S V". iApply "K". iApply ("C" with "P N U S V"). }
  unfold h_receive_entry. iApply wp_bind. hload "P".
  unfold receive_entry in E. destruct (SList.le_value e) as [v|] eqn:EV; cbn [rep_opt].
  2:{ injection E as <-. iDestruct "V" as "->". iApply wp_ret. iApply ("K" with "P N U S"). done. }
  iDestruct "V" as (d) "[V D]". iDestruct (pts_ptr with "V") as "[V (%lv & ->)]".
  iApply wp_bind. hload_int "V".
  destruct (v_type v =? SML_TYPE_OCTET_STRING) eqn:E1; [|destruct (v_type v =? SML_TYPE_BOOLEAN) eqn:E2].
  - apply obind_inv in E as (o & EO & E). apply obind_inv in E as (r & ER & E). destruct r as [[blk k]|]; [|discriminate]. injection E as <-.
    apply Z.eqb_eq in E1. iApply wp_bind. hload "P". iApply wp_bind. iApply (t_obis _ _ _ _ _ EO). iFrame "N". iIntros "N".
    iApply wp_bind. iApply (wp_strhex v _ blk k _ _ E1 ER). iSplitL "V D"; [iExists d; iFrame|]. iIntros (q) "V Q".
    iApply wp_bind. iApply wp_load_bytes. iFrame "Q". iIntros "Q". iApply wp_bind. iApply wp_free. iFrame "Q". iApply wp_ret.
    iApply ("K" with "P N U S V").
  - apply obind_inv in E as (o & EO & E). injection E as <-.
    iApply wp_bind. hload "P". iApply wp_bind. iApply (t_obis _ _ _ _ _ EO). iFrame "N". iIntros "N". iApply wp_bind. hload "V".
    iApply wp_ret.
    iAssert (rep_vdata (v_type v) (v_data v) d ∗ ⟨match v_data v with VNull => d = Nul | _ => exists l, d = Ptr l end⟩)%I with "[D]" as "[D %ED]".
    { unfold rep_vdata, rep_num, rep_bool. rewrite E1. destruct (v_data v).
      - iDestruct "D" as "->". done.
      - iDestruct "D" as "[%F (%x & D)]". iDestruct (pts_ptr with "D") as "[D %L]". iSplit; [|done]. iSplit; [done|]. iExists x. iFrame.
      - iDestruct "D" as "[%F D]". iDestruct (pts_ptr with "D") as "[D %L]". iSplit; [|done]. by iSplit.
      - iDestruct "D" as "[%F D]". iDestruct (pts_ptr with "D") as "[D %L]". iSplit; [|done]. by iSplit. }
    replace (match d with Nul => false | _ => true end) with (match v_data v with VNull => false | _ => true end)
      by (destruct (v_data v); [by subst d|destruct ED as [? ->]; done..]).
    iApply ("K" with "P N U S"). iExists d. iFrame.
  - destruct ((Z.land (v_type v) SML_TYPE_FIELD =? SML_TYPE_INTEGER) || (Z.land (v_type v) SML_TYPE_FIELD =? SML_TYPE_UNSIGNED)).
    2:{ injection E as <-. iApply wp_ret. iApply ("K" with "P N U S"). iExists d. iFrame. }
    apply obind_inv in E as (x & ED & E). cbv zeta in E. apply obind_inv in E as (o & EO & E). apply obind_inv in E as (u & EU & E). injection E as <-.
    iApply wp_bind. iApply (t_double v _ _ _ _ ED). iSplitL "V D"; [iExists d; iFrame|]. iIntros "V".
    iApply wp_bind. hload "P". iApply wp_bind.
    iApply (t_optional (le_scaler e) 0 _ (fun m => Ret (mem_i m)) ltac:(intros m0 s0 a0 F0 E0; injection E0 as <-; apply wp_ret) sc s
      (match le_scaler e with Some m => mem_i m | None => 0 end)); [by destruct (le_scaler e)|]. iFrame "S". iIntros "S".
    iApply wp_bind. hload "P". iApply wp_bind. iApply (t_obis _ _ _ _ _ EO). iFrame "N". iIntros "N".
    iApply wp_bind. hload "P". iApply wp_bind.
    iApply (t_optional (le_unit e) None _ (fun m => dlms_get_unit (mem_u m)) ltac:(intros; by apply wp_pure) un s u _ EU). iFrame "U". iIntros "U".
    iApply wp_ret. iApply ("K" with "P N U S V").
Qed.

(** *** Messages *)
Lemma t_entries l : forall fuel, (length l < fuel)%nat -> tells (h_receive_entries fuel) (receive_entries l) (rep_list l).
Proof.
  induction l as [|e l IH]; intros fuel L p s a Φ E; (destruct fuel as [|fuel]; [cbn in L; lia|]); cbn [h_receive_entries receive_entries] in *.
  - injection E as <-. iIntros "[S K]". iDestruct "S" as "->". iApply wp_ret. by iApply "K".
  - apply obind_inv in E as (x & E1 & E). apply obind_inv in E as (y & E2 & E). injection E as <-.
    rewrite !rep_list_cons. iIntros "[(%n & C & S) K]". iDestruct (cell_ptr with "C") as "[C (%q & ->)]".
    iApply wp_bind. iApply (t_entry n e _ _ _ _ E1). iFrame "C". iIntros "C".
    iApply wp_bind. iApply (cell_load_rest [n] (entry_fields e) (Ptr q) 0 n); [done|]. iFrame "C". iIntros "C".
    iApply wp_bind. iApply (IH fuel ltac:(cbn in L; lia) n s y _ E2). iFrame "S". iIntros "S". iApply wp_ret.
    iApply "K". iExists n. iFrame.
Qed.
Lemma msg_open m p : rep_msg m p ⊢ ∃ ti gi ae bo cr, p ↦ Struct [ti; gi; ae; bo; cr] ∗ rep_opt rep_body (m_message_body m) bo ∗
  (p ↦ Struct [ti; gi; ae; bo; cr] -∗ rep_opt rep_body (m_message_body m) bo -∗ rep_msg m p).
Proof.
  unfold rep_msg, cell. iIntros "(%ss & P & F)".
  iDestruct (fields_cons_inv with "F") as (nm s1 ->) "[R0 F]". iDestruct (fields_cons_inv with "F") as (st s2 ->) "[R1 F]".
  iDestruct (fields_cons_inv with "F") as (tm s3 ->) "[R2 F]". iDestruct (fields_cons_inv with "F") as (un s4 ->) "[R3 F]".
  iDestruct (fields_cons_inv with "F") as (sc s5 ->) "[R4 F]".
  iDestruct (nothing_left with "F") as "->".
  iExists nm, st, tm, un, sc. cbn [app]. iFrame "P R3". iIntros "P R3". iExists [nm; st; tm; un; sc]. cbn [app].
  iFrame "P". rewrite !fields_cons fields_nil. iFrame. done.
Qed.
Lemma body_open b p : rep_body b p ⊢ ∃ t tg da, ⟨mb_tag b = Some t⟩ ∗ p ↦ Struct [tg; da] ∗ rep_num t tg ∗ rep_body_data (mb_data b) da ∗
  (p ↦ Struct [tg; da] -∗ rep_num t tg -∗ rep_body_data (mb_data b) da -∗ rep_body b p).
Proof.
  unfold rep_body, cell. iIntros "(%t & %T & (%ss & P & F))".
  iDestruct (fields_cons_inv with "F") as (tg s1 ->) "[R0 F]". iDestruct (fields_cons_inv with "F") as (da s2 ->) "[R1 F]".
  iDestruct (nothing_left with "F") as "->".
  iExists t, tg, da. cbn [app]. iSplit; [by destruct T|]. iFrame "P R0 R1". iIntros "P R0 R1". iExists t. iSplit; [done|].
  iExists [tg; da]. cbn [app]. iFrame "P". rewrite !fields_cons fields_nil. iFrame. done.
Qed.
Lemma t_tag m : tells h_message_tag (print_tag m) (rep_msg m).
Proof.
  intros p s a Φ E. unfold print_tag in E. iIntros "[M K]". iDestruct (msg_open with "M") as (ti gi ae bo cr) "(P & B & M)".
  destruct (m_message_body m) as [b|]; [|discriminate]. cbn [rep_opt].
  iDestruct (body_open with "B") as (t tg da) "(%T & Q & N & D & B)". rewrite T in E. injection E as <-.
  unfold h_message_tag. iApply wp_bind. hload "P". iApply wp_bind. hload "Q". iApply wp_bind. iApply wp_load_bytes. iFrame "N". iIntros "N".
  iApply wp_ret. iApply "K". iApply ("M" with "P"). iApply ("B" with "Q N D").
Qed.
Lemma t_message m : tells h_receive_message (receive_message m) (rep_msg m).
Proof.
  intros p s a Φ E. unfold receive_message in E. apply obind_inv in E as (tag & ET & E). iIntros "[M K]". unfold h_receive_message.
  iApply wp_bind. iApply (t_tag m _ _ _ _ ET). iFrame "M". iIntros "M".
  destruct (tag =? SML_MESSAGE_GET_LIST_RESPONSE); [|injection E as <-; iApply wp_ret; by iApply "K"].
  iDestruct (msg_open with "M") as (ti gi ae bo cr) "(P & B & M)". destruct (m_message_body m) as [[tg0 d]|]; [|discriminate]. cbn [rep_opt].
  destruct d; try discriminate. iDestruct (body_open with "B") as (t tg da) "(_ & Q & N & D & B)". cbn [mb_data rep_body_data].
  iApply wp_bind. hload "P". iApply wp_bind. hload "Q". iApply wp_bind.
  iApply (cell_acc [] [rep_opt rep_str (lr_client_id m0); rep_opt rep_str (lr_server_id m0); rep_opt rep_str (lr_list_name m0);
    rep_opt rep_time (lr_act_sensor_time m0); rep_list (lr_val_list m0); rep_opt rep_str (lr_list_signature m0);
    rep_opt rep_time (lr_act_gateway_time m0)] da 4 (rep_list (lr_val_list m0))); [reflexivity|]. iFrame "D". iIntros (x) "L D".
  iAssert (rep_list (lr_val_list m0) x -∗ Φ a s)%I with "[P Q N D B M K]" as "K".
  { iIntros "L". iDestruct ("D" with "L") as "D". iApply "K". iApply ("M" with "P"). iApply ("B" with "Q N D"). }
  iStopProof. apply (wp_heap_fuel _ (length (lr_val_list m0) + 0)%nat); [apply blocks_sep; [apply blocks_list|apply blocks_0]|].
  intros fuel L. apply (t_entries (lr_val_list m0) fuel ltac:(lia) x s a Φ E).
Qed.

(** *** A whole file *)
Lemma first_spec p s : forall l Φ pre ss r, receive_first l = Ret r ->
  p ↦ Struct (pre ++ ss) ∗ fields (map rep_msg l) ss ∗ (p ↦ Struct (pre ++ ss) ∗ fields (map rep_msg l) ss -∗ Φ r s)
  ⊢ wp (h_receive_first (length l) (length pre) p) s Φ.
Proof.
  induction l as [|m l IH]; intros Φ pre ss r E; cbn [map length h_receive_first receive_first] in *.
  - injection E as <-. iIntros "(P & F & K)". iApply wp_ret. iApply "K". iFrame.
  - apply obind_inv in E as (x & E1 & E). apply obind_inv in E as (tag & E2 & E).
    iIntros "(P & F & K)". iDestruct (fields_cons_inv with "F") as (q ss' ->) "[R F]".
    iApply wp_bind. iApply (wp_load p _ q (pre ++ q :: ss')).
    { rewrite lookup_app_r // Nat.sub_diag //. }
    iFrame "P". iIntros "P". iApply wp_bind. iApply (t_message m _ _ _ _ E1). iFrame "R". iIntros "R".
    iApply wp_bind. iApply (t_tag m _ _ _ _ E2). iFrame "R". iIntros "R". destruct (tag =? SML_MESSAGE_GET_LIST_RESPONSE).
    + injection E as <-. iApply wp_ret. iApply "K". iFrame "P". rewrite fields_cons. iFrame.
    + apply obind_inv in E as (y & E3 & E). injection E as <-. iApply wp_bind.
      iPoseProof (IH (fun b s' => ⟨b = y /\ s' = s⟩ ∗ p ↦ Struct (pre ++ q :: ss') ∗ fields (map rep_msg l) ss')%I (pre ++ [q]) ss' y E3) as "W".
      rewrite -!(assoc_L (++)) app_length Nat.add_1_r. cbn [app].
      iApply wp_wand. iSplitL "W P F"; [iApply "W"; iFrame; iIntros "[P F]"; iFrame; done|].
      iIntros (b s2) "[%Eb [P F]]". destruct Eb as [-> ->]. iApply wp_ret. iApply "K". iFrame "P". rewrite fields_cons. iFrame.
Qed.
Lemma first_array arr l r s Φ : receive_first l = Ret r ->
  array (map rep_msg l) arr ∗ (array (map rep_msg l) arr -∗ Φ r s) ⊢ wp (h_receive_first (length l) 0 arr) s Φ.
Proof.
  intros E. destruct l as [|a l].
  - injection E as <-. iIntros "[A K]". iApply wp_ret. by iApply "K".
  - cbn [map array]. iIntros "[(%ss & P & F) K]". rewrite app_nil_r.
    iPoseProof (first_spec arr s (a :: l) Φ [] ss r E) as "W". cbn [List.app List.map length].
    iApply "W". iFrame. iIntros "[P F]". iApply "K". iExists ss. rewrite app_nil_r. iFrame.
Qed.
Lemma t_print msgs bytes s r p Φ {KC : Keeps (fun s : sbuf => Ret (cursor s, s))} : print_tags msgs = Ret r ->
  rep_file msgs bytes p ∗ (rep_file msgs bytes p -∗ Φ (OFile (Z.of_nat (length msgs)) (Z.of_nat (cursor s)) :: map OTag r) s) ⊢ wp (h_file_print p) s Φ.
Proof.
  intros E. iIntros "[(%arr & %b & P & A & B) K]". unfold h_file_print. iApply wp_bind. hload_int "P".
  iApply wp_bind. iApply (wp_lift _ s (cursor s) s); [done|]. iApply wp_bind. hload "P". rewrite Nat2Z.id. iApply wp_bind.
  iApply (gather_array _ (fun m => obind (print_tag m) (fun t => Ret [t])) rep_msg print_tags arr msgs r); [done| | |done|].
  - intros m l. cbn [print_tags]. destruct (print_tag m); [|done..]. cbn [obind]. by destruct (print_tags l).
  - intros m q s0 a Ψ Em. apply obind_inv in Em as (t & Et & Em). injection Em as <-. iIntros "[M K]". iApply wp_bind.
    iApply (t_tag m _ _ _ _ Et). iFrame "M". iIntros "M". iApply wp_ret. by iApply "K".
  - iFrame "A". iIntros "A". iApply wp_ret. iApply "K". iExists arr, b. iFrame.
Qed.
Lemma show_spec (v sf : bool) msgs bytes p s out e {KC : Keeps (fun s : sbuf => Ret (cursor s, s))} :
  obind (if v then print_file (mkFile msgs s) else Ret []) (fun head =>
  obind (if sf then receive_first msgs else obind (receive_messages msgs) (fun ls => Ret (ls, false))) (fun r =>
  Ret (head ++ (if v then [OHeader] else []) ++ map OLine (fst r), snd r))) = Ret (out, e) ->
  rep_file msgs bytes p ⊢ wp (h_show v sf p) s (fun (r : list output * bool) s' => ⟨r = (out, e) /\ s' = s⟩ ∗ if e then rep_file msgs bytes p else emp)%I.
Proof.
  intros E. apply obind_inv in E as (head & EH & E). apply obind_inv in E as (r & ER & E). injection E as EO EE.
  iIntros "F". unfold h_show. iApply wp_bind.
  iAssert (wp (if v then h_file_print p else ret []) s (fun a s' => ⟨a = head /\ s' = s⟩ ∗ rep_file msgs bytes p))%I with "[F]" as "W".
  { destruct v.
    - apply obind_inv in EH as (tags & ET & EH). injection EH as <-. iApply (t_print msgs bytes s tags p _ ET). iFrame "F". iIntros "F". by iFrame.
    - injection EH as <-. iApply wp_ret. by iFrame. }
  iApply wp_wand. iFrame "W". iIntros (hd s1) "[%X F]". destruct X as [-> ->].
  iDestruct "F" as (arr b) "(P & A & B)". iApply wp_bind. hload_int "P". iApply wp_bind. hload "P". rewrite Nat2Z.id. iApply wp_bind.
  iAssert (wp (if sf then h_receive_first (length msgs) 0 arr
     else ls <- gather (length msgs) 0 arr h_receive_message ;; ret (ls, false)) s (fun a s' => ⟨a = r /\ s' = s⟩ ∗ array (map rep_msg msgs) arr))%I with "[A]" as "W".
  { destruct sf.
    - iApply (first_array arr msgs r s _ ER). iFrame "A". iIntros "A". by iFrame.
    - apply obind_inv in ER as (ls & EL & ER). injection ER as <-. iApply wp_bind.
      iApply (gather_array _ receive_message rep_msg receive_messages arr msgs ls); [done|done|apply t_message|done|].
      iFrame "A". iIntros "A". iApply wp_ret. by iFrame. }
  iApply wp_wand. iFrame "W". iIntros (r1 s1) "[%X A]". destruct X as [-> ->]. rewrite EE. 
  iAssert (rep_file msgs bytes p) with "[P A B]" as "F"; [iExists arr, b; iFrame|].
  destruct e.
  - iApply wp_ret. iFrame "F". by rewrite EO.
  - iApply wp_bind. iApply (f_file msgs bytes). iFrame "F". iApply wp_ret. rewrite EO. done.
Qed.
End WithAllocator.
