(** Properties C26 - C30 and C53: what never survives being written and read back. *)
From Verif Require Import Base Buf Crc16 Number OctetString Boolean Value Time SList Tree Bodies Message File
  Lib Wf Safe Safe2 Safe3 Ctx Spec TL Inv MinSize Reads Write TLWrite TLRound NumFacts PropsString Item Enc Dzg Round Round2 Round3 PropsRound
  Exact Exact2 Exact3.

(** ** Specification *)
(** [n] zero bytes in memory that is otherwise arbitrary, the cursor in front of them. *)
Definition zeros_at (pre : list Z) (n : nat) (post : list Z) (o : bool) : sbuf := mkBuf (pre ++ repeat 0 n ++ post) (length pre) false o.
Definition fits (pre : list Z) (n : nat) (post : list Z) : Prop := bytes_ok (pre ++ post) /\ Z.of_nat (length pre + n + length post) < 2147483648.

Section Spec.
Context {H : Host}.
(** The fields have the C types, the body is there and no length is too large to be written at all. *)
Definition sendable (m : sml_message) : Prop := writable m /\ Forall (every (size_ok false)) (message_items m).
(** The message is written (without any fault) into zeroed memory, with anything
    around it, and reading it again does not return a message with the same
    contents: wherever it is written, the parser fails or returns something else. *)
Definition never_survives (m : sml_message) : Prop := forall pre n post o, n = length (message_bytes m) -> fits pre n post ->
  exists m' s1, sml_message_write m (zeros_at pre n post o) = Ret (m', s1) /\ same_content m m' /\
    forall r s2, sml_message_parse (set_cursor (length pre) s1) = Ret (Some r, s2) -> ~ same_content m r.
End Spec.

(** *** the parts of a body *)
Definition some_list {A} (o : option A) : list A := match o with None => [] | Some x => [x] end.
Definition body_paths (d : body_data) : list sml_tree_path :=
  match d with
  | BPackReq m => some_list (gq_parameter_tree_path m)
  | BPackRes m => some_list (gr_parameter_tree_path m)
  | BProfListRes m => some_list (gl_parameter_tree_path m)
  | BProcReq m => some_list (pq_parameter_tree_path m)
  | BProcRes m => some_list (pr_parameter_tree_path m)
  | BSetProc m => some_list (sq_parameter_tree_path m)
  | _ => []
  end.
Definition body_trees (d : body_data) : list sml_tree :=
  match d with
  | BPackReq m => some_list (gq_das_details m)
  | BProcRes m => some_list (pr_parameter_tree m)
  | BSetProc m => some_list (sq_parameter_tree m)
  | BAttention m => some_list (ar_attention_details m)
  | _ => []
  end.
(** the nodes of a tree: values and child lists *)
Fixpoint tree_values (t : sml_tree) : list sml_proc_par_value :=
  match t with Tree _ value children => some_list value ++ flat_map tree_values children end.
Fixpoint tree_widths (t : sml_tree) : list nat :=
  match t with Tree _ _ children => length children :: flat_map tree_widths children end.
Definition value_times (v : sml_proc_par_value) : list sml_time := match ppv_dat v with PTime t => [t] | _ => [] end.
Definition body_times (d : body_data) : list sml_time :=
  flat_map (fun t => flat_map value_times (tree_values t)) (body_trees d) ++
  match d with
  | BOpenRes m => some_list (or_ref_time m)
  | BPackReq m => some_list (gq_begin_time m) ++ some_list (gq_end_time m)
  | BPackRes m => some_list (gr_act_time m) ++
      flat_map (fun l => flat_map (fun o => flat_map (fun e => some_list (pp_val_time e)) (some_list o)) l) (some_list (gr_period_list m))
  | BProfListRes m => some_list (gl_act_time m) ++ some_list (gl_val_time m)
  | BListRes m => some_list (lr_act_sensor_time m) ++ some_list (lr_act_gateway_time m) ++ flat_map (fun e => some_list (le_val_time e)) (lr_val_list m)
  | _ => []
  end.
Definition body_tupels (d : body_data) : list sml_tupel_entry :=
  flat_map (fun t => flat_map (fun v => match ppv_dat v with PTupel x => [x] | _ => [] end) (tree_values t)) (body_trees d).
Definition body_counts (d : body_data) : list nat :=
  map (@length _) (body_paths d) ++ flat_map tree_widths (body_trees d) ++
  match d with
  | BPackReq m => [length (gq_object_list m)]
  | BPackRes m => map (@length _) (some_list (gr_header_list m)) ++ map (@length _) (some_list (gr_period_list m)) ++
      flat_map (fun l => flat_map (fun o => flat_map (fun e => map (@length _) (some_list (pp_value_list e))) (some_list o)) l) (some_list (gr_period_list m))
  | BProfListRes m => map (@length _) (some_list (gl_period_list m))
  | BListRes m => [length (lr_val_list m)]
  | _ => []
  end.

(** ** C53: exactly the readable messages survive *)
Theorem C53_survival_exact (H : Host) m pre n post o : sendable m -> n = length (message_bytes m) -> fits pre n post ->
  exists m' s1, sml_message_write m (zeros_at pre n post o) = Ret (m', s1) /\ same_content m m' /\
    ((exists r s2, sml_message_parse (set_cursor (length pre) s1) = Ret (Some r, s2) /\ same_content m r) <->
     Forall (every readable) (message_items m) /\ message_stable m) /\
    (forall r s2, sml_message_parse (set_cursor (length pre) s1) = Ret (Some r, s2) -> same_content m r -> r = m' /\ cursor s2 = cursor s1 /\ error s2 = false).
Proof.
  intros [W HS] -> [HB HL]. pose proof (mwrites_message false m W HS) as HM.
  assert (HB' : bytes_ok (pre ++ repeat 0 (length (message_bytes m)) ++ post)).
  { unfold bytes_ok in *. rewrite !Forall_app in *. split; [tauto|]. split; [|tauto]. apply Forall_forall. intros x Hx. apply repeat_spec in Hx. unfold byte_ok. lia. }
  destruct (proj1 (HM pre (repeat 0 (length (message_bytes m))) post false o HB' ltac:(rewrite !app_length, repeat_length; lia)) (repeat_length _ _))
    as (out & v & o' & E & Lo & Bo & Z). destruct Z as [-> ->]; [now right|].
  set (s1 := mkBuf (pre ++ message_bytes m ++ post) (length pre + length (message_bytes m)) false o') in *.
  assert (R : rest (set_cursor (length pre) s1) = message_bytes m ++ post).
  { unfold rest, set_cursor, s1. cbn [buffer cursor]. rewrite skipn_app, skipn_all, Nat.sub_diag. reflexivity. }
  assert (Sm : small (set_cursor (length pre) s1)) by (unfold small, buffer_len, set_cursor, s1; cbn [buffer]; rewrite !app_length; lia).
  assert (HF : Forall (every readable) (message_items m) /\ message_stable m ->
    sml_message_parse (set_cursor (length pre) s1) = Ret (Some (sealed m), at_ (set_cursor (length pre) s1) (length (message_bytes m)) false)).
  { intros [Rd St]. rewrite (message_fwd m _ post W Rd R eq_refl Sm). now rewrite sealed_stable by exact St. }
  assert (HC : forall r s2, sml_message_parse (set_cursor (length pre) s1) = Ret (Some r, s2) -> same_content m r -> Forall (every readable) (message_items m) /\ message_stable m).
  { intros r s2 E2 SC. exact (message_back m _ post r s2 W HS R eq_refl Sm E2 SC). }
  exists (sealed m), s1. split; [exact E|]. split; [repeat split|]. split; [split|].
  - intros (r & s2 & E2 & SC). eauto.
  - intros HR. eexists _, _. split; [apply HF, HR|repeat split].
  - intros r s2 E2 SC. rewrite (HF (HC _ _ E2 SC)) in E2. injection E2 as <- <-. split; [reflexivity|]. split; reflexivity.
Qed.
Print Assumptions C53_survival_exact.
Lemma unreadable_lost (H : Host) m : sendable m -> ~ Forall (every readable) (message_items m) -> never_survives m.
Proof.
  intros HW HN pre n post o En HF. destruct (C53_survival_exact H m pre n post o HW En HF) as (m' & s1 & E & SC & [HI _] & _).
  exists m', s1. split; [exact E|]. split; [exact SC|]. intros r s2 E2 SR. apply HN, HI. eauto.
Qed.
Lemma lost_body (H : Host) m b : sendable m -> m_message_body m = Some b -> ~ every readable (body_data_item (mb_data b)) -> never_survives m.
Proof.
  intros HW EB HN. apply unreadable_lost; [exact HW|]. intros HF. unfold message_items in HF. rewrite EB in HF. do 3 apply Forall_inv_tail in HF. apply Forall_inv in HF.
  cbn [body_item] in HF. apply every_list in HF. destruct HF as [_ HF]. apply Forall_inv_tail, Forall_inv in HF. contradiction.
Qed.

(** *** elements of readable bodies *)
Section Parts.
Context {H : Host}.
Ltac split_items HR := apply every_list in HR; destruct HR as [_ HR]; repeat (apply Forall_cons_iff in HR; let h := fresh "R" in destruct HR as [h HR]); clear HR.
Lemma in_some {A} (x : A) o : In x (some_list o) -> o = Some x.
Proof. destruct o; [intros [->|[]]; reflexivity|intros []]. Qed.
Lemma readable_path d p : every readable (body_data_item d) -> In p (body_paths d) -> every readable (path_item (Some p)).
Proof.
  intros HR HI. destruct d; cbn [body_paths] in HI; try contradiction; apply in_some in HI; cbn [body_data_item] in HR; split_items HR; rewrite HI in *; assumption.
Qed.
Lemma readable_tree d t : every readable (body_data_item d) -> In t (body_trees d) -> every readable (node_item t).
Proof.
  intros HR HI. destruct d; cbn [body_trees] in HI; try contradiction; apply in_some in HI; cbn [body_data_item] in HR; split_items HR; rewrite HI in *; assumption.
Qed.
Lemma readable_node t : every readable (node_item t) ->
  Forall (fun v => every readable (ppv_item (Some v))) (tree_values t) /\ Forall (fun n => (n <= 15)%nat) (tree_widths t).
Proof.
  induction t as [name value children IH] using tree_ind'. intros HR. cbn [node_item] in HR. split_items HR.
  assert (HC : (length children <= 15)%nat /\ Forall (fun t => every readable (node_item t)) children).
  { destruct children as [|c l]; [split; [cbn; lia|constructor]|]. apply every_list in R1. destruct R1 as [[_ R1] R2]. split; [lia|]. rewrite Forall_map in R2. exact R2. }
  destruct HC as [HL HC]. cbn [tree_values tree_widths]. split.
  - apply Forall_app. split; [destruct value; constructor; auto|]. apply Forall_flat_map. rewrite Forall_forall in *. intros x Hx. apply (IH x Hx), HC, Hx.
  - constructor; [exact HL|]. apply Forall_flat_map. rewrite Forall_forall in *. intros x Hx. apply (IH x Hx), HC, Hx.
Qed.
Lemma readable_value d t v : every readable (body_data_item d) -> In t (body_trees d) -> In v (tree_values t) -> every readable (ppv_item (Some v)).
Proof. intros HR HT HV. pose proof (proj1 (readable_node t (readable_tree d t HR HT))) as HF. rewrite Forall_forall in HF. auto. Qed.
Lemma readable_seq {A} (f : option A -> item) l : every readable (seq_item f (Some l)) -> (length l <= 15)%nat /\ Forall (fun x => every readable (f x)) l.
Proof. intros HR. cbn [seq_item] in HR. unfold list_of in HR. apply every_list in HR. destruct HR as [[_ HL] HR]. split; [lia|]. now rewrite Forall_map in HR. Qed.
Lemma readable_entries l : every readable (entries_item l) -> (length l <= 15)%nat /\ Forall (fun e => every readable (entry_item e)) l.
Proof.
  destruct l as [|e l]; [split; [cbn; lia|constructor]|]. intros HR. unfold entries_item, list_of in HR. apply every_list in HR. destruct HR as [[_ HL] HR]. split; [lia|].
  now rewrite Forall_map in HR.
Qed.
Lemma readable_objects l : every readable (objects_item l) -> l = [].
Proof.
  destruct l as [|x l]; [auto|]. intros HR. exfalso. change (objects_item (x :: l)) with (IList (Z.of_nat (length (x :: l))) (map oct_item (removelast (x :: l)))) in HR.
  apply every_list in HR. destruct HR as [[HC _] _]. rewrite map_length in HC. pose proof (app_removelast_last None (l := x :: l) ltac:(discriminate)) as HA.
  apply (f_equal (@length _)) in HA. rewrite app_length in HA. cbn [length] in HA, HC. apply Nat2Z.inj in HC. rewrite <- HC in HA. lia.
Qed.
Lemma readable_time d t : every readable (body_data_item d) -> In t (body_times d) -> every readable (time_item (Some t)).
Proof.
  intros HR HI. unfold body_times in HI. apply in_app_or in HI. destruct HI as [HI|HI].
  { apply in_flat_map in HI. destruct HI as (tr & HT & HI). apply in_flat_map in HI. destruct HI as (v & HV & HI). pose proof (readable_value d tr v HR HT HV) as HP.
    unfold value_times in HI. destruct (ppv_dat v) eqn:ED; try contradiction. destruct HI as [->|[]]. cbn [ppv_item] in HP. rewrite ED in HP. split_items HP. assumption. }
  destruct d; try contradiction; cbn [body_data_item] in HR; split_items HR; repeat (apply in_app_or in HI; destruct HI as [HI|HI]);
    try (apply in_some in HI; rewrite HI in *; assumption).
  - apply in_flat_map in HI. destruct HI as (l & EL & HI). apply in_some in EL. rewrite EL in *.
    apply in_flat_map in HI. destruct HI as (o & Ho & HI). apply in_flat_map in HI. destruct HI as (e & Ee & HI). apply in_some in Ee. subst o. apply in_some in HI.
    match goal with HS : every readable (seq_item per_entry_item _) |- _ => apply readable_seq in HS; destruct HS as [_ HS]; rewrite Forall_forall in HS; specialize (HS _ Ho); cbn [per_entry_item] in HS; split_items HS end.
    rewrite HI in *. assumption.
  - apply in_flat_map in HI. destruct HI as (e & He & HI). apply in_some in HI.
    match goal with HS : every readable (entries_item _) |- _ => apply readable_entries in HS; destruct HS as [_ HS]; rewrite Forall_forall in HS; specialize (HS _ He); unfold entry_item in HS; split_items HS end.
    rewrite HI in *. assumption.
Qed.
Lemma readable_count d n : every readable (body_data_item d) -> In n (body_counts d) -> (n <= 15)%nat.
Proof.
  intros HR HI. unfold body_counts in HI. apply in_app_or in HI. destruct HI as [HI|HI].
  { apply in_map_iff in HI. destruct HI as (p & <- & HP). pose proof (readable_path d p HR HP) as HQ. destruct p as [|x p]; [cbn; lia|].
    cbn [path_item] in HQ. unfold list_of in HQ. apply every_list in HQ. destruct HQ as [[_ HQ] _]. apply Nat2Z.inj_le. exact HQ. }
  apply in_app_or in HI. destruct HI as [HI|HI].
  { apply in_flat_map in HI. destruct HI as (t & HT & HI). pose proof (proj2 (readable_node t (readable_tree d t HR HT))) as HF. rewrite Forall_forall in HF. auto. }
  destruct d; try contradiction; cbn [body_data_item] in HR; split_items HR.
  - destruct HI as [<-|[]]. match goal with HS : every readable (objects_item _) |- _ => apply readable_objects in HS; rewrite HS; cbn; lia end.
  - repeat (apply in_app_or in HI; destruct HI as [HI|HI]).
    + apply in_map_iff in HI. destruct HI as (l & <- & HI). apply in_some in HI. rewrite HI in *.
      match goal with HS : every readable (seq_item header_item _) |- _ => apply readable_seq in HS; exact (proj1 HS) end.
    + apply in_map_iff in HI. destruct HI as (l & <- & HI). apply in_some in HI. rewrite HI in *.
      match goal with HS : every readable (seq_item per_entry_item _) |- _ => apply readable_seq in HS; exact (proj1 HS) end.
    + apply in_flat_map in HI. destruct HI as (l & EL & HI). apply in_some in EL. rewrite EL in *.
      apply in_flat_map in HI. destruct HI as (o & Ho & HI). apply in_flat_map in HI. destruct HI as (e & Ee & HI). apply in_some in Ee. subst o.
      apply in_map_iff in HI. destruct HI as (l1 & <- & HI). apply in_some in HI.
      match goal with HS : every readable (seq_item per_entry_item _) |- _ => apply readable_seq in HS; destruct HS as [_ HS]; rewrite Forall_forall in HS; specialize (HS _ Ho); cbn [per_entry_item] in HS; split_items HS end.
      rewrite HI in *. match goal with HS : every readable (seq_item val_entry_item _) |- _ => apply readable_seq in HS; exact (proj1 HS) end.
  - apply in_map_iff in HI. destruct HI as (l & <- & HI). apply in_some in HI. rewrite HI in *.
    match goal with HS : every readable (seq_item period_item _) |- _ => apply readable_seq in HS; exact (proj1 HS) end.
  - destruct HI as [<-|[]]. match goal with HS : every readable (entries_item _) |- _ => apply readable_entries in HS; exact (proj1 HS) end.
Qed.

(** *** writing a part into zeroed memory *)
Lemma written w bs pre n post o : writes false w bs -> n = length bs -> fits pre n post -> bytes_ok bs /\ exists o', w (zeros_at pre n post o) = Ret (tt, mkBuf (pre ++ bs ++ post) (length pre + n) false o').
Proof.
  intros HW -> [HB HL]. assert (HB' : bytes_ok (pre ++ repeat 0 (length bs) ++ post)).
  { unfold bytes_ok in *. rewrite !Forall_app in *. split; [tauto|]. split; [|tauto]. apply Forall_forall. intros x Hx. apply repeat_spec in Hx. unfold byte_ok. lia. }
  destruct (proj1 (HW pre (repeat 0 (length bs)) post false o HB') (repeat_length _ _)) as (out & o' & E & _ & Bo & Z). rewrite Z in E, Bo by now right. eauto.
Qed.
Lemma back_at pre bs post o o' n : Z.of_nat (length pre + length bs + length post) < 2147483648 ->
  rest (set_cursor (length pre) (mkBuf (pre ++ bs ++ post) n o o')) = bs ++ post /\ small (set_cursor (length pre) (mkBuf (pre ++ bs ++ post) n o o')).
Proof.
  intros HL. split; [unfold rest, set_cursor; cbn [buffer cursor]; rewrite skipn_app, skipn_all, Nat.sub_diag; reflexivity|].
  unfold small, buffer_len, set_cursor; cbn [buffer]; rewrite !app_length; lia.
Qed.
End Parts.

(** ** C26: object lists *)
Theorem C26_object_list_lost (H : Host) m tag q : sendable m -> m_message_body m = Some (mkBody tag (BPackReq q)) -> gq_object_list q <> [] -> never_survives m.
Proof.
  intros HW EB HN. eapply lost_body; [exact HW|exact EB|]. cbn [mb_data body_data_item]. intros HR. apply HN, readable_objects.
  apply every_list in HR. destruct HR as [_ HR]. do 7 apply Forall_inv_tail in HR. exact (Forall_inv HR).
Qed.
Print Assumptions C26_object_list_lost.
(** The bytes: the list header counts all objects, and all but the last are written. *)
Theorem C26_one_object_short (H : Host) q pre n post o bs : wf_pack_req q -> every (size_ok false) (body_data_item (BPackReq q)) -> gq_object_list q <> [] ->
  bs = tl_text 112 9 ++ enc (oct_item (gq_server_id q)) ++ enc (oct_item (gq_username q)) ++ enc (oct_item (gq_password q)) ++
    enc (bool_item (gq_with_rawdata q)) ++ enc (time_item (gq_begin_time q)) ++ enc (time_item (gq_end_time q)) ++ enc (path_item (gq_parameter_tree_path q)) ++
    (tl_text 112 (Z.of_nat (length (gq_object_list q))) ++ flat_map enc (map oct_item (removelast (gq_object_list q)))) ++ enc (tree_item (gq_das_details q)) ->
  n = length bs -> fits pre n post ->
  exists o', sml_get_profile_pack_request_write (Some q) (zeros_at pre n post o) = Ret (tt, mkBuf (pre ++ bs ++ post) (length pre + n) false o').
Proof.
  intros HW HS HN Eb En HF. enough (HG : writes false (sml_get_profile_pack_request_write (Some q)) bs) by exact (proj2 (written _ _ pre n post o HG En HF)).
  assert (EE : bs = enc (body_data_item (BPackReq q))).
  { rewrite Eb. cbn [body_data_item]. rewrite enc_list. cbn [flat_map]. rewrite app_nil_r. do 8 f_equal. f_equal. unfold objects_item. destruct (gq_object_list q); [contradiction|]. now rewrite enc_list. }
  rewrite EE. pose proof (writes_body_data false 768 (BPackReq q) (conj (or_introl eq_refl) HW) HS) as HB.
  intros pre0 old post0 e0 o0 HB0. specialize (HB pre0 old post0 e0 o0 HB0). unfold body_data_write in HB.
  repeat match type of HB with context [768 =? ?c] => let v := eval vm_compute in (768 =? c) in change (768 =? c) with v in HB; cbv iota in HB end.
  exact HB.
Qed.
Print Assumptions C26_one_object_short.

(** ** C27: tupel entries *)
Theorem C27_tupel_rejected (H : Host) v pre n post o : wf_tupel v -> every (size_ok false) (tupel_item (Some v)) ->
  n = length (enc (tupel_item (Some v))) -> fits pre n post ->
  exists s1, sml_tupel_entry_write (Some v) (zeros_at pre n post o) = Ret (tt, s1) /\ cursor s1 = (length pre + n)%nat /\
  exists r s2, sml_tupel_entry_parse (set_cursor (length pre) s1) = Ret (r, s2) /\ error s2 = true.
Proof.
  intros HW HS En HF. destruct (written _ _ pre n post o (writes_tupel false (Some v) HW (fun _ => eq_refl) HS) En HF) as (Bo & o' & E).
  eexists. split; [exact E|]. split; [reflexivity|]. destruct HF as [HB HL]. rewrite En in HL. destruct (back_at pre (enc (tupel_item (Some v))) post false o' (length pre + n) HL) as [R Sm].
  set (s := set_cursor (length pre) _) in *. assert (Ok : okbuf s).
  { split; [unfold s, set_cursor, buffer_len; cbn [cursor buffer]; rewrite app_length; lia|].
    unfold s. cbn [buffer set_cursor]. unfold bytes_ok in *. rewrite !Forall_app in *. tauto. }
  pose proof (tupel_safe s Ok) as HP. unfold wp in HP. destruct (sml_tupel_entry_parse s) as [[r s2]| |] eqn:EP; try contradiction.
  exists r, s2. split; [reflexivity|]. exact (tupel_lost v s post r s2 R Sm eq_refl EP).
Qed.
Print Assumptions C27_tupel_rejected.
Theorem C27_message_lost (H : Host) m b v : sendable m -> m_message_body m = Some b -> In v (body_tupels (mb_data b)) -> never_survives m.
Proof.
  intros HW EB HI. eapply lost_body; [exact HW|exact EB|]. intros HR. unfold body_tupels in HI. apply in_flat_map in HI. destruct HI as (t & HT & HI).
  apply in_flat_map in HI. destruct HI as (p & HP & HI). pose proof (readable_value _ _ _ HR HT HP) as HQ. destruct (ppv_dat p) eqn:ED; try contradiction.
  cbn [ppv_item] in HQ. rewrite ED in HQ. apply every_list in HQ. destruct HQ as [_ HQ]. apply Forall_inv_tail, Forall_inv in HQ. cbn [tupel_item] in HQ.
  apply every_list in HQ. destruct HQ as [[_ HQ] _]. lia.
Qed.
Print Assumptions C27_message_lost.

(** ** C28: lists of 16 and more *)
(** Whatever sml_list_parse makes of the bytes, it is not the list without an error. *)
Theorem C28_list_lost (H : Host) l pre n post o : Forall wf_entry l -> every (size_ok false) (entries_item l) -> (16 <= length l)%nat ->
  n = length (enc (entries_item l)) -> fits pre n post -> post <> [] ->
  exists s1, sml_list_write l (zeros_at pre n post o) = Ret (tt, s1) /\ cursor s1 = (length pre + n)%nat /\
  forall s2, sml_list_parse (set_cursor (length pre) s1) = Ret (l, s2) -> error s2 = true.
Proof.
  intros HW HS HL16 En HF Hp. destruct (written _ _ pre n post o (writes_entries false l HW HS) En HF) as (Bo & o' & E).
  eexists. split; [exact E|]. split; [reflexivity|]. destruct HF as [HB HL]. rewrite En in HL. destruct (back_at pre (enc (entries_item l)) post false o' (length pre + n) HL) as [R Sm].
  intros s2 E2. destruct (error s2) eqn:Er; [reflexivity|]. exfalso. destruct (entries_back l _ post s2 HW HS R Hp eq_refl Sm E2 Er) as [HR _].
  apply readable_entries in HR. lia.
Qed.
Print Assumptions C28_list_lost.
(** The same for a sequence; [p], [w] and [f] are the entry's reader, writer and layout. *)
Definition long_sequences_lost {H : Host} {A : Type} (W : A -> Prop) (p : P (option A)) (w : option A -> P unit) (f : option A -> item) : Prop :=
  forall (l : list (option A)) pre n post o,
  Forall (fun o => exists x, o = Some x /\ W x) l -> every (size_ok false) (seq_item f (Some l)) -> (16 <= length l)%nat ->
  n = length (enc (seq_item f (Some l))) -> fits pre n post -> post <> [] ->
  exists s1, sml_sequence_write w (Some l) (zeros_at pre n post o) = Ret (tt, s1) /\ cursor s1 = (length pre + n)%nat /\
  forall s2, sml_sequence_parse p (set_cursor (length pre) s1) = Ret (Some l, s2) -> error s2 = true.
Lemma sequences_lost (H : Host) A (W : A -> Prop) p w f :
  (forall x, W x -> every (size_ok false) (f (Some x)) -> writes false (w (Some x)) (enc (f (Some x))) /\ exact_on ne p (f (Some x)) (Some x)) ->
  long_sequences_lost W p w f.
Proof.
  intros HK l pre n post o HW HS HL16 En HF Hp. rewrite Forall_forall in HW.
  assert (WR : writes false (sml_sequence_write w (Some l)) (enc (seq_item f (Some l)))).
  { apply writes_sequence; [|exact HS]. intros l0 x [= <-] Hx Sx. destruct (HW x Hx) as (y & -> & Wy). now apply HK. }
  destruct (written _ _ pre n post o WR En HF) as (Bo & o' & E).
  eexists. split; [exact E|]. split; [reflexivity|]. destruct HF as [HB HL]. rewrite En in HL. destruct (back_at pre (enc (seq_item f (Some l))) post false o' (length pre + n) HL) as [R Sm].
  intros s2 E2. destruct (error s2) eqn:Er; [reflexivity|]. exfalso.
  assert (HX : exact_on ne (sml_sequence_parse p) (seq_item f (Some l)) (Some l)).
  { apply ex_seq; [exact HS|]. apply Forall_forall. intros x Hx Sx. destruct (HW x Hx) as (y & -> & Wy). now apply HK. }
  destruct (HX _ post s2 R Hp eq_refl Sm E2 Er) as [HR _]. apply readable_seq in HR. lia.
Qed.
(** the kinds of sequences there are *)
Theorem C28_sequences_lost (H : Host) :
  long_sequences_lost wf_header sml_prof_obj_header_entry_parse sml_prof_obj_header_entry_write header_item /\
  long_sequences_lost wf_value_entry sml_value_entry_parse sml_value_entry_write val_entry_item /\
  long_sequences_lost wf_per_entry sml_prof_obj_period_entry_parse sml_prof_obj_period_entry_write per_entry_item /\
  long_sequences_lost wf_period sml_period_entry_parse sml_period_entry_write period_item.
Proof.
  split; [|split; [|split]]; apply sequences_lost; intros x HW HS; split.
  - now apply writes_header_entry.
  - now apply ex_header.
  - now apply writes_val_entry.
  - now apply ex_val_entry.
  - now apply writes_per_entry.
  - now apply ex_per_entry.
  - now apply writes_period.
  - now apply ex_period.
Qed.
Print Assumptions C28_sequences_lost.
(** No message with such a list, sequence, path or number of children anywhere comes back. *)
Theorem C28_message_lost (H : Host) m b k : sendable m -> m_message_body m = Some b -> In k (body_counts (mb_data b)) -> (16 <= k)%nat -> never_survives m.
Proof. intros HW EB HI HK. eapply lost_body; [exact HW|exact EB|]. intros HR. pose proof (readable_count _ _ HR HI). lia. Qed.
Print Assumptions C28_message_lost.

(** ** C29: empty paths *)
Theorem C29_empty_path_writes_nothing (H : Host) s : sml_tree_path_write (Some []) s = Ret (tt, s).
Proof. reflexivity. Qed.
Print Assumptions C29_empty_path_writes_nothing.
Theorem C29_message_lost (H : Host) m b : sendable m -> m_message_body m = Some b -> In [] (body_paths (mb_data b)) -> never_survives m.
Proof. intros HW EB HI. eapply lost_body; [exact HW|exact EB|]. intros HR. exact (proj1 (readable_path _ _ HR HI)). Qed.
Print Assumptions C29_message_lost.

(** ** C30: times without a value *)
(** The three-element form: a u32, two i16 (of up to 4 and 2 bytes). *)
Definition three_part (H : Host) (tg t1 t2 t3 : mem) : item := IList 2 [num_item 96 (Some tg); IList 3 [num_item 96 (Some t1); num_item 80 (Some t2); num_item 80 (Some t3)]].
Theorem C30_three_part_dropped (H : Host) tg t1 t2 t3 s t : wf_num 1 tg -> wf_num 4 t1 -> wf_num 2 t2 -> wf_num 2 t3 ->
  rest s = enc (three_part H tg t1 t2 t3) ++ t -> t <> [] -> error s = false -> small s ->
  exists s1, sml_time_parse s = Ret (Some (mkTime (Some tg) None), s1) /\ error s1 = false /\ rest s1 = t.
Proof.
  intros W1 W2 W3 W4 R Ht He Sm. unfold three_part in R.
  assert (HV : reads (sml_time_value (Some tg)) (enc (IList 3 [num_item 96 (Some t1); num_item 80 (Some t2); num_item 80 (Some t3)])) (Some (mkTime (Some tg) None))).
  { intros s0 t0 R0 Ht0 He0 Sm0. unfold sml_time_value. rewrite enc_list in R0. change (tl_text 112 3) with [112 + 3] in R0. rewrite <- app_assoc in R0.
    destruct (list_header 3 ltac:(lia)) as (TF & TT & TN & TL). unfold bind at 1. rewrite (type_fwd _ _ _ R0 TF), TT. change (112 =? SML_TYPE_UNSIGNED) with false.
    change (112 =? SML_TYPE_LIST) with true. cbv iota. unfold bind at 1. rewrite (length_fwd _ _ _ Sm0 R0 TF) by lia. 
    rewrite !flat_cons, app_nil_r in *. 
    assert (HK : reads (field sml_u32_parse (fun _ => field sml_i16_parse (fun _ => field sml_i16_parse (fun _ => ret (Some (mkTime (Some tg) None))))))
      (enc (num_item 96 (Some t1)) ++ enc (num_item 80 (Some t2)) ++ enc (num_item 80 (Some t3))) (Some (mkTime (Some tg) None))).
    { apply (reads_fld _ _ _ _ (Some t1)); [now apply reads_u32|]. apply (reads_fld _ _ _ _ (Some t2)); [now apply (reads_num 80 2); [tauto|lia|]|].
      apply (reads_last _ _ _ (Some t3) _); [now apply (reads_num 80 2); [tauto|lia|]|reflexivity]. }
    rewrite (HK _ t0 (at_app _ _ _ false R0) Ht0 He0 (at_small _ _ _ Sm0)). rewrite enc_list, !flat_cons, app_nil_r. rewrite at_at. reflexivity. }
  assert (HR : reads sml_time_parse (enc (IList 2 [num_item 96 (Some tg); IList 3 [num_item 96 (Some t1); num_item 80 (Some t2); num_item 80 (Some t3)]])) (Some (mkTime (Some tg) None))).
  { rewrite enc_list, flat_cons, flat_one. change (tl_text 112 2) with [112 + 2].
    apply unless_reads; [cbn; lia|]. intros s0 t0 R0 Ht0 He0 Sm0. unfold bind at 1. rewrite (current_cons s0 _ _ R0). 
    change (112 + 2 =? Z.lor SML_TYPE_UNSIGNED 5) with false. cbv iota.
    apply (reads_expect 2 _ _ (Some (mkTime (Some tg) None)) ltac:(lia)) with (t := t0); auto.
    apply (reads_fld _ _ _ _ (Some tg)); [now apply reads_u8|exact HV]. }
  eexists. split; [exact (HR s t R Ht He Sm)|]. split; [exact He|]. now apply at_app.
Qed.
Print Assumptions C30_three_part_dropped.
(** Written again, such a time is read as NULL; no error is raised and the last byte is left unread. *)
Theorem C30_rewritten_time_lost (H : Host) tg pre n post o : opt (wf_num 1) tg -> n = length (enc (time_item (Some (mkTime tg None)))) -> fits pre n post -> post <> [] ->
  exists s1, sml_time_write (Some (mkTime tg None)) (zeros_at pre n post o) = Ret (tt, s1) /\ cursor s1 = (length pre + n)%nat /\
  exists s2, sml_time_parse (set_cursor (length pre) s1) = Ret (None, s2) /\ error s2 = false /\ cursor s2 = (cursor s1 - 1)%nat /\ rest s2 = 1 :: post.
Proof.
  intros HT En HF Hp. assert (HW : wf_time (mkTime tg None)) by (split; [exact HT|exact I]).
  destruct (written _ _ pre n post o (writes_time false (Some (mkTime tg None)) HW) En HF) as (Bo & o' & E).
  eexists. split; [exact E|]. split; [reflexivity|]. destruct HF as [HB HL]. rewrite En in HL. destruct (back_at pre (enc (time_item (Some (mkTime tg None)))) post false o' (length pre + n) HL) as [R Sm].
  set (s := set_cursor (length pre) _) in *. assert (Ok : okbuf s).
  { split; [unfold s, set_cursor, buffer_len; cbn [cursor buffer]; rewrite app_length; lia|].
    unfold s. cbn [buffer set_cursor]. unfold bytes_ok in *. rewrite !Forall_app in *. tauto. }
  pose proof (time_safe s Ok) as HP. unfold wp in HP. destruct (sml_time_parse s) as [[r s2]| |] eqn:EP; try contradiction.
  destruct (time_lost tg s post r s2 HT R Hp eq_refl Sm EP) as (-> & -> & R2). eexists. split; [reflexivity|]. split; [reflexivity|]. split; [|exact R2].
  cbn [cursor at_ set_ovf set_cursor s]. rewrite En. cbn [time_item tm_tag tm_data]. rewrite enc_list, flat_cons, flat_one. change (tl_text 112 2) with [114].
  rewrite !app_length. cbn [length enc]. lia.
Qed.
Print Assumptions C30_rewritten_time_lost.
Theorem C30_message_lost (H : Host) m b t : sendable m -> m_message_body m = Some b -> In t (body_times (mb_data b)) -> tm_data t = None -> never_survives m.
Proof.
  intros HW EB HI ED. eapply lost_body; [exact HW|exact EB|]. intros HR. pose proof (readable_time _ _ HR HI) as HT. cbn [time_item] in HT. rewrite ED in HT.
  apply every_list in HT. destruct HT as [_ HT]. apply Forall_inv_tail, Forall_inv in HT. exact (proj1 HT).
Qed.
Print Assumptions C30_message_lost.

(** *** Concrete messages *)
Definition size_okb (i : item) : bool :=
  match i with
  | IOctets bs => Z.of_nat (length bs) <? 268435455
  | IList n _ => n <? 268435456
  | _ => true
  end.
Lemma sizes_sound : forall i, everyb size_okb i = true -> every (size_ok false) i.
Proof.
  fix IH 1. intros [| |bs|bs|b|ty bs|n l]; cbn [everyb every]; intros HB; apply andb_true_iff in HB; destruct HB as [HB HL];
    (split; [cbn [size_ok size_okb] in *; try exact I; change (2 ^ 28) with 268435456; (split; [lia|discriminate])|try exact I]).
  clear HB. induction l as [|x l IHl]; [exact I|]. cbn [forallb] in HL. apply andb_true_iff in HL. destruct HL as [HX HL].
  split; [apply IH; exact HX|apply IHl; exact HL].
Qed.
Lemma all_sized l : forallb (everyb size_okb) l = true -> Forall (every (size_ok false)) l.
Proof. intros HB. apply Forall_forall. intros x Hx. apply sizes_sound. rewrite forallb_forall in HB. auto. Qed.
Ltac sent := split; [constructor; [wfs..|]; eexists; split; [reflexivity|]; eexists; split; [reflexivity|]; split; [wfs|]; cbn [wf_body_data mb_data]|apply all_sized; vm_compute; reflexivity].

Definition with_objects (H : Host) : sml_message :=
  mkMsg (Some [1; 2]) (Some (u8 0)) (Some (u8 0)) (Some (mkBody (Some (sml_u32_init 768)) (BPackReq (mkPackReq (Some [5]) None None (Some 255) None None None
    [Some [1; 0; 1; 8; 0; 255]; Some [1; 0; 2; 8; 0; 255]] None)))) None.
Example with_objects_sent : sendable (H := LittleEndian) (with_objects LittleEndian).
Proof. unfold with_objects. sent. split; [now left|]. wfs. Qed.
Definition a_tupel (H : Host) : sml_tupel_entry := mkTupel (Some [7]) (Some (mkTime (Some (u8 1)) (Some (sml_u32_init 5)))) None (Some (u8 30)) None None None None None None None None None None None None None None None None None None (Some [1; 2; 3]).
Example a_tupel_ok : let H : Host := LittleEndian in wf_tupel (a_tupel LittleEndian) /\ every (size_ok false) (tupel_item (Some (a_tupel LittleEndian))).
Proof. cbv zeta. split; [unfold a_tupel; wfs|apply sizes_sound; vm_compute; reflexivity]. Qed.
(** one tree with everything of C27, C29 and C30 *)
Definition with_tree (H : Host) : sml_message :=
  mkMsg None (Some (u8 0)) (Some (u8 0)) (Some (mkBody (Some (sml_u32_init 1536)) (BSetProc (mkSetProc (Some [1]) None None (Some [])
     (Some (Tree (Some [129; 129]) None
       [Tree (Some [1]) (Some (mkPpv (Some (u8 4)) (PTime (mkTime (Some (u8 2)) None)))) [];
        Tree (Some [2]) (Some (mkPpv (Some (u8 3)) (PTupel (a_tupel H)))) []])))))) None.
Example with_tree_sent : sendable (H := BigEndian) (with_tree BigEndian).
Proof. unfold with_tree. sent. split; [reflexivity|]. unfold a_tupel. wfs. Qed.
Example with_tree_has : body_tupels (BSetProc (mkSetProc (Some [1]) None None (Some []) (Some (Tree None (Some (mkPpv (Some [3]) (PTupel (a_tupel BigEndian)))) [])))) = [a_tupel BigEndian] /\
  match m_message_body (with_tree BigEndian) with
  | Some b => body_tupels (mb_data b) = [a_tupel BigEndian] /\ In [] (body_paths (mb_data b)) /\ body_times (mb_data b) = [mkTime (Some (u8 2)) None]
  | None => False end.
Proof. repeat split. now left. Qed.
Definition with_many (H : Host) (n : nat) : sml_message :=
  mkMsg (Some [1; 2]) (Some (u8 0)) (Some (u8 0)) (Some (mkBody (Some (sml_u32_init 1793)) (BListRes (mkListRes None (Some [1]) None None
    (repeat (mkEntry (Some [1; 0; 1; 8; 0; 255]) None None None None (Some (mkValue 97 (VNum [3]))) None) n) None None)))) None.
Example with_many_sent : sendable (H := LittleEndian) (with_many LittleEndian 16) /\
  match m_message_body (with_many LittleEndian 16) with Some b => In 16%nat (body_counts (mb_data b)) | None => False end.
Proof. split; [|now left]. unfold with_many. cbn [repeat]. sent. split; [reflexivity|]. constructor; wfs. Qed.
(** What the parser makes of them, and of 15 entries for comparison. *)
Definition reread {H : Host} (m : sml_message) : option (option sml_message) :=
  match sml_message_write m (sml_buffer_init 600) with
  | Ret (_, s1) => match sml_message_parse (set_cursor 0 s1) with Ret (r, _) => Some r | _ => None end
  | _ => None
  end.
Example lost_results : let H : Host := LittleEndian in reread (with_objects H) = Some None /\ reread (with_tree H) = Some None /\ reread (with_many H 16) = Some None /\
  option_map (option_map m_message_body) (reread (with_many H 15)) = Some (Some (m_message_body (with_many H 15))).
Proof. vm_compute. repeat split. Qed.
Example three_part_read : let H : Host := LittleEndian in
  match sml_time_parse (mkBuf (enc (three_part H [2] [1; 2; 3; 4] [60; 0] [0; 0]) ++ [1]) 0 false false) with
  | Ret (r, s) => r = Some (mkTime (Some [2]) None) /\ rest s = [1] | _ => False end.
Proof. vm_compute. split; reflexivity. Qed.
