(** The parser of value lists with pointers, including the DZG workaround. *)
From stdpp Require Import gmap.
From iris.proofmode Require Import tactics.
From Verif Require Import Base Buf Number OctetString Boolean Value Time SList Tree Bodies Message File
  HeapBase HeapModel HeapLogic HeapRep HeapFree HeapSim HeapParse.

(** one field of a record *)
Ltac fld r f v :=
  let s := fresh "s" in let E := fresh "E" in let Es := fresh "Es" in let F := fresh "F" in
  eapply sim_field; [eassumption|eassumption|eassumption|r|reflexivity|reflexivity|f|];
  intros v s E Es F; cbn [list_insert insert] in F; cbn [list_insert insert].

(** *** Where serial numbers come from *)
(** The first five bytes of the serial number of a DZG meter, "\n\001DZG", occur
    somewhere in [bytes]. *)
Definition mentions_dzg (bytes : list Z) : Prop :=
  exists before after, bytes = before ++ [10; 1; 68; 90; 71] ++ after.
Definition dzg_watch : Watch := mentions_dzg.

Ltac reads := repeat first
  [ apply _ | apply reads_bind; [|intros ?] | apply reads_if | apply reads_option; [intros ?|]
  | progress unfold unless_skipped, expect_list, err_null, field, error_label ].
Section Reads.
Context {HO : Host}.
Lemma reads_str : Reads sml_octet_string_parse.
Proof. unfold sml_octet_string_parse. reads. Qed.
Lemma reads_num t m : Reads (sml_number_parse t m).
Proof. unfold sml_number_parse. reads. Qed.
Lemma reads_bool : Reads sml_boolean_parse.
Proof. unfold sml_boolean_parse. reads. Qed.
Lemma reads_value : Reads sml_value_parse.
Proof. unfold sml_value_parse. reads; first [apply reads_str|apply reads_num|apply reads_bool]. Qed.
Lemma reads_status : Reads sml_status_parse.
Proof. unfold sml_status_parse. reads; first [apply reads_str|apply reads_num|apply reads_bool]. Qed.
Lemma reads_time : Reads sml_time_parse.
Proof. unfold sml_time_parse, sml_time_value, sml_u8_parse, sml_u32_parse. reads; apply reads_num. Qed.
End Reads.

Lemma firstn_infix n k (l : list Z) : exists before after, l = before ++ firstn n (skipn k l) ++ after.
Proof.
  exists (firstn k l), (skipn n (skipn k l)). by rewrite (firstn_skipn n) firstn_skipn.
Qed.
Lemma str_infix s str s1 : sml_octet_string_parse s = Ret (Some str, s1) ->
  exists before after, buffer s = before ++ str ++ after.
Proof.
  unfold sml_octet_string_parse, unless_skipped. intros E.
  apply bind_inv in E as (sk & s2 & E1 & E). apply reads_skipped in E1. destruct (negb _); [done|].
  apply bind_inv in E as (t & s3 & E2 & E). apply reads_next_type in E2. destruct (negb _); [done|].
  apply bind_inv in E as (l & s4 & E3 & E). apply reads_next_length in E3.
  apply bind_inv in E as (bad & s5 & E4 & E). injection E4 as _ <-. destruct bad; [done|].
  apply bind_inv in E as (bs & s6 & E5 & E). apply bind_inv in E as (u & s7 & _ & E). injection E as <- _.
  unfold read_current in E5. destruct (_ <=? _)%nat; [|done]. injection E5 as <- _.
  unfold sml_octet_string_init. rewrite -E1 -E2 -E3. destruct (l >? 0).
  - rewrite firstn_firstn Nat.min_id. apply firstn_infix.
  - by exists [], (buffer s4).
Qed.
Lemma value_infix {HO : Host} s v s1 str : sml_value_parse s = Ret (Some v, s1) -> v_data v = VBytes str ->
  exists before after, buffer s = before ++ str ++ after.
Proof.
  unfold sml_value_parse, unless_skipped. intros E Ev.
  apply bind_inv in E as (sk & s2 & E1 & E). apply reads_skipped in E1. destruct (negb _); [done|].
  apply bind_inv in E as (t & s3 & E2 & E). apply reads_next_type in E2.
  apply bind_inv in E as (b & s4 & E3 & E). apply reads_byte in E3.
  apply bind_inv in E as (v' & s5 & E4 & E). apply bind_inv in E as (e & s6 & _ & E). destruct e; [done|].
  injection E as -> _. rewrite -E1 -E2 -E3. destruct (t =? SML_TYPE_OCTET_STRING).
  { apply bind_inv in E4 as (d & s7 & E4 & E5). injection E5 as <- <-. destruct d as [str'|]; [|done].
    injection Ev as ->. by eapply str_infix. }
  exfalso. destruct (t =? SML_TYPE_BOOLEAN).
  { apply bind_inv in E4 as (d & s7 & E4 & E5). injection E5 as <- <-. by destruct d. }
  destruct (_ || _).
  { apply bind_inv in E4 as (m & s7 & E4 & E5). apply bind_inv in E5 as (d & s8 & E5 & E6).
    injection E6 as <- <-. by destruct d. }
  apply bind_inv in E4 as ([] & s7 & E4 & E5). by injection E5 as <- <-.
Qed.
Lemma memcmp_0 : forall a b, length a = length b -> memcmp a b = 0 -> a = b.
Proof.
  induction a as [|x a IH]; intros [|y b] L E; try done. cbn [memcmp] in E. destruct (x =? y) eqn:X; [|lia].
  apply Z.eqb_eq in X. injection L as L. f_equal; auto.
Qed.
Lemma detect_text e s s1 : detect_buggy_dzg_dvs74 e s = Ret (true, s1) ->
  exists v serial, SList.le_value e = Some v /\ v_data v = VBytes ([10; 1; 68; 90; 71] ++ serial).
Proof.
  unfold detect_buggy_dzg_dvs74. intros E. destruct (negb _); [done|]. destruct (SList.le_value e) as [v|]; [|done].
  destruct (negb _); [done|]. apply bind_inv in E as (d & s2 & E1 & E). destruct (v_data v) as [|str|b|m] eqn:Ev; try done.
  - injection E1 as <- <-. done.
  - injection E1 as <- <-. destruct (negb (_ =? DZG_SERIAL_LENGTH)) eqn:EL; [done|].
    destruct (negb (memcmp _ _ =? 0)) eqn:EM; [done|].
    apply negb_false_iff, Z.eqb_eq in EL, EM. unfold DZG_SERIAL_LENGTH in EL.
    exists v, (skipn 5 str). split; [done|].
    assert (E5 : firstn 5 str = [10; 1; 68; 90; 71]) by (apply memcmp_0; [rewrite firstn_length_le; [done|unfold octet_string in *; lia]|done]).
    rewrite Ev -E5. by rewrite firstn_skipn.
Qed.

Section WithHost.
Context {HO : Host} {AL : Allocator}.
Local Existing Instance dzg_watch.

Lemma entry_forall e : Forall2 frees [h_octet_string_free; h_status_free; h_time_free; h_number_free;
    h_number_free; h_value_free; h_octet_string_free] (entry_fields e).
Proof. repeat constructor; first [apply f_str|apply f_status|apply f_time|apply f_num|apply f_value]. Qed.
Lemma entry_same e i R : entry_fields e !! i = Some R -> <[i := R]> (entry_fields e) = entry_fields e.
Proof. apply list_insert_id. Qed.

Lemma str_len v p s Φ : rep_str v p ∗ (rep_str v p -∗ Φ (Z.of_nat (length v)) s) ⊢ wp (load_int p 1) s Φ.
Proof.
  iIntros "[P K]". destruct v as [|x v].
  - hload_int "P". by iApply "K".
  - iDestruct "P" as (d) "[P D]". hload_int "P". iApply "K". iExists d. iFrame.
Qed.
Lemma str_text {A} v p (k : slot -> list Z -> H A) s Φ : v <> [] ->
  rep_str v p ∗ (∀ d, rep_str v p -∗ wp (k d v) s Φ)
  ⊢ wp (str <- load p 0 ;; bs <- load_bytes str ;; k str bs) s Φ.
Proof.
  intros N. iIntros "[P K]". destruct v as [|x v]; [done|]. iDestruct "P" as (d) "[P D]".
  iApply wp_bind. hload "P". iApply wp_bind. iApply wp_load_bytes. iFrame "D". iIntros "D".
  iApply "K". iExists d. iFrame.
Qed.

Lemma str_ptr v p : rep_str v p ⊢ rep_str v p ∗ ⟨exists l, p = Ptr l⟩.
Proof.
  destruct v as [|x v]; cbn [rep_str]; [apply pts_ptr|]. iIntros "(%d & P & D)".
  iDestruct (pts_ptr with "P") as "[P $]". iExists d. iFrame.
Qed.

Lemma name_is_spec e rest l name s Φ : (0 < length name)%nat ->
  cell rest (entry_fields e) l ∗ (cell rest (entry_fields e) l -∗ Φ (name_is (le_obj_name e) name) s)
  ⊢ wp (h_name_is l name) s Φ.
Proof.
  intros LN. iIntros "[C K]". unfold h_name_is. iApply wp_bind.
  iApply (wp_cell_load rest (entry_fields e) l 0); [done|]. iFrame "C". iIntros (x) "R C".
  destruct (le_obj_name e) as [str|] eqn:Eo; cbn [rep_opt name_is].
  - iDestruct (str_ptr with "R") as "[R [%p ->]]".
    iAssert (rep_str str (Ptr p) -∗ cell rest (entry_fields e) l)%I with "[C]" as "C".
    { iSpecialize ("C" $! (rep_opt rep_str (le_obj_name e))). rewrite entry_same; [|done]. by rewrite Eo. }
    iApply wp_bind. iApply str_len. iFrame "R". iIntros "R".
    destruct (Z.of_nat (length str) =? Z.of_nat (length name)) eqn:EL; cbn [negb andb].
    + iApply (str_text str); [intros ->; apply Z.eqb_eq in EL; cbn in EL; lia|]. iFrame "R". iIntros (d) "R".
      iApply wp_ret. iApply "K". by iApply "C".
    + iApply wp_ret. iApply "K". by iApply "C".
  - iDestruct "R" as "->". iApply wp_ret. iApply "K". 
    iSpecialize ("C" $! (rep_opt rep_str (le_obj_name e))). rewrite entry_same; [|done]. rewrite Eo. by iApply "C".
Qed.

Lemma detect_spec e rest l s d s' Φ : detect_buggy_dzg_dvs74 e s = Ret (d, s') ->
  cell rest (entry_fields e) l ∗ (cell rest (entry_fields e) l -∗ Φ d s')
  ⊢ wp (h_detect_buggy_dzg_dvs74 l) s Φ.
Proof.
  intros E. unfold detect_buggy_dzg_dvs74 in E. unfold h_detect_buggy_dzg_dvs74. iIntros "[C K]".
  iApply wp_bind. iApply name_is_spec; [cbn; lia|]. iFrame "C". iIntros "C".
  destruct (name_is _ _); cbn [negb] in E |- *; [|injection E as <- <-; iApply wp_ret; by iApply "K"].
  iApply wp_bind. iApply (wp_cell_load rest (entry_fields e) l 5); [done|]. iFrame "C". iIntros (x) "R C".
  iSpecialize ("C" $! (rep_opt rep_value (SList.le_value e))).
  rewrite entry_same; [|done]. destruct (SList.le_value e) as [v|]; cbn [rep_opt].
  2:{ iDestruct "R" as "->". injection E as <- <-. iApply wp_ret. iApply "K". by iApply "C". }
  iDestruct "R" as (dp) "[P D]". iDestruct (pts_ptr with "P") as "[P [%p ->]]".
  iApply wp_bind. hload_int "P". destruct (v_type v =? SML_TYPE_OCTET_STRING) eqn:T; cbn [negb] in E |- *.
  2:{ injection E as <- <-. iApply wp_ret. iApply "K". iApply "C". iExists dp. iFrame. }
  apply bind_inv in E as (o & s1 & E1 & E). iApply wp_bind. hload "P".
  destruct (v_data v) as [|val|b|m] eqn:EV; try discriminate; injection E1 as <- <-; [discriminate|].
  cbn [rep_vdata]. rewrite T. iApply wp_bind. iApply str_len. iFrame "D". iIntros "D".
  destruct (Z.of_nat (length val) =? DZG_SERIAL_LENGTH) eqn:EL; cbn [negb] in E |- *.
  2:{ injection E as <- <-. iApply wp_ret. iApply "K". iApply "C". iExists dp. rewrite EV. cbn [rep_vdata]. rewrite T. iFrame. }
  iApply (str_text val). { intros ->. discriminate. } iFrame "D". iIntros (d0) "D".
  destruct (memcmp _ _ =? 0); cbn [negb] in E |- *; injection E as <- <-; iApply wp_ret; iApply "K"; iApply "C";
    iExists dp; rewrite EV; cbn [rep_vdata]; rewrite T; iFrame.
Qed.

Lemma force_unsigned_type t :
  Z.land (Z.lor (Z.ldiff t SML_TYPE_FIELD) SML_TYPE_UNSIGNED) SML_TYPE_FIELD <> SML_TYPE_OCTET_STRING.
Proof.
  intros E. apply (f_equal (fun x => Z.testbit x 6)) in E. revert E.
  rewrite Z.land_spec Z.lor_spec. change (Z.testbit SML_TYPE_UNSIGNED 6) with true. rewrite orb_true_r. discriminate.
Qed.
Lemma force_nonzero t : Z.lor (Z.ldiff t SML_TYPE_FIELD) SML_TYPE_UNSIGNED =? SML_TYPE_OCTET_STRING = false.
Proof.
  apply Z.eqb_neq. intros E. apply (f_equal (fun x => Z.testbit x 6)) in E. revert E.
  rewrite Z.lor_spec. change (Z.testbit SML_TYPE_UNSIGNED 6) with true. rewrite orb_true_r. discriminate.
Qed.

Lemma reads_detect e : Reads (detect_buggy_dzg_dvs74 e).
Proof.
  unfold detect_buggy_dzg_dvs74. apply reads_if; [apply _|]. apply reads_option; [|apply _]. intros v.
  apply reads_if; [apply _|]. apply reads_bind.
  - destruct (v_data v); apply _.
  - intros d. apply reads_option; [|apply _]. intros val. apply reads_if; [apply _|]. apply reads_if; apply _.
Qed.
Lemma workaround_spec w vlm e rest l s e' w' s' :
  apply_workaround w vlm e s = Ret (e', w', s') ->
  (vlm = 1 \/ vlm = 2 \/ vlm = 3 -> forall v str, SList.le_value e = Some v -> v_data v = VBytes str ->
     (length str <= 2)%nat) ->
  (w = true -> mentions_dzg (buffer s)) ->
  cell rest (entry_fields e) l
  ⊢ wp (h_apply_workaround w vlm l) s (fun w2 s2 => ⟨s2 = s' /\ w2 = w'⟩ ∗ cell rest (entry_fields e') l).
Proof.
  intros E HL HW. unfold apply_workaround in E. apply bind_inv in E as (d & s1 & E1 & E). unfold h_apply_workaround.
  iIntros "C". iApply wp_bind. iApply detect_spec; [exact E1|]. iFrame "C". iIntros "C".
  destruct d. { injection E as <- <- <-. iApply wp_ret. by iFrame. }
  destruct w; cbn [negb andb] in E |- *.
  2:{ iApply wp_ret. destruct (SList.le_value e); injection E as <- <- <-; by iFrame. }
  iApply wp_bind. iApply name_is_spec; [cbn; lia|]. iFrame "C". iIntros "C".
  destruct (name_is _ _); cbn [negb andb] in E |- *.
  2:{ iApply wp_ret. destruct (SList.le_value e); injection E as <- <- <-; by iFrame. }
  iApply wp_bind. iApply (wp_cell_load rest (entry_fields e) l 5); [done|]. iFrame "C". iIntros (x) "R C".
  destruct (SList.le_value e) as [v|] eqn:Ev; cbn [rep_opt].
  2:{ iDestruct "R" as "->". injection E as <- <- <-. iApply wp_ret. iSplit; [done|].
      iSpecialize ("C" $! (rep_opt rep_value (SList.le_value e))). rewrite entry_same; [|done]. rewrite Ev. by iApply "C". }
  iDestruct "R" as (dp) "[P D]". iDestruct (pts_ptr with "P") as "[P [%p ->]]".
  destruct ((vlm =? 1) || (vlm =? 2) || (vlm =? 3)) eqn:EV.
  2:{ injection E as <- <- <-. iApply wp_ret. iSplit; [done|].
      iSpecialize ("C" $! (rep_opt rep_value (SList.le_value e))). rewrite entry_same; [|done]. rewrite Ev.
      iApply "C". iExists dp. iFrame. }
  injection E as <- <- <-.
  iApply wp_bind. hload_int "P". iApply wp_bind. iApply wp_store; last (iFrame "P"; iIntros "P"); [by eauto|].
  iApply wp_bind. hload_int "P". iApply wp_bind. iApply wp_store; last (iFrame "P"; iIntros "P"); [by eauto|].
  cbn [list_insert insert].
  iSpecialize ("C" $! (rep_opt rep_value (Some (force_unsigned v)))).
  iApply wp_bind. unfold count_confusion. destruct (v_type v =? SML_TYPE_OCTET_STRING) eqn:T.
  - iApply wp_bind. hload "P". destruct (v_data v) as [|str|b|m] eqn:ED; cbn [rep_vdata].
    + iDestruct "D" as "->". iApply wp_ret. iApply wp_ret. iSplit; [done|]. iApply "C".
      iExists Nul. rewrite /= ED. by iFrame.
    + rewrite T. destruct str as [|c str].
      * cbn [rep_str]. iDestruct (pts_ptr with "D") as "[D [%q ->]]". iApply wp_bind. hload "D".
        iApply wp_ret. iApply wp_ret. iSplit; [done|]. iApply "C".
        iExists (Ptr q). rewrite /= ED /= force_nonzero. iFrame "P". iSplit; [iPureIntro; apply force_unsigned_type|by iExists Nul].
      * iDestruct "D" as (dt) "[D B]". iDestruct (pts_ptr with "D") as "[D [%q ->]]". iApply wp_bind. hload "D".
        iDestruct (pts_ptr with "B") as "[B [%r ->]]".
        iApply wp_abandon; last (iFrame "B"); [rewrite (reads_detect _ _ _ _ E1); by apply HW| |].
        { split; [cbn; lia|]. refine (HL _ v (c :: str) eq_refl ED).
          apply orb_true_iff in EV as [EV|EV]; [apply orb_true_iff in EV as [EV|EV]|]; apply Z.eqb_eq in EV; auto. }
        iApply wp_ret. iSplit; [done|]. iApply "C".
        iExists (Ptr q). rewrite /= ED /= force_nonzero. iFrame "P". iSplit; [iPureIntro; apply force_unsigned_type|by iExists (Ptr r)].
    + iDestruct "D" as "[%N D]". apply Z.eqb_eq in T. done.
    + iDestruct "D" as "[%N D]". apply Z.eqb_eq in T. done.
  - iApply wp_ret. iApply wp_ret. iSplit; [done|]. iApply "C". iExists dp. cbn [v_type v_data force_unsigned].
    iFrame "P". assert (HN := force_nonzero (v_type v)).
    destruct (v_data v) as [|str|b|m] eqn:ED; cbn [rep_vdata]; [done| | |].
    + rewrite T HN. iDestruct "D" as "[_ D]". iFrame "D". iPureIntro. apply force_unsigned_type.
    + iDestruct "D" as "[_ D]". iFrame "D". iPureIntro. by apply Z.eqb_neq.
    + iDestruct "D" as "[_ D]". iFrame "D". iPureIntro. by apply Z.eqb_neq.
Qed.

Definition PostEntry (w : bool) (o : option (list_entry * bool)) (s1 : sbuf) (r : slot * bool) (s2 : sbuf) : hprop :=
  match o with
  | None => ⟨s2 = set_err s1 /\ r = (Nul, w)⟩%I
  | Some (e, w1) => (⟨s2 = s1 /\ snd r = w1⟩ ∗ cell [Nul] (entry_fields e) (fst r))%I
  end.

Lemma error_label_inv {A} (m : Buf.P (option A)) s o s' : error_label m s = Ret (o, s') ->
  exists s1, m s = Ret (o, s1) /\ s' = match o with None => set_err s1 | Some _ => s1 end.
Proof.
  intros E. apply bind_inv in E as (o' & s1 & E1 & E). exists s1. destruct o'; injection E as <- <-; done.
Qed.

Lemma workaround_watch w vlm e s e' w' s' bytes : apply_workaround w vlm e s = Ret (e', w', s') ->
  (w = true -> mentions_dzg bytes) ->
  (forall v str, SList.le_value e = Some v -> v_data v = VBytes str -> exists b a, bytes = b ++ str ++ a) ->
  w' = true -> mentions_dzg bytes.
Proof.
  unfold apply_workaround. intros E HW HV Ew. apply bind_inv in E as (d & s1 & E1 & E). destruct d.
  - apply detect_text in E1 as (v & serial & E1 & E2). destruct (HV v _ E1 E2) as (b & a & ->).
    exists b, (serial ++ a). by rewrite -app_assoc.
  - destruct (SList.le_value e) as [v|]; [|injection E as _ <- _; auto].
    destruct (_ && _); injection E as _ <- _; auto.
Qed.

Lemma entry_watch w s e w' s' : sml_list_entry_parse w s = Ret (Some (e, w'), s') ->
  (w = true -> mentions_dzg (buffer s)) -> (w' = true -> mentions_dzg (buffer s)).
Proof.
  intros E HW. apply error_label_inv in E as (s1 & E & _). unfold expect_list, field, err_null in E.
  apply bind_inv in E as (t & s2 & E2 & E). apply reads_next_type in E2. destruct (negb _); [repeat pinv|].
  apply bind_inv in E as (n & s3 & E3 & E). apply reads_next_length in E3. destruct (negb _); [repeat pinv|].
  apply bind_inv in E as (v1 & s4 & E4 & E). apply reads_str in E4.
  apply bind_inv in E as (e1 & s5 & E5 & E). injection E5 as _ <-. destruct e1; [done|].
  apply bind_inv in E as (v2 & s6 & E6 & E). apply reads_status in E6.
  apply bind_inv in E as (e2 & s7 & E7 & E). injection E7 as _ <-. destruct e2; [done|].
  apply bind_inv in E as (v3 & s8 & E8 & E). apply reads_time in E8.
  apply bind_inv in E as (e3 & s9 & E9 & E). injection E9 as _ <-. destruct e3; [done|].
  apply bind_inv in E as (v4 & s10 & E10 & E). apply reads_num in E10.
  apply bind_inv in E as (e4 & s11 & E11 & E). injection E11 as _ <-. destruct e4; [done|].
  apply bind_inv in E as (v5 & s12 & E12 & E). apply reads_num in E12.
  apply bind_inv in E as (e5 & s13 & E13 & E). injection E13 as _ <-. destruct e5; [done|].
  apply bind_inv in E as (e6 & s14 & E14 & E). injection E14 as _ <-. destruct e6; [done|].
  apply bind_inv in E as (b & s15 & E15 & E). apply reads_byte in E15. cbv zeta in E.
  apply bind_inv in E as (v & s16 & E16 & E).
  apply bind_inv in E as (e7 & s17 & E17 & E). injection E17 as _ <-. destruct e7; [done|].
  apply bind_inv in E as (sg & s18 & E18 & E).
  apply bind_inv in E as (e8 & s19 & E19 & E). injection E19 as _ <-. destruct e8; [done|].
  apply bind_inv in E as ([e9 w9] & s20 & E20 & E). injection E as <- <- _.
  apply (workaround_watch _ _ _ _ _ _ _ (buffer s) E20 HW). cbn [SList.le_value]. intros v' str -> ED.
  destruct (value_infix _ _ _ _ E16 ED) as (x & y & EB). exists x, y. congruence.
Qed.

Lemma reads_workaround w vlm e : Reads (apply_workaround w vlm e).
Proof.
  unfold apply_workaround. apply reads_bind; [apply reads_detect|]. intros d. apply reads_if; [apply _|].
  apply reads_option; [|apply _]. intros v. apply reads_if; apply _.
Qed.
Lemma reads_entry w : Reads (sml_list_entry_parse w).
Proof.
  unfold sml_list_entry_parse. cbv zeta.
  pose proof reads_str. pose proof reads_status. pose proof reads_time. pose proof reads_value. pose proof reads_workaround.
  assert (N : forall t m, Reads (sml_number_parse t m)) by apply reads_num. unfold sml_u8_parse, sml_i8_parse. reads.
Qed.
Lemma entry_spec w s : error s = false -> (w = true -> mentions_dzg (buffer s)) ->
  sim emp%I s (sml_list_entry_parse w) (h_list_entry_parse w)
    (fun o s1 r s2 => match o with
       | None => ⟨s2 = s1 /\ r = (Nul, w)⟩
       | Some (e, w1) => ⟨s2 = s1 /\ snd r = w1⟩ ∗ cell [Nul] (entry_fields e) (fst r)
       end)%I.
Proof.
  intros Es HW. cut (forall m, sim emp%I s m (h_list_entry_parse w) (PostEntry w) ->
    sim emp%I s (error_label m) (h_list_entry_parse w)
    (fun o s1 r s2 => match o with
       | None => ⟨s2 = s1 /\ r = (Nul, w)⟩
       | Some (e, w1) => ⟨s2 = s1 /\ snd r = w1⟩ ∗ cell [Nul] (entry_fields e) (fst r)
       end)%I).
  2:{ intros m HM o s' E. apply error_label_inv in E as (s1 & E & ->). etrans; [apply (HM o s1 E)|].
      iIntros "W". iApply wp_wand. iFrame "W". iIntros (r s2) "Q". destruct o as [[e w1]|]; iExact "Q". }
  intros HC. apply HC. clear HC. set (fs := [h_octet_string_free; h_status_free; h_time_free; h_number_free;
    h_number_free; h_value_free; h_octet_string_free]).
  apply sim_expect_buf; try done.
  { intros s1. iIntros "_". iApply wp_bind. iApply wp_lift; [reflexivity|]. by iApply wp_ret. }
  intros s1 Es1 EB. apply sim_malloc. intros p.
  apply (sim_weaken _ (cell [Nul] (repeat rep_nul 7) p)).
  { iIntros "[_ P]". iExists (repeat Nul 7). iFrame "P". iApply (nul_fields 7). }
  cbv zeta. set (err := lift set_error ;;; if_ptr p (h_list_free p) ;;; ret (Nul, w)).
  assert (HE : forall Rs s1, Forall2 frees fs Rs -> cell [Nul] Rs p ⊢ wp err s1 (PostEntry w None s1)).
  { intros Rs s2 HF. iIntros "C". unfold err. iApply wp_bind. iApply wp_lift; [reflexivity|].
    iDestruct (cell_ptr with "C") as "[C (%l & ->)]". cbn [if_ptr]. iApply wp_bind.
    iApply (list_free_spec Rs HF []). iSplitL; [iExists Nul; by iFrame|]. by iApply wp_ret. }
  assert (F0 : Forall2 frees fs (repeat rep_nul 7)).
  { repeat constructor; first [apply (f_str None)|apply (f_status None)|apply (f_time None)|apply (f_num None)|apply (f_value None)]. }
  fld ltac:(apply refines_weak, r_str) ltac:(apply f_str) obj_name.
  fld ltac:(apply refines_weak, r_status) ltac:(apply f_status) status.
  fld ltac:(apply r_time) ltac:(apply f_time) val_time.
  fld ltac:(apply refines_weak, r_num) ltac:(apply f_num) un.
  fld ltac:(apply refines_weak, r_num) ltac:(apply f_num) scaler.
  apply sim_lift; [apply _|]. intros e sx [= <- <-]. apply sim_if; intros Ee.
  { intros o s' [= <- <-]. by apply HE. }
  apply sim_lift; [apply _|]. intros b sx Eb. match type of Eb with _ ?s0 = _ =>
    assert (sx = s0 /\ nth_error (buffer s0) (cursor s0) = Some b) as [-> Eb1];
    [unfold sml_buf_get_current_byte in Eb; destruct (nth_error _ _); [|discriminate]; by injection Eb as -> <-|] end.
  cbv zeta.
  fld ltac:(apply refines_weak, r_value) ltac:(apply f_value) vl.
  fld ltac:(apply refines_weak, r_str) ltac:(apply f_str) sg.
  intros o s' EE. apply bind_inv in EE as ([e' w'] & sy & Ey & EE). injection EE as <- <-.
  etrans; [|apply wp_bind]. iIntros "C". iApply wp_wand. iSplitL "C".
  - iApply (workaround_spec _ _ _ [Nul] p _ _ _ _ Ey); [| |iExact "C"].
    + cbn [SList.le_value]. intros Hb v str -> ED. eapply value_short; eauto.
    + intros Hw. specialize (HW Hw).
      repeat match goal with
      | H : sml_octet_string_parse _ = _ |- _ => apply reads_str in H
      | H : sml_status_parse _ = _ |- _ => apply reads_status in H
      | H : sml_time_parse _ = _ |- _ => apply reads_time in H
      | H : sml_value_parse _ = _ |- _ => apply reads_value in H
      | H : sml_u8_parse _ = _ |- _ => apply reads_num in H
      | H : sml_i8_parse _ = _ |- _ => apply reads_num in H
      end. congruence.
  - iIntros (w2 sz) "[%Eq C]". destruct Eq as [-> ->]. iApply wp_ret. by iFrame.
Qed.

(** The list built so far: empty, or its last entry is [last]. *)
Definition lseg (acc : sml_list) (head last : slot) : hprop :=
  (⟨acc = [] /\ head = Nul /\ last = Nul⟩ ∨
   ∃ init e, ⟨acc = init ++ [e]⟩ ∗ rep_seg init head last ∗ cell [Nul] (entry_fields e) last)%I.

Lemma rep_seg_app l1 : forall l2 p r, (∃ q, rep_seg l1 p q ∗ rep_seg l2 q r) ⊢ rep_seg (l1 ++ l2) p r.
Proof.
  induction l1 as [|e l1 IH]; intros l2 p r; cbn [rep_seg app].
  - iIntros "(%q & -> & S)". iFrame.
  - iIntros "(%q & (%n & C & S1) & S2)". iExists n. iFrame "C". iApply IH. iExists q. iFrame.
Qed.
Lemma lseg_list acc head last : lseg acc head last ⊢ rep_list acc head.
Proof.
  iIntros "[%E|(%init & %e & -> & S & C)]".
  - destruct E as (-> & -> & ->). done.
  - iApply rep_seg_app. iExists last. iFrame "S". cbn [rep_seg]. iExists Nul. by iFrame.
Qed.
Lemma wp_cell_store_rest rest Rs p j x s Φ : is_Some (rest !! j) ->
  cell rest Rs p ∗ (cell (<[j := x]> rest) Rs p -∗ Φ tt s) ⊢ wp (store p (length Rs + j) x) s Φ.
Proof.
  intros E. iIntros "[(%ss & P & F) K]". iDestruct (fields_length with "F") as %L.
  iApply wp_store; last (iFrame "P"; iIntros "P").
  - rewrite lookup_app_r; [|lia]. by replace (length Rs + j - length ss)%nat with j by lia.
  - iApply "K". iExists ss. iFrame "F". rewrite insert_app_r_alt; [|lia].
    by replace (length Rs + j - length ss)%nat with j by lia.
Qed.
Lemma lseg_add acc head last e x s Φ :
  lseg acc head last ∗ cell [Nul] (entry_fields e) x ∗ (∀ head', lseg (acc ++ [e]) head' x -∗ Φ head' s)
  ⊢ wp (match last with Nul => ret x | _ => store last 7 x ;;; ret head end) s Φ.
Proof.
  iIntros "([%E|(%init & %e0 & -> & S & C0)] & C & K)".
  - destruct E as (-> & -> & ->). iApply wp_ret. iApply "K". iRight. iExists [], e. iFrame "C". by iSplit.
  - iDestruct (cell_ptr with "C0") as "[C0 (%l & ->)]". iApply wp_bind.
    iApply (wp_cell_store_rest [Nul] (entry_fields e0) (Ptr l) 0 x); [by eauto|]. iFrame "C0". iIntros "C0".
    iApply wp_ret. iApply "K". iRight. iExists (init ++ [e0]), e. iSplit; [done|]. iFrame "C".
    iApply rep_seg_app. iExists (Ptr l). iFrame "S". cbn [rep_seg]. iExists x. iFrame "C0". done.
Qed.
Lemma lseg_nul acc head last s Φ :
  lseg acc head last ∗ (lseg acc head last -∗ Φ head s)
  ⊢ wp (match last with Nul => ret Nul | _ => store last 7 Nul ;;; ret head end) s Φ.
Proof.
  iIntros "([%E|(%init & %e0 & -> & S & C0)] & K)".
  - destruct E as (-> & -> & ->). iApply wp_ret. iApply "K". by iLeft.
  - iDestruct (cell_ptr with "C0") as "[C0 (%l & ->)]". iApply wp_bind.
    iApply (wp_cell_store_rest [Nul] (entry_fields e0) (Ptr l) 0 Nul); [by eauto|]. iFrame "C0". iIntros "C0".
    iApply wp_ret. iApply "K". iRight. iExists init, e0. by iFrame.
Qed.

Lemma list_loop_spec : forall fuel n w acc head last s, (0 < n -> error s = false) ->
  (w = true -> mentions_dzg (buffer s)) ->
  sim (lseg acc head last) s (list_loop fuel n w) (h_list_loop fuel n w head last)
    (fun o s1 x s2 => match o with
                      | Some t => ⟨s2 = s1⟩ ∗ rep_list (acc ++ t) x
                      | None => ⟨s2 = set_err s1 /\ x = Nul⟩
                      end)%I.
Proof.
  induction fuel as [|fuel IH]; intros n w acc head last s Es HW; cbn [list_loop h_list_loop].
  { destruct (n <=? 0); [|by intros ? ?]. apply sim_ret. rewrite app_nil_r. iIntros "R". iSplit; [done|]. by iApply lseg_list. }
  destruct (n <=? 0) eqn:En. { apply sim_ret. rewrite app_nil_r. iIntros "R". iSplit; [done|]. by iApply lseg_list. }
  apply Z.leb_gt in En. specialize (Es En).
  intros o s' E. apply bind_inv in E as (r & s1 & E1 & E). apply bind_inv in E as (e & s2 & E2 & E).
  injection E2 as <- <-. iIntros "L". iApply wp_bind. iApply wp_wand. iSplitR; [by iApply (entry_spec w s Es HW r s1 E1)|].
  iIntros ([x w1] s2) "Q". cbn [fst snd]. destruct r as [[en w2]|].
  - iDestruct "Q" as "[%Eq C]". destruct Eq as [-> ->]. iApply wp_bind. iApply lseg_add. iFrame "L C".
    iIntros (head') "L". iApply wp_bind. iApply wp_lift; [reflexivity|]. destruct (error s1) eqn:Ee.
    + injection E as <- <-. iApply wp_bind. iApply wp_lift; [reflexivity|]. iApply wp_bind.
      iApply f_list. iSplitL "L"; [by iApply lseg_list|]. by iApply wp_ret.
    + apply bind_inv in E as (t & s3 & E3 & E). injection E as <- <-.
      assert (HW2 : w2 = true -> mentions_dzg (buffer s1)).
      { rewrite (reads_entry w s _ s1 E1). by apply (entry_watch w s en w2 s1 E1). }
      iDestruct "L" as "[%F|(%init & %e0 & %Eq & S & C0)]".
      { destruct F as [F _]. by destruct acc. }
      iApply wp_bind. iApply (cell_load_rest [Nul] (entry_fields e0) x 0 Nul); [done|]. iFrame "C0". iIntros "C0".
      iApply wp_wand. iSplitL.
      * iApply (IH (n - 1) w2 (acc ++ [en]) head' x s1 (fun _ => Ee) HW2 t s3 E3). iRight. iExists init, e0. by iFrame.
      * iIntros (y s4) "Q". destruct t as [t|]; [|done]. by rewrite -app_assoc.
  - iDestruct "Q" as %Eq. destruct Eq as [-> [= -> ->]]. destruct (error s1) eqn:Ee; [|discriminate].
    injection E as <- <-. iApply wp_bind. iApply lseg_nul. iFrame "L". iIntros "L".
    iApply wp_bind. iApply wp_lift; [reflexivity|]. rewrite Ee.
    iApply wp_bind. iApply wp_lift; [reflexivity|]. iApply wp_bind.
    iApply f_list. iSplitL "L"; [by iApply lseg_list|]. by iApply wp_ret.
Qed.

Lemma r_list : refines_ok h_list_parse sml_list_parse rep_list.
Proof.
  intros s Es. apply sim_lift; [apply _|]. intros sk s1 E1. apply sim_if; intros Esk.
  { apply sim_ret. iIntros "_". by iSplit. }
  apply negb_false_iff, Z.eqb_eq in Esk. subst sk. apply skipped_0 in E1. subst s1.
  apply sim_lift; [apply _|]. intros t s1 E1. apply sim_if; intros Et.
  { apply sim_lift; [apply _|]. intros [] s2 [= <-]. apply sim_ret. iIntros "_". by iSplit. }
  apply negb_false_iff, Z.eqb_eq in Et. subst t. apply next_type_same in E1; [|done]. subst s1.
  apply sim_lift; [apply _|]. intros n s1 E1. intros l s' E. apply bind_inv in E as (r & s2 & E2 & E).
  assert (E0 : 0 < n -> error s1 = false). { intros L. apply next_length_error in E1; [congruence|lia]. }
  etrans; [|apply wp_hwith_fuel].
  assert (HS := list_loop_spec (fuel_of s1) n false [] Nul Nul s1 E0 (fun F => False_ind _ (diff_false_true F)) r s2 E2).
  iIntros "_". iApply wp_wand. iSplitL.
  - iApply HS. iLeft. done.
  - iIntros (x s3) "Q". destruct r as [t|].
    + injection E as <- <-. iDestruct "Q" as "[-> Q]". by iFrame.
    + apply bind_inv in E as ([] & s4 & E4 & E). injection E as <- <-. injection E4 as <-.
      iDestruct "Q" as %Eq. destruct Eq as [-> ->]. by iSplit.
Qed.
End WithHost.
