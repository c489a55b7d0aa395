(** The parsers of message bodies, messages and files with pointers. *)
From stdpp Require Import gmap.
From iris.proofmode Require Import tactics.
From Verif Require Import Base Buf Crc16 Number OctetString Boolean Value Time SList Tree Bodies Message File
  HeapBase HeapModel HeapLogic HeapRep HeapFree HeapSim HeapParse HeapParse2 HeapParse3.

Section WithHost.
Context {HO : Host} {AL : Allocator}.
Local Existing Instance dzg_watch.

Lemma r_open_req : refines_ok h_open_request_parse sml_open_request_parse (rep_opt rep_open_req).
Proof. intros s Es. unfold h_open_request_parse, sml_open_request_parse. record 7%nat. Qed.
Lemma r_open_res : refines_ok h_open_response_parse sml_open_response_parse (rep_opt rep_open_res).
Proof. intros s Es. unfold h_open_response_parse, sml_open_response_parse. record 6%nat. Qed.
Lemma r_close_req : refines_ok h_close_request_parse sml_close_request_parse (rep_opt rep_close_req).
Proof. intros s Es. unfold h_close_request_parse, sml_close_request_parse. record 1%nat. Qed.
Lemma r_close_res : refines_ok h_close_response_parse sml_close_response_parse (rep_opt rep_close_res).
Proof. intros s Es. unfold h_close_response_parse, sml_close_response_parse. record 1%nat. Qed.
Lemma r_header : refines_ok h_prof_obj_header_entry_parse sml_prof_obj_header_entry_parse (rep_opt rep_header).
Proof. intros s Es. unfold h_prof_obj_header_entry_parse, sml_prof_obj_header_entry_parse. record 3%nat. Qed.
Lemma r_value_entry : refines_ok h_value_entry_parse sml_value_entry_parse (rep_opt rep_value_entry).
Proof. intros s Es. unfold h_value_entry_parse, sml_value_entry_parse. record 2%nat. Qed.
Lemma r_per_entry : refines_ok h_prof_obj_period_entry_parse sml_prof_obj_period_entry_parse (rep_opt rep_per_entry).
Proof.
  intros s Es. unfold h_prof_obj_period_entry_parse, sml_prof_obj_period_entry_parse.
  assert (RS := r_seq _ _ _ _ r_value_entry f_value_entry clean_value_entry). record 4%nat.
Qed.
Lemma r_pack_res : refines_ok h_get_profile_pack_response_parse sml_get_profile_pack_response_parse (rep_opt rep_pack_res).
Proof.
  intros s Es. unfold h_get_profile_pack_response_parse, sml_get_profile_pack_response_parse.
  assert (RP := r_path).
  assert (RS := r_seq _ _ _ _ r_header f_header clean_header).
  assert (RS2 := r_seq _ _ _ _ r_per_entry f_per_entry clean_per_entry). record 8%nat.
Qed.
Lemma r_prof_list_res : refines_ok h_get_profile_list_response_parse sml_get_profile_list_response_parse (rep_opt rep_prof_list_res).
Proof.
  intros s Es. unfold h_get_profile_list_response_parse, sml_get_profile_list_response_parse.
  assert (RP := r_path). assert (RS := r_seq _ _ _ _ r_period f_period clean_period). record 9%nat.
Qed.
Lemma r_proc_req : refines_ok h_get_proc_parameter_request_parse sml_get_proc_parameter_request_parse (rep_opt rep_proc_req).
Proof.
  intros s Es. unfold h_get_proc_parameter_request_parse, sml_get_proc_parameter_request_parse.
  assert (RP := r_path). record 5%nat.
Qed.
Lemma r_proc_res : refines_ok h_get_proc_parameter_response_parse sml_get_proc_parameter_response_parse (rep_opt rep_proc_res).
Proof.
  intros s Es. unfold h_get_proc_parameter_response_parse, sml_get_proc_parameter_response_parse.
  assert (RP := r_path). assert (RT := r_tree). record 3%nat.
Qed.
Lemma r_set_proc : refines_ok h_set_proc_parameter_request_parse sml_set_proc_parameter_request_parse (rep_opt rep_set_proc).
Proof.
  intros s Es. unfold h_set_proc_parameter_request_parse, sml_set_proc_parameter_request_parse.
  assert (RP := r_path). assert (RT := r_tree). record 5%nat.
Qed.
Lemma r_list_req : refines_ok h_get_list_request_parse sml_get_list_request_parse (rep_opt rep_list_req).
Proof. intros s Es. unfold h_get_list_request_parse, sml_get_list_request_parse. record 5%nat. Qed.
Lemma r_list_res : refines_ok h_get_list_response_parse sml_get_list_response_parse (rep_opt rep_list_res).
Proof. intros s Es. unfold h_get_list_response_parse, sml_get_list_response_parse. record 7%nat. Qed.
Lemma r_attention : refines_ok h_attention_response_parse sml_attention_response_parse (rep_opt rep_attention).
Proof.
  intros s Es. unfold h_attention_response_parse, sml_attention_response_parse. assert (RT := r_tree). record 4%nat.
Qed.

(** *** The object list of a profile request *)
Lemma cell_acc rest Rs p i R : Rs !! i = Some R ->
  cell rest Rs p ⊢ ∃ x, R x ∗ (∀ R' : slot -> hprop, R' x -∗ cell rest (<[i := R']> Rs) p).
Proof.
  intros ER. iIntros "(%ss & P & F)". iDestruct (fields_length with "F") as %L.
  destruct (lookup_lt_is_Some_2 ss i) as [x Ex]. { rewrite -L. by eapply lookup_lt_Some. }
  unfold fields. iDestruct (big_sepL2_insert_acc with "F") as "[R F]"; [exact ER|exact Ex|].
  iExists x. iFrame "R". iIntros (R') "R". iExists ss. iFrame "P".
  iSpecialize ("F" $! R' x with "R"). by rewrite (list_insert_id ss i x Ex).
Qed.

Definition oseg (acc : list (option octet_string)) (last head : slot) : hprop :=
  (⟨acc = [] /\ head = Nul⟩ ∨
   ∃ init e, ⟨acc = init ++ [e]⟩ ∗ rep_objs init head last ∗ cell [Nul] [rep_opt rep_str e] last)%I.
Lemma rep_objs_app l1 : forall l2 p r, (∃ q, rep_objs l1 p q ∗ rep_objs l2 q r) ⊢ rep_objs (l1 ++ l2) p r.
Proof.
  induction l1 as [|e l1 IH]; intros l2 p r; cbn [rep_objs app].
  - iIntros "(%q & -> & S)". iFrame.
  - iIntros "(%q & (%n & C & S1) & S2)". iExists n. iFrame "C". iApply IH. iExists q. iFrame.
Qed.
Lemma oseg_objs acc last head : oseg acc last head ⊢ rep_objs acc head Nul.
Proof.
  iIntros "[%E|(%init & %e & -> & S & C)]".
  - destruct E as (-> & ->). done.
  - iApply rep_objs_app. iExists last. iFrame "S". cbn [rep_objs]. iExists Nul. by iFrame.
Qed.
Lemma f_oseg acc last : frees h_object_list_free (oseg acc last).
Proof. intros p s Φ. iIntros "[S K]". iApply f_objs. iFrame "K". by iApply oseg_objs. Qed.

Lemma objs_loop_spec p Rs k s0 : length Rs = 9%nat ->
  (forall acc last, Forall2 frees [h_octet_string_free; h_octet_string_free; h_octet_string_free; h_boolean_free;
               h_time_free; h_time_free; h_tree_path_free; h_object_list_free; h_tree_free]
     (<[7%nat := oseg acc last]> Rs)) ->
  forall fuel n acc last s r Φ, elems_loop fuel n sml_octet_string_parse s = Ret (r, s0) ->
  match r with
  | None => ⊢ Φ Nul s0
  | Some l => cell [] (<[7%nat := fun x => rep_objs (acc ++ l) x Nul]> Rs) p ⊢ wp k s0 Φ
  end ->
  cell [] (<[7%nat := oseg acc last]> Rs) p ⊢ wp (h_object_list_loop fuel n p last k) s Φ.
Proof.
  intros LR HF. induction fuel as [|fuel IH]; intros n acc last s r Φ E HK; cbn [elems_loop h_object_list_loop] in *.
  all: assert (DONE : n <=? 0 = true -> forall s, ret (Some []) s = Ret (r, s0) ->
       cell [] (<[7%nat := oseg acc last]> Rs) p ⊢ wp k s Φ).
  1,3: intros _ s1 [= <- <-]; rewrite app_nil_r in HK; etrans; [|apply HK];
       iIntros "C"; iDestruct (cell_acc _ _ _ 7 with "C") as (x) "[R C]"; [apply list_lookup_insert; rewrite LR; lia|];
       iSpecialize ("C" $! (fun x => rep_objs acc x Nul)); rewrite list_insert_insert;
       iApply "C"; by iApply oseg_objs.
  { destruct (n <=? 0) eqn:En; [|done]. by apply DONE. }
  destruct (n <=? 0) eqn:En; [by apply DONE|]. clear DONE.
  apply bind_inv in E as (v & s1 & E1 & E). apply bind_inv in E as (e & s2 & E2 & E). injection E2 as <- <-.
  iIntros "C". iApply wp_bind. iApply wp_malloc. iIntros (q) "P". iApply wp_bind. iApply wp_wand.
  iSplitR; [by iApply (r_str s v s1 E1)|]. iIntros (x s2) "[-> R]".
  iApply wp_bind. iApply wp_store; last (iFrame "P"; iIntros "P"); [by eauto|]. cbn [list_insert insert].
  iApply wp_bind. iApply wp_lift; [reflexivity|]. destruct (error s1) eqn:Ee.
  - injection E as <- <-. iApply wp_bind.
    iAssert (∀ Φ, Φ tt s1 -∗ wp (if_ptr x (h_octet_string_free x)) s1 Φ)%I with "[R]" as "W".
    { iIntros (Φ') "K". destruct v as [v|].
      - iDestruct (str_ptr with "R") as "[R [%l ->]]". iApply f_str1. iFrame.
      - iDestruct "R" as "->". by iApply wp_ret. }
    iApply "W". iApply wp_bind. iApply wp_free. iFrame "P".
    iApply wp_bind. iApply (frees_cell []); [apply HF|]. iFrame "C". iApply wp_ret. by iApply HK.
  - apply bind_inv in E as (t & s3 & E3 & E). injection E as E <-.
    iApply wp_bind. iApply (wp_cell_load [] (<[7%nat:=oseg acc last]> Rs) p 7); [apply list_lookup_insert; rewrite LR; lia|].
    iFrame "C". iIntros (head) "O C".
    assert (HK' : match t with
      | None => ⊢ Φ Nul s3
      | Some l => cell [] (<[7%nat := fun x => rep_objs ((acc ++ [v]) ++ l) x Nul]> Rs) p ⊢ wp k s3 Φ
      end). { destruct t as [t|]; subst r; [|exact HK]. by rewrite -app_assoc. }
    specialize (IH (n - 1) (acc ++ [v]) q s1 t Φ E3 HK').
    iAssert (cell [Nul] [rep_opt rep_str v] q) with "[P R]" as "N".
    { iExists [x]. iFrame "P". rewrite fields_cons fields_nil. by iFrame. }
    iDestruct "O" as "[%Eq|(%init & %e0 & %Eq & S & C0)]".
    + destruct Eq as [-> ->]. iSpecialize ("C" $! rep_nul with "[]"); [done|]. rewrite list_insert_insert.
      iApply wp_bind. iApply (wp_cell_store [] (<[7%nat:=rep_nul]> Rs) 7 p (oseg [v] q)); [apply list_lookup_insert; rewrite LR; lia|].
      iFrame "C". iSplitL "N". { iRight. iExists [], v. iFrame "N". by iSplit. }
      iIntros "C". rewrite list_insert_insert. by iApply IH.
    + iAssert (⟨exists l, head = Ptr l⟩ ∗ rep_objs init head last ∗ cell [Nul] [rep_opt rep_str e0] last)%I
        with "[S C0]" as "([%l ->] & S & C0)".
      { destruct init as [|e1 init]; cbn [rep_objs].
        - iDestruct "S" as "->". iDestruct (cell_ptr with "C0") as "[C0 $]". by iFrame.
        - iDestruct "S" as (n1) "[C1 S]". iDestruct (cell_ptr with "C1") as "[C1 $]". iFrame "C0". iExists n1. iFrame. }
      iApply wp_bind. iDestruct (cell_ptr with "C0") as "[C0 (%l0 & ->)]".
      iApply (wp_cell_store_rest [Nul] [rep_opt rep_str e0] (Ptr l0) 0 q); [by eauto|]. iFrame "C0". iIntros "C0".
      iApply IH. iSpecialize ("C" $! (oseg (acc ++ [v]) q)). rewrite list_insert_insert. iApply "C".
      iRight. iExists acc, v. iSplit; [done|]. iFrame "N". subst acc.
      iApply rep_objs_app. iExists (Ptr l0). iFrame "S". cbn [rep_objs]. iExists q. by iFrame "C0".
Qed.

Lemma next_length_end s l s1 : sml_buf_get_next_length s = Ret (l, s1) ->
  error s1 = error s \/ (buffer_len s1 <=? cursor s1)%nat = true.
Proof.
  unfold sml_buf_get_next_length. intros E. apply bind_inv in E as (e & s2 & E2 & E). injection E2 as E2 <-. destruct e.
  { apply bind_inv in E as ([] & s3 & E3 & E). injection E as <- <-. injection E3 as <-. by right. }
  apply bind_inv in E as (b & s3 & E3 & E). assert (s3 = s) as ->.
  { unfold sml_buf_get_current_byte in E3. destruct (nth_error _ _); [by injection E3 as _ <-|discriminate]. }
  apply bind_inv in E as (ll & s4 & E4 & E). apply length_loop_error in E4.
  apply bind_inv in E as (e & s5 & E5 & E). injection E5 as E5 <-. destruct e.
  { apply bind_inv in E as ([] & s6 & E6 & E). injection E as <- <-. injection E6 as <-. by right. }
  apply bind_inv in E as ([] & s6 & E6 & E). injection E6 as <-. injection E as _ <-. by left.
Qed.
Lemma elems_none_end {A} (pp : Buf.P (option A)) : forall fuel n s r s1,
  elems_loop fuel n pp s = Ret (Some r, s1) -> error s1 = false \/ s1 = s.
Proof.
  induction fuel as [|fuel IH]; intros n s r s1; cbn [elems_loop]; destruct (n <=? 0).
  all: try (intros [= _ <-]; by right); try done.
  intros E. apply bind_inv in E as (v & s2 & E2 & E). apply bind_inv in E as (e & s3 & E3 & E). injection E3 as E3 <-.
  destruct e; [discriminate|]. apply bind_inv in E as (t & s4 & E4 & E). destruct t as [t|]; [|discriminate].
  injection E as _ <-. left. destruct (IH _ _ _ _ E4) as [H|H]; congruence.
Qed.

Lemma elems_noerr {A} (pp : Buf.P (option A)) : forall fuel n s r s1,
  elems_loop fuel n pp s = Ret (Some r, s1) ->
  error s = false \/ (buffer_len s <=? cursor s)%nat = true -> error s1 = false \/ (buffer_len s1 <=? cursor s1)%nat = true.
Proof. intros fuel n s r s1 E [H|H]; destruct (elems_none_end _ _ _ _ _ _ E) as [H1| ->]; auto. Qed.
Lemma skipped_end s k s1 : sml_buf_optional_is_skipped s = Ret (k, s1) -> k <> 0 ->
  error s1 = error s \/ (buffer_len s1 <=? cursor s1)%nat = true.
Proof.
  unfold sml_buf_optional_is_skipped. intros E N. apply bind_inv in E as (e & s2 & E2 & E). injection E2 as E2 <-. destruct e.
  { apply bind_inv in E as ([] & s3 & E3 & E). injection E as <- <-. injection E3 as <-. by right. }
  apply bind_inv in E as (b & s3 & E3 & E). assert (s3 = s) as ->.
  { unfold sml_buf_get_current_byte in E3. destruct (nth_error _ _); [by injection E3 as _ <-|discriminate]. }
  destruct (b =? SML_OPTIONAL_SKIPPED).
  - apply bind_inv in E as (e & s4 & E4 & E). injection E4 as E4 <-. destruct e.
    { apply bind_inv in E as ([] & s5 & E5 & E). injection E as <- <-. injection E5 as <-. by right. }
    apply bind_inv in E as ([] & s5 & E5 & E). injection E5 as <-. injection E as _ <-. by left.
  - injection E as <- <-. done.
Qed.

Lemma r_pack_req : refines_ok h_get_profile_pack_request_parse sml_get_profile_pack_request_parse (rep_opt rep_pack_req).
Proof.
  intros s Es. unfold h_get_profile_pack_request_parse, sml_get_profile_pack_request_parse.
  assert (RP := r_path). assert (RT := r_tree). record_start 9%nat.
  fld rparse rfree v0. fld rparse rfree v1. fld rparse rfree v2. fld rparse rfree v3. fld rparse rfree v4.
  fld rparse rfree v5. fld rparse rfree v6.
  match goal with F : Forall2 frees ?fs ?R0 |- sim (cell [] ?R0 p) ?s0 _ _ _ =>
    assert (FF : Forall2 frees fs R0) by exact F; assert (Es' : error s0 = false) by assumption; set (Rs := R0) in * end.
  clear - HE FF Es'. match goal with |- sim _ ?s0 _ _ _ => generalize dependent s0 end. intros s Es.
  set (err := on_error h_get_profile_pack_request_free p) in *.
  set (k := hfield p 8 h_tree_parse err (ret p)).
  assert (FO : forall R, frees h_object_list_free R -> Forall2 frees [h_octet_string_free; h_octet_string_free; h_octet_string_free; h_boolean_free;
               h_time_free; h_time_free; h_tree_path_free; h_object_list_free; h_tree_free] (<[7%nat := R]> Rs)).
  { intros R HR. apply (Forall2_insert _ _ _ h_object_list_free R 7%nat FF HR). }
  assert (HK : forall l s1, error s1 = false \/ (buffer_len s1 <=? cursor s1)%nat = true ->
     sim (cell [] (<[7%nat := fun x => rep_objs l x Nul]> Rs) p) s1
       (das_details <-? sml_tree_parse ;; ret (Some (mkPackReq v0 v1 v2 v3 v4 v5 v6 l das_details)))
       k (PostR (rep_opt rep_pack_req))).
  { intros l s1 Hs1.
    eapply (sim_field_gen _ [] _ p 8 h_tree_free h_tree_parse _ (rep_opt rep_tree));
      [apply FO, f_objs|exact HE| |reflexivity|reflexivity|intros; rfree|].
    - destruct Hs1 as [Hs1|Hs1]; [by apply r_tree|by apply r_tree_end].
    - intros v s2 E2 Es2 _. apply sim_ret. iIntros "C". iSplit; [done|]. iExact "C". }
  assert (RN : cell [] Rs p ⊢ cell [] (<[7%nat := fun x => rep_objs [] x Nul]> Rs) p).
  { iIntros "C". iDestruct (cell_acc _ _ _ 7 with "C") as (x) "[R C]"; [reflexivity|]. iApply "C". done. }
  intros b s' E. unfold object_list_parse in E. 
  apply bind_inv in E as (ol & s9 & E9 & E). apply bind_inv in E9 as (sk & s1 & E1 & E9).
  iIntros "C". iApply wp_bind. iApply wp_lift; [exact E1|]. destruct (negb (sk =? 0)) eqn:Ek.
  { injection E9 as <- <-. iApply (HK [] s1); [|exact E|by iApply RN].
    destruct (skipped_end s sk s1 E1) as [H|H]; [lia|left; congruence|by right]. }
  assert (sk = 0) as -> by (destruct (sk =? 0) eqn:?; [lia|done]).
  assert (s1 = s) as -> by (by eapply skipped_0).
  apply bind_inv in E9 as (t & s2 & E2 & E9). iApply wp_bind. iApply wp_lift; [exact E2|].
  destruct (negb (t =? SML_TYPE_LIST)) eqn:Et.
  { unfold err_null in E9. apply bind_inv in E9 as ([] & s3 & E3 & E9). injection E9 as <- <-. injection E as <- <-.
    iApply wp_bind. iApply wp_lift; [exact E3|]. by iApply HE. }
  apply bind_inv in E9 as (len & s3 & E3 & E9). iApply wp_bind. iApply wp_lift; [exact E3|].
  iApply wp_hwith_fuel. unfold with_fuel in E9.
  assert (H3 : error s3 = false \/ (buffer_len s3 <=? cursor s3)%nat = true).
  { assert (s2 = s) as ->.
    { apply (next_type_same s t s2 E2). intros ->. discriminate Et. }
    destruct (next_length_end _ _ _ E3) as [H|H]; [left; congruence|by right]. }
  iApply (objs_loop_spec p Rs k s9 eq_refl (fun acc last => FO _ (f_oseg acc last)) (fuel_of s3) len [] Nul s3 ol); [exact E9| |].
  - destruct ol as [l|]; cbn [app].
    + assert (H9 := elems_noerr _ _ _ _ _ _ E9 H3). exact (HK l s9 H9 b s' E).
    + injection E as <- <-. iSplit; done.
  - iDestruct (cell_acc _ _ _ 7 with "C") as (x) "[R C]"; [reflexivity|]. iApply ("C" $! (oseg [] Nul)).
    iDestruct "R" as "->". iLeft. done.
Qed.

End WithHost.
