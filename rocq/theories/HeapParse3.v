(** The parsers of tree paths, trees and message bodies with pointers. *)
From stdpp Require Import gmap.
From iris.proofmode Require Import tactics.
From Verif Require Import Base Buf Number OctetString Boolean Value Time SList Tree Bodies Message File
  HeapBase HeapModel HeapLogic HeapRep HeapFree HeapSim HeapParse HeapParse2.

(** *** A result comes without an error *)
Lemma number_some {HO : Host} t m s v s' : sml_number_parse t m s = Ret (Some v, s') -> error s' = error s.
Proof.
  unfold sml_number_parse, unless_skipped. intros E. apply bind_inv in E as (sk & s1 & E1 & E).
  destruct (sk =? 0) eqn:Esk; [|discriminate]. apply Z.eqb_eq in Esk. subst sk. apply skipped_0 in E1. subst s1.
  cbn [negb] in E. apply bind_inv in E as (e & s1 & E1 & E). destruct e; [discriminate|]. injection E1 as _ <-.
  apply bind_inv in E as (ty & s1 & E1 & E). destruct (negb (ty =? t)) eqn:Et; [discriminate|].
  assert (ES : ty <> 256 -> s1 = s) by (by eapply next_type_same).
  assert (E256 : error s1 = error s).
  { unfold sml_buf_get_next_type in E1. apply bind_inv in E1 as (e & s2 & E2 & E1). destruct e.
    - injection E2 as E2 <-. apply bind_inv in E1 as ([] & s3 & E3 & E1). injection E1 as <- <-. injection E3 as <-.
      exfalso. apply bind_inv in E as (l & s4 & E4 & E). unfold sml_buf_get_next_length in E4.
      apply bind_inv in E4 as (e & s5 & E5 & E4). injection E5 as <- <-.
      change (buffer_len (set_err s)) with (buffer_len s) in E4. change (cursor (set_err s)) with (cursor s) in E4.
      rewrite E2 in E4. apply bind_inv in E4 as ([] & s6 & E6 & E4). injection E4 as <- <-. discriminate.
    - injection E2 as _ <-. apply bind_inv in E1 as (b & s3 & E3 & E1). injection E1 as _ <-.
      unfold sml_buf_get_current_byte in E3. destruct (nth_error _ _); [by injection E3 as _ <-|discriminate]. }
  apply bind_inv in E as (l & s2 & E2 & E). destruct ((l <? 0) || (l >? m)) eqn:El; [discriminate|].
  apply next_length_error in E2; [|apply orb_false_iff in El as [El _]; apply Z.ltb_ge in El; lia].
  apply bind_inv in E as (sh & s3 & E3 & E). destruct sh; [discriminate|]. injection E3 as _ <-.
  apply bind_inv in E as (e & s3 & E3 & E). destruct e; [discriminate|]. injection E3 as _ <-.
  apply bind_inv in E as (b & s3 & E3 & E).
  assert (s3 = s2) as ->.
  { unfold sml_buf_get_current_byte in E3. destruct (nth_error _ _); [by injection E3 as _ <-|discriminate]. }
  apply bind_inv in E as (d & s4 & E4 & E). apply read_current_length in E4 as [_ ->].
  apply bind_inv in E as ([] & s5 & E5 & E). injection E as _ <-.
  unfold sml_buf_update_bytes_read in E5. destruct (l <? 0); [discriminate|]. injection E5 as <-.
  cbn [error set_cursor]. congruence.
Qed.
Lemma str_some s v s' : sml_octet_string_parse s = Ret (Some v, s') -> error s' = error s.
Proof.
  unfold sml_octet_string_parse, unless_skipped. intros E. apply bind_inv in E as (sk & s1 & E1 & E).
  destruct (sk =? 0) eqn:Esk; [|discriminate]. apply Z.eqb_eq in Esk. subst sk. apply skipped_0 in E1. subst s1.
  cbn [negb] in E. apply bind_inv in E as (ty & s1 & E1 & E).
  destruct (negb (ty =? SML_TYPE_OCTET_STRING)) eqn:Et; [discriminate|].
  apply negb_false_iff, Z.eqb_eq in Et. subst ty. apply next_type_same in E1; [|done]. subst s1.
  apply bind_inv in E as (l & s2 & E2 & E). apply bind_inv in E as (sh & s3 & E3 & E). destruct sh; [discriminate|].
  injection E3 as E3 <-. apply orb_false_iff in E3 as [E3 _]. apply Z.ltb_ge in E3.
  apply next_length_error in E2; [|lia].
  apply bind_inv in E as (d & s4 & E4 & E). apply read_current_length in E4 as [_ ->].
  apply bind_inv in E as ([] & s5 & E5 & E). injection E as _ <-.
  unfold sml_buf_update_bytes_read in E5. destruct (l <? 0); [discriminate|]. by injection E5 as <-.
Qed.
Definition clean_some {A} (m : Buf.P (option A)) : Prop :=
  forall s v s', m s = Ret (Some v, s') -> error s = false -> error s' = false.
Lemma clean_skipped {A} (m : Buf.P (option A)) : clean_some m -> clean_some (unless_skipped m).
Proof.
  intros HM s v s' E Es. apply bind_inv in E as (sk & s1 & E1 & E).
  destruct (sk =? 0) eqn:Esk; [|discriminate]. apply Z.eqb_eq in Esk. subst sk. apply skipped_0 in E1. subst s1.
  by eapply HM.
Qed.
Lemma clean_expect {A} n (m : Buf.P (option A)) : n <> -1 -> clean_some m -> clean_some (expect_list n m).
Proof.
  intros Hn HM s v s' E Es. apply bind_inv in E as (t & s1 & E1 & E). destruct (negb (t =? SML_TYPE_LIST)) eqn:Et; [discriminate|].
  apply negb_false_iff, Z.eqb_eq in Et. subst t. apply next_type_same in E1; [|done]. subst s1.
  apply bind_inv in E as (l & s1 & E1 & E). destruct (negb (l =? n)) eqn:El; [discriminate|].
  apply negb_false_iff, Z.eqb_eq in El. subst l. apply next_length_error in E1; [|done]. eapply HM; [done|congruence].
Qed.
Lemma clean_field {A B} (p : Buf.P A) (k : A -> Buf.P (option B)) : (forall a, clean_some (k a)) -> clean_some (field p k).
Proof.
  intros HM s v s' E Es. apply bind_inv in E as (a & s1 & E1 & E). apply bind_inv in E as (e & s2 & E2 & E).
  injection E2 as E2 <-. destruct e; [discriminate|]. by eapply HM.
Qed.
Lemma clean_ret {A} (o : option A) : clean_some (ret o).
Proof. intros s v s' [= -> <-]. done. Qed.
Lemma clean_label {A} (m : Buf.P (option A)) : clean_some m -> clean_some (error_label m).
Proof. intros HM s v s' E Es. apply error_label_inv in E as (s1 & E & ->). by eapply HM. Qed.
Ltac clean := repeat first [apply clean_skipped | apply clean_label | apply clean_expect; [discriminate|]
                           | apply clean_field; intros ? | apply clean_ret].

(** A parser that fills a struct member by member. *)
Ltac rparse := idtac; lazymatch goal with
  | |- refines_ok h_octet_string_parse _ _ => apply refines_weak, r_str
  | |- refines_ok h_boolean_parse _ _ => apply refines_weak, r_bool
  | |- refines_ok h_value_parse _ _ => apply refines_weak, r_value
  | |- refines_ok h_status_parse _ _ => apply refines_weak, r_status
  | |- refines_ok h_time_parse _ _ => apply r_time
  | |- refines_ok h_list_parse _ _ => apply r_list
  | |- refines_ok h_u8_parse _ _ => apply refines_weak, r_num
  | |- refines_ok h_u16_parse _ _ => apply refines_weak, r_num
  | |- refines_ok h_u32_parse _ _ => apply refines_weak, r_num
  | |- refines_ok h_u64_parse _ _ => apply refines_weak, r_num
  | |- refines_ok h_i8_parse _ _ => apply refines_weak, r_num
  | |- refines_ok h_i16_parse _ _ => apply refines_weak, r_num
  | |- refines_ok h_i64_parse _ _ => apply refines_weak, r_num
  | |- refines_ok ?h _ _ => eassumption
  end.
Ltac rfree := intros; lazymatch goal with
  | |- frees h_octet_string_free _ => first [apply f_str | apply (f_str None)]
  | |- frees h_boolean_free _ => first [apply f_bool | apply (f_bool None)]
  | |- frees h_value_free _ => first [apply f_value | apply (f_value None)]
  | |- frees h_status_free _ => first [apply f_status | apply (f_status None)]
  | |- frees h_time_free _ => first [apply f_time | apply (f_time None)]
  | |- frees h_number_free _ => first [apply f_num | apply (f_num None)]
  | |- frees h_list_free _ => first [apply f_list | apply (f_list [])]
  | |- frees h_tree_path_free _ => first [apply f_path | apply (f_path None)]
  | |- frees h_tree_free _ => first [apply f_tree | apply (f_tree None)]
  | |- frees h_proc_par_value_free _ => first [apply f_ppv | apply (f_ppv None)]
  | |- frees h_object_list_free _ => apply (f_objs [])
  | |- frees h_message_body_free _ => first [apply f_body | apply (f_body None)]
  | |- frees (h_sequence_free h_value_entry_free) _ =>
      first [apply f_seq, f_value_entry | apply (f_seq h_value_entry_free rep_value_entry f_value_entry None)]
  | |- frees (h_sequence_free h_prof_obj_header_entry_free) _ =>
      first [apply f_seq, f_header | apply (f_seq h_prof_obj_header_entry_free rep_header f_header None)]
  | |- frees (h_sequence_free h_prof_obj_period_entry_free) _ =>
      first [apply f_seq, f_per_entry | apply (f_seq h_prof_obj_period_entry_free rep_per_entry f_per_entry None)]
  | |- frees (h_sequence_free h_period_entry_free) _ =>
      first [apply f_seq, f_period | apply (f_seq h_period_entry_free rep_period f_period None)]
  end.
Ltac record_start n :=
  let s := fresh "s" in let Es := fresh "Es" in let p := fresh "p" in
  let HE := fresh "HE" in let F0 := fresh "F0" in let HF := fresh "HF" in let Rs := fresh "Rs" in let s1 := fresh "s1" in
  try apply sim_skipped; try apply sim_error_label;
  apply sim_malloc; intros p;
  apply (sim_weaken _ (cell [] (repeat rep_nul n) p)); [iIntros "[_ P]"; by iApply (nul_cell n)|];
  cbv zeta;
  lazymatch goal with
  | |- context [on_error ?f p] =>
      let g := lazymatch f with ?g _ => g | _ => f end in let f' := eval unfold g in f in
      lazymatch f' with free_struct ?fs =>
        lazymatch goal with |- sim _ _ _ _ ?Ψ =>
        assert (HE : forall Rs s1, Forall2 frees fs Rs -> cell [] Rs p ⊢ wp (on_error f p) s1 (Ψ None s1));
        [intros Rs s1 HF; eapply on_error_spec; [|exact HF]; intros; by apply frees_cell|];
        assert (F0 : Forall2 frees fs (repeat rep_nul n));
        [repeat apply List.Forall2_cons; first [apply List.Forall2_nil | rfree]|] end
      end
  | |- context [on_error_set ?f p] =>
      let g := lazymatch f with ?g _ => g | _ => f end in let f' := eval unfold g in f in
      lazymatch f' with free_struct ?fs =>
        lazymatch goal with |- sim _ _ _ _ ?Ψ =>
        assert (HE : forall Rs s1, Forall2 frees fs Rs -> cell [] Rs p ⊢ wp (on_error_set f p) s1 (Ψ None s1));
        [intros Rs s1 HF; eapply on_error_set_spec; [|exact HF]; intros; by apply frees_cell|];
        assert (F0 : Forall2 frees fs (repeat rep_nul n));
        [repeat apply List.Forall2_cons; first [apply List.Forall2_nil | rfree]|] end
      end
  end;
  apply sim_expect; [done|done|intros; by apply HE|]; intros s Es; cbn [repeat] in F0 |- *.
Ltac rfields := repeat (let v := fresh "v" in fld rparse rfree v).
Ltac record n := record_start n; rfields; apply sim_ret; iIntros "C"; (iSplit; [done|]); iExact "C".

Section WithHost.
Context {HO : Host} {AL : Allocator}.
Local Existing Instance dzg_watch.

Lemma clean_period : clean_some sml_period_entry_parse.
Proof. unfold sml_period_entry_parse. clean. Qed.
Lemma clean_header : clean_some sml_prof_obj_header_entry_parse.
Proof. unfold sml_prof_obj_header_entry_parse. clean. Qed.
Lemma clean_value_entry : clean_some sml_value_entry_parse.
Proof. unfold sml_value_entry_parse. clean. Qed.
Lemma clean_per_entry : clean_some sml_prof_obj_period_entry_parse.
Proof. unfold sml_prof_obj_period_entry_parse. clean. Qed.

(** *** Tree paths *)
Lemma somes_cons {A} (o : option A) l : somes (o :: l) = match o with Some x => x :: somes l | None => somes l end.
Proof. reflexivity. Qed.

Lemma path_loop_spec p : forall fuel n acc s, (0 < n -> error s = false) ->
  sim (rep_tree_path acc p) s (elems_loop fuel n sml_octet_string_parse) (h_tree_path_loop fuel n p)
    (fun o s1 x s2 => match o with
                      | Some t => ⟨s2 = s1 /\ x = p⟩ ∗ rep_tree_path (acc ++ somes t) p
                      | None => ⟨s2 = set_err s1 /\ x = Nul⟩
                      end)%I.
Proof.
  induction fuel as [|fuel IH]; intros n acc s Es; cbn [elems_loop h_tree_path_loop].
  { destruct (n <=? 0); [|by intros ? ?]. apply sim_ret. rewrite app_nil_r. iIntros "R". by iFrame. }
  destruct (n <=? 0) eqn:En. { apply sim_ret. rewrite app_nil_r. iIntros "R". by iFrame. }
  apply Z.leb_gt in En. specialize (Es En). eapply sim_run; [apply r_str|]. intros v s1 E1 x.
  apply sim_lift; [apply _|]. intros e s2 [= <- <-]. apply sim_if; intros Ee.
  - intros o s' [= <- <-]. iIntros "[Q R]". destruct v as [v|]; [apply str_some in E1; congruence|].
    iDestruct "R" as "->". iApply wp_bind. iApply wp_lift; [reflexivity|].
    iApply wp_bind. iApply f_path1. iFrame "Q". by iApply wp_ret.
  - assert (HK : forall acc', sim (rep_tree_path acc' p) s1
        (t <- elems_loop fuel (n - 1) sml_octet_string_parse;;
         ret (match t with None => None | Some t => Some (v :: t) end)) (h_tree_path_loop fuel (n - 1) p)
        (fun o s1 x s2 => match o with
                      | Some t => ⟨s2 = s1 /\ x = p⟩ ∗ rep_tree_path (acc' ++ somes (tl t)) p
                      | None => ⟨s2 = set_err s1 /\ x = Nul⟩
                      end)%I).
    { intros acc' o s' E. apply bind_inv in E as (t & s3 & E2 & E). injection E as <- <-.
      etrans; [apply (IH (n - 1) acc' s1 (fun _ => Ee) t s3 E2)|]. iIntros "W". iApply wp_wand. iFrame "W".
      iIntros (y s4) "Q". destruct t as [t|]; iExact "Q". }
    eapply (sim_heap _ _ _ _ (fun _ => rep_tree_path (acc ++ somes [v]) p)).
    + iIntros "[(%arr & P & A) R]". destruct v as [v|]; cbn [somes flat_map].
      * iDestruct (str_ptr with "R") as "[R [%l ->]]". cbn [if_ptr].
        iApply (wp_append [] [] arr (map rep_str acc) (rep_str v)); [done|]. rewrite map_length.
        iFrame "P A R". iIntros (arr') "[P A]". iSplit; [done|]. iExists arr'.
        rewrite !app_length map_length map_app. iFrame.
      * iDestruct "R" as "->". iApply wp_ret. iSplit; [done|]. rewrite app_nil_r. iExists arr. iFrame.
    + intros []. eapply sim_post; [|apply HK]. intros o s' y s2 E.
      apply bind_inv in E as (t & s3 & E2 & E). injection E as <- <-.
      destruct t as [t|]; [|done]. cbn [tl]. rewrite -app_assoc somes_cons. by destruct v.
Qed.

Lemma r_path : refines_ok h_tree_path_parse sml_tree_path_parse (rep_opt rep_tree_path).
Proof.
  intros s Es. apply sim_skipped. apply sim_malloc. intros p.
  apply (sim_weaken _ (rep_tree_path [] p)). { iIntros "[_ P]". iExists Nul. by iFrame. }
  apply sim_error_label. apply sim_lift; [apply _|]. intros t s1 E1. apply sim_if; intros Et.
  - intros o s' [= <- <-]. iIntros "P". iApply wp_bind. iApply wp_lift; [reflexivity|].
    iApply wp_bind. iApply f_path1. iFrame "P". iApply wp_ret. by iSplit.
  - apply negb_false_iff, Z.eqb_eq in Et. subst t. apply next_type_same in E1; [|done]. subst s1.
    apply sim_lift; [apply _|]. intros n s2 E2.
    assert (E0 : 0 < n -> error s2 = false). { intros L. apply next_length_error in E2; [congruence|lia]. }
    intros o s' E. apply bind_inv in E as (r & s3 & E3 & E). injection E as <- <-.
    etrans; [apply (path_loop_spec p (fuel_of s2) n [] s2 E0 r s3 E3)|].
    etrans; [|apply wp_hwith_fuel]. iIntros "W". iApply wp_wand. iFrame "W". iIntros (x s4) "Q".
    destruct r as [l|].
    + iDestruct "Q" as "[%Eq Q]". destruct Eq as [-> ->]. by iFrame.
    + iDestruct "Q" as %Eq. destruct Eq as [-> ->]. by iSplit.
Qed.

(** *** Records *)
Lemma r_tupel : refines_ok h_tupel_entry_parse sml_tupel_entry_parse (rep_opt rep_tupel).
Proof. intros s Es. unfold h_tupel_entry_parse, sml_tupel_entry_parse. record 23%nat. Qed.
Lemma r_period : refines_ok h_period_entry_parse sml_period_entry_parse (rep_opt rep_period).
Proof. intros s Es. unfold h_period_entry_parse, sml_period_entry_parse. record 5%nat. Qed.
(** *** Trees *)
Lemma ppv_error tag d p s : ppv_matches (mkPpv tag d) ->
  cell [] [rep_opt rep_num tag; rep_ppv_data d] p
  ⊢ wp (on_error h_proc_par_value_free p) s (PostR (rep_opt rep_ppv) None s).
Proof.
  intros M. iIntros "C". iApply wp_bind. iApply (f_ppv_cell tag d M). iFrame "C". iApply wp_ret. by iSplit.
Qed.
Lemma ppv_data_spec {A} (hp : H slot) (pp : Buf.P (option A)) (R : A -> slot -> hprop) (F : A -> ppv_data) m p s :
  error s = false -> refines_ok hp pp (rep_opt R) -> (forall v, rep_ppv_data (F v) = R v) ->
  (forall v, ppv_matches (mkPpv (Some m) (F v))) ->
  sim (cell [] [rep_opt rep_num (Some m); rep_nul] p) s
    (d <- pp ;; ret (Some (mkPpv (Some m) (from_opt PNull F d)))) (d <- hp ;; store p 1 d ;;; ret p)
    (PostR (rep_opt rep_ppv)).
Proof.
  intros Es HR HF HM. eapply sim_run; [by apply HR|]. intros v s1 _ x o s' [= <- <-]. iIntros "[C R]".
  iApply wp_bind. iApply (wp_cell_store [] [rep_opt rep_num (Some m); rep_nul] 1 p (rep_opt R v)); [done|].
  iFrame "C R". iIntros "C". iApply wp_ret. iSplit; [done|]. destruct v as [v|]; cbn [from_opt rep_opt].
  - iSplit; [iPureIntro; apply HM|]. cbn [ppv_tag ppv_dat]. rewrite HF. iExact "C".
  - iSplit; [done|]. iExact "C".
Qed.
Lemma cell2 x y (R1 R2 : slot -> hprop) p : p ↦ Struct [x; y] ∗ R1 x ∗ R2 y ⊢ cell [] [R1; R2] p.
Proof. iIntros "(P & A & B)". iExists [x; y]. iFrame "P". rewrite !fields_cons fields_nil. by iFrame. Qed.
Lemma r_ppv : refines_ok h_proc_par_value_parse sml_proc_par_value_parse (rep_opt rep_ppv).
Proof.
  intros s Es. apply sim_skipped. apply sim_malloc. intros p.
  apply (sim_weaken _ (p ↦ Struct [Nul; Nul])%I). { iIntros "[_ P]". done. }
  cbv zeta. apply sim_expect; try done.
  { intros s1. iIntros "P". iApply (ppv_error None PNull); [done|]. by iApply (nul_cell 2). }
  intros s1 Es1. unfold field. eapply sim_run; [apply r_num|]. intros tag s2 E2 x.
  apply (sim_heap _ _ _ _ (fun _ => p ↦ Struct [x; Nul] ∗ rep_opt rep_num tag x)%I).
  { iIntros "[P R]". iApply wp_store; last (iFrame "P"; iIntros "P"); [by eauto|]. by iFrame. }
  intros []. apply sim_lift; [apply _|]. intros e s3 [= <- <-]. apply sim_if; intros Ee.
  { intros o s' [= <- <-]. iIntros "[P R]". iApply (ppv_error tag PNull); [done|]. iApply cell2. by iFrame. }
  destruct tag as [m|].
  2:{ intros o s' [= <- <-]. iIntros "[P ->]".
      iApply (ppv_error None PNull); [done|]. iApply (cell2 Nul Nul). by iFrame. }
  intros o s' E. iIntros "[P R]". iDestruct (pts_ptr with "R") as "[R [%l ->]]".
  iApply wp_bind. iApply wp_load_bytes. iFrame "R". iIntros "R".
  iAssert (cell [] [rep_opt rep_num (Some m); rep_nul] p) with "[P R]" as "C". { iApply cell2. by iFrame. }
  iStopProof. revert o s' E.
  lazymatch goal with |- forall o s', ?m ?s = Ret (o, s') -> ?P ⊢ wp ?c ?s _ =>
    change (sim P s m c (PostR (rep_opt rep_ppv))) end.
  apply sim_if; intros T1; [|apply sim_if; intros T2; [|apply sim_if; intros T3; [|apply sim_if; intros T4]]].
  - apply (ppv_data_spec _ _ rep_value); [done|apply refines_weak, r_value|done|]. intros v. by apply Z.eqb_eq in T1.
  - apply (ppv_data_spec _ _ rep_period); [done|apply r_period|done|]. intros v. by apply Z.eqb_eq in T2.
  - apply (ppv_data_spec _ _ rep_tupel); [done|apply r_tupel|done|]. intros v. by apply Z.eqb_eq in T3.
  - apply (ppv_data_spec _ _ rep_time); [done|apply r_time|done|]. intros v. by apply Z.eqb_eq in T4.
  - apply sim_lift; [apply _|]. intros [] s3 [= <-]. intros o s' [= <- <-]. by apply (ppv_error (Some m) PNull).
Qed.

Lemma tree_error R1 R2 children p s : frees h_octet_string_free R1 -> frees h_proc_par_value_free R2 ->
  node R1 R2 (map rep_tree children) p ⊢ wp (on_error h_tree_free p) s (PostR (rep_opt rep_tree) None s).
Proof.
  intros H1 H2. iIntros "N". iApply wp_bind. iApply (frees_node R1 R2 children H1 H2). iFrame "N". iApply wp_ret. by iSplit.
Qed.
Lemma tree_ptr t p : rep_tree t p ⊢ rep_tree t p ∗ ⟨exists l, p = Ptr l⟩.
Proof.
  destruct t. cbn [rep_tree]. iIntros "(%arr & C & A)". iDestruct (cell_ptr with "C") as "[C $]". iExists arr. iFrame.
Qed.

Lemma children_loop_spec hp (pp : Buf.P (option sml_tree)) name value p :
  refines_ok hp pp (rep_opt rep_tree) ->
  forall fuel n acc s, (0 < n -> error s = false) ->
  sim (node (rep_opt rep_str name) (rep_opt rep_ppv value) (map rep_tree acc) p) s
    (elems_loop fuel n pp) (h_children_loop fuel n p hp)
    (fun o s1 x s2 => match o with
       | Some t => ⟨s2 = s1 /\ x = p⟩ ∗
           node (rep_opt rep_str name) (rep_opt rep_ppv value) (map rep_tree (acc ++ somes t)) p
       | None => ⟨s2 = s1 /\ x = Nul⟩
       end)%I.
Proof.
  intros HR. induction fuel as [|fuel IH]; intros n acc s Es; cbn [elems_loop h_children_loop].
  { destruct (n <=? 0); [|by intros ? ?]. apply sim_ret. rewrite app_nil_r. iIntros "R". by iFrame. }
  destruct (n <=? 0) eqn:En. { apply sim_ret. rewrite app_nil_r. iIntros "R". by iFrame. }
  apply Z.leb_gt in En. specialize (Es En). eapply sim_run; [by apply HR|]. intros v s1 E1 x.
  apply sim_lift; [apply _|]. intros e s2 [= <- <-]. apply sim_if; intros Ee.
  - intros o s' [= <- <-]. iIntros "[Q R]". iApply wp_bind.
    iAssert (∀ Φ, Φ tt s1 -∗ wp (if_ptr x (h_tree_free x)) s1 Φ)%I with "[R]" as "W".
    { iIntros (Φ) "K". destruct v as [v|].
      - iDestruct (tree_ptr with "R") as "[R [%l ->]]". iApply f_tree1. iFrame.
      - iDestruct "R" as "->". by iApply wp_ret. }
    iApply "W". iApply wp_wand. iSplitL. { iApply tree_error; [apply f_str|apply f_ppv|]. iFrame. }
    iIntros (y s2) "[-> ->]". done.
  - assert (HK : forall acc', sim (node (rep_opt rep_str name) (rep_opt rep_ppv value) (map rep_tree acc') p) s1
        (t <- elems_loop fuel (n - 1) pp;;
         ret (match t with None => None | Some t => Some (v :: t) end)) (h_children_loop fuel (n - 1) p hp)
        (fun o s1 x s2 => match o with
                      | Some t => ⟨s2 = s1 /\ x = p⟩ ∗
           node (rep_opt rep_str name) (rep_opt rep_ppv value) (map rep_tree (acc' ++ somes (tl t))) p
                      | None => ⟨s2 = s1 /\ x = Nul⟩
                      end)%I).
    { intros acc' o s' E. apply bind_inv in E as (t & s3 & E2 & E). injection E as <- <-.
      etrans; [apply (IH (n - 1) acc' s1 (fun _ => Ee) t s3 E2)|]. iIntros "W". iApply wp_wand. iFrame "W".
      iIntros (y s4) "Q". destruct t as [t|]; iExact "Q". }
    eapply (sim_heap _ _ _ _ (fun _ => node (rep_opt rep_str name) (rep_opt rep_ppv value) (map rep_tree (acc ++ somes [v])) p)).
    + iIntros "[(%arr & C & A) R]". destruct v as [v|]; cbn [somes flat_map].
      * iDestruct (tree_ptr with "R") as "[R [%l ->]]". cbn [if_ptr].
        iDestruct "C" as (ss) "[P F]". iDestruct (fields_length with "F") as %L.
        iApply (wp_append ss [] arr (map rep_tree acc) (rep_tree v)); [by rewrite -L|].
        iFrame "P A R". iIntros (arr') "[P A]". iSplit; [done|]. iExists arr'. rewrite map_app. iFrame "A".
        iExists ss. iFrame.
      * iDestruct "R" as "->". iApply wp_ret. iSplit; [done|]. rewrite app_nil_r. iExists arr. iFrame.
    + intros []. eapply sim_post; [|apply HK]. intros o s' y s2 E.
      apply bind_inv in E as (t & s3 & E2 & E). injection E as <- <-.
      destruct t as [t|]; [|done]. cbn [tl]. rewrite -app_assoc somes_cons. by destruct v.
Qed.

Lemma r_tree_rec : forall depth, refines_ok (h_tree_parse_rec depth) (sml_tree_parse_rec depth) (rep_opt rep_tree).
Proof.
  induction depth as [|depth IH]; intros s Es; [by intros ? ?|]. cbn [h_tree_parse_rec sml_tree_parse_rec].
  apply sim_skipped. apply sim_malloc. intros p.
  apply (sim_weaken _ (cell [Nul; Int 0] (repeat rep_nul 2) p)).
  { iIntros "[_ P]". iExists [Nul; Nul]. iFrame "P". iApply (nul_fields 2). }
  cbv zeta.
  assert (HE : forall Rs s1, Forall2 frees [h_octet_string_free; h_proc_par_value_free] Rs ->
    cell [Nul; Int 0] Rs p ⊢ wp (on_error h_tree_free p) s1 (PostR (rep_opt rep_tree) None s1)).
  { intros Rs s1 HF. inversion HF as [|? R1 ? Rs1 H1 HF1]; subst. inversion HF1 as [|? R2 ? Rs2 H2 HF2]; subst.
    inversion HF2; subst. iIntros "C". iApply (tree_error R1 R2 []); [done|done|]. iExists Nul. by iFrame. }
  assert (F0 : Forall2 frees [h_octet_string_free; h_proc_par_value_free] (repeat rep_nul 2)).
  { repeat apply List.Forall2_cons; first [apply List.Forall2_nil|rfree]. }
  apply sim_expect; [done|done|intros; by apply HE|]. intros s1 Es1. cbn [repeat] in F0 |- *.
  assert (RP := r_ppv). fld rparse rfree name. fld rparse rfree vl.
  apply sim_lift; [apply _|]. intros sk s3 E3. apply sim_if; intros Esk.
  { apply sim_ret. iIntros "C". iSplit; [done|]. cbn [rep_opt rep_tree]. iExists Nul. iFrame "C". done. }
  apply negb_false_iff, Z.eqb_eq in Esk. subst sk. apply skipped_0 in E3. subst s3.
  apply sim_lift; [apply _|]. intros t s3 E3. apply sim_if; intros Et.
  { apply sim_lift; [apply _|]. intros [] s4 [= <-]. intros o s' [= <- <-]. by apply HE. }
  apply negb_false_iff, Z.eqb_eq in Et. subst t. apply next_type_same in E3; [|done]. subst s3.
  apply sim_lift; [apply _|]. intros n s3 E3.
  assert (E0' : 0 < n -> error s3 = false). { intros L. apply next_length_error in E3; [congruence|lia]. }
  intros o s' EE. apply bind_inv in EE as (r & s4 & E4 & EE).
  etrans; [|apply wp_hwith_fuel]. iIntros "C". iApply wp_wand. iSplitL.
  - iApply (children_loop_spec _ _ name vl p IH (fuel_of s3) n [] s3 E0' r s4 E4). iExists Nul. by iFrame.
  - iIntros (x s5) "Q". destruct r as [l|]; injection EE as <- <-.
    + iDestruct "Q" as "[%Eq Q]". destruct Eq as [-> ->]. iSplit; [done|]. cbn [app rep_opt]. by rewrite rep_tree_node.
    + iDestruct "Q" as %Eq. destruct Eq as [-> ->]. by iSplit.
Qed.
Lemma r_tree : refines_ok h_tree_parse sml_tree_parse (rep_opt rep_tree).
Proof.
  intros s Es o s' E. etrans; [|apply wp_hwith_fuel]. by apply (r_tree_rec (fuel_of s) s Es o s').
Qed.
(** the parser of trees at the end of the buffer *)
Lemma r_tree_end s : (buffer_len s <=? cursor s)%nat = true -> sim emp%I s sml_tree_parse h_tree_parse (PostR (rep_opt rep_tree)).
Proof.
  intros En o s' E. etrans; [|apply wp_hwith_fuel]. revert o s' E.
  change (sim emp%I s (sml_tree_parse_rec (fuel_of s)) (h_tree_parse_rec (fuel_of s)) (PostR (rep_opt rep_tree))).
  unfold fuel_of. cbn [h_tree_parse_rec sml_tree_parse_rec]. apply sim_lift; [apply _|]. intros sk s1 E1.
  unfold sml_buf_optional_is_skipped in E1. apply bind_inv in E1 as (e & s2 & E2 & E1). injection E2 as E2 <-.
  rewrite En in E2. subst e. apply bind_inv in E1 as ([] & s3 & E3 & E1). injection E1 as <- <-.
  apply sim_ret. iIntros "_". by iSplit.
Qed.
End WithHost.
