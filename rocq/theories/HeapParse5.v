(** The parsers of messages and files with pointers. *)
From stdpp Require Import gmap.
From iris.proofmode Require Import tactics.
From Verif Require Import Base Buf Crc16 Number OctetString Boolean Value Time SList Tree Bodies Message File
  HeapBase HeapModel HeapLogic HeapRep HeapFree HeapSim HeapParse HeapParse2 HeapParse3 HeapParse4.

Section WithHost.
Context {HO : Host} {AL : Allocator}.
Local Existing Instance dzg_watch.

(** *** Bodies *)
Definition rep_tagged (t : Z) (d : body_data) (p : slot) : hprop := (⟨tag_of d t⟩ ∗ rep_body_data d p)%I.
Lemma data_spec {A} (hp : H slot) (pp : Buf.P (option A)) (R : A -> slot -> hprop) (F : A -> body_data) t s :
  error s = false -> refines_ok hp pp (rep_opt R) -> (forall v, rep_body_data (F v) = R v) ->
  (forall v, tag_of (F v) t) ->
  sim emp%I s (d <- pp ;; ret (from_opt BNull F d)) hp (PostR (rep_tagged t)).
Proof.
  intros Es HR HF HT d s' E. apply bind_inv in E as (v & s1 & E1 & E). injection E as <- <-.
  iIntros "_". iApply wp_wand. iSplitR; [by iApply (HR s Es v s1 E1)|]. iIntros (x s2) "[-> R]". iSplit; [done|].
  destruct v as [v|]; cbn [from_opt].
  - iSplit; [iPureIntro; apply HT|]. by rewrite HF.
  - iSplit; [done|]. done.
Qed.
Lemma r_body_data t s : error s = false -> sim emp%I s (body_data_parse t) (h_body_data_parse t) (PostR (rep_tagged t)).
Proof.
  intros Es. unfold body_data_parse, h_body_data_parse.
  apply sim_if; intros T; [apply Z.eqb_eq in T; by eapply data_spec; [|apply r_open_req| |]|clear T].
  apply sim_if; intros T; [apply Z.eqb_eq in T; by eapply data_spec; [|apply r_open_res| |]|clear T].
  apply sim_if; intros T; [apply Z.eqb_eq in T; by eapply data_spec; [|apply r_close_req| |]|clear T].
  apply sim_if; intros T; [apply Z.eqb_eq in T; by eapply data_spec; [|apply r_close_res| |]|clear T].
  apply sim_if; intros T; [apply Z.eqb_eq in T; eapply data_spec; [done|apply r_pack_req|done|by left]|clear T].
  apply sim_if; intros T; [apply Z.eqb_eq in T; by eapply data_spec; [|apply r_pack_res| |]|clear T].
  apply sim_if; intros T; [apply Z.eqb_eq in T; eapply data_spec; [done|apply r_pack_req|done|by right]|clear T].
  apply sim_if; intros T; [apply Z.eqb_eq in T; by eapply data_spec; [|apply r_prof_list_res| |]|clear T].
  apply sim_if; intros T; [apply Z.eqb_eq in T; by eapply data_spec; [|apply r_proc_req| |]|clear T].
  apply sim_if; intros T; [apply Z.eqb_eq in T; by eapply data_spec; [|apply r_proc_res| |]|clear T].
  apply sim_if; intros T; [apply Z.eqb_eq in T; by eapply data_spec; [|apply r_set_proc| |]|clear T].
  apply sim_if; intros T; [apply Z.eqb_eq in T; by eapply data_spec; [|apply r_list_req| |]|clear T].
  apply sim_if; intros T; [apply Z.eqb_eq in T; by eapply data_spec; [|apply r_list_res| |]|clear T].
  apply sim_if; intros T; [apply Z.eqb_eq in T; by eapply data_spec; [|apply r_attention| |]|clear T].
  apply sim_ret. iIntros "_". iSplit; [done|]. by iSplit.
Qed.

Lemma r_body : refines_ok h_message_body_parse sml_message_body_parse (rep_opt rep_body).
Proof.
  intros s Es. apply sim_malloc. intros p. cbv zeta.
  apply (sim_weaken _ (p ↦ Struct [Nul; Nul])%I). { iIntros "[_ P]". done. }
  assert (HE : forall s1, p ↦ Struct [Nul; Nul] ⊢ wp (on_error free p) s1 (PostR (rep_opt rep_body) None s1)).
  { intros s1. iIntros "P". iApply wp_bind. iApply wp_free. iFrame "P". iApply wp_ret. by iSplit. }
  apply sim_lift; [apply _|]. intros e s1 [= <- <-]. apply sim_if; intros Ee.
  { intros o s' [= <- <-]. iIntros "P". iApply wp_bind. iApply wp_lift; [reflexivity|]. by iApply HE. }
  apply sim_expect; try done. intros s1 Es1. unfold field. eapply sim_run; [apply r_num|]. intros tag s2 E2 x.
  apply (sim_heap _ _ _ _ (fun _ => p ↦ Struct [x; Nul] ∗ rep_opt rep_num tag x)%I).
  { iIntros "[P R]". iApply wp_store; last (iFrame "P"; iIntros "P"); [by eauto|]. by iFrame. }
  intros []. apply sim_lift; [apply _|]. intros e s3 [= <- <-]. destruct tag as [m|].
  - apply number_some in E2. rewrite -> E2, Es1. intros o s' E. iIntros "[P R]".
    apply bind_inv in E as (d & s3 & E3 & E). injection E as <- <-.
    iDestruct (pts_ptr with "R") as "[R [%l ->]]". iApply wp_bind. iApply wp_load_bytes. iFrame "R". iIntros "R".
    iApply wp_bind. iApply wp_wand. iSplitR; [iApply (r_body_data (mem_u m) s2); [congruence|exact E3|done]|].
    iIntros (y s4) "[-> [%T D]]". iApply wp_bind. iApply wp_store; last (iFrame "P"; iIntros "P"); [by eauto|].
    iApply wp_ret. iSplit; [done|]. iExists m. iSplit; [done|]. iApply cell2. by iFrame.
  - apply sim_if; intros Ee2; intros o s' [= <- <-]; iIntros "[P ->]"; by iApply HE.
Qed.

(** *** Messages *)
Lemma r_msg : refines_ok h_message_parse sml_message_parse (rep_opt rep_msg).
Proof.
  intros s Es. unfold h_message_parse, sml_message_parse.
  apply sim_malloc; intros p; apply (sim_weaken _ (cell [] (repeat rep_nul 5) p)); [iIntros "[_ P]"; by iApply (nul_cell 5)|].
  cbv zeta. set (err := on_error h_message_free p).
  set (fs := [h_octet_string_free; h_number_free; h_number_free; h_message_body_free; h_number_free]).
  assert (HE : forall Rs s1, Forall2 frees fs Rs -> cell [] Rs p ⊢ wp err s1 (PostR (rep_opt rep_msg) None s1)).
  { intros Rs s1 HF. eapply on_error_spec; [|exact HF]. intros; by apply frees_cell. }
  assert (F0 : Forall2 frees fs (repeat rep_nul 5)).
  { repeat apply List.Forall2_cons; try apply List.Forall2_nil; try rfree; apply (f_body None). }
  apply sim_lift; [apply _|]. intros start s0 E0.
  assert (Es0 : error s0 = false). { by injection E0 as _ <-. }
  apply sim_expect; [done|done|intros; by apply HE|]. intros s1 Es1. cbn [repeat] in F0 |- *.
  fld rparse rfree v0. fld rparse rfree v1. fld rparse rfree v2.
  fld ltac:(apply r_body) ltac:(apply f_body) v3.
  apply sim_lift; [apply _|]. intros len s6 E6. apply sim_lift; [apply _|]. intros few s7 [= <- <-].
  apply sim_if; intros Ef.
  { intros o s' [= <- <-]. iIntros "C". iApply wp_bind. iApply wp_lift; [reflexivity|]. by iApply HE. }
  injection E6 as _ <-.
  eapply sim_run; [apply r_num|]. intros crc s7 E7 x.
  match goal with |- sim (cell [] ?R0 p ∗ _)%I _ _ _ _ => set (Rs := R0) in * end.
  set (RC := fun y => (⟨y = x⟩ ∗ rep_opt rep_num crc y)%I : hprop).
  assert (FF : Forall2 frees fs (<[4%nat := RC]> Rs)).
  { repeat apply List.Forall2_cons; try apply List.Forall2_nil; first [rfree|apply f_body|idtac].
    intros y s1' Φ. iIntros "[[_ R] K]". iApply f_num. iFrame. }
  apply (sim_heap _ _ _ _ (fun _ => cell [] (<[4%nat := RC]> Rs) p)).
  { iIntros "[C R]". iApply (wp_cell_store [] Rs 4 p RC); [done|]. iFrame "C R". iSplit; [done|]. iIntros "C". by iFrame "C". }
  intros []. apply sim_lift; [apply _|]. intros e s8 [= <- <-].
  assert (HS : forall s7, sim (cell [] (<[4%nat := RC]> Rs) p) s7 err_null (lift set_error ;;; err) (PostR (rep_opt rep_msg))).
  { intros s8 o s9 [= <- <-]. iIntros "C". iApply wp_bind. iApply wp_lift; [reflexivity|]. by iApply HE. }
  destruct (error s7) eqn:Ee; [apply HS|].
  destruct crc as [c|].
  2:{ intros o s' EE. iIntros "C". iDestruct (cell_acc _ _ _ 4 with "C") as (y) "[R C]"; [reflexivity|].
      iDestruct "R" as "[-> ->]". iApply (HS s7 o s' EE). iSpecialize ("C" $! RC). rewrite list_insert_insert. iApply "C". by iSplit. }
  intros o s' EE. iIntros "C". iDestruct (cell_acc _ _ _ 4 with "C") as (y) "[R C]"; [reflexivity|].
  iDestruct "R" as "[-> R]". cbn [rep_opt]. iDestruct (pts_ptr with "R") as "[R [%l %El]]".
  assert (EM : forall X (a b : H X), match x with Nul => a | _ => b end = b) by (by rewrite El). rewrite EM.
  iApply wp_bind. iApply wp_load_bytes. iFrame "R". iIntros "R".
  iSpecialize ("C" $! RC with "[R]"); [by iFrame|]. rewrite list_insert_insert. clear EM El l.
  iStopProof. revert o s' EE.
  lazymatch goal with |- forall o s', ?m ?s = Ret (o, s') -> ?P ⊢ wp ?c ?s _ =>
    change (sim P s m c (PostR (rep_opt rep_msg))) end.
  apply sim_lift; [apply _|]. intros bs s8 E8. apply sim_if; intros Ec.
  { intros o s' [= <- <-]. by apply HE. }
  apply sim_lift; [apply _|]. intros e s9 [= <- <-]. apply sim_if; intros Een; [apply HS|].
  apply sim_lift; [apply _|]. intros b s9 E9. apply sim_lift; [apply _|]. intros [] s10 E10. apply sim_ret. iIntros "C". iSplit; [done|].
  iDestruct (cell_acc _ _ _ 4 with "C") as (y) "[R C]"; [reflexivity|]. iDestruct "R" as "[_ R]".
  iSpecialize ("C" $! (rep_opt rep_num (Some c)) with "R"). iExact "C".
Qed.
Lemma clean_msg s v s' : sml_message_parse s = Ret (Some v, s') -> error s' = false.
Proof.
  unfold sml_message_parse, expect_list, field, err_null. intros E.
  apply bind_inv in E as (start & s0 & _ & E).
  apply bind_inv in E as (t & s1 & _ & E). destruct (negb _); [repeat pinv|].
  apply bind_inv in E as (n & s2 & _ & E). destruct (negb _); [repeat pinv|].
  do 4 (apply bind_inv in E as (? & ? & _ & E); apply bind_inv in E as (e & ? & _ & E); destruct e; [repeat pinv|]).
  apply bind_inv in E as (len & s7 & _ & E). apply bind_inv in E as (few & s8 & _ & E). destruct few; [repeat pinv|].
  apply bind_inv in E as (crc & s9 & _ & E). apply bind_inv in E as (e & s10 & E10 & E). injection E10 as E10 <-.
  destruct e; [repeat pinv|]. destruct crc as [c|]; [|repeat pinv].
  apply bind_inv in E as (bs & s11 & E11 & E).
  assert (error s11 = false).
  { unfold buffer_slice in E11. destruct (_ <? _); [done|]. destruct (_ <? _); [done|].
    destruct (_ <=? _)%nat; [|done]. by injection E11 as _ <-. }
  repeat pinv; try done; congruence.
Qed.

(** *** Files *)
Lemma file_loop_spec p bytes : forall fuel msgs s, error s = false ->
  sim (rep_file msgs bytes p) s (file_loop fuel msgs) (h_file_loop fuel p)
    (fun r s1 _ s2 => ⟨s2 = s1⟩ ∗ rep_file r bytes p)%I.
Proof.
  induction fuel as [|fuel IH]; intros msgs s Es; cbn [file_loop h_file_loop].
  all: apply sim_lift; [apply _|]; intros e s1 [= <- <-]; apply sim_if; intros Ee.
  1,3: apply sim_ret; iIntros "F"; by iFrame.
  { intros b s' E. discriminate E. }
  apply sim_lift; [apply _|]. intros b s1 E1.
  assert (s1 = s) as ->.
  { unfold sml_buf_get_current_byte in E1. destruct (nth_error _ _); [by injection E1 as _ <-|discriminate]. }
  apply sim_if; intros Eb.
  { apply sim_lift; [apply _|]. intros [] s1 [= <-]. apply IH. exact Es. }
  eapply sim_run; [by apply r_msg|]. intros v s1 E2 x. apply sim_lift; [apply _|]. intros e s2 [= <- <-].
  destruct (error s1) eqn:Es1.
  { destruct v as [v|]; [apply clean_msg in E2; congruence|]. apply sim_ret. iIntros "[F ->]". by iFrame. }
  destruct v as [v|].
  - unfold sml_file_add_message. intros r s' E. apply bind_inv in E as (msgs' & s2 & E3 & E).
    destruct (_ <=? _) eqn:EL; [|discriminate]. injection E3 as <- <-.
    iIntros "[(%arr & %b' & P & A & B) R]". cbn [rep_opt]. iDestruct (cell_ptr with "R") as "[R [%l ->]]".
    iApply wp_bind. cbn [if_ptr]. unfold h_file_add_message. iApply wp_bind.
    iApply wp_load_int; last (iFrame "P"; iIntros "P"); [reflexivity|]. rewrite EL.
    iApply (wp_append [] [b'] arr (map rep_msg msgs) (rep_msg v) (Ptr l) p 0); [done|].
    rewrite map_length. iFrame "P A R". iIntros (arr') "[P A]". iApply (IH (msgs ++ [v]) s1 Es1 r s' E).
    iExists arr', b'. rewrite map_app /= app_length map_length app_length. iFrame.
  - apply (sim_heap _ _ _ _ (fun _ => rep_file msgs bytes p)).
    { iIntros "[F ->]". iApply wp_ret. by iFrame. }
    intros []. by apply IH.
Qed.

(** sml_file_parse: the result, and nothing else, is in memory afterwards. *)
Lemma r_file bytes f : sml_file_parse bytes = Ret f ->
  ⊢ wp (h_file_parse_run bytes) (mkBuf bytes 0 false false) (fun p s2 => ⟨s2 = f_buf f⟩ ∗ rep_file (f_messages f) bytes p).
Proof.
  unfold sml_file_parse. intros E. destruct (file_loop _ _ _) as [[msgs s1]| |] eqn:EL; try discriminate.
  injection E as <-. unfold h_file_parse_run, h_buffer_init.
  iApply wp_bind. iApply wp_malloc. iIntros (p) "P". iApply wp_bind. iApply wp_bind. iApply wp_malloc. iIntros (b) "B".
  iApply wp_bind. iApply wp_malloc. iIntros (d) "D".
  iApply wp_bind. iApply wp_store; last (iFrame "B"; iIntros "B"); [by eauto|]. iApply wp_ret.
  iApply wp_bind. iApply wp_store; last (iFrame "P"; iIntros "P"); [by eauto|].
  cbn [list_insert insert]. iApply wp_bind. iApply wp_wand. iSplitL.
  - iApply (file_loop_spec p bytes (S (length bytes)) [] (mkBuf bytes 0 false false) eq_refl msgs s1 EL).
    iExists Nul, b. iFrame "P". iSplit; [done|]. iExists d. by iFrame.
  - iIntros (u s2) "[-> F]". iApply wp_ret. by iFrame.
Qed.
End WithHost.
