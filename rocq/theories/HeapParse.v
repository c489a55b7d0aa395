(** The parsers with pointers do what the parsers of the value level do. *)
From stdpp Require Import gmap.
From iris.proofmode Require Import tactics.
From Verif Require Import Base Buf Number OctetString Boolean Value Time SList Tree Bodies Message File
  HeapBase HeapModel HeapLogic HeapRep HeapFree HeapSim.

Lemma read_current_length n s bs s1 : read_current n s = Ret (bs, s1) -> length bs = n /\ s1 = s.
Proof.
  unfold read_current. destruct (_ <=? _)%nat eqn:E; [|discriminate]. intros [= <- <-].
  apply Nat.leb_le in E. split; [|done]. unfold buffer_len in E. rewrite firstn_length skipn_length. lia.
Qed.

Section WithHost.
Context {HO : Host} {AL : Allocator} {WA : Watch}.

Lemma r_num type max : refines (h_number_parse type max) (sml_number_parse type max) (rep_opt rep_num).
Proof.
  intros s. apply sim_skipped. apply sim_lift; [apply _|]. intros e s1 _. apply sim_if; intros _; [by apply sim_herr_null|].
  apply sim_lift; [apply _|]. intros t s2 _. apply sim_if; intros _; [by apply sim_herr_null|].
  apply sim_lift; [apply _|]. intros l s3 _. apply sim_if; intros El; [by apply sim_herr_null|].
  apply orb_false_iff in El as [L1 L2]. apply Z.ltb_ge in L1. rewrite Z.gtb_ltb in L2. apply Z.ltb_ge in L2.
  apply sim_malloc. intros p.
  assert (HE : forall s0, sim (emp ∗ p ↦ Bytes (repeat 0 (Z.to_nat max)))%I s0 err_null
                (lift set_error ;;; free p ;;; ret Nul) (PostR (rep_opt rep_num))).
  { intros s0. apply sim_lift; [apply _|]. intros [] s4 [= <-]. intros b s' [= <- <-]. iIntros "[_ P]".
    iApply wp_bind. iApply wp_free. iFrame "P". iApply wp_ret. by iSplit. }
  apply sim_lift; [apply _|]. intros short s4 _. apply sim_if; intros _; [apply HE|].
  apply sim_lift; [apply _|]. intros e4 s5 _. apply sim_if; intros _; [apply HE|].
  apply sim_lift; [apply _|]. intros b s6 _. apply sim_lift; [apply _|]. intros data s7 ED. apply read_current_length in ED as [LD ->].
  cbv zeta. set (bs := repeat _ _ ++ data).
  set (np := match sml_number_endian with BigEndian => bs | LittleEndian => sml_number_byte_swap bs end).
  assert (LN : length (repeat 0 (Z.to_nat max)) = length np).
  { assert (LB : length bs = Z.to_nat max).
    { unfold bs. rewrite app_length repeat_length LD. lia. }
    rewrite repeat_length. unfold np. destruct sml_number_endian; [by rewrite LB|].
    unfold sml_number_byte_swap. by rewrite map_length seq_length LB. }
  eapply (sim_heap _ _ _ _ (fun _ => p ↦ Bytes np)%I).
  - iIntros "[_ P]". iApply (wp_store_bytes p _ np _ _ LN). iFrame "P". iIntros "P". iFrame. done.
  - intros []. apply sim_lift; [apply _|]. intros [] s8 _. apply sim_ret. iIntros "P". by iFrame.
Qed.

Lemma r_str : refines h_octet_string_parse sml_octet_string_parse (rep_opt rep_str).
Proof.
  intros s. apply sim_skipped. apply sim_lift; [apply _|]. intros t s2 _. apply sim_if; intros _; [by apply sim_herr_null|].
  apply sim_lift; [apply _|]. intros l s3 _. apply sim_lift; [apply _|]. intros bad s4 EB. apply sim_if; intros Ebad; [by apply sim_herr_null|].
  injection EB as EB <-. rewrite Ebad in EB. apply orb_false_iff in EB as [L1 _]. apply Z.ltb_ge in L1.
  apply sim_lift; [apply _|]. intros bs s5 ED. apply read_current_length in ED as [LD ->].
  eapply (sim_heap _ _ _ _ (fun x => rep_str (sml_octet_string_init bs l) x)).
  - iIntros "_". unfold h_octet_string_init, sml_octet_string_init.
    iApply wp_bind. iApply wp_malloc. iIntros (p) "P". rewrite !Z.gtb_ltb. destruct (0 <? l) eqn:L0.
    + apply Z.ltb_lt in L0. iApply wp_bind. iApply wp_bind. iApply wp_malloc. iIntros (d) "D".
      iApply wp_bind. iApply wp_store; last (iFrame "P"; iIntros "P"); [by eauto|].
      iApply wp_store; last (iFrame "P"; iIntros "P"); [by eauto|].
      iApply wp_ret. iSplit; [done|]. cbn [list_insert insert].
      assert (LF : length (firstn (Z.to_nat l) bs) = Z.to_nat l) by (rewrite firstn_length; lia).
      destruct (firstn (Z.to_nat l) bs) as [|x tl] eqn:EF; [cbn in LF; lia|].
      cbn [rep_str]. iExists d. rewrite LF Z2Nat.id; [|lia]. iFrame.
    + iApply wp_bind. iApply wp_ret. iApply wp_ret. iSplit; [done|]. iExact "P".
  - intros x. apply sim_lift; [apply _|]. intros [] s6 _. apply sim_ret. iIntros "R". iSplit; [done|]. iExact "R".
Qed.

Lemma r_bool : refines h_boolean_parse sml_boolean_parse (rep_opt rep_bool).
Proof.
  intros s. apply sim_skipped. apply sim_lift; [apply _|]. intros t s2 _. apply sim_if; intros _; [by apply sim_herr_null|].
  apply sim_lift; [apply _|]. intros l s3 _. apply sim_if; intros _; [by apply sim_herr_null|].
  apply sim_lift; [apply _|]. intros e s4 _. apply sim_if; intros _; [by apply sim_herr_null|].
  apply sim_lift; [apply _|]. intros b s5 _. apply sim_lift; [apply _|]. intros [] s6 _.
  intros o s' [= <- <-]. iIntros "_". iApply wp_malloc. iIntros (p) "P". by iFrame.
Qed.

Lemma type_num_nonzero t m : (t = SML_TYPE_UNSIGNED \/ t = SML_TYPE_INTEGER) ->
  to_u8 (Z.lor (to_u8 t) m) <> SML_TYPE_OCTET_STRING.
Proof.
  intros T E. apply (f_equal (fun x => Z.testbit x 6)) in E. revert E. unfold to_u8 at 1.
  change 256 with (2 ^ 8). rewrite Z.mod_pow2_bits_low; [|lia]. rewrite Z.lor_spec.
  destruct T as [-> | ->]; discriminate.
Qed.

Lemma r_value : refines h_value_parse sml_value_parse (rep_opt rep_value).
Proof.
  intros s. apply sim_skipped. apply sim_lift; [apply _|]. intros t s1 _. apply sim_lift; [apply _|]. intros byte s2 _.
  apply sim_malloc. intros p. eapply (sim_heap _ _ _ _ (fun _ => p ↦ Struct [Int (to_u8 t); Nul])%I).
  { iIntros "[_ P]". iApply wp_store; last (iFrame "P"; iIntros "P"); [by eauto|]. by iFrame. }
  intros []. eapply (sim_bind _ _ _ _ (fun v _ => rep_value v p)).
  - destruct (t =? SML_TYPE_OCTET_STRING) eqn:T0; [|destruct (t =? SML_TYPE_BOOLEAN) eqn:T1;
      [|destruct ((t =? SML_TYPE_UNSIGNED) || (t =? SML_TYPE_INTEGER)) eqn:T2]].
    + apply Z.eqb_eq in T0. subst t. eapply sim_run; [apply r_str|]. intros v s3 _ x b s' [= <- <-].
      iIntros "[P R]". iApply wp_store; last (iFrame "P"; iIntros "P"); [by eauto|]. iSplit; [done|].
      iExists x. iFrame "P". cbn [v_type v_data]. destruct v as [v|]; iExact "R".
    + apply Z.eqb_eq in T1. subst t. eapply sim_run; [apply r_bool|]. intros v s3 _ x b s' [= <- <-].
      iIntros "[P R]". iApply wp_store; last (iFrame "P"; iIntros "P"); [by eauto|]. iSplit; [done|].
      iExists x. iFrame "P". cbn [v_type v_data]. destruct v as [v|]; [|iExact "R"]. iSplit; [done|iExact "R"].
    + apply sim_lift; [apply _|]. intros max s3 _. eapply sim_run; [apply r_num|]. intros v s4 _ x b s' [= <- <-].
      iIntros "[P R]". iApply wp_bind. iApply wp_store; last (iFrame "P"; iIntros "P"); [by eauto|].
      iApply wp_bind. hload_int "P". iApply wp_store; last (iFrame "P"; iIntros "P"); [by eauto|].
      iSplit; [done|]. iExists x. cbn [v_type v_data]. iSplitL "P"; [iExact "P"|].
      destruct v as [v|]; [|iExact "R"]. iSplit; [|iExact "R"]. iPureIntro. apply type_num_nonzero.
      apply orb_true_iff in T2 as [T|T]; apply Z.eqb_eq in T; auto.
    + intros b s' [= <- <-]. iIntros "P". iApply wp_lift; [reflexivity|]. iSplit; [done|]. iExists Nul.
      by iFrame.
  - intros v s3 _ []. apply sim_lift; [apply _|]. intros e s4 [= <- <-]. apply sim_if; intros _.
    + intros o s' [= <- <-]. iIntros "R". iApply wp_bind. iApply f_value1. iFrame "R". iApply wp_ret. by iSplit.
    + apply sim_ret. iIntros "R". by iFrame.
Qed.

Lemma r_status : refines h_status_parse sml_status_parse (rep_opt rep_status).
Proof.
  intros s. apply sim_skipped. apply sim_lift; [apply _|]. intros t s1 _. apply sim_lift; [apply _|]. intros byte s2 _.
  apply sim_malloc. intros p. eapply (sim_heap _ _ _ _ (fun _ => p ↦ Struct [Int (to_u8 t); Nul])%I).
  { iIntros "[_ P]". iApply wp_store; last (iFrame "P"; iIntros "P"); [by eauto|]. by iFrame. }
  intros []. eapply (sim_bind _ _ _ _ (fun v _ => rep_status v p)).
  - apply sim_if; intros _.
    + apply sim_lift; [apply _|]. intros max s3 _. eapply sim_run; [apply r_num|]. intros v s4 _ x b s' [= <- <-].
      iIntros "[P R]". iApply wp_bind. iApply wp_store; last (iFrame "P"; iIntros "P"); [by eauto|].
      iApply wp_bind. hload_int "P". iApply wp_store; last (iFrame "P"; iIntros "P"); [by eauto|].
      iSplit; [done|]. iExists x. iFrame "R". iExact "P".
    + intros b s' [= <- <-]. iIntros "P". iApply wp_lift; [reflexivity|]. iSplit; [done|]. iExists Nul.
      by iFrame.
  - intros v s3 _ []. apply sim_lift; [apply _|]. intros e s4 [= <- <-]. apply sim_if; intros _.
    + intros o s' [= <- <-]. iIntros "R". iApply wp_bind. iApply f_status1. iFrame "R". iApply wp_ret. by iSplit.
    + apply sim_ret. iIntros "R". by iFrame.
Qed.

(** *** sml_time.c *)
Lemma f_ifnum o : frees (fun x => if_ptr x (h_number_free x)) (rep_opt rep_num o).
Proof.
  intros p s Φ. destruct o as [m|]; iIntros "[R K]".
  - iApply wp_if_ptr. iFrame "R". iIntros "R". iApply f_num1. iFrame.
  - iDestruct "R" as "->". by iApply wp_ret.
Qed.
Lemma print_num o x s Φ : rep_opt rep_num o x ∗ (rep_opt rep_num o x -∗ Φ tt s)
  ⊢ wp (if_ptr x (load_bytes x ;;; ret tt)) s Φ.
Proof.
  iIntros "[R K]". destruct o as [m|].
  - iApply wp_if_ptr. iFrame "R". iIntros "R". iApply wp_bind. iApply wp_load_bytes. iFrame "R". iIntros "R".
    iApply wp_ret. by iApply "K".
  - iDestruct "R" as "->". iApply wp_ret. by iApply "K".
Qed.

Lemma time_value_spec tag p s : error s = false ->
  sim (cell [] [rep_opt rep_num tag; rep_nul] p) s (sml_time_value tag) (h_time_value p) (PostR (rep_opt rep_time)).
Proof.
  intros Es. apply sim_lift; [apply _|]. intros t s1 E1.
  assert (FN : forall o1 o2, Forall2 frees [h_number_free; h_number_free] [rep_opt rep_num o1; rep_opt rep_num o2]).
  { intros o1 o2. repeat apply List.Forall2_cons; try apply f_num. constructor. }
  assert (FN0 : forall o1, Forall2 frees [h_number_free; h_number_free] [rep_opt rep_num o1; rep_nul]).
  { intros o1. apply (FN o1 None). }
  assert (HE : forall Rs s1, Forall2 frees [h_number_free; h_number_free] Rs ->
            cell [] Rs p ⊢ wp (on_error h_time_free p) s1 (PostR (rep_opt rep_time) None s1)).
  { intros Rs s2 HF. eapply on_error_spec; [|exact HF]. intros. by apply frees_cell. }
  apply sim_if; intros T0.
  - apply Z.eqb_eq in T0. subst t. apply next_type_same in E1; [|done]. subst s1.
    eapply (sim_field [h_number_free; h_number_free]); try reflexivity; try done.
    + apply refines_weak, r_num.
    + apply f_num.
    + intros v s1 _ _ _. apply sim_ret. iIntros "C". iSplit; [done|]. iExact "C".
  - apply sim_if; intros T1.
    + apply sim_lift; [apply _|]. intros l s2 _.
      eapply sim_run; [apply r_num|]. intros t1 s3 _ x1.
      apply sim_lift; [apply _|]. intros e s4 [= <- <-]. apply sim_if; intros _.
      { intros o s' [= <- <-]. iIntros "[C R1]". iApply wp_bind. iApply f_ifnum. iFrame "R1".
        iApply (HE _ _ (FN0 tag)). iExact "C". }
      eapply sim_run; [apply r_num|]. intros t2 s5 _ x2.
      apply sim_lift; [apply _|]. intros e s6 [= <- <-]. apply sim_if; intros _.
      { intros o s' [= <- <-]. iIntros "[[C R1] R2]". iApply wp_bind. iApply f_ifnum. iFrame "R1".
        iApply wp_bind. iApply f_ifnum. iFrame "R2". iApply (HE _ _ (FN0 tag)). iExact "C". }
      eapply sim_run; [apply r_num|]. intros t3 s7 _ x3.
      apply sim_lift; [apply _|]. intros e s8 [= <- <-]. apply sim_if; intros _.
      { intros o s' [= <- <-]. iIntros "[[[C R1] R2] R3]". iApply wp_bind. iApply f_ifnum. iFrame "R1".
        iApply wp_bind. iApply f_ifnum. iFrame "R2". iApply wp_bind. iApply f_ifnum. iFrame "R3".
        iApply (HE _ _ (FN0 tag)). iExact "C". }
      intros o s' [= <- <-]. iIntros "[[[C R1] R2] R3]".
      iApply wp_bind. iApply print_num. iFrame "R1". iIntros "R1".
      iApply wp_bind. iApply print_num. iFrame "R2". iIntros "R2".
      iApply wp_bind. iApply print_num. iFrame "R3". iIntros "R3".
      iApply wp_bind. iApply f_ifnum. iFrame "R1". iApply wp_bind. iApply f_ifnum. iFrame "R2".
      iApply wp_bind. iApply f_ifnum. iFrame "R3". iApply wp_ret. iSplit; [done|]. iExact "C".
    + intros o s' [= <- <-]. iIntros "C". iApply (HE _ _ (FN0 tag)). iExact "C".
Qed.

Lemma r_time : refines_ok h_time_parse sml_time_parse (rep_opt rep_time).
Proof.
  intros s Es. apply sim_skipped. apply sim_malloc. intros p. apply (sim_weaken _ (cell [] (repeat rep_nul 2) p)).
  { iIntros "[_ P]". by iApply (nul_cell 2). }
  apply sim_lift; [apply _|]. intros b s1 E1. assert (s1 = s) as ->.
  { unfold sml_buf_get_current_byte in E1. destruct (nth_error _ _); [|discriminate]. by injection E1 as _ <-. }
  apply sim_if; intros _.
  - apply sim_malloc. intros tag. eapply (sim_heap _ _ _ _ (fun _ => cell [] [rep_opt rep_num (Some [SML_TIME_SEC_INDEX]); rep_nul] p)).
    + iIntros "[C T]". iApply (wp_cell_store [] (repeat rep_nul 2) 0 p (rep_num [SML_TIME_SEC_INDEX])); [done|]. iFrame "C T".
      iIntros "C". iSplit; [done|]. iExact "C".
    + intros []. by apply time_value_spec.
  - assert (HE : forall Rs s1, Forall2 frees [h_number_free; h_number_free] Rs ->
            cell [] Rs p ⊢ wp (on_error h_time_free p) s1 (PostR (rep_opt rep_time) None s1)).
    { intros Rs s2 HF. eapply on_error_spec; [|exact HF]. intros. by apply frees_cell. }
    assert (F0 : Forall2 frees [h_number_free; h_number_free] (repeat rep_nul 2)).
    { repeat apply List.Forall2_cons; try apply (f_num None). constructor. }
    apply sim_expect; try done.
    + intros s1. by apply HE.
    + intros s1 Es1. eapply (sim_field [h_number_free; h_number_free]); try reflexivity; try done.
      * apply refines_weak, r_num.
      * apply f_num.
      * intros v s2 _ Es2 _. by apply time_value_spec.
Qed.

(** *** Sequences *)
Lemma wp_hwith_fuel {A} (f : nat -> H A) s Φ : wp (f (fuel_of s)) s Φ ⊢ wp (hwith_fuel f) s Φ.
Proof. apply entails_holds. intros m W. exact W. Qed.
Lemma seq_loop_spec {A} hp (pp : Buf.P (option A)) ef R p :
  refines_ok hp pp (rep_opt R) -> (forall o, frees ef (rep_opt R o)) ->
  (forall s v s', pp s = Ret (Some v, s') -> error s = false -> error s' = false) ->
  forall fuel n acc s, (0 < n -> error s = false) ->
  sim (rep_seq R acc p) s (sequence_loop fuel n pp) (h_sequence_loop fuel n p hp ef)
    (fun o s1 x s2 => match o with
                      | Some t => ⟨s2 = s1 /\ x = p⟩ ∗ rep_seq R (acc ++ t) p
                      | None => ⟨s2 = set_err s1 /\ x = Nul⟩
                      end)%I.
Proof.
  intros HR HF HN. induction fuel as [|fuel IH]; intros n acc s Es; cbn [sequence_loop h_sequence_loop].
  { destruct (n <=? 0); [|by intros ? ?]. apply sim_ret. rewrite app_nil_r. iIntros "R". by iFrame. }
  destruct (n <=? 0) eqn:En. { apply sim_ret. rewrite app_nil_r. iIntros "R". by iFrame. }
  apply Z.leb_gt in En. specialize (Es En). eapply sim_run; [by apply HR|]. intros v s1 E1 x.
  apply sim_lift; [apply _|]. intros e s2 [= <- <-]. apply sim_if; intros Ee.
  - intros o s' [= <- <-]. iIntros "[Q R]". destruct v as [v|]; [apply HN in E1; congruence|].
    iDestruct "R" as "->". iApply wp_bind. iApply f_seq1; [exact HF|]. iFrame "Q".
    iApply wp_bind. iApply wp_lift; [reflexivity|]. iApply wp_ret. done.
  - eapply (sim_heap _ _ _ _ (fun _ => rep_seq R (acc ++ [v]) p)).
    + iIntros "[(%arr & P & A) R]".
      iApply (wp_append [] [] arr (map (rep_opt R) acc) (rep_opt R v)); [done|]. rewrite map_length.
      iFrame "P A R". iIntros (arr') "[P A]". iSplit; [done|]. iExists arr'.
      rewrite !app_length map_length map_app. iFrame.
    + intros []. specialize (IH (n - 1) (acc ++ [v]) s1 (fun _ => Ee)).
      intros o s' E. apply bind_inv in E as (t & s3 & E2 & E). injection E as <- <-.
      etrans; [apply (IH t s3 E2)|]. iIntros "W". iApply wp_wand. iFrame "W". iIntros (y s4) "Q".
      destruct t as [t|]; [|done]. by rewrite -app_assoc.
Qed.
Lemma r_seq {A} hp (pp : Buf.P (option A)) ef R :
  refines_ok hp pp (rep_opt R) -> (forall o, frees ef (rep_opt R o)) ->
  (forall s v s', pp s = Ret (Some v, s') -> error s = false -> error s' = false) ->
  refines_ok (h_sequence_parse hp ef) (sml_sequence_parse pp) (rep_opt (rep_seq R)).
Proof.
  intros HR HF HN s Es. apply sim_error_label. apply sim_lift; [apply _|]. intros t s1 E1. apply sim_if; intros Et.
  - intros o s' [= <- <-]. iIntros "_". iApply wp_bind. iApply wp_lift; [reflexivity|]. iApply wp_ret. by iSplit.
  - apply negb_false_iff, Z.eqb_eq in Et. subst t. apply next_type_same in E1; [|done]. subst s1.
    apply sim_malloc. intros p. apply sim_lift; [apply _|]. intros len s2 E2.
    apply (sim_weaken _ (rep_seq R [] p)). { iIntros "[_ P]". iExists Nul. by iFrame. }
    assert (HS := seq_loop_spec hp pp ef R p HR HF HN (fuel_of s2) len [] s2).
    assert (E0 : 0 < len -> error s2 = false). { intros L. apply next_length_error in E2; [congruence|lia]. }
    specialize (HS E0). intros o s' E. unfold with_fuel in E. specialize (HS o s' E).
    etrans; [exact HS|]. etrans; [|apply wp_hwith_fuel]. iIntros "W". iApply wp_wand. iFrame "W".
    iIntros (x s3) "Q". destruct o as [v|].
    + iDestruct "Q" as "[%E3 Q]". destruct E3 as [-> ->]. by iFrame.
    + iDestruct "Q" as %E3. destruct E3 as [-> ->]. by iSplit.
Qed.
(** *** Lists *)

(** the text of a short octet string value *)
Lemma value_short s v s1 b str :
  sml_value_parse s = Ret (Some v, s1) -> nth_error (buffer s) (cursor s) = Some b ->
  v_data v = VBytes str ->
  Z.land b (Z.lor SML_ANOTHER_TL SML_LENGTH_FIELD) = 1 \/
  Z.land b (Z.lor SML_ANOTHER_TL SML_LENGTH_FIELD) = 2 \/
  Z.land b (Z.lor SML_ANOTHER_TL SML_LENGTH_FIELD) = 3 ->
  (length str <= 2)%nat.
Proof.
  unfold sml_value_parse, unless_skipped. intros E Eb Ev Hb.
  apply bind_inv in E as (sk & s2 & E1 & E). destruct (sk =? 0) eqn:Esk; [|discriminate].
  apply Z.eqb_eq in Esk. subst sk. apply skipped_0 in E1. subst s2. cbn [negb] in E.
  apply bind_inv in E as (t & s2 & E1 & E). apply bind_inv in E as (b' & s3 & E2 & E).
  apply bind_inv in E as (v' & s4 & E3 & E).
  assert (s3 = s2 /\ (t <> 256 -> s2 = s)) as [-> H2].
  { split; [|by eapply next_type_same]. unfold sml_buf_get_current_byte in E2.
    destruct (nth_error _ _); [by injection E2 as _ <-|discriminate]. }
  apply bind_inv in E as (e & s5 & E4 & E). destruct e; [discriminate|]. injection E as -> <-.
  destruct (t =? SML_TYPE_OCTET_STRING) eqn:T0; [|exfalso].
  2:{ destruct (t =? SML_TYPE_BOOLEAN).
      { apply bind_inv in E3 as (d & s6 & E3 & E5). injection E5 as <- <-. by destruct d. }
      destruct (_ || _).
      { apply bind_inv in E3 as (m & s6 & E3 & E5). apply bind_inv in E5 as (d & s7 & E5 & E6).
        injection E6 as <- <-. by destruct d. }
      apply bind_inv in E3 as ([] & s6 & E3 & E5). by injection E5 as <- <-. }
  apply Z.eqb_eq in T0. subst t. rewrite H2 in E3; [|done].
  apply bind_inv in E3 as (d & s6 & E3 & E5). injection E5 as <- <-. destruct d as [str'|]; [|discriminate].
  injection Ev as ->. unfold sml_octet_string_parse, unless_skipped in E3.
  apply bind_inv in E3 as (sk & s2' & E7 & E). destruct (sk =? 0) eqn:Esk; [|discriminate].
  apply Z.eqb_eq in Esk. subst sk. apply skipped_0 in E7. subst s2'. cbn [negb] in E.
  apply bind_inv in E as (t & s7 & E7 & E). destruct (negb (t =? SML_TYPE_OCTET_STRING)) eqn:T0; [discriminate|].
  apply negb_false_iff, Z.eqb_eq in T0. subst t.
  assert (Hland : Z.land b SML_TYPE_FIELD = 0).
  { unfold sml_buf_get_next_type in E7. apply bind_inv in E7 as (e0 & s8 & E8 & E9). destruct e0.
    - by apply bind_inv in E9 as (? & ? & ? & E9).
    - injection E8 as _ <-. apply bind_inv in E9 as (b2 & s9 & E9 & E10).
      unfold sml_buf_get_current_byte in E9. rewrite Eb in E9. injection E9 as <- <-.
      by injection E10 as ->. }
  apply next_type_same in E7; [|done]. subst s7.
  apply bind_inv in E as (l & s7 & E7 & E). apply bind_inv in E as (bad & s8 & E8 & E).
  destruct bad; [discriminate|]. injection E8 as E8 <-. apply orb_false_iff in E8 as [L0 _].
  apply bind_inv in E as (bs & s9 & E9 & E). apply bind_inv in E as ([] & s10 & E10 & E).
  injection E as <- <-. apply read_current_length in E9 as [LB ->].
  assert (Hl : l <= 2).
  { unfold sml_buf_get_next_length in E7. apply bind_inv in E7 as (e0 & s8 & E8 & E11). destruct e0.
    { apply bind_inv in E11 as ([] & ? & ? & E11). injection E11 as <- <-. lia. }
    injection E8 as E8 <-.
    apply bind_inv in E11 as (b2 & s9 & E9 & E11). unfold sml_buf_get_current_byte in E9. rewrite Eb in E9.
    injection E9 as <- <-. rewrite Hland in E11. change (0 =? SML_TYPE_LIST) with false in E11. cbv iota zeta in E11.
    apply bind_inv in E11 as (ll & s11 & E12 & E11). apply bind_inv in E11 as (e1 & s12 & E13 & E11).
    destruct e1. { apply bind_inv in E11 as ([] & ? & ? & E11). injection E11 as <- <-. lia. }
    apply bind_inv in E11 as ([] & s13 & _ & E11). injection E11 as <- _.
    assert (ll = (Z.land b SML_LENGTH_FIELD, -1)) as ->.
    { unfold with_fuel, fuel_of in E12. cbn [get_next_length_loop] in E12.
      unfold bind at 1 in E12. unfold at_end in E12. rewrite E8 in E12. cbv iota in E12.
      unfold bind at 1 in E12. unfold sml_buf_get_current_byte in E12. rewrite Eb in E12.
      unfold bind at 1 in E12. unfold int_op at 1 in E12. change (wrap32 (0 * 16)) with 0 in E12.
      cbv zeta in E12. rewrite Z.lor_0_l in E12.
      assert (HA : Z.land b SML_ANOTHER_TL = 0).
      { change SML_ANOTHER_TL with (Z.land (Z.lor SML_ANOTHER_TL SML_LENGTH_FIELD) SML_ANOTHER_TL).
        rewrite Z.land_assoc. destruct Hb as [-> | [-> | ->]]; reflexivity. }
      rewrite HA in E12. by injection E12 as <- _. }
    assert (HA : Z.land b SML_LENGTH_FIELD = Z.land b (Z.lor SML_ANOTHER_TL SML_LENGTH_FIELD)).
    { change SML_LENGTH_FIELD with (Z.land (Z.lor SML_ANOTHER_TL SML_LENGTH_FIELD) SML_LENGTH_FIELD) at 1.
      rewrite Z.land_assoc. destruct Hb as [-> | [-> | ->]]; reflexivity. }
    cbn [fst snd]. rewrite HA. destruct Hb as [-> | [-> | ->]]; vm_compute; discriminate. }
  unfold sml_octet_string_init. destruct (l >? 0); [|cbn; lia]. rewrite firstn_length. lia.
Qed.

Lemma wp_cell_load rest Rs p i R s Φ : Rs !! i = Some R ->
  cell rest Rs p ∗ (∀ x, R x -∗ (∀ R' : slot -> hprop, R' x -∗ cell rest (<[i := R']> Rs) p) -∗ Φ x s)
  ⊢ wp (load p i) s Φ.
Proof.
  intros ER. iIntros "[(%ss & P & F) K]". iDestruct (fields_length with "F") as %L.
  destruct (lookup_lt_is_Some_2 ss i) as [x Ex]. { rewrite -L. by eapply lookup_lt_Some. }
  iApply wp_load; last (iFrame "P"; iIntros "P"); [by apply lookup_app_l_Some|].
  unfold fields. iDestruct (big_sepL2_insert_acc with "F") as "[R F]"; [exact ER|exact Ex|].
  iApply ("K" with "R"). iIntros (R') "R". iExists ss. iFrame "P".
  iSpecialize ("F" $! R' x with "R"). by rewrite (list_insert_id ss i x Ex).
Qed.
End WithHost.
