(** Writing with pointers does what the value-level writers do, and leaves the
    memory alone. *)
From stdpp Require Import gmap.
From iris.proofmode Require Import tactics.
From Verif Require Import Base Buf Crc16 Number OctetString Boolean Value Time SList Tree Bodies Message File
  HeapBase HeapModel HeapLogic HeapRep HeapFree HeapSim HeapWriteModel.

(** No block is given up while writing. *)
Definition quiet : Watch := fun _ => False.
Local Existing Instance quiet.
Local Instance keeps_quiet {A} (c : Buf.P A) : Keeps c.
Proof. intros s a s' E. done. Qed.

Section WithAllocator.
Context {AL : Allocator}.

(** [f] writes what [m] writes *)
Definition writes (f : slot -> H unit) (m : Buf.P unit) (R : slot -> hprop) : Prop :=
  forall p s, sim (R p) s m (f p) (PostR (fun _ _ => R p)).

Lemma sim_lift_last P s (m : Buf.P unit) (Q : hprop) : (P ⊢ Q) -> sim P s m (lift m) (PostR (fun _ _ => Q)).
Proof.
  intros HP b s' E. etrans; [|apply (wp_lift m s b s' _ E)]. iIntros "P". iSplit; [done|]. by iApply HP.
Qed.
Lemma cell_load_acc rest Rs p i R s Φ : Rs !! i = Some R ->
  cell rest Rs p ∗ (∀ x, R x ∗ (R x -∗ cell rest Rs p) -∗ Φ x s) ⊢ wp (load p i) s Φ.
Proof.
  intros E. iIntros "[(%ss & P & F) K]". iDestruct (fields_length with "F") as %L.
  assert (exists x, ss !! i = Some x) as [x Ex].
  { apply lookup_lt_is_Some. rewrite -L. apply lookup_lt_is_Some. by exists R. }
  iDestruct (big_sepL2_lookup_acc with "F") as "[R F]"; [exact E|exact Ex|].
  iApply wp_load; last (iFrame "P"; iIntros "P"; iApply "K"; iFrame "R"; iIntros "R"; iExists ss; iFrame "P"; by iApply "F").
  rewrite lookup_app_l //. by eapply lookup_lt_Some.
Qed.
Lemma sim_hw_last rest Rs p i w m R s : Rs !! i = Some R -> writes w m R ->
  sim (cell rest Rs p) s m (hw p i w) (PostR (fun _ _ => cell rest Rs p)).
Proof.
  intros E HW b s' Em. iIntros "C". unfold hw. iApply wp_bind. iApply cell_load_acc; [exact E|]. iFrame "C".
  iIntros (x) "[R C]". iApply wp_wand. iSplitL "R"; [by iApply (HW x s b s' Em)|].
  iIntros (a s2) "[-> R]". iSplit; [done|]. by iApply "C".
Qed.
Lemma sim_hw {A B} rest Rs p i w m R s (k : Buf.P A) (kh : H B) Ψ : Rs !! i = Some R -> writes w m R ->
  (forall s1, sim (cell rest Rs p) s1 k kh Ψ) ->
  sim (cell rest Rs p) s (m ;;; k) (hw p i w ;;; kh) Ψ.
Proof.
  intros E HW HK. eapply sim_bind; [by eapply sim_hw_last|]. intros v s1 _ x. apply HK.
Qed.
Lemma sim_lift_then {A B} P s (m : Buf.P unit) (k : Buf.P A) (kh : H B) Ψ :
  (forall s1, sim P s1 k kh Ψ) -> sim P s (m ;;; k) (lift m ;;; kh) Ψ.
Proof. intros HK. apply sim_lift; [apply _|]. intros [] s1 _. apply HK. Qed.
Lemma sim_fail {A B} P s (m : Buf.P A) (c : H B) Ψ : (forall b s', m s <> Ret (b, s')) -> sim P s m c Ψ.
Proof. intros HF b s' E. by apply HF in E. Qed.
Lemma sim_fuel {A B} P s (m : Buf.P A) (f : nat -> H B) n Ψ : (P ⊢ blocks n) ->
  (forall fuel, (n < fuel)%nat -> sim P s m (f fuel) Ψ) -> sim P s m (with_heap_fuel f) Ψ.
Proof. intros HB HF b s' E. apply (wp_heap_fuel _ n); [done|]. intros fuel L. by apply HF. Qed.

Lemma writes_opt {A} f (mw : option A -> Buf.P unit) (R : A -> slot -> hprop) :
  (forall s, sim emp%I s (mw None) (f Nul) (PostR (fun _ _ => emp%I))) ->
  (forall v, writes f (mw (Some v)) (R v)) -> forall o, writes f (mw o) (rep_opt R o).
Proof.
  intros HN HS [v|]; [apply HS|]. intros p s b s' E. iIntros "->". iApply wp_wand. iSplitR.
  - by iApply (HN s b s' E).
  - iIntros (x s2) "[-> _]". by iSplit.
Qed.
Lemma sim_opt_none s : sim emp%I s sml_buf_optional_write (lift sml_buf_optional_write) (PostR (fun _ _ => emp%I)).
Proof. by apply sim_lift_last. Qed.
(** a pointer that is dereferenced: NULL is a fault on both sides *)
Lemma none_faults {A} (m : Buf.P unit) (k : A -> Buf.P unit) (c : H unit) s : sim emp%I s (m ;;; deref None k) c (PostR (fun _ _ => emp%I)).
Proof. intros b s' E. apply bind_inv in E as (? & ? & _ & E). discriminate. Qed.

(** arrays *)
Lemma sim_for_each {A} f (mw : A -> Buf.P unit) (R : A -> slot -> hprop) p : forall l pre ss s,
  (forall a, In a l -> writes f (mw a) (R a)) ->
  sim (p ↦ Struct (pre ++ ss) ∗ fields (map R l) ss)%I s (write_all mw l) (for_each (length l) (length pre) p f)
    (PostR (fun _ _ => p ↦ Struct (pre ++ ss) ∗ fields (map R l) ss)%I).
Proof.
  induction l as [|a l IH]; intros pre ss s HW; cbn [map write_all length for_each].
  - apply sim_ret. iIntros "H". by iSplit.
  - intros b s' E. apply bind_inv in E as ([] & s1 & E1 & E2). iIntros "[P F]".
    iDestruct (fields_cons_inv with "F") as (x ss' ->) "[R F]".
    iApply wp_bind. iApply (wp_load p _ x (pre ++ x :: ss')).
    { rewrite lookup_app_r // Nat.sub_diag //. }
    iFrame "P". iIntros "P". iApply wp_bind. iApply wp_wand.
    iSplitL "R"; [iApply (HW a (or_introl eq_refl) x s _ _ E1); iExact "R"|].
    iIntros (? s2) "[-> R]".
    iPoseProof (IH (pre ++ [x]) ss' s1 (fun a Ha => HW a (or_intror Ha)) b s' E2) as "W".
    rewrite -!(assoc_L (++)) app_length Nat.add_1_r. cbn [app].
    iApply wp_wand. iSplitL "W P F"; [iApply "W"; iFrame|]. iIntros (? s2) "[-> [P F]]". iSplit; [done|].
    iFrame "P". rewrite fields_cons. iFrame.
Qed.
Lemma array_for_each {A} f (mw : A -> Buf.P unit) (R : A -> slot -> hprop) arr l s :
  (forall a, In a l -> writes f (mw a) (R a)) ->
  sim (array (map R l) arr) s (write_all mw l) (for_each (length l) 0 arr f) (PostR (fun _ _ => array (map R l) arr)).
Proof.
  intros HW. destruct l as [|a l]; [cbn; apply sim_ret; iIntros "H"; by iSplit|].
  intros b s' E. cbn [map array]. iIntros "(%ss & P & F)". rewrite app_nil_r.
  iPoseProof (sim_for_each f mw R arr (a :: l) [] ss s HW b s' E) as "W". cbn [List.app List.map].
  iApply wp_wand. iSplitL "W P F"; [iApply "W"; iFrame|]. iIntros (? s2) "[-> [P F]]". iSplit; [done|].
  iExists ss. rewrite app_nil_r. iFrame.
Qed.

Context {HO : Host}.

(** *** Numbers, strings, values *)

Lemma wp_load_first p bs n s Φ : (0 <= n)%Z -> (Z.to_nat n <= length bs)%nat ->
  p ↦ Bytes bs ∗ (p ↦ Bytes bs -∗ Φ (firstn (Z.to_nat n) bs) s) ⊢ wp (load_first p n) s Φ.
Proof.
  intros Hn HL. iIntros "[P K]". unfold load_first. destruct (n =? 0) eqn:E.
  - apply Z.eqb_eq in E. subst n. iApply wp_ret. by iApply "K".
  - iApply wp_bind. iApply wp_load_bytes. iFrame "P". iIntros "P".
    rewrite (proj2 (Nat.ltb_ge _ _) HL). iApply wp_ret. by iApply "K".
Qed.
Lemma wp_lift_run (m : Buf.P unit) s b s' Φ : m s = Ret (b, s') -> Φ b s' ⊢ wp (lift m) s Φ.
Proof. intros E. apply (wp_lift m s b s' _ E). Qed.

Lemma w_num t z o : 0 <= z -> writes (h_number_write t z) (sml_number_write o t z) (rep_opt rep_num o).
Proof.
  intros Hz. apply (writes_opt _ (fun o => sml_number_write o t z)); [apply sim_opt_none|]. clear o.
  intros m p s b s' E. unfold rep_num. iIntros "P".
  iDestruct (pts_ptr with "P") as "[P (%l & ->)]". cbn [h_number_write hwrite_opt].
  apply bind_inv in E as ([] & s1 & E1 & E). apply bind_inv in E as ([] & s2 & E2 & E).
  destruct (length m <? Z.to_nat z)%nat eqn:EL; [discriminate|]. injection E2 as <-. apply Nat.ltb_ge in EL.
  apply bind_inv in E as ([] & s3 & E3 & E).
  iApply wp_bind. iApply (wp_lift_run _ _ _ _ _ E1). iApply wp_bind. iApply wp_load_first; [done|exact EL|].
  iFrame "P". iIntros "P". iApply wp_bind. iApply (wp_lift_run _ _ _ _ _ E3). iApply (wp_lift_run _ _ _ _ _ E).
  by iFrame.
Qed.
(** a number of no bytes: the object does not matter *)
Lemma w_num_0 t (R : slot -> hprop) : (forall p, R p ⊢ ∃ b, p ↦ b ∗ (p ↦ b -∗ R p)) ->
  writes (h_number_write t 0) (sml_number_write (Some []) t 0) R.
Proof.
  intros HR p s b s' E. rewrite {1}HR. iIntros "(%bl & P & K)".
  iDestruct (pts_ptr with "P") as "[P (%l & ->)]". cbn [h_number_write hwrite_opt].
  apply bind_inv in E as ([] & s1 & E1 & E). apply bind_inv in E as ([] & s2 & E2 & E). injection E2 as <-.
  apply bind_inv in E as ([] & s3 & E3 & E).
  iApply wp_bind. iApply (wp_lift_run _ _ _ _ _ E1). iApply wp_bind. iApply wp_ret.
  iApply wp_bind. iApply (wp_lift_run _ _ _ _ _ E3). iApply (wp_lift_run _ _ _ _ _ E).
  iSplit; [done|]. by iApply "K".
Qed.
Lemma w_str1 v : writes h_octet_string_write (sml_octet_string_write (Some v)) (rep_str v).
Proof.
  intros p s b s' E. unfold h_octet_string_write, rep_str.
  apply bind_inv in E as ([] & s1 & E1 & E). apply bind_inv in E as ([] & s2 & E2 & E).
  destruct v as [|c v].
  - iIntros "P". iDestruct (pts_ptr with "P") as "[P (%l & ->)]". cbn [hwrite_opt].
    iApply wp_bind. hload_int "P". iApply wp_bind. iApply (wp_lift_run _ _ _ _ _ E1).
    iApply wp_bind. hload "P". iApply wp_bind. iApply wp_ret.
    iApply wp_bind. iApply (wp_lift_run _ _ _ _ _ E2). iApply (wp_lift_run _ _ _ _ _ E). by iFrame.
  - iIntros "(%d & P & D)". iDestruct (pts_ptr with "P") as "[P (%l & ->)]". cbn [hwrite_opt].
    iApply wp_bind. hload_int "P". iApply wp_bind. iApply (wp_lift_run _ _ _ _ _ E1).
    iApply wp_bind. hload "P". iApply wp_bind. iApply wp_load_first; [lia|by rewrite Nat2Z.id|].
    iFrame "D". iIntros "D". rewrite Nat2Z.id firstn_all.
    iApply wp_bind. iApply (wp_lift_run _ _ _ _ _ E2). iApply (wp_lift_run _ _ _ _ _ E). iSplit; [done|].
    iExists d. iFrame.
Qed.
Lemma w_str o : writes h_octet_string_write (sml_octet_string_write o) (rep_opt rep_str o).
Proof. apply writes_opt; [apply sim_opt_none|apply w_str1]. Qed.
Lemma w_bool o : writes h_boolean_write (sml_boolean_write o) (rep_opt rep_bool o).
Proof.
  apply writes_opt; [apply sim_opt_none|]. intros v p s b s' E. unfold rep_bool. iIntros "P".
  iDestruct (pts_ptr with "P") as "[P (%l & ->)]". unfold h_boolean_write. cbn [hwrite_opt].
  apply bind_inv in E as ([] & s1 & E1 & E). apply bind_inv in E as ([] & s2 & E2 & E).
  iApply wp_bind. iApply (wp_lift_run _ _ _ _ _ E1). iApply wp_bind. iApply (wp_load_first _ [v]); [lia|cbn; lia|].
  iFrame "P". iIntros "P". iApply wp_bind. iApply (wp_lift_run _ _ _ _ _ E2). iApply (wp_lift_run _ _ _ _ _ E).
  by iFrame.
Qed.
Lemma w_value o : writes h_value_write (sml_value_write o) (rep_opt rep_value o).
Proof.
  apply writes_opt; [apply sim_opt_none|]. clear o. intros v p s b s' E. iIntros "(%d & P & D)".
  iDestruct (pts_ptr with "P") as "[P (%l & ->)]". unfold h_value_write. cbn [hwrite_opt].
  iApply wp_bind. hload_int "P". unfold sml_value_write, write_opt in E.
  set (ty := Z.land (v_type v) SML_TYPE_FIELD) in *. cbv zeta.
  assert (HC : forall w (m : Buf.P unit), writes w m (rep_vdata (v_type v) (v_data v)) -> m s = Ret (b, s') ->
    Ptr l ↦ Struct [Int (v_type v); d] ∗ rep_vdata (v_type v) (v_data v) d
    ⊢ wp (hw (Ptr l) 1 w) s (PostR (fun _ _ => rep_value v (Ptr l)) b s')).
  { intros w m HW Em. iIntros "[P D]". unfold hw. iApply wp_bind. hload "P". iApply wp_wand.
    iSplitL "D"; [iApply (HW d s b s' Em); iExact "D"|]. iIntros (? s2) "[-> D]". iSplit; [done|]. iExists d. iFrame. }
  destruct (ty =? SML_TYPE_OCTET_STRING) eqn:T1.
  - apply bind_inv in E as (o & s1 & E1 & E). iApply (HC _ (sml_octet_string_write o)); [| |iFrame].
    + destruct (v_data v) as [|str|bo|m]; try discriminate; injection E1 as <- <-; unfold rep_vdata.
      * apply (w_str None).
      * destruct (v_type v =? SML_TYPE_OCTET_STRING); [apply w_str1|].
        intros q s0 b0 s0' _. iIntros "[%N P]". by apply Z.eqb_eq in T1.
    + destruct (v_data v); try discriminate; injection E1 as <- <-; done.
  - destruct (ty =? SML_TYPE_BOOLEAN) eqn:T2.
    + apply bind_inv in E as (o & s1 & E1 & E). iApply (HC _ (sml_boolean_write o)); [| |iFrame].
      * destruct (v_data v) as [|str|bo|m]; try discriminate; injection E1 as <- <-; unfold rep_vdata.
        -- apply (w_bool None).
        -- intros q s0 b0 s0' Eb. iIntros "[N P]". iApply wp_wand. iSplitL "P"; [by iApply (w_bool (Some bo) q s0 b0 s0' Eb)|].
           iIntros (? s2) "[-> P]". by iFrame.
      * destruct (v_data v); try discriminate; injection E1 as <- <-; done.
    + destruct (_ || _).
      * apply bind_inv in E as (o & s1 & E1 & E).
        iApply (HC _ (sml_number_write o ty (Z.land (v_type v) SML_LENGTH_FIELD))); [| |iFrame].
        -- assert (HZ : 0 <= Z.land (v_type v) SML_LENGTH_FIELD) by (apply Z.land_nonneg; by right).
           destruct (v_data v) as [|str|bo|m]; cbn [as_num_sized] in E1; unfold rep_vdata.
           ++ injection E1 as <- <-. by apply (w_num ty _ None).
           ++ destruct (Z.land (v_type v) SML_LENGTH_FIELD =? 0) eqn:EZ; [|discriminate]. injection E1 as <- <-.
              apply Z.eqb_eq in EZ. rewrite EZ. apply w_num_0. intros q. destruct (v_type v =? _) eqn:T.
              { apply Z.eqb_eq in T. subst ty. rewrite T in T1. discriminate. }
              iIntros "(%N & %a & P)". iExists _. iFrame "P". iIntros "P". iSplit; [done|]. by iExists a.
           ++ destruct (Z.land (v_type v) SML_LENGTH_FIELD =? 0) eqn:EZ; [|discriminate]. injection E1 as <- <-.
              apply Z.eqb_eq in EZ. rewrite EZ. apply w_num_0. intros q.
              iIntros "[N P]". iExists _. iFrame "P". iIntros "P". by iFrame.
           ++ injection E1 as <- <-. intros q s0 b0 s0' Eb. iIntros "[N P]". iApply wp_wand.
              iSplitL "P"; [by iApply (w_num ty _ (Some m) HZ q s0 b0 s0' Eb)|].
              iIntros (? s2) "[-> P]". by iFrame.
        -- destruct (v_data v) as [|str|bo|m]; cbn [as_num_sized] in E1; try (injection E1 as <- <-; done);
             (destruct (Z.land (v_type v) SML_LENGTH_FIELD =? 0); [injection E1 as <- <-; done|discriminate]).
      * injection E as <- <-. iApply wp_ret. iSplit; [done|]. iExists d. iFrame.
Qed.
Lemma w_status o : writes h_status_write (sml_status_write o) (rep_opt rep_status o).
Proof.
  apply writes_opt; [apply sim_opt_none|]. intros v p s b s' E. iIntros "(%d & P & D)".
  iDestruct (pts_ptr with "P") as "[P (%l & ->)]". unfold h_status_write. cbn [hwrite_opt].
  iApply wp_bind. hload_int "P". unfold hw. iApply wp_bind. hload "P". iApply wp_wand. iSplitL "D".
  - iApply (w_num _ _ (st_data v) with "D"); [apply Z.land_nonneg; by right|exact E].
  - iIntros (? s2) "[-> D]". iSplit; [done|]. iExists d. iFrame.
Qed.

Ltac hwf := first [apply w_str|apply w_num; done|apply w_bool|apply w_value|apply w_status|idtac].
Ltac hws t := first
  [ apply sim_lift_then; intros ?
  | eapply sim_hw; [reflexivity|t|intros ?]
  | eapply sim_hw_last; [reflexivity|t] ].
(** the pointer is not NULL *)
Lemma sim_cell_opt rest Rs p s m k Ψ : (forall l, p = Ptr l -> sim (cell rest Rs p) s m k Ψ) ->
  sim (A := unit) (cell rest Rs p) s m (hwrite_opt p k) Ψ.
Proof.
  intros HK b s' E. iIntros "C". iDestruct (cell_ptr with "C") as "[C (%l & ->)]". cbn [hwrite_opt].
  by iApply (HK l eq_refl b s' E).
Qed.
Lemma w_time o : writes h_time_write (sml_time_write o) (rep_opt rep_time o).
Proof.
  apply writes_opt; [apply sim_opt_none|]. intros v p s. apply sim_cell_opt. intros l _. unfold sml_time_write, write_opt.
  repeat hws hwf.
Qed.

(** *** Sequences and lists *)

Lemma w_seq {A} w (mw : option A -> Buf.P unit) (R : A -> slot -> hprop) : (forall o, writes w (mw o) (rep_opt R o)) ->
  forall o, writes (h_sequence_write w) (sml_sequence_write mw o) (rep_opt (rep_seq R) o).
Proof.
  intros HW. apply writes_opt; [apply sim_opt_none|]. intros l p s b s' E. iIntros "(%arr & P & A)".
  iDestruct (pts_ptr with "P") as "[P (%q & ->)]". unfold h_sequence_write. cbn [hwrite_opt].
  apply bind_inv in E as ([] & s1 & E1 & E).
  iApply wp_bind. hload_int "P". iApply wp_bind. iApply (wp_lift_run _ _ _ _ _ E1). iApply wp_bind. hload "P".
  rewrite Nat2Z.id. iApply wp_wand. iSplitL "A".
  - iApply (array_for_each w mw (rep_opt R) arr l s1 (fun a _ => HW a) b s' E). iExact "A".
  - iIntros (? s2) "[-> A]". iSplit; [done|]. iExists arr. iFrame.
Qed.

Lemma w_entry e n p s : sim (cell [n] (entry_fields e) p) s (sml_list_entry_write e) (h_list_entry_write p)
  (PostR (fun _ _ => cell [n] (entry_fields e) p)).
Proof. unfold sml_list_entry_write, h_list_entry_write. repeat hws ltac:(idtac; first [hwf; fail|apply w_time|hwf]). Qed.

Lemma list_length_loop_spec : forall l fuel p len s Φ, (length l < fuel)%nat ->
  rep_list l p ∗ (rep_list l p -∗ Φ (len + Z.of_nat (length l)) s) ⊢ wp (h_list_length_loop fuel p len) s Φ.
Proof.
  induction l as [|e l IH]; intros fuel p len s Φ L; (destruct fuel as [|fuel]; [cbn in L; lia|]); iIntros "[S K]".
  - iDestruct "S" as "->". cbn [h_list_length_loop length]. rewrite Z.add_0_r. iApply wp_ret. by iApply "K".
  - rewrite rep_list_cons. iDestruct "S" as (n) "[C S]". iDestruct (cell_ptr with "C") as "[C (%q & ->)]".
    cbn [h_list_length_loop]. iApply wp_bind. iApply (cell_load_rest [n] (entry_fields e) (Ptr q) 0 n); [done|].
    iFrame "C". iIntros "C". iApply IH; [cbn in L; lia|]. iFrame "S". iIntros "S".
    replace (len + 1 + Z.of_nat (length l)) with (len + Z.of_nat (length (e :: l))) by (cbn [length]; lia).
    iApply "K". iExists n. iFrame.
Qed.
Lemma list_write_loop_spec : forall l fuel p s, (length l < fuel)%nat ->
  sim (rep_list l p) s (write_all sml_list_entry_write l) (h_list_write_loop fuel p) (PostR (fun _ _ => rep_list l p)).
Proof.
  induction l as [|e l IH]; intros fuel p s L; (destruct fuel as [|fuel]; [cbn in L; lia|]); intros b s' E.
  - iIntros "S". iDestruct "S" as "->". cbn [h_list_write_loop if_ptr]. injection E as <- <-. iApply wp_ret. by iSplit.
  - cbn [write_all] in E. apply bind_inv in E as ([] & s1 & E1 & E).
    rewrite {1}rep_list_cons. iIntros "(%n & C & S)". iDestruct (cell_ptr with "C") as "[C (%q & ->)]".
    cbn [h_list_write_loop if_ptr]. iApply wp_bind. iApply wp_wand.
    iSplitL "C"; [iApply (w_entry e n _ s _ _ E1); iExact "C"|]. iIntros (? s2) "[-> C]".
    iApply wp_bind. iApply (cell_load_rest [n] (entry_fields e) (Ptr q) 0 n); [done|]. iFrame "C". iIntros "C".
    iApply wp_wand. iSplitL "S"; [iApply (IH fuel n s1 ltac:(cbn in L; lia) b s' E); iExact "S"|].
    iIntros (? s2) "[-> S]". iSplit; [done|]. iExists n. iFrame.
Qed.
Lemma w_list l : writes h_list_write (sml_list_write l) (rep_list l).
Proof.
  intros p s b s' E. destruct (decide (l = [])) as [->|Nl].
  - iIntros "->". iApply (wp_lift_run _ _ _ _ _ E). by iSplit.
  - assert (E' : (sml_buf_set_type_and_length SML_TYPE_LIST (to_u32 (Z.of_nat (length l))) ;;;
      write_all sml_list_entry_write l) s = Ret (b, s')) by (destruct l; [done|exact E]). clear E.
    apply bind_inv in E' as ([] & s1 & E1 & E). iIntros "S". unfold h_list_write.
    iAssert (rep_list l p ∗ ⟨exists q, p = Ptr q⟩)%I with "[S]" as "[S (%q & ->)]".
    { destruct l as [|e t]; [done|]. rewrite rep_list_cons. iDestruct "S" as (n) "[C S]". iDestruct (cell_ptr with "C") as "[C %Q]".
      iSplitL; [|done]. iExists n. iFrame. }
    cbn [hwrite_opt]. iApply wp_bind. iStopProof. apply (wp_heap_fuel _ (length l)); [apply blocks_list|].
    intros fuel L. iIntros "S". iApply (list_length_loop_spec l fuel _ 0); [done|]. iFrame "S". iIntros "S".
    rewrite Z.add_0_l. iApply wp_bind. iApply (wp_lift_run _ _ _ _ _ E1).
    iStopProof. apply (wp_heap_fuel _ (length l)); [apply blocks_list|]. intros fuel2 L2.
    apply (list_write_loop_spec l fuel2 _ s1 L2 b s' E).
Qed.

(** *** Trees *)

Lemma w_path o : writes h_tree_path_write (sml_tree_path_write o) (rep_opt rep_tree_path o).
Proof.
  apply writes_opt; [apply sim_opt_none|]. intros l p s b s' E. iIntros "(%arr & P & A)".
  iDestruct (pts_ptr with "P") as "[P (%q & ->)]". unfold h_tree_path_write. cbn [hwrite_opt].
  iApply wp_bind. hload "P". iApply wp_bind. hload_int "P". unfold sml_tree_path_write, write_opt in E.
  destruct l as [|x l].
  - iDestruct "A" as "->". injection E as <- <-. iApply wp_ret. iSplit; [done|]. iExists Nul. by iFrame.
  - iDestruct (cell_ptr with "A") as "[A (%r & ->)]". cbn [if_ptr].
    destruct (Z.of_nat (length (x :: l)) >? 0) eqn:EG; [|rewrite Z.gtb_ltb in EG; apply Z.ltb_ge in EG; cbn in EG; lia].
    apply bind_inv in E as ([] & s1 & E1 & E). iApply wp_bind. iApply (wp_lift_run _ _ _ _ _ E1).
    rewrite Nat2Z.id. iApply wp_wand. iSplitL "A".
    + iApply (array_for_each _ _ rep_str (Ptr r) (x :: l) s1 (fun a _ => w_str1 a) b s' E). iExact "A".
    + iIntros (? s2) "[-> A]". iSplit; [done|]. iExists (Ptr r). iFrame.
Qed.

Ltac hwf2 := idtac; first [apply w_str|apply w_num; done|apply w_bool|apply w_value|apply w_status|apply w_time
  |apply w_list|apply w_path|idtac].
Lemma w_tupel o : writes h_tupel_entry_write (sml_tupel_entry_write o) (rep_opt rep_tupel o).
Proof.
  apply writes_opt; [apply sim_opt_none|]. intros v p s. apply sim_cell_opt. intros l _.
  unfold sml_tupel_entry_write, write_opt. repeat hws hwf2.
Qed.
Lemma w_period o : writes h_period_entry_write (sml_period_entry_write o) (rep_opt rep_period o).
Proof.
  apply writes_opt; [apply sim_opt_none|]. intros v p s. apply sim_cell_opt. intros l _.
  unfold sml_period_entry_write, write_opt. repeat hws hwf2.
Qed.
Lemma w_ppv o : writes h_proc_par_value_write (sml_proc_par_value_write o) (rep_opt rep_ppv o).
Proof.
  apply writes_opt; [apply sim_opt_none|]. intros v p s b s' E. iIntros "[M C]".
  iDestruct (cell_ptr with "C") as "[C (%l & ->)]". unfold h_proc_par_value_write. cbn [hwrite_opt].
  apply bind_inv in E as ([] & s1 & E1 & E). apply bind_inv in E as ([] & s2 & E2 & E).
  iApply wp_bind. iApply (wp_lift_run _ _ _ _ _ E1). iApply wp_bind. iApply wp_wand. iSplitL "C".
  { iApply (sim_hw_last [] [rep_opt rep_num (ppv_tag v); rep_ppv_data (ppv_dat v)] (Ptr l) 0 _ _ _ s1 eq_refl (w_num SML_TYPE_UNSIGNED 1 (ppv_tag v) ltac:(lia)) _ _ E2). iExact "C". }
  iIntros (? s3) "[-> C]". destruct (ppv_tag v) as [m|] eqn:Et; [|discriminate].
  iApply wp_bind. iApply (cell_load_acc [] [rep_num m; rep_ppv_data (ppv_dat v)] (Ptr l) 0 (rep_num m)); [reflexivity|].
  iFrame "C". iIntros (x) "[R C]".
  iApply wp_bind. iApply wp_load_bytes. iFrame "R". iIntros "R". iDestruct ("C" with "R") as "C".
  assert (HC : forall w (mm : Buf.P unit), writes w mm (rep_ppv_data (ppv_dat v)) -> mm s2 = Ret (b, s') ->
    ⟨ppv_matches v⟩ ∗ cell [] [rep_num m; rep_ppv_data (ppv_dat v)] (Ptr l)
    ⊢ wp (hw (Ptr l) 1 w) s2 (PostR (fun _ _ => rep_ppv v (Ptr l)) b s')).
  { intros w mm HW Em. iIntros "[M C]". iApply wp_wand. iSplitL "C".
    - iApply (sim_hw_last [] [rep_num m; rep_ppv_data (ppv_dat v)] (Ptr l) 1 _ _ _ s2 eq_refl HW _ _ Em). iExact "C".
    - iIntros (? s3) "[-> C]". iSplit; [done|]. unfold rep_ppv. rewrite Et. iFrame. }
  cbv zeta in E |- *.
  destruct (mem_u m =? _); [|destruct (mem_u m =? _); [|destruct (mem_u m =? _); [|destruct (mem_u m =? _)]]].
  - apply bind_inv in E as (od & s3 & E3 & E). destruct (ppv_dat v) as [|d|d|d|d]; try discriminate; injection E3 as <- <-.
    + iApply (HC _ _ (w_value None) E). iFrame.
    + iApply (HC _ _ (w_value (Some d)) E). iFrame.
  - apply bind_inv in E as (od & s3 & E3 & E). destruct (ppv_dat v) as [|d|d|d|d]; try discriminate; injection E3 as <- <-.
    + iApply (HC _ _ (w_period None) E). iFrame.
    + iApply (HC _ _ (w_period (Some d)) E). iFrame.
  - apply bind_inv in E as (od & s3 & E3 & E). destruct (ppv_dat v) as [|d|d|d|d]; try discriminate; injection E3 as <- <-.
    + iApply (HC _ _ (w_tupel None) E). iFrame.
    + iApply (HC _ _ (w_tupel (Some d)) E). iFrame.
  - apply bind_inv in E as (od & s3 & E3 & E). destruct (ppv_dat v) as [|d|d|d|d]; try discriminate; injection E3 as <- <-.
    + iApply (HC _ _ (w_time None) E). iFrame.
    + iApply (HC _ _ (w_time (Some d)) E). iFrame.
  - injection E as <- <-. iApply wp_ret. iSplit; [done|]. unfold rep_ppv. rewrite Et. iFrame.
Qed.

Lemma tree_go l : (fix go l := match l with [] => ret tt | c :: t => sml_tree_write_node c ;;; go t end) l
  = write_all sml_tree_write_node l.
Proof. induction l as [|c l IH]; [done|]. cbn [write_all]. by rewrite -IH. Qed.
Lemma w_tree_rec : forall t depth, (tdepth t <= depth)%nat ->
  writes (h_tree_write_rec depth) (sml_tree_write_node t) (rep_tree t).
Proof.
  intros t. induction t as [name value children IH] using tree_induction. intros depth L.
  destruct depth as [|depth]; [cbn in L; lia|]. intros p s b s' E.
  cbn [sml_tree_write_node] in E. rewrite tree_go in E.
  apply bind_inv in E as ([] & s1 & E1 & E). apply bind_inv in E as ([] & s2 & E2 & E). apply bind_inv in E as ([] & s3 & E3 & E).
  iIntros "(%arr & C & A)". iDestruct (cell_ptr with "C") as "[C (%l & ->)]". cbn [h_tree_write_rec hwrite_opt].
  iApply wp_bind. iApply (wp_lift_run _ _ _ _ _ E1).
  iApply wp_bind. iApply wp_wand. iSplitL "C".
  { iApply (sim_hw_last _ [rep_opt rep_str name; rep_opt rep_ppv value] (Ptr l) 0 _ _ _ s1 eq_refl (w_str name) _ _ E2). iExact "C". }
  iIntros (? s4) "[-> C]". iApply wp_bind. iApply wp_wand. iSplitL "C".
  { iApply (sim_hw_last _ [rep_opt rep_str name; rep_opt rep_ppv value] (Ptr l) 1 _ _ _ s2 eq_refl (w_ppv value) _ _ E3). iExact "C". }
  iIntros (? s4) "[-> C]".
  iApply wp_bind. iApply (cell_load_rest [arr; Int (Z.of_nat (length children))] [rep_opt rep_str name; rep_opt rep_ppv value] (Ptr l) 0 arr); [done|].
  iFrame "C". iIntros "C".
  iApply wp_bind. unfold load_int. iApply wp_bind.
  iApply (cell_load_rest [arr; Int (Z.of_nat (length children))] [rep_opt rep_str name; rep_opt rep_ppv value] (Ptr l) 1 (Int (Z.of_nat (length children)))); [done|].
  iFrame "C". iIntros "C". iApply wp_ret.
  destruct children as [|c0 cs] eqn:Ech.
  - iDestruct "A" as "->". iApply (wp_lift_run _ _ _ _ _ E). iSplit; [done|]. iExists Nul. by iFrame.
  - iDestruct (cell_ptr with "A") as "[A (%r & ->)]".
    destruct (Z.of_nat (length (c0 :: cs)) >? 0) eqn:EG; [|rewrite Z.gtb_ltb in EG; apply Z.ltb_ge in EG; cbn in EG; lia].
    apply bind_inv in E as ([] & s5 & E5 & E). iApply wp_bind. iApply (wp_lift_run _ _ _ _ _ E5).
    rewrite Nat2Z.id. iApply wp_wand. iSplitL "A".
    + iApply (array_for_each (h_tree_write_rec depth) sml_tree_write_node rep_tree (Ptr r) (c0 :: cs) s5 with "A"); [|exact E].
      intros c Hc. rewrite List.Forall_forall in IH. apply IH; [done|].
      cbn [tdepth] in L. assert (B := list_max_le_in (map tdepth (c0 :: cs)) (tdepth c) (in_map _ _ _ Hc)). lia.
    + iIntros (? s6) "[-> A]". iSplit; [done|]. iExists (Ptr r). iFrame.
Qed.
Lemma w_tree o : writes h_tree_write (sml_tree_write o) (rep_opt rep_tree o).
Proof.
  apply writes_opt.
  - intros s. apply (sim_fuel _ _ _ _ 0); [apply blocks_0|]. intros fuel L. destruct fuel as [|fuel]; [lia|]. apply sim_opt_none.
  - intros t p s. apply (sim_fuel _ _ _ _ (tdepth t)); [apply blocks_tree|]. intros fuel L. apply w_tree_rec. lia.
Qed.

(** *** Message bodies *)

Tactic Notation "hrec" constr(m) reference(n) := apply (writes_opt _ m); [intros ?; apply none_faults|intros ? ? ?; unfold n, deref; repeat hws hwf2].
Lemma w_open_req o : writes h_open_request_write (sml_open_request_write o) (rep_opt rep_open_req o).
Proof. hrec sml_open_request_write sml_open_request_write. Qed.
Lemma w_open_res o : writes h_open_response_write (sml_open_response_write o) (rep_opt rep_open_res o).
Proof. hrec sml_open_response_write sml_open_response_write. Qed.
Lemma w_close_req o : writes h_close_request_write (sml_close_request_write o) (rep_opt rep_close_req o).
Proof. hrec sml_close_request_write sml_close_request_write. Qed.
Lemma w_close_res o : writes h_close_response_write (sml_close_response_write o) (rep_opt rep_close_res o).
Proof. hrec sml_close_response_write sml_close_response_write. Qed.

(** the object list: the loop stops at the last element *)
Lemma objs_length_loop_spec : forall t e n fuel p len s Φ, (length t < fuel)%nat ->
  cell [n] [rep_opt rep_str e] p ∗ rep_objs t n Nul ∗
    (cell [n] [rep_opt rep_str e] p ∗ rep_objs t n Nul -∗ Φ (len + Z.of_nat (length t)) s)
  ⊢ wp (h_object_list_length_loop fuel p len) s Φ.
Proof.
  induction t as [|e2 t IH]; intros e n fuel p len s Φ L; (destruct fuel as [|fuel]; [cbn in L; lia|]); iIntros "(C & S & K)";
    cbn [h_object_list_length_loop]; iApply wp_bind; (iApply (cell_load_rest [n] [rep_opt rep_str e] p 0 n); [done|]);
    iFrame "C"; iIntros "C".
  - iDestruct "S" as "->". iApply wp_ret. cbn [length]. rewrite Z.add_0_r. iApply "K". by iFrame.
  - iDestruct "S" as (n2) "[C2 S]". iDestruct (cell_ptr with "C2") as "[C2 (%q & ->)]".
    iApply (IH e2 n2); [cbn in L; lia|]. iFrame "C2 S". iIntros "[C2 S]".
    replace (len + 1 + Z.of_nat (length t)) with (len + Z.of_nat (length (e2 :: t))) by (cbn [length]; lia).
    iApply "K". iFrame "C". iExists n2. iFrame.
Qed.
Lemma objs_write_loop_spec : forall t e n fuel p s, (length t < fuel)%nat ->
  sim (cell [n] [rep_opt rep_str e] p ∗ rep_objs t n Nul)%I s (write_all sml_octet_string_write (removelast (e :: t)))
    (h_object_list_write_loop fuel p) (PostR (fun _ _ => cell [n] [rep_opt rep_str e] p ∗ rep_objs t n Nul)%I).
Proof.
  induction t as [|e2 t IH]; intros e n fuel p s L b s' E; (destruct fuel as [|fuel]; [cbn in L; lia|]); iIntros "[C S]";
    cbn [h_object_list_write_loop]; iApply wp_bind; (iApply (cell_load_rest [n] [rep_opt rep_str e] p 0 n); [done|]);
    iFrame "C"; iIntros "C".
  - iDestruct "S" as "->". injection E as <- <-. iApply wp_ret. iSplit; [done|]. by iFrame.
  - iDestruct "S" as (n2) "[C2 S]". iDestruct (cell_ptr with "C2") as "[C2 (%q & ->)]".
    change (removelast (e :: e2 :: t)) with (e :: removelast (e2 :: t)) in E. cbn [write_all] in E.
    apply bind_inv in E as ([] & s1 & E1 & E). iApply wp_bind. iApply wp_wand. iSplitL "C".
    { iApply (sim_hw_last [Ptr q] [rep_opt rep_str e] p 0 _ _ _ s eq_refl (w_str e) _ _ E1). iExact "C". }
    iIntros (? s2) "[-> C]". iApply wp_wand. iSplitL "C2 S".
    { iApply (IH e2 n2 fuel (Ptr q) s1 ltac:(cbn in L; lia) b s' E). iFrame. }
    iIntros (? s2) "[-> [C2 S]]". iSplit; [done|]. iFrame "C". iExists n2. iFrame.
Qed.
Lemma w_objs l : writes h_object_list_write (object_list_write l) (fun p => rep_objs l p Nul).
Proof.
  intros p s b s' E. destruct l as [|e t].
  - iIntros "->". iApply (wp_lift_run _ _ _ _ _ E). by iSplit.
  - cbn [object_list_write] in E. apply bind_inv in E as ([] & s1 & E1 & E). iIntros "(%n & C & S)".
    iDestruct (cell_ptr with "C") as "[C (%q & ->)]". unfold h_object_list_write. cbn [hwrite_opt].
    assert (HB : cell [n] [rep_opt rep_str e] (Ptr q) ∗ rep_objs t n Nul ⊢ blocks (length t)).
    { iIntros "[C S]". rewrite -(Nat.add_0_r (length t)). iApply (blocks_sep (rep_objs t n Nul) (cell [n] [rep_opt rep_str e] (Ptr q)) (length t) 0);
        [apply blocks_objs|apply blocks_0|iFrame]. }
    iApply wp_bind. iCombine "C S" as "S". iStopProof. apply (wp_heap_fuel _ (length t)); [exact HB|].
    intros fuel L. iIntros "[C S]". iApply (objs_length_loop_spec t e n fuel _ 1); [done|]. iFrame "C S". iIntros "S".
    replace (1 + Z.of_nat (length t)) with (Z.of_nat (length (e :: t))) by (cbn [length]; lia).
    iApply wp_bind. iApply (wp_lift_run _ _ _ _ _ E1).
    iStopProof. apply (wp_heap_fuel _ (length t)); [exact HB|]. intros fuel2 L2. iIntros "S".
    iApply wp_wand. iSplitL "S"; [iApply (objs_write_loop_spec t e n fuel2 _ s1 L2 b s' E); iExact "S"|].
    iIntros (? s2) "[-> [C S]]". iSplit; [done|]. iExists n. iFrame.
Qed.

Ltac hwf3 := idtac; first [apply w_str|apply w_num; done|apply w_bool|apply w_value|apply w_status|apply w_time
  |apply w_list|apply w_path|apply w_tree|apply w_objs|apply w_seq; intros ?|idtac].
Tactic Notation "hrec3" constr(m) reference(n) tactic3(t) :=
  apply (writes_opt _ m); [intros ?; apply none_faults|intros ? ? ?; unfold n, deref; repeat hws t].
Lemma w_pack_req o : writes h_get_profile_pack_request_write (sml_get_profile_pack_request_write o) (rep_opt rep_pack_req o).
Proof. hrec3 sml_get_profile_pack_request_write sml_get_profile_pack_request_write hwf3. Qed.
Lemma w_header o : writes h_prof_obj_header_entry_write (sml_prof_obj_header_entry_write o) (rep_opt rep_header o).
Proof. hrec3 sml_prof_obj_header_entry_write sml_prof_obj_header_entry_write hwf3. Qed.
Lemma w_value_entry o : writes h_value_entry_write (sml_value_entry_write o) (rep_opt rep_value_entry o).
Proof. hrec3 sml_value_entry_write sml_value_entry_write hwf3. Qed.
Lemma w_per_entry o : writes h_prof_obj_period_entry_write (sml_prof_obj_period_entry_write o) (rep_opt rep_per_entry o).
Proof. hrec3 sml_prof_obj_period_entry_write sml_prof_obj_period_entry_write (idtac; first [apply w_seq, w_value_entry|hwf3]). Qed.
Lemma w_pack_res o : writes h_get_profile_pack_response_write (sml_get_profile_pack_response_write o) (rep_opt rep_pack_res o).
Proof. hrec3 sml_get_profile_pack_response_write sml_get_profile_pack_response_write (idtac; first [apply w_seq, w_header|apply w_seq, w_per_entry|hwf3]). Qed.
Lemma w_prof_list_res o : writes h_get_profile_list_response_write (sml_get_profile_list_response_write o) (rep_opt rep_prof_list_res o).
Proof. hrec3 sml_get_profile_list_response_write sml_get_profile_list_response_write (idtac; first [apply w_seq, w_period|hwf3]). Qed.
Lemma w_proc_req o : writes h_get_proc_parameter_request_write (sml_get_proc_parameter_request_write o) (rep_opt rep_proc_req o).
Proof. hrec3 sml_get_proc_parameter_request_write sml_get_proc_parameter_request_write hwf3. Qed.
Lemma w_proc_res o : writes h_get_proc_parameter_response_write (sml_get_proc_parameter_response_write o) (rep_opt rep_proc_res o).
Proof. hrec3 sml_get_proc_parameter_response_write sml_get_proc_parameter_response_write hwf3. Qed.
Lemma w_set_proc o : writes h_set_proc_parameter_request_write (sml_set_proc_parameter_request_write o) (rep_opt rep_set_proc o).
Proof. hrec3 sml_set_proc_parameter_request_write sml_set_proc_parameter_request_write hwf3. Qed.
Lemma w_list_req o : writes h_get_list_request_write (sml_get_list_request_write o) (rep_opt rep_list_req o).
Proof. hrec3 sml_get_list_request_write sml_get_list_request_write hwf3. Qed.
Lemma w_list_res o : writes h_get_list_response_write (sml_get_list_response_write o) (rep_opt rep_list_res o).
Proof. hrec3 sml_get_list_response_write sml_get_list_response_write hwf3. Qed.
Lemma w_attention o : writes h_attention_response_write (sml_attention_response_write o) (rep_opt rep_attention o).
Proof. hrec3 sml_attention_response_write sml_attention_response_write hwf3. Qed.

Lemma w_as {A} f (conv : body_data -> Buf.P (option A)) W (R : A -> slot -> hprop) data :
  (forall s o s', conv data s = Ret (o, s') -> s' = s /\ rep_body_data data = rep_opt R o) ->
  (forall o, writes f (W o) (rep_opt R o)) -> writes f (d <- conv data ;; W d) (rep_body_data data).
Proof.
  intros HC HW p s b s' E. apply bind_inv in E as (o & s1 & E1 & E). apply HC in E1 as [-> ->]. by apply HW.
Qed.
Ltac wbody := destruct_data; intros ? ? ? E; first [discriminate E|injection E as <- <-; done]
with destruct_data := match goal with |- forall s o s', _ ?d s = _ -> _ => destruct d end.
Lemma w_body_data t d : writes (h_body_data_write t) (body_data_write t d) (rep_body_data d).
Proof.
  unfold h_body_data_write, body_data_write.
  destruct (t =? _); [apply (w_as _ _ _ rep_open_req); [wbody|apply w_open_req]|].
  destruct (t =? _); [apply (w_as _ _ _ rep_open_res); [wbody|apply w_open_res]|].
  destruct (t =? _); [apply (w_as _ _ _ rep_close_req); [wbody|apply w_close_req]|].
  destruct (t =? _); [apply (w_as _ _ _ rep_close_res); [wbody|apply w_close_res]|].
  destruct (t =? _); [apply (w_as _ _ _ rep_pack_req); [wbody|apply w_pack_req]|].
  destruct (t =? _); [apply (w_as _ _ _ rep_pack_res); [wbody|apply w_pack_res]|].
  destruct (t =? _); [apply (w_as _ _ _ rep_pack_req); [wbody|apply w_pack_req]|].
  destruct (t =? _); [apply (w_as _ _ _ rep_prof_list_res); [wbody|apply w_prof_list_res]|].
  destruct (t =? _); [apply (w_as _ _ _ rep_proc_req); [wbody|apply w_proc_req]|].
  destruct (t =? _); [apply (w_as _ _ _ rep_proc_res); [wbody|apply w_proc_res]|].
  destruct (t =? _); [apply (w_as _ _ _ rep_set_proc); [wbody|apply w_set_proc]|].
  destruct (t =? _); [apply (w_as _ _ _ rep_list_req); [wbody|apply w_list_req]|].
  destruct (t =? _); [apply (w_as _ _ _ rep_list_res); [wbody|apply w_list_res]|].
  destruct (t =? _); [apply (w_as _ _ _ rep_attention); [wbody|apply w_attention]|].
  intros p s. apply sim_ret. iIntros "H". by iSplit.
Qed.
Lemma w_body o : writes h_message_body_write (sml_message_body_write o) (rep_opt rep_body o).
Proof.
  destruct o as [v|].
  2:{ intros p s b s' E. apply bind_inv in E as (? & ? & _ & E). discriminate. }
  intros p s b s' E. iIntros "(%m & %M & C)". destruct M as [Et M]. unfold h_message_body_write.
  apply bind_inv in E as ([] & s1 & E1 & E). rewrite Et in E. apply bind_inv in E as ([] & s2 & E2 & E).
  iApply wp_bind. iApply (wp_lift_run _ _ _ _ _ E1). iApply wp_bind. iApply wp_wand. iSplitL "C".
  { iApply (sim_hw_last [] [rep_num m; rep_body_data (mb_data v)] p 0 _ _ _ s1 eq_refl (w_num SML_TYPE_UNSIGNED 4 (Some m) ltac:(lia)) _ _ E2). iExact "C". }
  iIntros (? s3) "[-> C]".
  iApply wp_bind. iApply (cell_load_acc [] [rep_num m; rep_body_data (mb_data v)] p 0 (rep_num m)); [reflexivity|].
  iFrame "C". iIntros (x) "[R C]".
  iApply wp_bind. iApply wp_load_bytes. iFrame "R". iIntros "R". iDestruct ("C" with "R") as "C".
  iApply wp_wand. iSplitL "C".
  { iApply (sim_hw_last [] [rep_num m; rep_body_data (mb_data v)] p 1 _ _ _ s2 eq_refl (w_body_data (mem_u m) (mb_data v)) _ _ E). iExact "C". }
  iIntros (? s3) "[-> C]". iSplit; [done|]. iExists m. iFrame. done.
Qed.

(** *** Messages and files: the old crc is left behind *)

Lemma cell_snoc Rs R p : (∃ x, cell [x] Rs p ∗ R x) ⊣⊢ cell [] (Rs ++ [R]) p.
Proof.
  iSplit.
  - iIntros "(%x & (%ss & P & F) & R)". iExists (ss ++ [x]). rewrite app_nil_r. iFrame "P". unfold fields.
    iApply (big_sepL2_app with "F"). cbn. by iFrame.
  - iIntros "(%ss & P & F)". rewrite app_nil_r. unfold fields. rewrite big_sepL2_app_inv_l.
    iDestruct "F" as (l1 l2 ->) "[F G]". destruct l2 as [|x [|y l2]]; [by cbn| |by cbn; iDestruct "G" as "[_ G]"].
    cbn. iDestruct "G" as "[G _]". iExists x. iFrame. iExists l1. iFrame.
Qed.
Lemma wp_cell_store_rest0 x y Rs p s Φ :
  cell [x] Rs p ∗ (cell [y] Rs p -∗ Φ tt s) ⊢ wp (store p (length Rs) y) s Φ.
Proof.
  iIntros "[(%ss & P & F) K]". iDestruct (fields_length with "F") as %L.
  iApply wp_store; last (iFrame "P"; iIntros "P").
  - rewrite lookup_app_r; [|lia]. rewrite L Nat.sub_diag. by eauto.
  - iApply "K". iExists ss. iFrame "F". rewrite insert_app_r_alt; [|lia]. by rewrite L Nat.sub_diag.
Qed.

(** a message without its crc, and with the pointer [q] in the place of the crc *)
Definition msg_fields (m : sml_message) : list (slot -> hprop) := [
  rep_opt rep_str (m_transaction_id m); rep_opt rep_num (m_group_id m);
  rep_opt rep_num (m_abort_on_error m); rep_opt rep_body (m_message_body m)].
Definition rep_msg_body (m : sml_message) (q p : slot) : hprop := cell [q] (msg_fields m) p.
Lemma rep_msg_split m p : rep_msg m p ⊣⊢ ∃ q, rep_msg_body m q p ∗ rep_opt rep_num (m_crc m) q.
Proof. symmetry. apply (cell_snoc (msg_fields m)). Qed.
Lemma w_msg_body m q p s : sim (rep_msg_body m q p) s (sml_message_write m) (h_message_write p)
  (PostR (fun m' _ => rep_msg m' p)%I).
Proof.
  unfold sml_message_write, h_message_write, rep_msg_body, msg_fields.
  apply sim_lift; [apply _|]. intros start s1 _. do 5 (hws hwf3).
  { apply w_body. }
  apply sim_lift; [apply _|]. intros len s6 _. apply sim_lift; [apply _|]. intros bs s7 _. cbv zeta.
  intros m' s' E. iIntros "C". iApply wp_bind. unfold h_number_init. iApply wp_malloc. iIntros (x) "X".
  iApply wp_bind. iApply (wp_cell_store_rest0 q x (msg_fields m) p).
  iFrame "C". iIntros "C".
  iAssert (cell [] (msg_fields m ++ [rep_opt rep_num (Some (sml_u16_init (sml_crc16_calculate bs)))]) p) with "[C X]" as "C".
  { iApply cell_snoc. iExists x. iFrame. }
  apply bind_inv in E as ([] & t1 & F1 & E). apply bind_inv in E as ([] & t2 & F2 & E). apply bind_inv in E as ([] & t3 & F3 & E).
  injection E as <- <-.
  iApply wp_bind. iApply wp_wand. iSplitL "C".
  { iApply (sim_hw_last [] (msg_fields m ++ [rep_opt rep_num (Some (sml_u16_init (sml_crc16_calculate bs)))]) p 4 _ _ _ s7 eq_refl
      (w_num SML_TYPE_UNSIGNED 2 _ ltac:(lia)) _ _ F1). iExact "C". }
  iIntros (? t4) "[-> C]". iApply wp_bind. iApply (wp_lift_run _ _ _ _ _ F2). iApply (wp_lift_run _ _ _ _ _ F3).
  iSplit; [done|]. iExact "C".
Qed.
(** what a message leaves behind when it is written: the crc it had *)
Definition old_crc (m : sml_message) : hprop := (∃ q, rep_opt rep_num (m_crc m) q)%I.
Lemma w_msg m p s : sim (rep_msg m p) s (sml_message_write m) (h_message_write p)
  (PostR (fun m' _ => rep_msg m' p ∗ old_crc m)%I).
Proof.
  intros m' s' E. rewrite {1}rep_msg_split. iIntros "(%q & C & O)". iApply wp_wand. iSplitL "C".
  - iApply (w_msg_body m q p s m' s' E). iExact "C".
  - iIntros (? s2) "[-> C]". iSplit; [done|]. iFrame "C". iExists q. iFrame.
Qed.

Lemma w_msgs p : forall l pre ss s,
  sim (p ↦ Struct (pre ++ ss) ∗ fields (map rep_msg l) ss)%I s (write_messages l) (for_each (length l) (length pre) p h_message_write)
    (PostR (fun l' _ => p ↦ Struct (pre ++ ss) ∗ fields (map rep_msg l') ss ∗ [∗ list] m ∈ l, old_crc m)%I).
Proof.
  induction l as [|a l IH]; intros pre ss s; cbn [map write_messages length for_each].
  - apply sim_ret. iIntros "[P F]". iSplit; [done|]. iFrame. done.
  - intros b s' E. apply bind_inv in E as (a' & s1 & E1 & E). apply bind_inv in E as (l' & s2 & E2 & E).
    injection E as <- <-. iIntros "[P F]".
    iDestruct (fields_cons_inv with "F") as (x ss' ->) "[R F]".
    iApply wp_bind. iApply (wp_load p _ x (pre ++ x :: ss')).
    { rewrite lookup_app_r // Nat.sub_diag //. }
    iFrame "P". iIntros "P". iApply wp_bind. iApply wp_wand.
    iSplitL "R"; [iApply (w_msg a x s _ _ E1); iExact "R"|].
    iIntros (? s3) "[-> [R O]]".
    iPoseProof (IH (pre ++ [x]) ss' s1 l' s2 E2) as "W".
    rewrite -!(assoc_L (++)) app_length Nat.add_1_r. cbn [app].
    iApply wp_wand. iSplitL "W P F"; [iApply "W"; iFrame|]. iIntros (? s3) "[-> (P & F & OO)]". iSplit; [done|].
    iFrame "P". cbn [List.map]. rewrite fields_cons. iFrame.
Qed.
Lemma write_messages_length : forall l s l' s', write_messages l s = Ret (l', s') -> length l' = length l.
Proof.
  induction l as [|a l IH]; intros s l' s' E; [by injection E as <- <-|].
  apply bind_inv in E as (a' & s1 & E1 & E). apply bind_inv in E as (l2 & s2 & E2 & E). injection E as <- <-.
  cbn [length]. f_equal. by eapply IH.
Qed.
Lemma w_file l bytes p s : sim (rep_file l bytes p) s (write_messages l) (h_file_write p)
  (PostR (fun l' _ => rep_file l' bytes p ∗ [∗ list] m ∈ l, old_crc m)%I).
Proof.
  intros l' s' E. iIntros "(%arr & %bp & P & A & B)". unfold h_file_write. iApply wp_bind. hload "P".
  assert (L := write_messages_length _ _ _ _ E).
  destruct l as [|m l].
  - iDestruct "A" as "->". injection E as <- <-. iApply wp_ret. iSplit; [done|]. iSplitL; [|done]. iExists Nul, bp. by iFrame.
  - iDestruct (cell_ptr with "A") as "[A (%r & ->)]". cbn [if_ptr]. iApply wp_bind. hload_int "P".
    destruct (Z.of_nat (length (m :: l)) >? 0) eqn:EG; [|rewrite Z.gtb_ltb in EG; apply Z.ltb_ge in EG; cbn in EG; lia].
    rewrite Nat2Z.id. iDestruct "A" as (ss) "[A F]". rewrite app_nil_r.
    iApply wp_wand. iSplitL "A F"; [iApply (w_msgs (Ptr r) (m :: l) [] ss s l' s' E); iFrame|].
    iIntros (? s2) "[-> (A & F & O)]". iSplit; [done|]. iFrame "O". iExists (Ptr r), bp. rewrite L. iFrame.
    destruct l'; [done|]. iExists ss. rewrite app_nil_r. iFrame.
Qed.
End WithAllocator.
