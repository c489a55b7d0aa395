(** How a function with pointers follows the corresponding function of the value
    level: rules for the steps they have in common. *)
From stdpp Require Import gmap.
From iris.proofmode Require Import tactics.
From Verif Require Import Base Buf Number OctetString Boolean Value Time SList Tree Bodies Message File
  HeapBase HeapModel HeapLogic HeapRep HeapFree.

Lemma bind_inv {S A B} (m : M S A) (k : A -> M S B) s b s' :
  bind m k s = Ret (b, s') -> exists a s1, m s = Ret (a, s1) /\ k a s1 = Ret (b, s').
Proof. unfold bind. destruct (m s) as [[a s1]| |]; try discriminate. eauto. Qed.

(** *** The error flag of the buffer functions *)
Ltac pinv :=
  match goal with
  | H : bind _ _ _ = Ret _ |- _ => apply bind_inv in H as (? & ? & ? & H)
  | H : at_end _ = Ret _ |- _ => injection H as <- <-
  | H : ret _ _ = Ret _ |- _ => first [discriminate H | injection H; clear H; intros; subst]
  | H : set_error _ = Ret _ |- _ => injection H as <- <-
  | H : int_op _ _ = Ret _ |- _ => injection H as <- <-
  | H : sml_buf_update_bytes_read 1 _ = Ret _ |- _ => injection H as <- <-
  | H : with_fuel _ _ = Ret _ |- _ => unfold with_fuel in H
  | H : sml_buf_get_current_byte ?s = Ret (?b, ?s1) |- _ =>
      unfold sml_buf_get_current_byte in H; destruct (nth_error (buffer s) (cursor s)); [injection H as -> <-|discriminate]
  | H : (if ?b then _ else _) _ = Ret _ |- _ => destruct b eqn:?
  end.
Lemma skipped_0 s s1 : sml_buf_optional_is_skipped s = Ret (0, s1) -> s1 = s.
Proof.
  unfold sml_buf_optional_is_skipped. intros E. repeat pinv; done.
Qed.
Lemma next_type_same s t s1 : sml_buf_get_next_type s = Ret (t, s1) -> t <> 256 -> s1 = s.
Proof.
  unfold sml_buf_get_next_type. intros E N. repeat pinv; [by destruct N|done].
Qed.
Lemma length_loop_error : forall fuel len list s r s1,
  get_next_length_loop fuel len list s = Ret (r, s1) -> error s1 = error s.
Proof.
  induction fuel as [|fuel IH]; intros len list s r s1; [discriminate|]. cbn [get_next_length_loop]. intros E.
  repeat pinv; try done; by apply IH in E.
Qed.
Lemma next_length_error s l s1 : sml_buf_get_next_length s = Ret (l, s1) -> l <> -1 -> error s1 = error s.
Proof.
  unfold sml_buf_get_next_length. intros E N. repeat pinv; try (by destruct N);
  match goal with H : get_next_length_loop _ _ _ _ = Ret _ |- _ => apply length_loop_error in H; exact H end.
Qed.

(** *** The reading functions leave the content of the buffer alone *)
Definition Reads {A} (c : Buf.P A) : Prop := forall s a s', c s = Ret (a, s') -> buffer s' = buffer s.
Existing Class Reads.
Lemma reads_bind {A B} (m : Buf.P A) (k : A -> Buf.P B) : Reads m -> (forall a, Reads (k a)) -> Reads (bind m k).
Proof.
  intros HM HK s b s' E. apply bind_inv in E as (a & s1 & E1 & E2). rewrite (HK a s1 b s' E2). by apply (HM s a s1).
Qed.
Lemma reads_ret {A} (a : A) : Reads (ret a).
Proof. intros s b s1 E. by injection E as _ <-. Qed.
Lemma reads_if {A} (b : bool) (m1 m2 : Buf.P A) : Reads m1 -> Reads m2 -> Reads (if b then m1 else m2).
Proof. by destruct b. Qed.
Lemma reads_get {A} (f : sbuf -> A) : Reads (fun s => Ret (f s, s)).
Proof. intros s b s1 E. by injection E as _ <-. Qed.
Lemma reads_at_end : Reads at_end.
Proof. apply reads_get. Qed.
Lemma reads_has_errors : Reads sml_buf_has_errors.
Proof. apply reads_get. Qed.
Lemma reads_set_error : Reads set_error.
Proof. intros s [] s1 E. by injection E as <-. Qed.
Lemma reads_byte : Reads sml_buf_get_current_byte.
Proof. intros s b s' E. unfold sml_buf_get_current_byte in E. destruct (nth_error _ _); [by injection E as _ <-|done]. Qed.
Lemma reads_read n : Reads (read_current n).
Proof. intros s b s' E. unfold read_current in E. destruct (_ <=? _)%nat; [by injection E as _ <-|done]. Qed.
Lemma reads_update n : Reads (sml_buf_update_bytes_read n).
Proof. intros s [] s1 E. unfold sml_buf_update_bytes_read in E. destruct (_ <? _); [done|]. by injection E as <-. Qed.
Lemma reads_int_op n : Reads (int_op n).
Proof. intros s b s1 E. by injection E as _ <-. Qed.
Lemma reads_cursor_int n : Reads (cursor_int n).
Proof. apply reads_get. Qed.
Lemma reads_slice a n : Reads (buffer_slice a n).
Proof.
  intros s b s' E. unfold buffer_slice in E. repeat (destruct (_ <? _) in E; [done|]).
  destruct (_ <=? _)%nat; [by injection E as _ <-|done].
Qed.
Lemma reads_next_type : Reads sml_buf_get_next_type.
Proof.
  unfold sml_buf_get_next_type. apply reads_bind; [apply reads_at_end|]. intros e. apply reads_if.
  - apply reads_bind; [apply reads_set_error|]. intros. apply reads_ret.
  - apply reads_bind; [apply reads_byte|]. intros. apply reads_ret.
Qed.
Lemma reads_length_loop : forall fuel l n, Reads (get_next_length_loop fuel l n).
Proof.
  induction fuel as [|fuel IH]; intros l n; cbn [get_next_length_loop]; [by intros s b s'|].
  repeat first [apply reads_bind; [first [apply reads_at_end|apply reads_byte|apply reads_update|apply reads_int_op]|intros ?]
    |apply reads_bind; [|intros ?]|apply reads_if|apply reads_ret|apply reads_int_op|apply IH].
Qed.
Lemma reads_next_length : Reads sml_buf_get_next_length.
Proof.
  unfold sml_buf_get_next_length.
  repeat first [apply reads_bind; [first [apply reads_at_end|apply reads_byte|apply reads_update|apply reads_set_error|apply reads_int_op
      |intros ? ? ?; apply reads_length_loop]|intros ?]
    |apply reads_if|apply reads_ret|apply reads_int_op].
Qed.
Lemma reads_skipped : Reads sml_buf_optional_is_skipped.
Proof.
  unfold sml_buf_optional_is_skipped.
  repeat first [apply reads_bind; [first [apply reads_at_end|apply reads_byte|apply reads_update|apply reads_set_error]|intros ?]
    |apply reads_if|apply reads_ret].
Qed.
Lemma reads_width {HO : Host} b : Reads (number_width b).
Proof.
  unfold number_width. generalize (Z.land b SML_LENGTH_FIELD - 1). intros lim. generalize 5%nat 1. induction n as [|n IH]; intros z; cbn [max_loop]; [by intros s b0 s'|].
  apply reads_if; [apply IH|apply reads_ret].
Qed.
Lemma reads_option {A B} (o : option A) (m1 : A -> Buf.P B) m2 : (forall a, Reads (m1 a)) -> Reads m2 ->
  Reads (match o with Some a => m1 a | None => m2 end).
Proof. by destruct o. Qed.
Lemma reads_fail {A} f : Reads (fail (A := A) f).
Proof. by intros s b s'. Qed.
Global Instance reads_keeps {WA : Watch} {A} (c : Buf.P A) : Reads c -> Keeps c.
Proof. intros HR s a s' E. by rewrite (HR s a s' E). Qed.
Global Existing Instances reads_bind reads_ret reads_if reads_get reads_at_end reads_has_errors reads_set_error
  reads_byte reads_read reads_update reads_int_op reads_cursor_int reads_slice reads_next_type reads_next_length reads_skipped reads_option reads_fail
  reads_width.

Section WithAllocator.
Context {AL : Allocator} {WA : Watch}.

(** If [m] (value level) ends in state [s'] with result [b], then [c] (with
    pointers), on memory [P], ends as [Ψ] says. *)
Definition sim {A B} (P : hprop) (s : sbuf) (m : Buf.P A) (c : H B)
  (Ψ : A -> sbuf -> B -> sbuf -> hprop) : Prop :=
  forall b s', m s = Ret (b, s') -> P ⊢ wp c s (Ψ b s').
(** the same state, and memory [R] for the result *)
Definition PostR {A X} (R : A -> X -> hprop) (v : A) (s1 : sbuf) (x : X) (s2 : sbuf) : hprop :=
  (⟨s2 = s1⟩ ∗ R v x)%I.
(** [c] does on the heap what [m] does on values *)
Definition refines {A} (c : H slot) (m : Buf.P A) (R : A -> slot -> hprop) : Prop :=
  forall s, sim emp%I s m c (PostR R).
(** the same, if the error flag is down *)
Definition refines_ok {A} (c : H slot) (m : Buf.P A) (R : A -> slot -> hprop) : Prop :=
  forall s, error s = false -> sim emp%I s m c (PostR R).
Lemma refines_weak {A} c (m : Buf.P A) R : refines c m R -> refines_ok c m R.
Proof. intros HR s _. apply HR. Qed.

Lemma sim_ret {A B} P s (b : A) (x : B) Ψ : (P ⊢ Ψ b s x s) -> sim P s (ret b) (ret x) Ψ.
Proof. intros HP b' s' [= <- <-]. etrans; [exact HP|]. apply wp_ret. Qed.
Lemma sim_weaken {A B} P P' s (m : Buf.P A) (c : H B) Ψ : (P ⊢ P') -> sim P' s m c Ψ -> sim P s m c Ψ.
Proof. intros HP HS b s' E. etrans; [exact HP|]. by apply HS. Qed.
Lemma sim_post {A B} P s (m : Buf.P A) (c : H B) Ψ Ψ' :
  (forall b s' x s2, m s = Ret (b, s') -> Ψ b s' x s2 ⊢ Ψ' b s' x s2) -> sim P s m c Ψ -> sim P s m c Ψ'.
Proof.
  intros HΨ HS b s' E. etrans; [apply (HS b s' E)|]. iIntros "W". iApply wp_wand. iFrame "W".
  iIntros (x s2) "H". by iApply HΨ.
Qed.
Lemma sim_lift {A B X} P s (m : Buf.P A) {KM : Keeps m} (kp : A -> Buf.P B) (kh : A -> H X) Ψ :
  (forall a s1, m s = Ret (a, s1) -> sim P s1 (kp a) (kh a) Ψ) ->
  sim P s (bind m kp) (bind (lift m) kh) Ψ.
Proof.
  intros HK b s' E. apply bind_inv in E as (a & s1 & E1 & E2).
  etrans; [|apply wp_bind]. etrans; [|apply (wp_lift m s a s1 _ E1)]. by apply HK.
Qed.
Lemma sim_run {A B X Y} P s (m : Buf.P A) (c : H Y) R (kp : A -> Buf.P B) (kh : Y -> H X) Ψ :
  sim emp%I s m c (PostR R) ->
  (forall v s1, m s = Ret (v, s1) -> forall x, sim (P ∗ R v x)%I s1 (kp v) (kh x) Ψ) ->
  sim P s (bind m kp) (bind c kh) Ψ.
Proof.
  intros HR HK b s' E. apply bind_inv in E as (v & s1 & E1 & E2).
  etrans; [|apply wp_bind]. iIntros "P". iApply wp_wand. iSplitR.
  - iApply (HR v s1 E1). done.
  - iIntros (x s2) "[-> R]". iApply (HK v s1 E1 x b s' E2). iFrame.
Qed.
(** the part [P] of the memory is used *)
Lemma sim_bind {A B X Y} P s (m : Buf.P A) (c : H Y) Q (kp : A -> Buf.P B) (kh : Y -> H X) Ψ :
  sim P s m c (PostR Q) ->
  (forall v s1, m s = Ret (v, s1) -> forall x, sim (Q v x) s1 (kp v) (kh x) Ψ) ->
  sim P s (bind m kp) (bind c kh) Ψ.
Proof.
  intros HR HK b s' E. apply bind_inv in E as (v & s1 & E1 & E2).
  etrans; [|apply wp_bind]. iIntros "P". iApply wp_wand. iSplitL "P".
  - by iApply (HR v s1 E1).
  - iIntros (x s2) "[-> R]". iApply (HK v s1 E1 x b s' E2). iFrame.
Qed.
(** a step on the heap only *)
Lemma sim_heap {A B X} P s (m : Buf.P A) (c : H X) (Q : X -> hprop) (kh : X -> H B) Ψ :
  (P ⊢ wp c s (fun x s2 => ⟨s2 = s⟩ ∗ Q x)) ->
  (forall x, sim (Q x) s m (kh x) Ψ) -> sim P s m (bind c kh) Ψ.
Proof.
  intros HC HK b s' E. etrans; [|apply wp_bind]. etrans; [exact HC|]. iIntros "W". iApply wp_wand. iFrame "W".
  iIntros (x s2) "[-> Q]". by iApply (HK x b s' E).
Qed.
Lemma sim_malloc {A B} P s (m : Buf.P A) bl (kh : slot -> H B) Ψ :
  (forall p, sim (P ∗ p ↦ bl)%I s m (kh p) Ψ) -> sim P s m (bind (malloc bl) kh) Ψ.
Proof.
  intros HK b s' E. etrans; [|apply wp_bind]. iIntros "P". iApply wp_malloc. iIntros (p) "M".
  iApply (HK p b s' E). iFrame.
Qed.
Lemma sim_if {A B} P s (b : bool) (m1 m2 : Buf.P A) (c1 c2 : H B) Ψ :
  (b = true -> sim P s m1 c1 Ψ) -> (b = false -> sim P s m2 c2 Ψ) ->
  sim P s (if b then m1 else m2) (if b then c1 else c2) Ψ.
Proof. destruct b; auto. Qed.
Lemma sim_herr_null {A} P s (R : A -> slot -> hprop) : (P ⊢ emp) ->
  sim P s err_null herr_null (PostR (rep_opt R)).
Proof.
  intros HP. apply sim_lift; [apply _|]. intros [] s1 [= <-]. apply sim_ret. etrans; [exact HP|].
  iIntros "_". by iSplit.
Qed.
Lemma sim_skipped {A} s (m : Buf.P (option A)) c R :
  sim emp%I s m c (PostR (rep_opt R)) -> sim emp%I s (unless_skipped m) (hunless_skipped c) (PostR (rep_opt R)).
Proof.
  intros HK. apply sim_lift; [apply _|]. intros sk s1 E. apply sim_if; intros Esk.
  - apply sim_ret. iIntros "_". by iSplit.
  - destruct (sk =? 0) eqn:E0; [|discriminate]. apply Z.eqb_eq in E0. subst sk. apply skipped_0 in E. by subst s1.
Qed.
(** error: label that raises the flag *)
Definition PostE {A} (R : A -> slot -> hprop) (o : option A) (s1 : sbuf) (x : slot) (s2 : sbuf) : hprop :=
  (⟨s2 = match o with None => set_err s1 | Some _ => s1 end⟩ ∗ rep_opt R o x)%I.
Lemma sim_error_label {A} P s (m : Buf.P (option A)) c (R : A -> slot -> hprop) :
  sim P s m c (PostE R) -> sim P s (error_label m) c (PostR (rep_opt R)).
Proof.
  intros HS b s' E. apply bind_inv in E as (o & s1 & E1 & E2). etrans; [apply (HS o s1 E1)|].
  iIntros "W". iApply wp_wand. iFrame "W". iIntros (x s2) "[-> H]".
  destruct o as [v|]; injection E2 as <- <-; iFrame; done.
Qed.

(** *** Records *)

Lemma nul_fields n : ⊢ fields (repeat rep_nul n) (repeat Nul n).
Proof.
  induction n as [|n IH]; cbn [repeat].
  - rewrite fields_nil. done.
  - rewrite fields_cons. iSplit; [done|]. iApply IH.
Qed.
Lemma nul_cell n p : p ↦ Struct (repeat Nul n) ⊢ cell [] (repeat rep_nul n) p.
Proof.
  iIntros "P". iExists (repeat Nul n). rewrite app_nil_r. iFrame "P". iApply nul_fields.
Qed.
Lemma sim_expect_buf {A B} n P s (m : Buf.P (option A)) (err k : H B) Ψ :
  error s = false -> n <> -1 ->
  (forall s1, P ⊢ wp err s1 (Ψ None s1)) ->
  (forall s1, error s1 = false -> buffer s1 = buffer s -> sim P s1 m k Ψ) ->
  sim P s (expect_list n m) (hexpect_list n err k) Ψ.
Proof.
  intros Es Hn Herr HK.
  assert (HE : forall s0, sim P s0 err_null (lift set_error ;;; err) Ψ).
  { intros s0 b s' [= <- <-]. etrans; [|apply wp_bind]. etrans; [|apply wp_lift; [apply _|done]]. apply Herr. }
  apply sim_lift; [apply _|]. intros t s1 E1. apply sim_if; intros Et; [apply HE|].
  apply sim_lift; [apply _|]. intros l s2 E2. apply sim_if; intros El; [apply HE|].
  assert (EB : buffer s2 = buffer s) by (rewrite (reads_next_length _ _ _ E2); by apply (reads_next_type _ _ _ E1)).
  apply HK; [|exact EB].
  apply negb_false_iff, Z.eqb_eq in Et, El. subst t l.
  apply next_type_same in E1; [|done]. subst s1. apply next_length_error in E2; congruence.
Qed.
Lemma sim_expect {A B} n P s (m : Buf.P (option A)) (err k : H B) Ψ :
  error s = false -> n <> -1 ->
  (forall s1, P ⊢ wp err s1 (Ψ None s1)) ->
  (forall s1, error s1 = false -> sim P s1 m k Ψ) ->
  sim P s (expect_list n m) (hexpect_list n err k) Ψ.
Proof. intros Es Hn Herr HK. apply sim_expect_buf; auto. Qed.

(** [fs] frees the members, whatever they are at the moment *)
Lemma sim_field_gen {A B X} fs rest Rs p i f (hp : H slot) (pp : Buf.P A) (R : A -> slot -> hprop) s
  (kp : A -> Buf.P (option B)) (err k : H X) Ψ :
  Forall2 frees fs Rs ->
  (forall Rs s1, Forall2 frees fs Rs -> cell rest Rs p ⊢ wp err s1 (Ψ None s1)) ->
  sim emp%I s pp hp (PostR R) -> Rs !! i = Some rep_nul -> fs !! i = Some f -> (forall v, frees f (R v)) ->
  (forall v s1, pp s = Ret (v, s1) -> error s1 = false -> Forall2 frees fs (<[i := R v]> Rs) ->
     sim (cell rest (<[i := R v]> Rs) p) s1 (kp v) k Ψ) ->
  sim (cell rest Rs p) s (field pp kp) (hfield p i hp err k) Ψ.
Proof.
  intros HF Herr HR ER Ef Hf HK. unfold field, hfield. eapply sim_run; [exact HR|].
  intros v s1 E1 x b s' E.
  assert (HF2 : Forall2 frees fs (<[i := R v]> Rs)).
  { assert (L := Forall2_length _ _ _ HF). apply Forall2_same_length_lookup_2; [by rewrite insert_length|].
    intros j g Q Eg EQ. destruct (decide (i = j)) as [<-|Nij].
    - rewrite Ef in Eg. injection Eg as <-.
      rewrite list_lookup_insert in EQ; [|by eapply lookup_lt_Some]. injection EQ as <-. apply Hf.
    - rewrite list_lookup_insert_ne // in EQ. eapply Forall2_lookup_lr; eauto. }
  apply bind_inv in E as (e & s2 & Ee & E). injection Ee as <- <-.
  iIntros "[C R]". iApply wp_bind. iApply (wp_cell_store rest Rs i p (R v)); [done|]. iFrame "C R". iIntros "C".
  iApply wp_bind. iApply wp_lift; [reflexivity|]. destruct (error s1) eqn:Ee1.
  - injection E as <- <-. by iApply Herr.
  - by iApply (HK v s1).
Qed.
Lemma sim_field {A B X} fs rest Rs p i f (hp : H slot) (pp : Buf.P A) (R : A -> slot -> hprop) s
  (kp : A -> Buf.P (option B)) (err k : H X) Ψ :
  error s = false -> Forall2 frees fs Rs ->
  (forall Rs s1, Forall2 frees fs Rs -> cell rest Rs p ⊢ wp err s1 (Ψ None s1)) ->
  refines_ok hp pp R -> Rs !! i = Some rep_nul -> fs !! i = Some f -> (forall v, frees f (R v)) ->
  (forall v s1, pp s = Ret (v, s1) -> error s1 = false -> Forall2 frees fs (<[i := R v]> Rs) ->
     sim (cell rest (<[i := R v]> Rs) p) s1 (kp v) k Ψ) ->
  sim (cell rest Rs p) s (field pp kp) (hfield p i hp err k) Ψ.
Proof. intros Es HF Herr HR. apply sim_field_gen; [done|done|]. by apply HR. Qed.

Lemma on_error_spec {A} fs f rest p s (R : A -> slot -> hprop) :
  (forall Rs, Forall2 frees fs Rs -> frees f (cell rest Rs)) ->
  forall Rs, Forall2 frees fs Rs -> cell rest Rs p ⊢ wp (on_error f p) s (PostR (rep_opt R) None s).
Proof.
  intros HF Rs HRs. iIntros "C". unfold on_error. iApply wp_bind. iApply HF; [done|]. iFrame "C".
  iApply wp_ret. by iSplit.
Qed.
Lemma on_error_set_spec {A} fs f rest p s (R : A -> slot -> hprop) :
  (forall Rs, Forall2 frees fs Rs -> frees f (cell rest Rs)) ->
  forall Rs, Forall2 frees fs Rs -> cell rest Rs p ⊢ wp (on_error_set f p) s (PostE R None s).
Proof.
  intros HF Rs HRs. iIntros "C". unfold on_error_set. iApply wp_bind. iApply wp_lift; [reflexivity|].
  iApply wp_bind. iApply HF; [done|]. iFrame "C". iApply wp_ret. by iSplit.
Qed.

(** *** Appending to an array *)
Lemma wp_append pre post arr Rs (R : slot -> hprop) x p i s Φ : length pre = i ->
  p ↦ Struct (pre ++ arr :: Int (Z.of_nat (length Rs)) :: post) ∗ array Rs arr ∗ R x ∗
  (∀ arr', p ↦ Struct (pre ++ arr' :: Int (Z.of_nat (length (Rs ++ [R]))) :: post)
           ∗ array (Rs ++ [R]) arr' -∗ Φ tt s)
  ⊢ wp (append p i x) s Φ.
Proof.
  intros Hi. iIntros "(P & A & R & K)". unfold append.
  assert (E1 : forall a b, (pre ++ a :: b :: post) !! S i = Some b).
  { intros a b. rewrite lookup_app_r; [|lia]. by replace (S i - length pre)%nat with 1%nat by lia. }
  assert (E0 : forall a b, (pre ++ a :: b :: post) !! i = Some a).
  { intros a b. rewrite lookup_app_r; [|lia]. by replace (i - length pre)%nat with 0%nat by lia. }
  assert (I1 : forall a b c, <[S i := c]> (pre ++ a :: b :: post) = pre ++ a :: c :: post).
  { intros a b c. rewrite insert_app_r_alt; [|lia]. by replace (S i - length pre)%nat with 1%nat by lia. }
  assert (I0 : forall a b c, <[i := c]> (pre ++ a :: b :: post) = pre ++ c :: b :: post).
  { intros a b c. rewrite insert_app_r_alt; [|lia]. by replace (i - length pre)%nat with 0%nat by lia. }
  iApply wp_bind. iApply wp_load_int; last (iFrame "P"; iIntros "P"); [apply E1|].
  iApply wp_bind. iApply wp_store; last (iFrame "P"; iIntros "P"); [by rewrite E1|]. rewrite I1.
  iApply wp_bind. iApply wp_load; last (iFrame "P"; iIntros "P"); [apply E0|].
  assert (EL : Z.of_nat (length Rs) + 1 = Z.of_nat (length (Rs ++ [R]))) by (rewrite app_length; cbn; lia).
  rewrite EL. clear EL.
  destruct Rs as [|R0 Rs]; cbn [array].
  - iDestruct "A" as "->". iApply wp_bind. iApply wp_ret. iApply wp_bind. iApply wp_ret.
    iApply wp_bind. iApply wp_regrant. iApply wp_bind. iApply wp_free_nul. iApply wp_bind. iApply wp_malloc. iIntros (arr') "A".
    iApply wp_store; last (iFrame "P"; iIntros "P"); [by rewrite E0|]. rewrite I0. iApply "K". iFrame "P".
    cbn [app array]. iExists [x]. rewrite app_nil_r. iFrame "A". rewrite fields_cons fields_nil. by iFrame.
  - iDestruct (cell_ptr with "A") as "[A (%l & ->)]". iDestruct "A" as (ss) "[A F]". rewrite app_nil_r.
    iDestruct (fields_length with "F") as %L.
    iApply wp_bind. iApply wp_load_struct. iFrame "A". iIntros "A".
    rewrite -L Z.eqb_refl. iApply wp_bind. iApply wp_ret.
    iApply wp_bind. iApply wp_regrant. iApply wp_bind. iApply wp_free. iFrame "A". iApply wp_bind. iApply wp_malloc. iIntros (arr') "A".
    iApply wp_store; last (iFrame "P"; iIntros "P"); [by rewrite E0|]. rewrite I0. iApply "K". iFrame "P".
    cbn [app array]. iExists (ss ++ [x]). rewrite app_nil_r. iFrame "A".
    change (R0 :: Rs ++ [R]) with ((R0 :: Rs) ++ [R]). rewrite fields_app //. iFrame "F".
    rewrite fields_cons fields_nil. by iFrame.
Qed.

End WithAllocator.
