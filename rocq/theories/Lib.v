(** Proof infrastructure: weakest preconditions for the parser monad and list
    lemmas.  Nothing here models code. *)
From Coq Require Export ZifyBool ZifyNat.
From Verif Require Import Base Buf.

Ltac inv H := inversion H; subst; clear H.

(** lia on the arithmetic hypotheses only (bool equalities slow it down) *)
Ltac arith_prop T :=
  lazymatch T with
  | (_ <= _)%nat => idtac | (_ < _)%nat => idtac | @eq nat _ _ => idtac
  | _ <= _ => idtac | _ < _ => idtac | @eq Z _ _ => idtac
  | ?A /\ ?B => arith_prop A; arith_prop B
  | ?A \/ ?B => arith_prop A; arith_prop B
  end.
Ltac qlia := repeat match goal with Hx : ?T |- _ =>
    lazymatch type of T with Prop => tryif arith_prop T then fail else clear Hx end end; lia.

(** *** Lists *)

Lemma nth_error_firstn_lt {A} (l : list A) n i :
  (i < n)%nat -> nth_error (firstn n l) i = nth_error l i.
Proof.
  revert n i; induction l as [|x l IH]; intros [|n] [|i] Hi; simpl; try reflexivity; try lia.
  apply IH; lia.
Qed.

Lemma skipn_cons_nth {A} (l : list A) i x :
  nth_error l i = Some x -> skipn i l = x :: skipn (S i) l.
Proof.
  revert i; induction l as [|y l IH]; intros [|i]; simpl; try discriminate.
  - intros [= ->]; reflexivity.
  - apply IH.
Qed.

Lemma nth_error_skipn_hd {A} (l : list A) i :
  nth_error l i = nth_error (skipn i l) 0.
Proof.
  revert i; induction l as [|y l IH]; intros [|i]; simpl; try reflexivity.
  apply IH.
Qed.

Lemma skipn_skipn_add {A} (l : list A) i j : skipn i (skipn j l) = skipn (j + i) l.
Proof.
  revert j; induction l as [|y l IH]; intros [|j]; simpl; try reflexivity.
  - now rewrite skipn_nil.
  - apply IH.
Qed.

Lemma Forall_firstn {A} (Q : A -> Prop) n l : Forall Q l -> Forall Q (firstn n l).
Proof.
  revert n; induction l as [|x l IH]; intros [|n] F; simpl; try constructor; inv F; auto.
Qed.
Lemma Forall_skipn {A} (Q : A -> Prop) n l : Forall Q l -> Forall Q (skipn n l).
Proof.
  revert n; induction l as [|x l IH]; intros [|n] F; simpl; auto; inv F; auto.
Qed.

Lemma upd_length l i b : length (upd l i b) = length l.
Proof. revert i; induction l as [|x l IH]; intros [|i]; simpl; auto. Qed.
Lemma upds_length l i bs : length (upds l i bs) = length l.
Proof. revert l i; induction bs as [|b bs IH]; simpl; intros; auto. now rewrite IH, upd_length. Qed.

Lemma upd_app_r l1 l2 i b : upd (l1 ++ l2) (length l1 + i) b = l1 ++ upd l2 i b.
Proof. induction l1; simpl; [reflexivity|]. now rewrite IHl1. Qed.
Lemma upd_at l1 x l2 b : upd (l1 ++ x :: l2) (length l1) b = l1 ++ b :: l2.
Proof. rewrite <- (Nat.add_0_r (length l1)). now rewrite upd_app_r. Qed.
Lemma upds_at l1 l2 l3 bs :
  length l2 = length bs -> upds (l1 ++ l2 ++ l3) (length l1) bs = l1 ++ bs ++ l3.
Proof.
  revert l1 l2; induction bs as [|b bs IH]; intros l1 [|x l2] Hl; simpl in *; try discriminate.
  - reflexivity.
  - rewrite upd_at.
    replace (l1 ++ b :: l2 ++ l3) with ((l1 ++ [b]) ++ l2 ++ l3) by (now rewrite <- app_assoc).
    replace (S (length l1)) with (length (l1 ++ [b])) by (rewrite app_length; simpl; lia).
    rewrite IH by lia. now rewrite <- app_assoc.
Qed.

(** *** Weakest preconditions *)

Definition wp {S A} (p : M S A) (Q : A -> S -> Prop) (s : S) : Prop :=
  match p s with
  | Ret (a, s') => Q a s'
  | _ => False
  end.

Lemma wp_bind {S A B} (m : M S A) (k : A -> M S B) Q s :
  wp m (fun a s' => wp (k a) Q s') s -> wp (bind m k) Q s.
Proof. unfold wp, bind. destruct (m s) as [[a s']| |]; auto. Qed.
Lemma wp_ret {S A} (a : A) (Q : A -> S -> Prop) s : Q a s -> wp (ret a) Q s.
Proof. auto. Qed.
Lemma wp_mono {S A} (p : M S A) (Q Q' : A -> S -> Prop) s :
  wp p Q s -> (forall a s', Q a s' -> Q' a s') -> wp p Q' s.
Proof. unfold wp. destruct (p s) as [[a s']| |]; auto. Qed.
Lemma wp_inv {S A} (p : M S A) Q s a s' : wp p Q s -> p s = Ret (a, s') -> Q a s'.
Proof. unfold wp. intros W E. now rewrite E in W. Qed.
Lemma wp_run {S A} (p : M S A) Q s : wp p Q s -> exists a s', p s = Ret (a, s') /\ Q a s'.
Proof. unfold wp. destruct (p s) as [[a s']| |]; try easy. eauto. Qed.

(** Inversion of a run of a sequence. *)
Lemma bind_ret_inv {S A B} (m : M S A) (k : A -> M S B) s r :
  bind m k s = Ret r -> exists a s1, m s = Ret (a, s1) /\ k a s1 = Ret r.
Proof. unfold bind. destruct (m s) as [[a s1]| |]; try discriminate. eauto. Qed.
