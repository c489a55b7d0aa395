(** A separation logic for the heap of HeapBase: predicates on heaps, with the
    interface of Iris' proof mode (no step-indexing, nothing may be dropped). *)
From stdpp Require Import gmap.
From iris.bi Require Import interface.
From iris.proofmode Require Import tactics.
From Verif Require Import Base Buf HeapBase.

Record hprop : Type := HProp { holds :> heap -> Prop }.
Arguments holds : simpl never.

Inductive hprop_equiv' (P Q : hprop) : Prop := { in_equiv : forall m, P m <-> Q m }.
Local Instance hprop_equiv : Equiv hprop := hprop_equiv'.
Local Instance hprop_equivalence : Equivalence (≡@{hprop}).
Proof.
  split; repeat constructor; try (intros; firstorder).
Qed.
Canonical Structure hpropO := discreteO hprop.

Inductive hprop_entails (P Q : hprop) : Prop := { in_entails : forall m, P m -> Q m }.

Definition hp_emp : hprop := HProp (fun m => m = ∅).
Definition hp_pure (φ : Prop) : hprop := HProp (fun _ => φ).
Definition hp_and (P Q : hprop) : hprop := HProp (fun m => P m /\ Q m).
Definition hp_or (P Q : hprop) : hprop := HProp (fun m => P m \/ Q m).
Definition hp_impl (P Q : hprop) : hprop := HProp (fun m => P m -> Q m).
Definition hp_forall {A} (P : A -> hprop) : hprop := HProp (fun m => forall a, P a m).
Definition hp_exist {A} (P : A -> hprop) : hprop := HProp (fun m => exists a, P a m).
Definition hp_sep (P Q : hprop) : hprop :=
  HProp (fun m => exists m1 m2, m = m1 ∪ m2 /\ m1 ##ₘ m2 /\ P m1 /\ Q m2).
Definition hp_wand (P Q : hprop) : hprop :=
  HProp (fun m => forall m', m ##ₘ m' -> P m' -> Q (m ∪ m')).
Definition hp_pers (P : hprop) : hprop := HProp (fun _ => P ∅).

Lemma hprop_bi_mixin : BiMixin hprop_entails hp_emp hp_pure hp_and hp_or hp_impl
  (@hp_forall) (@hp_exist) hp_sep hp_wand hp_pers.
Proof.
  split.
  - split; [intros P; constructor; auto|]. intros P Q R [H1] [H2]. constructor; auto.
  - intros P Q; split.
    + intros [H]; split; constructor; intros m; apply H.
    + intros [[H1] [H2]]. constructor. intros m; split; auto.
  - intros n φ1 φ2 H. constructor. intros m; exact H.
  - intros n P1 P2 [HP] Q1 Q2 [HQ]. constructor. intros m; split; intros [? ?]; split;
      try (apply HP; done); by apply HQ.
  - intros n P1 P2 [HP] Q1 Q2 [HQ]. constructor. intros m; split; (intros [?|?]; [left|right];
      [by apply HP|by apply HQ]).
  - intros n P1 P2 [HP] Q1 Q2 [HQ]. constructor. intros m; split; intros H K; apply HQ, H, HP, K.
  - intros A n P1 P2 H. constructor. intros m; split; intros HH a; apply (H a), HH.
  - intros A n P1 P2 H. constructor. intros m; split; intros [a HH]; exists a; apply (H a), HH.
  - intros n P1 P2 [HP] Q1 Q2 [HQ]. constructor.
    intros m; split; intros (m1 & m2 & ? & ? & ? & ?); exists m1, m2;
      (split; [done|]; split; [done|]; split; [by apply HP|by apply HQ]).
  - intros n P1 P2 [HP] Q1 Q2 [HQ]. constructor.
    intros m; split; intros H m' D K; apply HQ, H; auto; apply HP; auto.
  - intros n P1 P2 [HP]. constructor. intros m; apply HP.
  - intros φ P H. constructor; intros m _. exact H.
  - intros φ P H. constructor; intros m K. by apply (H K).
  - intros P Q. constructor. intros m [? ?]; done.
  - intros P Q. constructor. intros m [? ?]; done.
  - intros P Q R [H1] [H2]. constructor. intros m K; split; auto.
  - intros P Q. constructor. intros m K; by left.
  - intros P Q. constructor. intros m K; by right.
  - intros P Q R [H1] [H2]. constructor. intros m [K|K]; auto.
  - intros P Q R [H]. constructor. intros m K1 K2. apply H. split; auto.
  - intros P Q R [H]. constructor. intros m [K1 K2]. by apply H.
  - intros A P Ψ H. constructor. intros m K a. by apply (H a).
  - intros A Ψ a. constructor. intros m K. apply K.
  - intros A Ψ a. constructor. intros m K. by exists a.
  - intros A Φ Q H. constructor. intros m [a K]. by apply (H a).
  - intros P P' Q Q' [H1] [H2]. constructor. intros m (m1 & m2 & ? & ? & ? & ?).
    exists m1, m2; auto.
  - intros P. constructor. intros m K. exists ∅, m.
    split; [by rewrite left_id_L|]. split; [apply map_disjoint_empty_l|]. by split.
  - intros P. constructor. intros m (m1 & m2 & -> & ? & -> & ?). by rewrite left_id_L.
  - intros P Q. constructor. intros m (m1 & m2 & -> & ? & ? & ?).
    exists m2, m1. split; [by apply map_union_comm|]. auto.
  - intros P Q R. constructor. intros m (m12 & m3 & -> & D & (m1 & m2 & -> & ? & ? & ?) & ?).
    apply map_disjoint_union_l in D as [? ?].
    exists m1, (m2 ∪ m3). split; [by rewrite assoc_L|]. split; [by apply map_disjoint_union_r|].
    split; [done|]. exists m2, m3; auto.
  - intros P Q R [H]. constructor. intros m K m' D K'. apply H. exists m, m'. auto.
  - intros P Q R [H]. constructor. intros m (m1 & m2 & -> & D & K1 & K2). by apply (H m1).
  - intros P Q [H]. constructor. intros m K. by apply (H ∅).
  - intros P. constructor. done.
  - constructor. done.
  - intros P Q. constructor. intros m [? ?]; by split.
  - intros A Ψ. constructor. intros m [a ?]; by exists a.
  - intros P Q. constructor. intros m (m1 & m2 & ? & ? & K & ?). exact K.
  - intros P Q. constructor. intros m [K1 K2]. exists ∅, m.
    split; [by rewrite left_id_L|]. split; [apply map_disjoint_empty_l|]. by split.
Qed.
Lemma hprop_later_mixin : BiLaterMixin hprop_entails hp_pure hp_or hp_impl
  (@hp_forall) (@hp_exist) hp_sep hp_pers id.
Proof. by eapply bi_later_mixin_id, hprop_bi_mixin. Qed.
Canonical Structure hpropI : bi :=
  {| bi_ofe_mixin := ofe_mixin_of hprop;
     bi_bi_mixin := hprop_bi_mixin; bi_bi_later_mixin := hprop_later_mixin |}.


(** *** Assertions *)

(** [p] is the address of a live block with content [b], and that block is all
    there is. *)
Definition pts (p : slot) (b : block) : hprop := HProp (fun m => exists l, p = Ptr l /\ m = {[l := b]}).
Notation "p ↦ b" := (pts p b) (at level 20, format "p  ↦  b") : bi_scope.
(** no memory, and [φ] *)
Notation "⟨ φ ⟩" := (bi_affinely (bi_pure φ)) (format "⟨ φ ⟩") : bi_scope.
(** at least [n] blocks *)
Definition blocks (n : nat) : hprop := HProp (fun m => (n <= size m)%nat).

Lemma emp_holds m : holds (bi_emp (PROP:=hpropI)) m <-> m = ∅.
Proof. reflexivity. Qed.
Lemma sep_holds (P Q : hprop) m : holds (P ∗ Q)%I m <-> exists m1 m2, m = m1 ∪ m2 /\ m1 ##ₘ m2 /\ P m1 /\ Q m2.
Proof. reflexivity. Qed.
Lemma entails_holds (P Q : hprop) : (P ⊢ Q) <-> forall m, P m -> Q m.
Proof. split; [intros [E]; exact E|by intros E; constructor]. Qed.

(** What the retyped octet strings have left behind: texts of one or two bytes. *)
Definition lost (k : heap) : Prop :=
  forall l b, k !! l = Some b -> exists bs, b = Bytes bs /\ (1 <= length bs <= 2)%nat.

(** The buffer contents with which blocks may be abandoned, and the actions on
    the buffer that make no difference to that. *)
Class Watch : Type := watch : list Z -> Prop.
Definition Keeps {WA : Watch} {A} (c : P A) : Prop :=
  forall s a s', c s = Ret (a, s') -> (watch (buffer s') <-> watch (buffer s)).
Existing Class Keeps.
Definition kept {WA : Watch} (s s' : sbuf) (k k' : heap) : Prop :=
  (watch (buffer s') <-> watch (buffer s)) /\ (k' = k \/ watch (buffer s)).
Lemma kept_refl {WA : Watch} s k : kept s s k k.
Proof. split; [done|by left]. Qed.
Global Hint Resolve kept_refl : core.

(** In this logic malloc and realloc succeed. *)
#[global] Instance plenty : Memory := {| grants _ _ := true |}.

Section WithAllocator.
Context {AL : Allocator} {WA : Watch}.

(** [wp c s Φ]: on the memory described, with the buffer in state [s] and
    whatever else is in the heap, [c] runs without a fault, leaves everything
    else alone and ends with a result, a buffer and memory that satisfy [Φ];
    blocks may only be abandoned ([k]) as counted by [hconf], and only if the
    buffer is one of those watched. *)
Definition wp {A} (c : H A) (s : sbuf) (Φ : A -> sbuf -> hprop) : hprop := HProp (fun m =>
  forall hf k n0 pk, hf ##ₘ k -> hf ∪ k ##ₘ m -> lost k ->
  exists a s' k' m', (exists pk', c (mkH s (hf ∪ k ∪ m) (n0 + size k) pk) = Ret (a, mkH s' (hf ∪ k' ∪ m') (n0 + size k') pk'))
    /\ hf ##ₘ k' /\ hf ∪ k' ##ₘ m' /\ lost k' /\ kept s s' k k' /\ Φ a s' m').

Lemma wp_ret {A} (a : A) s Φ : Φ a s ⊢ wp (ret a) s Φ.
Proof. apply entails_holds. intros m K hf k n0 pk D1 D2 L. exists a, s, k, m. split_and!; eauto. Qed.

Lemma wp_bind {A B} (c : H A) (f : A -> H B) s Φ :
  wp c s (fun a s' => wp (f a) s' Φ) ⊢ wp (bind c f) s Φ.
Proof.
  apply entails_holds. intros m K hf k n0 pk D1 D2 L.
  destruct (K hf k n0 pk D1 D2 L) as (a & s1 & k1 & m1 & [pk1 E] & D3 & D4 & L1 & [W1 V1] & K1).
  destruct (K1 hf k1 n0 pk1 D3 D4 L1) as (b & s2 & k2 & m2 & [pk2 E2] & D5 & D6 & L2 & [W2 V2] & K2).
  exists b, s2, k2, m2. split; [exists pk2; unfold bind; by rewrite E|]. split_and!; try done.
  split; [tauto|]. destruct V2 as [->|V2]; [exact V1|right; tauto].
Qed.

Lemma wp_wand {A} (c : H A) s Φ Ψ :
  wp c s Φ ∗ (∀ a s', Φ a s' -∗ Ψ a s') ⊢ wp c s Ψ.
Proof.
  apply entails_holds. intros m (m1 & m2 & -> & D & K & W) hf k n0 pk D1 D2 L.
  apply map_disjoint_union_r in D2 as [D2 D2'].
  apply map_disjoint_union_l in D2 as [D2a D2b]. apply map_disjoint_union_l in D2' as [D2c D2d].
  destruct (K (hf ∪ m2) k n0 pk) as (a & s1 & k1 & m1' & [pk1 E] & D3 & D4 & L1 & W1 & K1).
  { apply map_disjoint_union_l; split; [done|by symmetry]. }
  { rewrite !map_disjoint_union_l. split; [split|]; [done|by symmetry|done]. }
  { done. }
  apply map_disjoint_union_l in D3 as [D3 D3'].
  apply map_disjoint_union_l in D4 as [D4 D4']. apply map_disjoint_union_l in D4 as [D4a D4b].
  exists a, s1, k1, (m1' ∪ m2). split; [|split; [|split; [|split; [|split]]]].
  - exists pk1. replace (hf ∪ k ∪ (m1 ∪ m2)) with (hf ∪ m2 ∪ k ∪ m1).
    + rewrite E. do 3 f_equal. rewrite -!(assoc_L (∪)). f_equal.
      rewrite (map_union_comm m2 (k1 ∪ m1')).
      * by rewrite -(assoc_L (∪)).
      * apply map_disjoint_union_r. split; [by symmetry|done].
    + rewrite -!(assoc_L (∪)). f_equal.
      rewrite (map_union_comm m2 (k ∪ m1)).
      * by rewrite -(assoc_L (∪)).
      * apply map_disjoint_union_r. split; [by symmetry|done].
  - done.
  - rewrite map_disjoint_union_l !map_disjoint_union_r. repeat split; auto.
  - done.
  - done.
  - rewrite map_union_comm; [|by symmetry]. exact (W a s1 m1' D4b K1).
Qed.

Lemma wp_lift {A} (c : P A) {KC : Keeps c} s a s' Φ : c s = Ret (a, s') -> Φ a s' ⊢ wp (lift c) s Φ.
Proof.
  intros E. apply entails_holds. intros m K hf k n0 pk D1 D2 L. exists a, s', k, m.
  split; [exists pk; unfold lift; cbn [hbuf hmem hconf]; by rewrite E|]. split_and!; try done. split; [by apply (KC s a s')|by left].
Qed.

Lemma wp_block {A} (c : H A) p b b' a s Φ :
  (forall l h n pk, p = Ptr l -> h !! l = None ->
     c (mkH s (<[l := b]> h) n pk) = Ret (a, mkH s (<[l := b']> h) n pk)) ->
  p ↦ b ∗ (p ↦ b' -∗ Φ a s) ⊢ wp c s Φ.
Proof.
  intros E. trans (wp c s (fun a' s' => ⟨a' = a /\ s' = s⟩ ∗ p ↦ b') ∗ (p ↦ b' -∗ Φ a s))%I.
  - iIntros "[H K]". iSplitL "H"; [|iExact "K"]. iStopProof.
    apply entails_holds. intros m (l & -> & ->) hf k n0 pk D1 D2 L. exists a, s, k, {[l := b']}.
    assert (N : (hf ∪ k) !! l = None).
    { apply map_disjoint_singleton_r in D2. exact D2. }
    assert (D3 : hf ∪ k ##ₘ {[l := b']}) by by apply map_disjoint_singleton_r.
    split; [|split; [done|split; [done|split; [done|split; [done|]]]]].
    + exists pk. rewrite (map_union_comm (hf ∪ k) {[l := b]}) // (map_union_comm (hf ∪ k) {[l := b']}) //.
      rewrite -!insert_union_singleton_l. by apply E.
    + exists ∅, {[l := b']}. split; [by rewrite left_id_L|].
      split; [apply map_disjoint_empty_l|]. split; [split; [done|by split]|by exists l].
  - iIntros "[H K]". iApply wp_wand. iSplitL "H"; [iExact "H"|].
    iIntros (a' s') "[%E' H]". destruct E' as [-> ->]. by iApply "K".
Qed.

Lemma wp_malloc b s Φ : (∀ p, p ↦ b -∗ Φ p s) ⊢ wp (malloc b) s Φ.
Proof.
  apply entails_holds. intros m K hf k n0 pk D1 D2 L.
  set (h := hf ∪ k ∪ m). pose (l := choose h). assert (N := choose_fresh h). fold l in N.
  exists (Ptr l), s, k, (m ∪ {[l := b]}).
  apply lookup_union_None in N as [N N3]. apply lookup_union_None in N as [N1 N2].
  split; [|split; [done|split; [|split; [done|split; [done|]]]]].
  - eexists. unfold malloc, alloc. cbn [grants plenty]. cbn [hmem hbuf hconf]. fold h. fold l. do 2 f_equal. f_equal.
    rewrite (map_union_comm m {[l := b]}); [|by apply map_disjoint_singleton_r].
    rewrite (assoc_L (∪)). rewrite (map_union_comm (hf ∪ k) {[l := b]}).
    + rewrite -(assoc_L (∪)). by rewrite insert_union_singleton_l.
    + apply map_disjoint_singleton_r. by apply lookup_union_None.
  - apply map_disjoint_union_r. split; [done|]. apply map_disjoint_singleton_r.
    by apply lookup_union_None.
  - specialize (K (Ptr l)). apply K; [by apply map_disjoint_singleton_r|by exists l].
Qed.

Lemma wp_regrant b s Φ : Φ tt s ⊢ wp (regrant b) s Φ.
Proof. apply entails_holds. intros m K hf k n0 pk D1 D2 L. exists tt, s, k, m. split_and!; eauto. Qed.

Lemma pts_ptr p b : p ↦ b ⊢ p ↦ b ∗ ⟨exists l, p = Ptr l⟩.
Proof.
  apply entails_holds. intros m (l & -> & ->). exists {[l := b]}, ∅.
  split; [by rewrite right_id_L|]. split; [apply map_disjoint_empty_r|].
  split; [by exists l|]. split; [done|]. by exists l.
Qed.

Lemma wp_free p b s Φ : p ↦ b ∗ Φ tt s ⊢ wp (free p) s Φ.
Proof.
  trans (wp (free p) s (fun _ s' => ⟨s' = s⟩) ∗ Φ tt s)%I.
  - iIntros "[H K]". iSplitL "H"; [|iExact "K"]. iStopProof.
    apply entails_holds. intros m (l & -> & ->) hf k n0 pk D1 D2 L. exists tt, s, k, ∅.
    apply map_disjoint_singleton_r in D2 as D3.
    split; [|split; [done|split; [apply map_disjoint_empty_r|split; [done|split; [done|]]]]].
    + exists pk. unfold free. cbn [hmem].
      rewrite (map_union_comm (hf ∪ k) {[l := b]}) //. rewrite -insert_union_singleton_l lookup_insert.
      unfold set_mem; cbn [hbuf hconf hmem]. rewrite delete_insert // right_id_L //.
    + by split.
  - iIntros "[H K]". iApply wp_wand. iSplitL "H"; [iExact "H"|].
    iIntros ([] s') "->". iExact "K".
Qed.
Lemma wp_free_nul s Φ : Φ tt s ⊢ wp (free Nul) s Φ.
Proof. apply (wp_ret tt). Qed.

Lemma wp_load_struct p ss s Φ :
  p ↦ Struct ss ∗ (p ↦ Struct ss -∗ Φ ss s) ⊢ wp (load_struct p) s Φ.
Proof.
  apply wp_block. intros l h n pk -> N. unfold load_struct, load_block, bind. cbn [hmem].
  by rewrite lookup_insert.
Qed.
Lemma wp_load p i x ss s Φ : ss !! i = Some x ->
  p ↦ Struct ss ∗ (p ↦ Struct ss -∗ Φ x s) ⊢ wp (load p i) s Φ.
Proof.
  intros E. apply wp_block. intros l h n pk -> N. unfold load, load_struct, load_block, bind. cbn [hmem].
  rewrite lookup_insert. unfold ret. by rewrite E.
Qed.
Lemma wp_load_int p i z ss s Φ : ss !! i = Some (Int z) ->
  p ↦ Struct ss ∗ (p ↦ Struct ss -∗ Φ z s) ⊢ wp (load_int p i) s Φ.
Proof.
  intros E. apply wp_block. intros l h n pk -> N. unfold load_int, load, load_struct, load_block, bind. cbn [hmem].
  rewrite lookup_insert. unfold ret. by rewrite E.
Qed.
Lemma wp_load_bytes p bs s Φ :
  p ↦ Bytes bs ∗ (p ↦ Bytes bs -∗ Φ bs s) ⊢ wp (load_bytes p) s Φ.
Proof.
  apply wp_block. intros l h n pk -> N. unfold load_bytes, load_block, bind. cbn [hmem].
  by rewrite lookup_insert.
Qed.
Lemma wp_store p i x ss s Φ : is_Some (ss !! i) ->
  p ↦ Struct ss ∗ (p ↦ Struct (<[i := x]> ss) -∗ Φ tt s) ⊢ wp (store p i x) s Φ.
Proof.
  intros [y E]. apply wp_block. intros l h n pk -> N.
  unfold store, load_struct, load_block, store_block, bind. cbn [hmem].
  rewrite lookup_insert. unfold ret. rewrite E. unfold set_mem; cbn [hmem hbuf hconf]. by rewrite insert_insert.
Qed.
Lemma wp_store_bytes p old bs s Φ : length old = length bs ->
  p ↦ Bytes old ∗ (p ↦ Bytes bs -∗ Φ tt s) ⊢ wp (store_bytes p bs) s Φ.
Proof.
  intros E. apply wp_block. intros l h n pk -> N.
  unfold store_bytes, load_bytes, load_block, store_block, bind. cbn [hmem].
  rewrite lookup_insert. unfold ret. rewrite E Nat.eqb_refl. unfold set_mem; cbn [hmem hbuf hconf].
  by rewrite insert_insert.
Qed.

Lemma wp_if_ptr p b k s Φ : p ↦ b ∗ (p ↦ b -∗ wp k s Φ) ⊢ wp (if_ptr p k) s Φ.
Proof.
  iIntros "[H K]". iDestruct (pts_ptr with "H") as "[H [%l ->]]". by iApply "K".
Qed.

(** Fuel that is the number of blocks in the heap *)
Lemma wp_heap_fuel {A} (P : hprop) n (f : nat -> H A) s Φ :
  (P ⊢ blocks n) -> (forall fuel, (n < fuel)%nat -> P ⊢ wp (f fuel) s Φ) ->
  P ⊢ wp (with_heap_fuel f) s Φ.
Proof.
  intros HP HF. apply entails_holds. intros m K hf k n0 pk D1 D2 L.
  assert (B : (n <= size m)%nat) by exact (proj1 (entails_holds _ _) HP m K).
  unfold with_heap_fuel. cbn [hmem].
  assert (F : (n < S (size (hf ∪ k ∪ m)))%nat) by (rewrite map_size_disj_union //; lia).
  exact (proj1 (entails_holds _ _) (HF _ F) m K hf k n0 pk D1 D2 L).
Qed.

Lemma blocks_sep (P Q : hprop) a b : (P ⊢ blocks a) -> (Q ⊢ blocks b) -> P ∗ Q ⊢ blocks (a + b).
Proof.
  intros HP HQ. apply entails_holds. intros m (m1 & m2 & -> & D & K1 & K2).
  apply (proj1 (entails_holds _ _) HP) in K1. apply (proj1 (entails_holds _ _) HQ) in K2.
  unfold blocks, holds in *. rewrite map_size_disj_union //. lia.
Qed.
Lemma blocks_0 (P : hprop) : P ⊢ blocks 0.
Proof. apply entails_holds. intros m _. unfold blocks, holds. lia. Qed.
Lemma blocks_pts p b : p ↦ b ⊢ blocks 1.
Proof. apply entails_holds. intros m (l & _ & ->). unfold blocks, holds. by rewrite map_size_singleton. Qed.
Lemma blocks_le a b : (b <= a)%nat -> blocks a ⊢ blocks b.
Proof. intros L. apply entails_holds. intros m. unfold blocks, holds. lia. Qed.

(** The counter: a text of one or two bytes is given up. *)
Lemma wp_abandon p bs s Φ : watch (buffer s) -> (1 <= length bs <= 2)%nat ->
  p ↦ Bytes bs ∗ Φ tt s
  ⊢ wp (fun st => Ret (tt, mkH (hbuf st) (hmem st) (S (hconf st)) (hpeak st))) s Φ.
Proof.
  intros WS LB. apply entails_holds. intros m (m1 & m2 & -> & D & (l & -> & ->) & K) hf k n0 pk D1 D2 L.
  apply map_disjoint_union_r in D2 as [D2 D3]. apply map_disjoint_singleton_r in D2.
  apply lookup_union_None in D2 as [N1 N2].
  exists tt, s, (k ∪ {[l := Bytes bs]}), m2.
  split; [|split; [|split; [|split; [|split; [split; [done|by right]|done]]]]].
  - exists pk. cbn [hbuf hmem hconf hpeak]. do 3 f_equal.
    + by rewrite !(assoc_L (∪)).
    + rewrite map_size_disj_union; [|by apply map_disjoint_singleton_r]. rewrite map_size_singleton. lia.
  - apply map_disjoint_union_r. split; [done|by apply map_disjoint_singleton_r].
  - rewrite (assoc_L (∪)). apply map_disjoint_union_l. split; [done|]. done.
  - intros l' b'. rewrite lookup_union_Some_raw. intros [E|[_ E]]; [by apply (L l')|].
    apply lookup_singleton_Some in E as [_ <-]. by exists bs.
Qed.

End WithAllocator.
