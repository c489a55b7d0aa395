(** Memory (C86): what is added to a file belongs to it.

    [holds (rep_file l bs file ∗ rep_msg m msg) b] says that the blocks [b] are exactly
    the memory of a file at [file] with the messages [l] and that of a message [m]
    at [msg].  [Fault DeadBlock] is an access to memory that has been freed. *)
From stdpp Require Import gmap.
From iris.proofmode Require Import tactics.
From Verif Require Import Base Buf Number OctetString Boolean Value Time SList Tree Bodies Message File Transport Wf Tests
  Enc Inv TL NumFacts HeapBase HeapModel HeapLogic HeapRep HeapFree HeapSim HeapWriteModel HeapWrite HeapBuildModel HeapBuild
  PropsParse PropsRound PropsSend PropsHeap PropsHeapWrite PropsHeapBuild.

Local Open Scope list_scope.
Section WithHost.
Context {HO : Host} {AL : Allocator}.

(** *** Lemmas *)
Lemma for_each_prefix {WA : Watch} f : forall Rs pre ss post p s Φ, Forall (frees f) Rs ->
  p ↦ Struct (pre ++ ss ++ post) ∗ fields Rs ss ∗ (p ↦ Struct (pre ++ ss ++ post) -∗ Φ tt s)
  ⊢ wp (for_each (length Rs) (length pre) p f) s Φ.
Proof.
  induction Rs as [|R Rs IH]; intros pre ss post p s Φ F; cbn [length for_each].
  - iIntros "(P & F & K)". rewrite fields_nil. iDestruct "F" as "->". iApply wp_ret. by iApply "K".
  - apply Forall_cons_1 in F as [Hf F]. iIntros "(P & F & K)".
    iDestruct (fields_cons_inv with "F") as (x ss' ->) "[R F]".
    iApply wp_bind. iApply (wp_load p _ x (pre ++ (x :: ss') ++ post)).
    { rewrite lookup_app_r // Nat.sub_diag //. }
    iFrame "P". iIntros "P". iApply wp_bind. iApply Hf. iFrame "R".
    iPoseProof (IH (pre ++ [x]) ss' post p s Φ F) as "W".
    rewrite -!(assoc_L (++)) app_length Nat.add_1_r. cbn [app]. iApply "W". iFrame.
Qed.
Lemma for_each_split n k : forall i arr f st,
  for_each (n + k) i arr f st = (for_each n i arr f ;;; for_each k (i + n) arr f) st.
Proof.
  induction n as [|n IH]; intros i arr f st; cbn [Nat.add for_each].
  - unfold bind, ret. by rewrite Nat.add_0_r.
  - unfold bind. destruct (load arr i st) as [[x st1]|fl|]; [|done..]. destruct (f x st1) as [[[] st2]|fl|]; [|done..].
    rewrite IH. unfold bind. by replace (i + S n)%nat with (S i + n)%nat by lia.
Qed.
Lemma free_dead d st : hmem st !! d = None -> h_message_free (Ptr d) st = Fault DeadBlock.
Proof.
  intros N. unfold h_message_free, free_struct, if_ptr, free_members, load, load_struct, load_block, bind. by rewrite N.
Qed.
(** A file whose array has an entry that is dead when its turn comes *)
Lemma dead_entry st h b lp la bf Rs ss d rest :
  hmem st = h ∪ b -> h ##ₘ b -> holds (Ptr la ↦ Struct (ss ++ Ptr d :: rest) ∗ fields Rs ss)%I b ->
  Forall (frees (WA := quiet) h_message_free) Rs ->
  h !! lp = Some (Struct [Ptr la; Int (Z.of_nat (length (ss ++ Ptr d :: rest))); bf]) ->
  h !! d = None -> d <> la -> h_file_free (Ptr lp) st = Fault DeadBlock.
Proof.
  intros EM D HB HF HP ND NE.
  assert (W : (Ptr la ↦ Struct (ss ++ Ptr d :: rest) ∗ fields Rs ss)%I ⊢
    wp (WA := quiet) (for_each (length Rs) 0 (Ptr la) h_message_free) (hbuf st) (fun _ _ => Ptr la ↦ Struct (ss ++ Ptr d :: rest))%I).
  { iIntros "[P F]". iApply (for_each_prefix h_message_free Rs [] ss (Ptr d :: rest) _ _ _ HF). iFrame. cbn [app]. iIntros "P". iFrame. }
  assert (LR : length Rs = length ss).
  { destruct HB as (b1 & b2 & _ & _ & _ & H2).
    assert (X : fields Rs ss ⊢ ⌜length Rs = length ss⌝) by (iIntros "F"; by iDestruct (fields_length with "F") as %E).
    exact (proj1 (entails_holds _ _) X b2 H2). }
  apply (proj1 (entails_holds _ _)) with (m := b) in W; [|done].
  destruct (run_quiet _ st _ h b EM D W) as ([] & st1 & b1 & ER & EM1 & D1 & _ & (l & E & ->)). injection E as <-.
  assert (EP : hmem st !! lp = Some (Struct [Ptr la; Int (Z.of_nat (length (ss ++ Ptr d :: rest))); bf])).
  { rewrite EM. by apply lookup_union_Some_l. }
  assert (E0 : load (Ptr lp) 0 st = Ret (Ptr la, st)).
  { unfold load, load_struct, load_block, bind. by rewrite EP. }
  assert (E1 : load_int (Ptr lp) 1 st = Ret (Z.of_nat (length (ss ++ Ptr d :: rest)), st)).
  { unfold load_int, load, load_struct, load_block, bind. by rewrite EP. }
  assert (EL : load (Ptr la) (length ss) st1 = Ret (Ptr d, st1)).
  { unfold load, load_struct, load_block, bind. rewrite EM1 lookup_union_r.
    - rewrite lookup_singleton. unfold ret. by rewrite lookup_app_r // Nat.sub_diag.
    - by apply map_disjoint_singleton_r in D1. }
  assert (EF : for_each (length (ss ++ Ptr d :: rest)) 0 (Ptr la) h_message_free st = Fault DeadBlock).
  { rewrite app_length for_each_split. unfold bind. rewrite -LR ER. cbn [length for_each Nat.add]. unfold bind. rewrite LR EL free_dead; [done|].
    rewrite EM1. apply lookup_union_None. split; [done|]. by apply lookup_singleton_ne. }
  unfold h_file_free, if_ptr, bind. rewrite E0 E1 Nat2Z.id EF. done.
Qed.

(** A file whose array has entries described by [Rs]; an entry that is the pointer [x] *)
Definition file_of (Rs : list (slot -> hprop)) (bytes : list Z) (p : slot) : hprop :=
  (∃ arr b, p ↦ Struct [arr; Int (Z.of_nat (length Rs)); b] ∗ array Rs arr ∗ rep_buffer bytes b)%I.
Definition pin (x : slot) (R : slot -> hprop) (y : slot) : hprop := (⟨y = x⟩ ∗ R y)%I.
Definition nothing (y : slot) : hprop := emp%I.
Lemma file_of_rep l bytes p : rep_file l bytes p ⊣⊢ file_of (map rep_msg l) bytes p.
Proof. unfold rep_file, file_of. by rewrite map_length. Qed.
Lemma add_any {WA : Watch} Rs R bytes p x s Φ : (length Rs < Z.to_nat 32767)%nat ->
  file_of Rs bytes p ∗ R x ∗ (file_of (Rs ++ [R]) bytes p -∗ Φ tt s) ⊢ wp (h_file_add_message p x) s Φ.
Proof.
  intros L. iIntros "((%arr & %b & P & A & B) & M & K)". unfold h_file_add_message. iApply wp_bind. hload_int "P".
  destruct (Z.leb_spec (Z.of_nat (length Rs) + 1) 32767) as [_|N]; [|lia].
  iApply (wp_append [] [b] arr Rs R x p 0 s Φ eq_refl). cbn [app]. iFrame "P A M".
  iIntros (arr') "[P A]". iApply "K". iExists arr', b. iFrame.
Qed.
Lemma msg_ptr m p : rep_msg m p ⊢ ∃ l ss, ⟨p = Ptr l⟩ ∗ Ptr l ↦ Struct ss ∗ (Ptr l ↦ Struct ss -∗ rep_msg m p).
Proof.
  iIntros "(%ss & P & F)". iDestruct (pts_ptr with "P") as "[P (%l & ->)]". iExists l, (ss ++ []). iSplit; [done|]. iFrame "P".
  iIntros "P". iExists ss. iFrame.
Qed.
Lemma open_file Rs d R Rs2 bytes p :
  file_of (Rs ++ pin (Ptr d) R :: Rs2) bytes p ⊢ ∃ lp la bf ss rest, ⟨p = Ptr lp⟩ ∗
    ((Ptr lp ↦ Struct [Ptr la; Int (Z.of_nat (length (ss ++ Ptr d :: rest))); bf]) ∗ rep_buffer bytes bf ∗ R (Ptr d) ∗ fields Rs2 rest) ∗
    (Ptr la ↦ Struct (ss ++ Ptr d :: rest) ∗ fields Rs ss).
Proof.
  iIntros "(%arr & %bf & P & A & B)". iDestruct (pts_ptr with "P") as "[P (%lp & ->)]".
  assert (EA : array (Rs ++ pin (Ptr d) R :: Rs2) arr = cell [] (Rs ++ pin (Ptr d) R :: Rs2) arr) by (by destruct Rs). rewrite EA.
  iDestruct "A" as (ss0) "[A F]". rewrite app_nil_r. iDestruct (pts_ptr with "A") as "[A (%la & ->)]".
  iDestruct (fields_length with "F") as %LF. unfold fields. iDestruct (big_sepL2_app_inv_l with "F") as (ss ss1 ->) "[F1 F2]".
  destruct ss1 as [|y rest]; [by iDestruct "F2" as "[]"|]. cbn [big_sepL2]. iDestruct "F2" as "[[-> R] F2]".
  iExists lp, la, bf, ss, rest. iSplit; [done|]. rewrite LF. iFrame.
Qed.
Lemma frees_pin {WA : Watch} x R : frees h_message_free R -> frees h_message_free (pin x R).
Proof. intros F p s Φ. iIntros "[[_ R] K]". iApply F. iFrame. Qed.
Lemma frees_msgs {WA : Watch} l : Forall (frees h_message_free) (map rep_msg l).
Proof. apply Forall_map, Forall_true. intros x. exact (f_msg (WA := WA) (Some x)). Qed.

(** a file with an entry that is dead already *)
Lemma dead_file st h b Rs R Rs2 bytes p d : hmem st = h ∪ b -> h ##ₘ b -> holds (file_of (Rs ++ pin (Ptr d) R :: Rs2) bytes p) b ->
  Forall (frees (WA := quiet) h_message_free) Rs -> hmem st !! d = None -> h_file_free p st = Fault DeadBlock.
Proof.
  intros EM D HB HF ND. apply (proj1 (entails_holds _ _) (open_file _ _ _ _ _ _)) in HB.
  destruct HB as (lp & la & bf & ss & rest & b0 & b1 & -> & D0 & [E0 ->] & (bA & bB & -> & DAB & HA & HB)).
  assert (b0 = ∅) as -> by exact E0. rewrite left_id_L in EM D. clear E0 D0.
  rewrite (assoc_L (∪)) in EM. apply map_disjoint_union_r in D as [DA DB].
  apply (dead_entry st (h ∪ bA) bB lp la bf Rs ss d rest EM); [by apply map_disjoint_union_l|exact HB|exact HF|..].
  - destruct HA as (c1 & c2 & -> & DC & (l & E & ->) & _). injection E as <-. apply lookup_union_Some_r; [exact DA|].
    apply lookup_union_Some_l, lookup_singleton.
  - rewrite EM in ND. by apply lookup_union_None in ND as [? _].
  - intros ->. rewrite EM in ND. apply lookup_union_None in ND as [_ ND].
    destruct HB as (c1 & c2 & -> & DC & (l & E & ->) & _). injection E as <-.
    apply lookup_union_None in ND as [ND _]. by rewrite lookup_singleton in ND.
Qed.
(** a file with an entry that is one of the earlier ones, too *)
Lemma twice_file st h b Rs m Rs1 R Rs2 bytes p d : hmem st = h ∪ b -> h ##ₘ b ->
  holds (file_of ((Rs ++ pin (Ptr d) (rep_msg m) :: Rs1) ++ pin (Ptr d) R :: Rs2) bytes p) b ->
  Forall (frees (WA := quiet) h_message_free) Rs -> Forall (frees (WA := quiet) h_message_free) Rs1 -> h_file_free p st = Fault DeadBlock.
Proof.
  intros EM D HB HF HF1. apply (proj1 (entails_holds _ _) (open_file _ _ _ _ _ _)) in HB.
  destruct HB as (lp & la & bf & ss & rest & b0 & b1 & -> & D0 & [E0 ->] & (bA & bB & -> & DAB & HA & HB)).
  assert (b0 = ∅) as -> by exact E0. rewrite left_id_L in EM D. clear E0 D0.
  rewrite (assoc_L (∪)) in EM. apply map_disjoint_union_r in D as [DA DB].
  assert (X : exists c1 c2, bB = {[la := Struct (ss ++ Ptr d :: rest)]} ∪ (c1 ∪ c2) /\ {[la := Struct (ss ++ Ptr d :: rest)]} ##ₘ c1 ∪ c2 /\ is_Some (c1 !! d)).
  { destruct HB as (c1 & c2 & -> & DC & (l & E & ->) & HFs). injection E as <-.
    assert (W : fields (Rs ++ pin (Ptr d) (rep_msg m) :: Rs1) ss ⊢ ∃ k F, Ptr d ↦ Struct k ∗ F).
    { unfold fields. iIntros "F". iDestruct (big_sepL2_app_inv_l with "F") as (s1 s2 ->) "[F1 F2]".
      destruct s2 as [|y s2]; [by iDestruct "F2" as "[]"|]. cbn [big_sepL2]. iDestruct "F2" as "[[-> R] F2]".
      iDestruct (msg_ptr with "R") as (l k) "(%E & P & K)". injection E as <-. iExists k, _. iFrame "P". iCombine "F1 K F2" as "F". iExact "F". }
    apply (proj1 (entails_holds _ _) W) in HFs. destruct HFs as (k & F & e1 & e2 & -> & _ & (l & E & ->) & _). injection E as <-.
    exists {[d := Struct k]}, e2. split_and!; [done|exact DC|]. rewrite lookup_singleton. by eexists. }
  destruct X as (c1 & c2 & EB & DC & [y Hy]).
  assert (HB' : bB !! d = Some y).
  { rewrite EB. apply lookup_union_Some_r; [exact DC|]. by apply lookup_union_Some_l. }
  apply (dead_entry st (h ∪ bA) bB lp la bf (Rs ++ pin (Ptr d) (rep_msg m) :: Rs1) ss d rest EM); [by apply map_disjoint_union_l|exact HB|..].
  - apply Forall_app. split; [exact HF|]. constructor; [apply frees_pin; exact (f_msg (WA := quiet) (Some m))|exact HF1].
  - destruct HA as (e1 & e2 & -> & DE & (l & E & ->) & _). injection E as <-. apply lookup_union_Some_r; [exact DA|].
    apply lookup_union_Some_l, lookup_singleton.
  - apply lookup_union_None. split; by eapply map_disjoint_Some_r.
  - intros ->. assert (N : (c1 ∪ c2) !! la = None) by (eapply map_disjoint_Some_l; [exact DC|apply lookup_singleton]). apply lookup_union_None in N as [N _]. congruence.
Qed.
Lemma msg_block m p b : holds (rep_msg m p) b -> exists d, p = Ptr d /\ is_Some (b !! d).
Proof.
  intros HB. apply (proj1 (entails_holds _ _) (msg_ptr m p)) in HB.
  destruct HB as (d & ss & b0 & b1 & -> & _ & [_ ->] & (e1 & e2 & -> & DE & (l & E & ->) & _)). injection E as <-.
  exists d. split; [done|]. apply lookup_union_is_Some. right. apply lookup_union_is_Some. left. rewrite lookup_singleton. by eexists.
Qed.
Lemma run_frees st h b (f : slot -> H unit) R p : frees (WA := quiet) f R -> hmem st = h ∪ b -> h ##ₘ b -> holds (R p) b ->
  exists st1, f p st = Ret (tt, st1) /\ hmem st1 = h.
Proof.
  intros F EM D HR.
  assert (W : R p ⊢ wp (WA := quiet) (f p) (hbuf st) (fun _ _ => emp%I)) by (iIntros "R"; iApply F; by iFrame).
  apply (proj1 (entails_holds _ _)) with (m := b) in W; [|done].
  destruct (run_quiet _ st _ h b EM D W) as ([] & st1 & b1 & ER & EM1 & _ & _ & HP).
  assert (b1 = ∅) as -> by exact HP. rewrite right_id_L in EM1. by exists st1.
Qed.
Lemma gone st h b m p : hmem st = h -> h ##ₘ b -> holds (rep_msg m p) b -> exists d, p = Ptr d /\ hmem st !! d = None.
Proof.
  intros -> D HM. apply msg_block in HM as (d & -> & [y Hy]). exists d. split; [done|]. by eapply map_disjoint_Some_r.
Qed.

(** *** The theorems *)

(** Freeing a message twice *)
Theorem C86_message_freed_twice st h b m msg : hmem st = h ∪ b -> h ##ₘ b -> holds (rep_msg m msg) b ->
  exists st1, h_message_free msg st = Ret (tt, st1) /\ hmem st1 = h /\ h_message_free msg st1 = Fault DeadBlock.
Proof.
  intros EM D HM. destruct (run_frees st h b _ (rep_msg m) msg (f_msg (WA := quiet) (Some m)) EM D HM) as (st1 & E & EM1).
  destruct (gone st1 h b m msg EM1 D HM) as (d & -> & N). exists st1. split_and!; [done|done|]. by apply free_dead.
Qed.

(** Freeing a file twice *)
Theorem C86_file_freed_twice st h b l bs file : hmem st = h ∪ b -> h ##ₘ b -> holds (rep_file l bs file) b ->
  exists st1, h_file_free file st = Ret (tt, st1) /\ hmem st1 = h /\ h_file_free file st1 = Fault DeadBlock.
Proof.
  intros EM D HM. destruct (run_frees st h b _ (rep_file l bs) file (f_file (WA := quiet) l bs) EM D HM) as (st1 & E & EM1).
  exists st1. split_and!; [done|done|]. destruct HM as (arr & bf & b1 & b2 & -> & D1 & (lp & -> & ->) & _).
  unfold h_file_free, if_ptr, load, load_struct, load_block, bind. rewrite EM1.
  apply map_disjoint_union_r in D as [D _]. apply map_disjoint_singleton_r in D. by rewrite D.
Qed.

(** A message that was added is freed together with the file, and must not be freed
    afterwards. *)
Theorem C86_freed_with_the_file st h b l bs file m msg : hmem st = h ∪ b -> h ##ₘ b -> holds (rep_file l bs file ∗ rep_msg m msg)%I b ->
  (length l < Z.to_nat 32767)%nat ->
  exists st1 st2, h_file_add_message file msg st = Ret (tt, st1) /\ h_file_free file st1 = Ret (tt, st2) /\ hmem st2 = h /\
    h_message_free msg st2 = Fault DeadBlock.
Proof.
  intros EM D HB HL.
  assert (W : (rep_file l bs file ∗ rep_msg m msg)%I ⊢ wp (WA := quiet) (h_file_add_message file msg) (hbuf st) (fun _ _ => rep_file (l ++ [m]) bs file)).
  { iIntros "[F M]". iApply add_message_ok; [exact HL|]. iFrame. iIntros "F". iFrame. }
  apply (proj1 (entails_holds _ _)) with (m := b) in W; [|done].
  destruct (run_quiet _ st _ h b EM D W) as ([] & st1 & b1 & E1 & EM1 & D1 & _ & HF).
  destruct (run_frees st1 h b1 _ (rep_file (l ++ [m]) bs) file (f_file (WA := quiet) _ bs) EM1 D1 HF) as (st2 & E2 & EM2).
  exists st1, st2. split_and!; [done..|]. destruct HB as (c1 & c2 & -> & DC & _ & HM). apply map_disjoint_union_r in D as [_ D].
  destruct (gone st2 h c2 m msg EM2 D HM) as (d & -> & N). by apply free_dead.
Qed.

(** A message that was added must not be freed before the file is. *)
Theorem C86_freed_before_the_file st h b l bs file m msg : hmem st = h ∪ b -> h ##ₘ b -> holds (rep_file l bs file ∗ rep_msg m msg)%I b ->
  (length l < Z.to_nat 32767)%nat ->
  exists st1 st2, h_file_add_message file msg st = Ret (tt, st1) /\ h_message_free msg st1 = Ret (tt, st2) /\
    h_file_free file st2 = Fault DeadBlock.
Proof.
  intros EM D HB HL.
  assert (W : (rep_file l bs file ∗ rep_msg m msg)%I ⊢ wp (WA := quiet) (h_file_add_message file msg) (hbuf st)
    (fun _ _ => file_of (map rep_msg l ++ [pin msg nothing]) bs file ∗ rep_msg m msg)%I).
  { iIntros "[F M]". rewrite file_of_rep. iApply (add_any (map rep_msg l) (pin msg nothing)); [by rewrite map_length|]. iFrame. iSplitR; [by iSplit|]. iIntros "F". iFrame. }
  apply (proj1 (entails_holds _ _)) with (m := b) in W; [|done].
  destruct (run_quiet _ st _ h b EM D W) as ([] & st1 & b1 & E1 & EM1 & D1 & _ & (c1 & c2 & -> & DC & HF & HM)).
  rewrite (assoc_L (∪)) in EM1. apply map_disjoint_union_r in D1 as [DA DB].
  assert (D2 : h ∪ c1 ##ₘ c2) by (by apply map_disjoint_union_l).
  destruct (run_frees st1 (h ∪ c1) c2 _ (rep_msg m) msg (f_msg (WA := quiet) (Some m)) EM1 D2 HM) as (st2 & E2 & EM2).
  exists st1, st2. split_and!; [done..|].
  destruct (gone st2 (h ∪ c1) c2 m msg EM2 D2 HM) as (d & -> & N).
  exact (dead_file st2 h c1 (map rep_msg l) nothing [] bs file d EM2 DA HF (frees_msgs (WA := quiet) l) N).
Qed.

(** The same message must not be added twice, whatever is added in between and
    afterwards, *)
Fixpoint add_each (file : slot) (xs : list slot) : H unit :=
  match xs with [] => ret tt | x :: t => h_file_add_message file x ;;; add_each file t end.
Lemma add_each_any {WA : Watch} bytes p : forall Rs2 xs Rs s Φ, (length Rs + length Rs2 <= Z.to_nat 32767)%nat ->
  file_of Rs bytes p ∗ fields Rs2 xs ∗ (file_of (Rs ++ Rs2) bytes p -∗ Φ tt s) ⊢ wp (add_each p xs) s Φ.
Proof.
  induction Rs2 as [|R Rs2 IH]; intros xs Rs s Φ L; iIntros "(P & F & K)".
  - rewrite fields_nil app_nil_r. iDestruct "F" as "->". iApply wp_ret. by iApply "K".
  - iDestruct (fields_cons_inv with "F") as (x xs' ->) "[R F]". cbn [add_each length] in L |- *. iApply wp_bind.
    iApply (add_any Rs R bytes p x); [lia|]. iFrame "P R". iIntros "P".
    iApply (IH xs' (Rs ++ [R])); [rewrite app_length; cbn [length]; lia|]. iFrame. rewrite -(assoc_L (++)). iExact "K".
Qed.
Theorem C86_added_twice st h b l bs file m msg others xs later ys : hmem st = h ∪ b -> h ##ₘ b ->
  holds (rep_file l bs file ∗ rep_msg m msg ∗ fields (map rep_msg others) xs ∗ fields (map rep_msg later) ys)%I b ->
  (length l + length others + length later + 2 <= Z.to_nat 32767)%nat ->
  exists st1, (h_file_add_message file msg ;;; add_each file xs ;;; h_file_add_message file msg ;;; add_each file ys) st = Ret (tt, st1) /\
    h_file_free file st1 = Fault DeadBlock.
Proof.
  intros EM D HB HL.
  assert (W : (rep_file l bs file ∗ rep_msg m msg ∗ fields (map rep_msg others) xs ∗ fields (map rep_msg later) ys)%I ⊢
    wp (WA := quiet) (h_file_add_message file msg ;;; add_each file xs ;;; h_file_add_message file msg ;;; add_each file ys) (hbuf st)
    (fun _ _ => file_of ((map rep_msg l ++ pin msg (rep_msg m) :: map rep_msg others) ++ pin msg nothing :: map rep_msg later) bs file)%I).
  { iIntros "(F & M & X & Y)". rewrite file_of_rep. iApply wp_bind.
    iApply (add_any (map rep_msg l) (pin msg (rep_msg m))); [rewrite map_length; lia|]. iFrame "F M". iSplitR; [done|]. iIntros "F".
    iApply wp_bind. iApply (add_each_any bs file (map rep_msg others) xs (map rep_msg l ++ [pin msg (rep_msg m)])); [rewrite app_length !map_length; cbn [length]; lia|]. iFrame "F X". iIntros "F".
    rewrite -(assoc_L (++)). cbn [app].
    iApply wp_bind. iApply (add_any (map rep_msg l ++ pin msg (rep_msg m) :: map rep_msg others) (pin msg nothing)).
    { rewrite app_length. cbn [length]. rewrite !map_length. lia. }
    iFrame "F". iSplitR; [by iSplit|]. iIntros "F".
    iApply (add_each_any bs file (map rep_msg later) ys ((map rep_msg l ++ pin msg (rep_msg m) :: map rep_msg others) ++ [pin msg nothing])).
    { rewrite !app_length. cbn [length]. rewrite !map_length. lia. }
    iFrame "F Y". iIntros "F". rewrite -(assoc_L (++) (map rep_msg l ++ _)). cbn [app]. iFrame. }
  apply (proj1 (entails_holds _ _)) with (m := b) in W; [|done].
  destruct (run_quiet _ st _ h b EM D W) as ([] & st1 & b1 & E1 & EM1 & D1 & _ & HF).
  exists st1. split; [done|].
  destruct HB as (c1 & c2 & -> & DC & _ & (c3 & c4 & -> & _ & HM & _)). apply msg_block in HM as (d & -> & _).
  exact (twice_file st1 h b1 (map rep_msg l) m (map rep_msg others) nothing (map rep_msg later) bs file d EM1 D1 HF (frees_msgs (WA := quiet) l) (frees_msgs (WA := quiet) others)).
Qed.

(** nor to two files. *)
Theorem C86_added_to_two_files st h b l bs file l2 bs2 file2 m msg : hmem st = h ∪ b -> h ##ₘ b ->
  holds (rep_file l bs file ∗ rep_file l2 bs2 file2 ∗ rep_msg m msg)%I b ->
  (length l < Z.to_nat 32767)%nat -> (length l2 < Z.to_nat 32767)%nat ->
  exists st1 st2 st3, h_file_add_message file msg st = Ret (tt, st1) /\ h_file_add_message file2 msg st1 = Ret (tt, st2) /\
    h_file_free file st2 = Ret (tt, st3) /\ h_file_free file2 st3 = Fault DeadBlock.
Proof.
  intros EM D HB HL HL2.
  assert (W : (rep_file l bs file ∗ rep_file l2 bs2 file2 ∗ rep_msg m msg)%I ⊢ wp (WA := quiet) (h_file_add_message file msg) (hbuf st)
    (fun _ _ => file_of (map rep_msg l ++ [pin msg (rep_msg m)]) bs file ∗ rep_file l2 bs2 file2)%I).
  { iIntros "(F & G & M)". rewrite (file_of_rep l). iApply (add_any (map rep_msg l) (pin msg (rep_msg m))); [by rewrite map_length|]. iFrame. iSplitR; [done|]. iIntros "F". iFrame. }
  apply (proj1 (entails_holds _ _)) with (m := b) in W; [|done].
  destruct (run_quiet _ st _ h b EM D W) as ([] & st1 & b1 & E1 & EM1 & D1 & _ & HF).
  assert (W2 : (file_of (map rep_msg l ++ [pin msg (rep_msg m)]) bs file ∗ rep_file l2 bs2 file2)%I ⊢ wp (WA := quiet) (h_file_add_message file2 msg) (hbuf st1)
    (fun _ _ => file_of (map rep_msg l ++ [pin msg (rep_msg m)]) bs file ∗ file_of (map rep_msg l2 ++ [pin msg nothing]) bs2 file2)%I).
  { iIntros "[F G]". rewrite (file_of_rep l2). iApply (add_any (map rep_msg l2) (pin msg nothing)); [by rewrite map_length|]. iFrame. iSplitR; [by iSplit|]. iIntros "G". iFrame. }
  apply (proj1 (entails_holds _ _)) with (m := b1) in W2; [|done].
  destruct (run_quiet _ st1 _ h b1 EM1 D1 W2) as ([] & st2 & b2 & E2 & EM2 & D2 & _ & (c1 & c2 & -> & DC & HF2 & HG)).
  rewrite (map_union_comm c1 c2 DC) (assoc_L (∪)) in EM2. apply map_disjoint_union_r in D2 as [DA DB].
  assert (D3 : h ∪ c2 ##ₘ c1) by (by apply map_disjoint_union_l).
  assert (HR : holds (rep_file (l ++ [m]) bs file) c1).
  { refine (proj1 (entails_holds _ _) _ c1 HF2). rewrite file_of_rep map_app. iIntros "(%arr & %bf & P & A & B)".
    iExists arr, bf. rewrite !app_length. iFrame "P B".
    assert (EA : forall R : slot -> hprop, array (map rep_msg l ++ [R]) arr = cell [] (map rep_msg l ++ [R]) arr) by (intros R; by destruct l).
    change (map rep_msg [m]) with [rep_msg m]. rewrite !EA. iDestruct "A" as (ss) "[A F]". iExists ss. iFrame "A". unfold fields.
    iDestruct (big_sepL2_app_inv_l with "F") as (s1 s2 ->) "[F1 F2]". iApply (big_sepL2_app with "F1").
    destruct s2 as [|y s2]; [by iDestruct "F2" as "[]"|]. cbn [big_sepL2]. iDestruct "F2" as "[[_ R] F2]". iFrame. }
  destruct (run_frees st2 (h ∪ c2) c1 _ (rep_file (l ++ [m]) bs) file (f_file (WA := quiet) _ bs) EM2 D3 HR) as (st3 & E3 & EM3).
  exists st1, st2, st3. split_and!; [done..|].
  assert (HD : exists d, msg = Ptr d /\ is_Some (c1 !! d)).
  { destruct HB as (e1 & e2 & -> & DE & _ & (e3 & e4 & -> & DE2 & _ & HM)). apply msg_block in HM as (d & -> & _). exists d. split; [done|].
    apply (proj1 (entails_holds _ _) (open_file _ _ _ _ _ _)) in HF2.
    destruct HF2 as (lp & la & bf & ss & rest & b0 & b3 & -> & _ & _ & (bA & bB & -> & _ & HA & _)).
    destruct HA as (g1 & g2 & -> & _ & _ & (g3 & g4 & -> & _ & _ & (g5 & g6 & -> & _ & HM & _))).
    apply msg_block in HM as (d' & E & X). injection E as <-. destruct X as [y Hy]. apply lookup_union_is_Some; right. apply lookup_union_is_Some; left.
    apply lookup_union_is_Some; right. apply lookup_union_is_Some; right. apply lookup_union_is_Some; left. by exists y. }
  destruct HD as (d & -> & [y Hy]).
  assert (N : hmem st3 !! d = None) by (rewrite EM3; by eapply map_disjoint_Some_r).
  exact (dead_file st3 h c2 (map rep_msg l2) nothing [] bs2 file2 d EM3 DB HG (frees_msgs (WA := quiet) l2) N).
Qed.
End WithHost.
Print Assumptions C86_message_freed_twice.
Print Assumptions C86_file_freed_twice.
Print Assumptions C86_freed_with_the_file.
Print Assumptions C86_freed_before_the_file.
Print Assumptions C86_added_twice.
Print Assumptions C86_added_to_two_files.

(** *** Examples *)

(** the hypotheses: wherever a file was made with sml_file_init and a message was
    built, in any heap *)
Example C86_example_hypotheses {HO : Host} {AL : Allocator} random m st : length random = 16%nat -> buildable m ->
  exists file1 file2 msg st1 b, (file1 <- h_file_init_run ;; file2 <- h_file_init_run ;; msg <- b_msg random m ;; ret (file1, file2, msg)) st = Ret (file1, file2, msg, st1) /\
    hmem st1 = hmem st ∪ b /\ hmem st ##ₘ b /\ holds (rep_file [] (repeat 0 512) file1 ∗ rep_file [] (repeat 0 512) file2 ∗ rep_msg m msg)%I b.
Proof.
  intros LR HB.
  assert (W : emp%I ⊢ wp (WA := quiet) (file1 <- h_file_init_run ;; file2 <- h_file_init_run ;; msg <- b_msg random m ;; ret (file1, file2, msg)) (hbuf st)
    (fun r _ => rep_file [] (repeat 0 512) r.1.1 ∗ rep_file [] (repeat 0 512) r.1.2 ∗ rep_msg m r.2)%I).
  { iIntros "_". iApply wp_bind. iApply file_init_ok. iIntros (p) "F". iApply wp_bind. iApply file_init_ok. iIntros (q) "G".
    iApply wp_bind. iApply b_msg_ok; [done|done|]. iIntros (x) "M". iApply wp_ret. by iFrame. }
  destruct (run_alone _ st _ W) as ([[f g] x] & st1 & b & ER & EM & D & _ & HP). by exists f, g, x, st1, b.
Qed.
(** what happens when the program goes on, in five ways *)
Definition goes_on {HO : Host} {AL : Allocator} (rest : slot -> slot -> slot -> H unit) (st : hstate) : outcome nat :=
  match (f <- h_file_init_run ;; g <- h_file_init_run ;; x <- b_msg (some_random 0) own_id ;; rest f g x) st with
  | Ret (_, st1) => Ret (size (hmem st1))
  | Fault f => Fault f | NoFuel => NoFuel
  end.
Example C86_example : let HO : Host := LittleEndian in let AL : Allocator := top in
  goes_on (fun f g x => h_file_add_message f x ;;; h_file_free f ;;; h_file_free g) st0 = Ret 1%nat /\
  goes_on (fun f g x => h_file_add_message f x ;;; h_file_free f ;;; h_message_free x) st0 = Fault DeadBlock /\
  goes_on (fun f g x => h_file_add_message f x ;;; h_message_free x ;;; h_file_free f) st0 = Fault DeadBlock /\
  goes_on (fun f g x => y <- b_msg (some_random 2) own_id ;; h_file_add_message f x ;;; add_each f [y] ;;; h_file_add_message f x ;;; add_each f [] ;;; h_file_free f) st0 = Fault DeadBlock /\
  goes_on (fun f g x => h_file_add_message f x ;;; h_file_add_message g x ;;; h_file_free f ;;; h_file_free g) st0 = Fault DeadBlock.
Proof. vm_compute. auto. Qed.
