(** Every free function releases exactly the memory of its argument. *)
From stdpp Require Import gmap.
From iris.proofmode Require Import tactics.
From Verif Require Import Base Buf Number OctetString Boolean Value Time SList Tree Bodies Message File
  HeapBase HeapModel HeapLogic HeapRep.

Ltac hload H := iApply wp_load; last (iFrame H; iIntros H); [reflexivity|].
Ltac hload_int H := iApply wp_load_int; last (iFrame H; iIntros H); [reflexivity|].

Section WithAllocator.
Context {AL : Allocator} {WA : Watch}.

(** [f] releases what [R] describes, and nothing else *)
Definition frees (f : slot -> H unit) (R : slot -> hprop) : Prop :=
  forall p s Φ, R p ∗ Φ tt s ⊢ wp (f p) s Φ.

(** Members *)
Lemma fields_nil ss : fields [] ss ⊣⊢ ⟨ss = []⟩.
Proof.
  unfold fields. destruct ss; cbn.
  - iSplit; [by iIntros "_"|]. by iIntros "%".
  - iSplit; [|by iIntros "%"]. by iIntros "[]".
Qed.
Lemma fields_cons R Rs x ss : fields (R :: Rs) (x :: ss) ⊣⊢ R x ∗ fields Rs ss.
Proof. reflexivity. Qed.
Lemma fields_cons_inv R Rs ss : fields (R :: Rs) ss ⊢ ∃ x ss', ⟨ss = x :: ss'⟩ ∗ R x ∗ fields Rs ss'.
Proof.
  destruct ss as [|x ss']; cbn; [by iIntros "[]"|]. iIntros "H".
  iExists x, ss'. iSplit; [done|]. iExact "H".
Qed.
Lemma fields_length Rs ss : fields Rs ss ⊢ ⌜length Rs = length ss⌝.
Proof. apply big_sepL2_length. Qed.
Lemma fields_insert Rs ss i R x : Rs !! i = Some rep_nul ->
  fields Rs ss ∗ R x ⊢ fields (<[i := R]> Rs) (<[i := x]> ss).
Proof.
  intros E. iIntros "[F R]". iDestruct (fields_length with "F") as %L.
  assert (exists y, ss !! i = Some y) as [y Ey].
  { apply lookup_lt_is_Some. rewrite -L. apply lookup_lt_is_Some. by exists rep_nul. }
  iDestruct (big_sepL2_insert_acc with "F") as "[N F]"; [exact E|exact Ey|].
  iDestruct "N" as "->". by iApply "F".
Qed.
Lemma fields_app Rs1 Rs2 ss1 ss2 : length Rs1 = length ss1 ->
  fields (Rs1 ++ Rs2) (ss1 ++ ss2) ⊣⊢ fields Rs1 ss1 ∗ fields Rs2 ss2.
Proof. intros L. apply big_sepL2_app_same_length. by left. Qed.

Lemma cell_ptr rest Rs p : cell rest Rs p ⊢ cell rest Rs p ∗ ⟨exists l, p = Ptr l⟩.
Proof.
  iIntros "(%ss & P & F)". iDestruct (pts_ptr with "P") as "[P %E]". iSplit; [|done].
  iExists ss. iFrame.
Qed.

(** store into a member that is NULL *)
Lemma wp_cell_store rest Rs i p R x s Φ : Rs !! i = Some rep_nul ->
  cell rest Rs p ∗ R x ∗ (cell rest (<[i := R]> Rs) p -∗ Φ tt s) ⊢ wp (store p i x) s Φ.
Proof.
  intros E. iIntros "((%ss & P & F) & R & K)". iDestruct (fields_length with "F") as %L.
  assert (Li : (i < length ss)%nat) by (rewrite -L; apply lookup_lt_is_Some; by exists rep_nul).
  iApply (wp_store p i x (ss ++ rest)).
  { rewrite lookup_app_l //. by apply lookup_lt_is_Some. }
  iFrame. iIntros "P". iApply "K". iExists (<[i := x]> ss). rewrite insert_app_l //. iFrame "P".
  iApply fields_insert; [done|]. iFrame.
Qed.

Lemma free_members_spec fs : forall Rs pre ss rest p s Φ, Forall2 frees fs Rs ->
  p ↦ Struct (pre ++ ss ++ rest) ∗ fields Rs ss ∗ (p ↦ Struct (pre ++ ss ++ rest) -∗ Φ tt s)
  ⊢ wp (free_members p (length pre) fs) s Φ.
Proof.
  induction fs as [|f fs IH]; intros Rs pre ss rest p s Φ F; inversion F as [|? R ? Rs' Hf Hfs]; subst; cbn.
  - iIntros "(P & F & K)". rewrite fields_nil. iDestruct "F" as "->". iApply wp_ret. by iApply "K".
  - iIntros "(P & F & K)". iDestruct (fields_cons_inv with "F") as (x ss' ->) "[R F]".
    iApply wp_bind. iApply (wp_load p _ x (pre ++ (x :: ss') ++ rest)).
    { rewrite lookup_app_r // Nat.sub_diag //. }
    iFrame "P". iIntros "P". iApply wp_bind. iApply Hf. iFrame "R".
    iPoseProof (IH Rs' (pre ++ [x]) ss' rest p s Φ Hfs) as "W".
    rewrite -!(assoc_L (++)) app_length Nat.add_1_r. cbn [app]. iApply "W". iFrame.
Qed.
Lemma frees_cell rest fs Rs : Forall2 frees fs Rs -> frees (free_struct fs) (cell rest Rs).
Proof.
  intros F p s Φ. iIntros "((%ss & P & F) & K)". unfold free_struct.
  iApply wp_if_ptr. iFrame "P". iIntros "P". iApply wp_bind.
  iApply (free_members_spec fs Rs [] ss rest _ _ _ F). iFrame "P F". iIntros "P".
  iApply wp_free. iFrame.
Qed.
Lemma frees_struct_nul fs : frees (free_struct fs) rep_nul.
Proof. intros p s Φ. iIntros "[-> K]". by iApply wp_ret. Qed.
Lemma frees_opt {A} f (R : A -> slot -> hprop) : frees f rep_nul -> (forall v, frees f (R v)) ->
  forall o, frees f (rep_opt R o).
Proof. intros HN HR [v|]; [apply HR|apply HN]. Qed.

(** arrays *)
Lemma for_each_spec f : forall Rs pre ss p s Φ, Forall (frees f) Rs ->
  p ↦ Struct (pre ++ ss) ∗ fields Rs ss ∗ (p ↦ Struct (pre ++ ss) -∗ Φ tt s)
  ⊢ wp (for_each (length Rs) (length pre) p f) s Φ.
Proof.
  induction Rs as [|R Rs IH]; intros pre ss p s Φ F; cbn.
  - iIntros "(P & F & K)". rewrite fields_nil. iDestruct "F" as "->". iApply wp_ret. by iApply "K".
  - apply Forall_cons_1 in F as [Hf F]. iIntros "(P & F & K)".
    iDestruct (fields_cons_inv with "F") as (x ss' ->) "[R F]".
    iApply wp_bind. iApply (wp_load p _ x (pre ++ x :: ss')).
    { rewrite lookup_app_r // Nat.sub_diag //. }
    iFrame "P". iIntros "P". iApply wp_bind. iApply Hf. iFrame "R".
    iPoseProof (IH (pre ++ [x]) ss' p s Φ F) as "W".
    rewrite -!(assoc_L (++)) app_length Nat.add_1_r. cbn [app]. iApply "W". iFrame.
Qed.
(** "for (...) f(arr[i]); if (arr) free(arr)" and the same with free(arr) *)
Lemma array_spec {A} f Rs arr s (k : H A) Φ : Forall (frees f) Rs ->
  array Rs arr ∗ wp k s Φ ⊢ wp (for_each (length Rs) 0 arr f ;;; if_ptr arr (free arr) ;;; k) s Φ.
Proof.
  intros F. iIntros "[A K]". destruct Rs as [|R Rs]; cbn [array].
  - iDestruct "A" as "->". cbn. iApply wp_bind. iApply wp_ret. iApply wp_bind. by iApply wp_ret.
  - iDestruct "A" as (ss) "[P F]". rewrite app_nil_r. iApply wp_bind.
    iApply (for_each_spec f (R :: Rs) [] ss _ _ _ F). cbn [app]. iFrame "P F". iIntros "P".
    iApply wp_bind. iApply wp_if_ptr. iFrame "P". iIntros "P". iApply wp_free. iFrame.
Qed.
Lemma array_spec' {A} f Rs arr s (k : H A) Φ : Forall (frees f) Rs ->
  array Rs arr ∗ wp k s Φ ⊢ wp (for_each (length Rs) 0 arr f ;;; free arr ;;; k) s Φ.
Proof.
  intros F. iIntros "[A K]". destruct Rs as [|R Rs]; cbn [array].
  - iDestruct "A" as "->". cbn. iApply wp_bind. iApply wp_ret. iApply wp_bind. by iApply wp_free_nul.
  - iDestruct "A" as (ss) "[P F]". rewrite app_nil_r. iApply wp_bind.
    iApply (for_each_spec f (R :: Rs) [] ss _ _ _ F). cbn [app]. iFrame "P F". iIntros "P".
    iApply wp_bind. iApply wp_free. iFrame.
Qed.

(** *** Numbers, strings, values *)

Lemma frees_free_nul : frees free rep_nul.
Proof. intros p s Φ. iIntros "[-> K]". by iApply wp_free_nul. Qed.
Lemma frees_free_block b : frees free (fun p => p ↦ b)%I.
Proof. intros p s Φ. iIntros "[P K]". iApply wp_free. iFrame. Qed.
Lemma f_num o : frees h_number_free (rep_opt rep_num o).
Proof. apply frees_opt; [apply frees_free_nul|intros v; apply frees_free_block]. Qed.
Lemma f_bool o : frees h_boolean_free (rep_opt rep_bool o).
Proof. apply frees_opt; [apply frees_free_nul|intros v; apply frees_free_block]. Qed.
Lemma f_num1 m : frees h_number_free (rep_num m).
Proof. apply frees_free_block. Qed.

Lemma f_str1 v : frees h_octet_string_free (rep_str v).
Proof.
  intros p s Φ. iIntros "[P K]". unfold h_octet_string_free. destruct v as [|x v]; cbn [rep_str].
  - iApply wp_if_ptr. iFrame. iIntros "P". iApply wp_bind. hload "P". iApply wp_bind. iApply wp_ret. iApply wp_free. iFrame.
  - iDestruct "P" as (d) "[P D]". iApply wp_if_ptr. iFrame "P". iIntros "P".
    iApply wp_bind. hload "P".
    iApply wp_bind. iApply wp_if_ptr. iFrame "D". iIntros "D". iApply wp_free. iFrame "D".
    iApply wp_free. iFrame.
Qed.
Lemma f_str o : frees h_octet_string_free (rep_opt rep_str o).
Proof. apply frees_opt; [|apply f_str1]. intros p s Φ. iIntros "[-> K]". by iApply wp_ret. Qed.

(** a value with the type [ty] *)
Lemma frees_value ty (R : slot -> hprop) :
  frees (if ty =? SML_TYPE_OCTET_STRING then h_octet_string_free
         else if ty =? SML_TYPE_BOOLEAN then h_boolean_free else h_number_free) R ->
  forall p s Φ, (∃ d, p ↦ Struct [Int ty; d] ∗ R d) ∗ Φ tt s ⊢ wp (h_value_free p) s Φ.
Proof.
  intros HR p s Φ. iIntros "[(%d & P & D) K]". unfold h_value_free.
  iApply wp_if_ptr. iFrame "P". iIntros "P". iApply wp_bind.
  hload_int "P". iApply wp_bind.
  destruct (ty =? SML_TYPE_OCTET_STRING); [|destruct (ty =? SML_TYPE_BOOLEAN)];
    (iApply wp_bind; hload "P";
     iApply HR; iFrame "D"; iApply wp_free; iFrame).
Qed.
Lemma f_vdata ty d :
  frees (if ty =? SML_TYPE_OCTET_STRING then h_octet_string_free
         else if ty =? SML_TYPE_BOOLEAN then h_boolean_free else h_number_free) (rep_vdata ty d).
Proof.
  unfold rep_vdata. destruct (ty =? SML_TYPE_OCTET_STRING) eqn:E.
  - destruct d as [|z|z|z].
    + apply (f_str None).
    + apply f_str1.
    + intros p s Φ. iIntros "[[%N P] K]". by apply Z.eqb_eq in E.
    + intros p s Φ. iIntros "[[%N P] K]". by apply Z.eqb_eq in E.
  - assert (HF : forall R, frees free R ->
      frees (if ty =? SML_TYPE_BOOLEAN then h_boolean_free else h_number_free) R)
      by (intros R HR; by destruct (ty =? SML_TYPE_BOOLEAN)).
    destruct d as [|z|z|z]; apply HF.
    + apply frees_free_nul.
    + intros p s Φ. iIntros "[(%N & %a & P) K]". iApply wp_free. iFrame.
    + intros p s Φ. iIntros "[[%N P] K]". iApply wp_free. iFrame.
    + intros p s Φ. iIntros "[[%N P] K]". iApply wp_free. iFrame.
Qed.
Lemma f_value1 v : frees h_value_free (rep_value v).
Proof. intros p s Φ. apply frees_value, f_vdata. Qed.
Lemma f_value o : frees h_value_free (rep_opt rep_value o).
Proof. apply frees_opt; [|apply f_value1]. intros p s Φ. iIntros "[-> K]". by iApply wp_ret. Qed.
Lemma f_status1 v : frees h_status_free (rep_status v).
Proof.
  intros p s Φ. iIntros "[(%d & P & D) K]". unfold h_status_free.
  iApply wp_if_ptr. iFrame "P". iIntros "P". iApply wp_bind.
  hload "P". iApply wp_bind.
  iApply f_num. iFrame "D". iApply wp_free. iFrame.
Qed.
Lemma f_status o : frees h_status_free (rep_opt rep_status o).
Proof. apply frees_opt; [|apply f_status1]. intros p s Φ. iIntros "[-> K]". by iApply wp_ret. Qed.
Lemma f_time_cell t d : frees h_time_free (cell [] [rep_opt rep_num t; rep_opt rep_num d]).
Proof. apply frees_cell. repeat constructor; apply f_num. Qed.
Lemma f_time1 v : frees h_time_free (rep_time v).
Proof. apply f_time_cell. Qed.
Lemma f_time o : frees h_time_free (rep_opt rep_time o).
Proof. apply frees_opt; [apply frees_struct_nul|apply f_time1]. Qed.

(** *** Sequences and lists *)

Lemma f_seq1 {A} ef (R : A -> slot -> hprop) : (forall o, frees ef (rep_opt R o)) ->
  forall l, frees (h_sequence_free ef) (rep_seq R l).
Proof.
  intros HR l p s Φ. iIntros "[(%arr & P & A) K]". unfold h_sequence_free.
  iApply wp_if_ptr. iFrame "P". iIntros "P".
  iApply wp_bind. hload_int "P".
  iApply wp_bind. hload "P".
  rewrite Nat2Z.id. rewrite -(map_length (rep_opt R) l).
  iApply array_spec.
  { apply Forall_map, Forall_true. intros o. apply HR. }
  iFrame "A". iApply wp_free. iFrame.
Qed.
Lemma f_seq {A} ef (R : A -> slot -> hprop) : (forall o, frees ef (rep_opt R o)) ->
  forall l, frees (h_sequence_free ef) (rep_opt (rep_seq R) l).
Proof.
  intros HR. apply frees_opt; [|by apply f_seq1]. intros p s Φ. iIntros "[-> K]". by iApply wp_ret.
Qed.

Lemma entry_free_spec e n p s Φ : cell [n] (entry_fields e) p ∗ Φ tt s ⊢ wp (h_list_entry_free p) s Φ.
Proof.
  apply frees_cell. repeat constructor;
    first [apply f_str|apply f_status|apply f_time|apply f_num|apply f_value].
Qed.
Lemma rep_list_cons e t p : rep_list (e :: t) p ⊣⊢ ∃ n, cell [n] (entry_fields e) p ∗ rep_list t n.
Proof. reflexivity. Qed.
Lemma cell_load_rest rest Rs p j x s Φ : rest !! j = Some x ->
  cell rest Rs p ∗ (cell rest Rs p -∗ Φ x s) ⊢ wp (load p (length Rs + j)) s Φ.
Proof.
  intros E. iIntros "[(%ss & P & F) K]". iDestruct (fields_length with "F") as %L.
  iApply wp_load; last (iFrame "P"; iIntros "P"; iApply "K"; iExists ss; iFrame).
  rewrite lookup_app_r; [|lia]. by replace (length Rs + j - length ss)%nat with j by lia.
Qed.

(** The loop of sml_list_free: [n] is the successor of [f]. *)
Lemma list_free_loop_spec Rs : Forall2 frees [h_octet_string_free; h_status_free; h_time_free; h_number_free;
    h_number_free; h_value_free; h_octet_string_free] Rs ->
  forall t fuel f n s Φ, (S (length t) < fuel)%nat ->
  cell [n] Rs f ∗ rep_list t n ∗ Φ tt s ⊢ wp (h_list_free_loop fuel f n) s Φ.
Proof.
  intros HRs t. revert Rs HRs. induction t as [|e t IH]; intros Rs HRs fuel f n s Φ L.
  - destruct fuel as [|fuel]; [cbn in L; lia|]. iIntros "(C & N & K)".
    iDestruct "N" as "->". cbn [h_list_free_loop].
    iDestruct (cell_ptr with "C") as "[C (%l & ->)]". cbn [if_ptr].
    iApply wp_bind. iApply (frees_cell [Nul]); [exact HRs|]. iFrame "C".
    iApply wp_bind. iApply wp_ret. destruct fuel; [cbn in L; lia|]. by iApply wp_ret.
  - destruct fuel as [|fuel]; [cbn in L; lia|]. iIntros "(C & N & K)".
    rewrite rep_list_cons. iDestruct "N" as (n2) "[C2 N]". cbn [h_list_free_loop].
    iDestruct (cell_ptr with "C") as "[C (%l & ->)]". cbn [if_ptr].
    iApply wp_bind. iApply (frees_cell [n]); [exact HRs|]. iFrame "C".
    iDestruct (cell_ptr with "C2") as "[C2 (%l2 & ->)]".
    iApply wp_bind. iApply (cell_load_rest [n2] (entry_fields e) (Ptr l2) 0 n2); [done|].
    iFrame "C2". iIntros "C2". iApply IH; [|cbn in L; lia|iFrame].
    repeat constructor; first [apply f_str|apply f_status|apply f_time|apply f_num|apply f_value].
Qed.

Lemma blocks_cell rest Rs p : cell rest Rs p ⊢ blocks 1.
Proof.
  iIntros "(%ss & P & F)". iApply (blocks_le (1 + 0)); [lia|].
  iApply (blocks_sep (p ↦ Struct (ss ++ rest))%I (fields Rs ss)); [apply blocks_pts|apply blocks_0|].
  iFrame.
Qed.
Lemma blocks_list : forall l p q, rep_seg l p q ⊢ blocks (length l).
Proof.
  induction l as [|e l IH]; intros p q; cbn [rep_seg length].
  - apply blocks_0.
  - iIntros "(%n & C & S)". iApply (blocks_sep (cell [n] (entry_fields e) p) (rep_seg l n q) 1 (length l)).
    + apply blocks_cell.
    + apply IH.
    + iFrame.
Qed.
Lemma list_free_spec Rs : Forall2 frees [h_octet_string_free; h_status_free; h_time_free; h_number_free;
    h_number_free; h_value_free; h_octet_string_free] Rs ->
  forall t p s Φ, (∃ n, cell [n] Rs p ∗ rep_list t n) ∗ Φ tt s ⊢ wp (h_list_free p) s Φ.
Proof.
  intros HRs t p s Φ. iIntros "[(%n & C & S) K]". unfold h_list_free.
  iDestruct (cell_ptr with "C") as "[C (%l & ->)]". cbn [if_ptr].
  iApply wp_bind. assert (L7 : length Rs = 7%nat) by (apply Forall2_length in HRs; done).
  replace 7%nat with (length Rs + 0)%nat by lia.
  iApply (cell_load_rest [n] Rs (Ptr l) 0 n); [done|]. iFrame "C". iIntros "C".
  iStopProof. apply (wp_heap_fuel _ (1 + length t)%nat).
  - iIntros "(S & K & C)". iApply (blocks_le (1 + (length t + 0))); [lia|].
    iApply (blocks_sep (cell [n] Rs (Ptr l)) (rep_list t n ∗ Φ tt s)%I); [apply blocks_cell| |iFrame].
    apply blocks_sep; [apply blocks_list|apply blocks_0].
  - intros fuel Lf. iIntros "(S & K & C)". iApply list_free_loop_spec; [done| |iFrame]. lia.
Qed.
Lemma f_list l : frees h_list_free (rep_list l).
Proof.
  destruct l as [|e t]; intros p s Φ.
  - iIntros "[-> K]". by iApply wp_ret.
  - rewrite rep_list_cons. apply list_free_spec.
    repeat constructor; first [apply f_str|apply f_status|apply f_time|apply f_num|apply f_value].
Qed.

(** *** Trees *)

Lemma frees_path Rs : Forall (frees h_octet_string_free) Rs -> forall p s Φ,
  (∃ arr, p ↦ Struct [arr; Int (Z.of_nat (length Rs))] ∗ array Rs arr) ∗ Φ tt s
  ⊢ wp (h_tree_path_free p) s Φ.
Proof.
  intros HR p s Φ. iIntros "[(%arr & P & A) K]". unfold h_tree_path_free.
  iApply wp_if_ptr. iFrame "P". iIntros "P".
  iApply wp_bind. hload "P". iApply wp_bind. hload_int "P". iApply wp_bind.
  destruct Rs as [|R Rs]; cbn [array].
  - iDestruct "A" as "->". iApply wp_ret. iApply wp_free. iFrame.
  - iDestruct (cell_ptr with "A") as "[A (%l & ->)]".
    destruct (Z.of_nat (length (R :: Rs)) >? 0) eqn:E; [|rewrite Z.gtb_ltb in E; apply Z.ltb_ge in E; cbn in E; lia].
    rewrite Nat2Z.id. iDestruct "A" as (ss) "[P2 F]". rewrite app_nil_r.
    iApply wp_bind. iApply (for_each_spec _ (R :: Rs) [] ss _ _ _ HR). cbn [app]. iFrame "P2 F".
    iIntros "P2". iApply wp_free. iFrame "P2". iApply wp_free. iFrame.
Qed.
Lemma f_path1 v : frees h_tree_path_free (rep_tree_path v).
Proof.
  intros p s Φ. unfold rep_tree_path. rewrite -(map_length rep_str v). apply frees_path.
  apply Forall_map, Forall_true. intros x. apply f_str1.
Qed.
Lemma f_path o : frees h_tree_path_free (rep_opt rep_tree_path o).
Proof. apply frees_opt; [|apply f_path1]. intros p s Φ. iIntros "[-> K]". by iApply wp_ret. Qed.

Lemma f_tupel o : frees h_tupel_entry_free (rep_opt rep_tupel o).
Proof.
  apply frees_opt; [apply frees_struct_nul|]. intros v. apply frees_cell.
  repeat constructor; first [apply f_str|apply f_time|apply f_num].
Qed.
Lemma f_period o : frees h_period_entry_free (rep_opt rep_period o).
Proof.
  apply frees_opt; [apply frees_struct_nul|]. intros v. apply frees_cell.
  repeat constructor; first [apply f_str|apply f_value|apply f_num].
Qed.

Context {HO : Host}.

Lemma f_ppv_cell tag d : ppv_matches (mkPpv tag d) ->
  frees h_proc_par_value_free (cell [] [rep_opt rep_num tag; rep_ppv_data d]).
Proof.
  intros M p s Φ. iIntros "[(%ss & P & F) K]". unfold h_proc_par_value_free.
  iDestruct (fields_cons_inv with "F") as (x1 ss1 ->) "[R1 F]".
  iDestruct (fields_cons_inv with "F") as (x2 ss2 ->) "[R2 F]". rewrite fields_nil. iDestruct "F" as "->".
  cbn [app]. iApply wp_if_ptr. iFrame "P". iIntros "P".
  iApply wp_bind. hload "P". iApply wp_bind. hload "P". iApply wp_bind.
  destruct tag as [m|]; cbn [rep_opt].
  - unfold rep_num at 1. iDestruct (pts_ptr with "R1") as "[R1 (%l1 & ->)]".
    iApply wp_bind. iApply wp_load_bytes. iFrame "R1". iIntros "R1". cbn zeta.
    iApply wp_bind.
    destruct d as [|v|v|v|v]; cbn [ppv_matches ppv_dat ppv_tag] in M; try rewrite M;
      cbn [Z.eqb SML_PROC_PAR_VALUE_TAG_VALUE SML_PROC_PAR_VALUE_TAG_PERIOD_ENTRY
           SML_PROC_PAR_VALUE_TAG_TUPEL_ENTRY SML_PROC_PAR_VALUE_TAG_TIME rep_ppv_data].
    + iDestruct "R2" as "->".
      destruct (mem_u m =? _); [|destruct (mem_u m =? _); [|destruct (mem_u m =? _); [|destruct (mem_u m =? _)]]];
        (iApply wp_ret; iApply f_num1; iFrame "R1"; iApply wp_free; iFrame).
    + iApply f_value1. iFrame "R2". iApply f_num1; iFrame "R1"; iApply wp_free; iFrame.
    + change (if _ =? _ then h_value_free x2 else _) with (h_period_entry_free x2).
      iApply (f_period (Some v)). iFrame "R2". iApply f_num1; iFrame "R1"; iApply wp_free; iFrame.
    + change (if _ =? _ then h_value_free x2 else _) with (h_tupel_entry_free x2).
      iApply (f_tupel (Some v)). iFrame "R2". iApply f_num1; iFrame "R1"; iApply wp_free; iFrame.
    + change (if _ =? _ then h_value_free x2 else _) with (h_time_free x2).
      iApply (f_time (Some v)). iFrame "R2". iApply f_num1; iFrame "R1"; iApply wp_free; iFrame.
  - iDestruct "R1" as "->". destruct d; cbn in M; try done. iDestruct "R2" as "->".
    iApply wp_ret. iApply wp_free. iFrame.
Qed.
Lemma f_ppv1 v : frees h_proc_par_value_free (rep_ppv v).
Proof.
  intros p s Φ. iIntros "[[%M C] K]". destruct v as [t d]. iApply f_ppv_cell; [done|]. iFrame.
Qed.
Lemma f_ppv o : frees h_proc_par_value_free (rep_opt rep_ppv o).
Proof. apply frees_opt; [|apply f_ppv1]. intros p s Φ. iIntros "[-> K]". by iApply wp_ret. Qed.

(** a node with these members and children *)
Definition node (R1 R2 : slot -> hprop) (Rs : list (slot -> hprop)) (p : slot) : hprop :=
  (∃ arr, cell [arr; Int (Z.of_nat (length Rs))] [R1; R2] p ∗ array Rs arr)%I.
Lemma rep_tree_node name value children p :
  rep_tree (Tree name value children) p
  ⊣⊢ node (rep_opt rep_str name) (rep_opt rep_ppv value) (map rep_tree children) p.
Proof. unfold node. rewrite map_length. reflexivity. Qed.

Lemma node_free depth R1 R2 Rs : frees h_octet_string_free R1 -> frees h_proc_par_value_free R2 ->
  Forall (frees (h_tree_free_rec depth)) Rs ->
  frees (h_tree_free_rec (S depth)) (node R1 R2 Rs).
Proof.
  intros H1 H2 HR p s Φ. iIntros "[(%arr & C & A) K]". cbn [h_tree_free_rec].
  iDestruct "C" as (ss) "[P F]".
  iDestruct (fields_cons_inv with "F") as (x1 ss1 ->) "[R1 F]".
  iDestruct (fields_cons_inv with "F") as (x2 ss2 ->) "[R2 F]". rewrite fields_nil. iDestruct "F" as "->".
  cbn [app]. iApply wp_if_ptr. iFrame "P". iIntros "P".
  iApply wp_bind. hload "P". iApply wp_bind. iApply H1. iFrame "R1".
  iApply wp_bind. hload "P". iApply wp_bind. iApply H2. iFrame "R2".
  iApply wp_bind. hload_int "P". iApply wp_bind. hload "P". rewrite Nat2Z.id.
  iApply array_spec'; [done|]. iFrame "A". iApply wp_free. iFrame.
Qed.

Fixpoint tdepth (t : sml_tree) : nat :=
  match t with Tree _ _ children => S (list_max (map tdepth children)) end.
Lemma tree_induction (Q : sml_tree -> Prop) :
  (forall name value children, Forall Q children -> Q (Tree name value children)) -> forall t, Q t.
Proof.
  intros HQ. fix IH 1. intros [name value children]. apply HQ.
  induction children as [|c l IHl]; constructor; [apply IH|exact IHl].
Qed.
Lemma list_max_le_in l n : In n l -> (n <= list_max l)%nat.
Proof.
  induction l as [|a l IH]; [done|]. change (list_max (a :: l)) with (Nat.max a (list_max l)).
  intros [->|Hn]; [lia|]. apply IH in Hn. lia.
Qed.
Lemma tree_free_rec_spec : forall t depth, (tdepth t <= depth)%nat ->
  frees (h_tree_free_rec depth) (rep_tree t).
Proof.
  intros t. induction t as [name value children IH] using tree_induction. intros depth L.
  destruct depth as [|depth]; [cbn in L; lia|]. intros p s Φ. rewrite rep_tree_node.
  apply node_free; [apply f_str|apply f_ppv|]. apply Forall_map.
  apply List.Forall_forall. intros c Hc. rewrite List.Forall_forall in IH. apply IH; [done|].
  cbn [tdepth] in L. assert (B := list_max_le_in (map tdepth children) (tdepth c) (in_map _ _ _ Hc)). lia.
Qed.
Lemma blocks_fields : forall Rs ns ss, Forall2 (fun (R : slot -> hprop) n => forall p, R p ⊢ blocks n) Rs ns ->
  fields Rs ss ⊢ blocks (list_max ns).
Proof.
  induction Rs as [|R Rs IH]; intros ns ss F; inversion F as [|? n ? ns' Hn Hns]; subst.
  - apply blocks_0.
  - iIntros "F". iDestruct (fields_cons_inv with "F") as (x ss' ->) "F".
    iApply (blocks_le (n + list_max ns')); [change (list_max (n :: ns')) with (Nat.max n (list_max ns')); lia|].
    iApply (blocks_sep (R x) (fields Rs ss')); [apply Hn|by apply IH|]. iExact "F".
Qed.
Lemma blocks_array Rs ns arr : Forall2 (fun (R : slot -> hprop) n => forall p, R p ⊢ blocks n) Rs ns ->
  array Rs arr ⊢ blocks (list_max ns).
Proof.
  intros F. destruct Rs as [|R Rs]; cbn [array].
  - inversion F; subst. apply blocks_0.
  - iIntros "(%ss & P & F)". iApply (blocks_le (1 + list_max ns)); [lia|].
    iApply (blocks_sep (arr ↦ Struct (ss ++ []))%I (fields (R :: Rs) ss)); [apply blocks_pts| |iFrame].
    by apply blocks_fields.
Qed.
Lemma blocks_node R1 R2 Rs ns p : Forall2 (fun (R : slot -> hprop) n => forall p, R p ⊢ blocks n) Rs ns ->
  node R1 R2 Rs p ⊢ blocks (S (list_max ns)).
Proof.
  intros F. iIntros "(%arr & C & A)".
  iApply (blocks_sep (cell [arr; Int (Z.of_nat (length Rs))] [R1; R2] p) (array Rs arr) 1);
    [apply blocks_cell| |iFrame]. by apply blocks_array.
Qed.
Lemma blocks_tree : forall t p, rep_tree t p ⊢ blocks (tdepth t).
Proof.
  intros t. induction t as [name value children IH] using tree_induction. intros p.
  rewrite rep_tree_node. cbn [tdepth]. apply blocks_node.
  clear name value. induction IH as [|c l Hc Hl IHl]; constructor; [exact Hc|exact IHl].
Qed.
Lemma frees_node R1 R2 children : frees h_octet_string_free R1 -> frees h_proc_par_value_free R2 ->
  frees h_tree_free (node R1 R2 (map rep_tree children)).
Proof.
  intros H1 H2 p s Φ. apply (wp_heap_fuel _ (S (list_max (map tdepth children)))).
  - rewrite -(Nat.add_0_r (S _)). apply blocks_sep; [|apply blocks_0]. apply blocks_node.
    induction children as [|c l IH]; constructor; [apply blocks_tree|exact IH].
  - intros fuel L. destruct fuel as [|fuel]; [lia|]. apply node_free; [done|done|].
    apply Forall_map, List.Forall_forall. intros c Hc. apply tree_free_rec_spec.
    assert (B := list_max_le_in (map tdepth children) (tdepth c) (in_map _ _ _ Hc)). lia.
Qed.
Lemma f_tree1 t : frees h_tree_free (rep_tree t).
Proof.
  destruct t as [name value children]. intros p s Φ. rewrite rep_tree_node.
  apply frees_node; [apply f_str|apply f_ppv].
Qed.
Lemma f_tree o : frees h_tree_free (rep_opt rep_tree o).
Proof. apply frees_opt; [|apply f_tree1]. intros p s Φ. iIntros "[-> K]". by iApply wp_ret. Qed.

(** *** Message bodies *)

Lemma objs_free_loop_spec : forall t e n fuel p s Φ, (length t < fuel)%nat ->
  cell [n] [rep_opt rep_str e] p ∗ rep_objs t n Nul ∗ Φ tt s ⊢ wp (h_object_list_free_loop fuel p) s Φ.
Proof.
  induction t as [|e2 t IH]; intros e n fuel p s Φ L; (destruct fuel as [|fuel]; [cbn in L; lia|]);
    iIntros "(C & S & K)"; cbn [h_object_list_free_loop]; iDestruct "C" as (ss) "[P F]";
    iDestruct (fields_cons_inv with "F") as (x1 ss1 ->) "[R1 F]"; rewrite fields_nil; iDestruct "F" as "->";
    cbn [app]; iApply wp_bind; hload "P"; iApply wp_bind; hload "P"; iApply wp_bind; iApply f_str;
    iFrame "R1"; iApply wp_bind; iApply wp_free; iFrame "P".
  - iDestruct "S" as "->". by iApply wp_ret.
  - iDestruct "S" as (n2) "[C S]". iDestruct (cell_ptr with "C") as "[C (%l & ->)]". cbn [if_ptr].
    iApply (IH e2 n2); [cbn in L; lia|]. iFrame.
Qed.
Lemma blocks_objs : forall l p q, rep_objs l p q ⊢ blocks (length l).
Proof.
  induction l as [|e l IH]; intros p q; cbn [rep_objs length].
  - apply blocks_0.
  - iIntros "(%n & C & S)". iApply (blocks_sep (cell [n] [rep_opt rep_str e] p) (rep_objs l n q) 1 (length l)).
    + apply blocks_cell.
    + apply IH.
    + iFrame.
Qed.
Lemma f_objs l : frees h_object_list_free (fun p => rep_objs l p Nul).
Proof.
  destruct l as [|e t]; intros p s Φ.
  - iIntros "[-> K]". by iApply wp_ret.
  - iIntros "[S K]". cbn [rep_objs]. iDestruct "S" as (n) "[C S]". unfold h_object_list_free.
    iDestruct (cell_ptr with "C") as "[C (%l & ->)]". cbn [if_ptr].
    iStopProof. apply (wp_heap_fuel _ (length t)%nat).
    + iIntros "(K & S & C)". iApply (blocks_le (length t + 0)); [lia|].
      iApply (blocks_sep (rep_objs t n Nul) (cell [n] [rep_opt rep_str e] (Ptr l) ∗ Φ tt s)%I);
        [apply blocks_objs|apply blocks_0|iFrame].
    + intros fuel Lf. iIntros "(K & S & C)". iApply (objs_free_loop_spec t e n); [lia|]. iFrame.
Qed.

Ltac frees_record :=
  try (apply frees_opt; [apply frees_struct_nul|intros ?]); apply frees_cell;
  repeat apply List.Forall2_cons; try apply List.Forall2_nil;
  first [done|apply f_str|apply f_time|apply f_num|apply f_value|apply f_path|apply f_tree|apply f_bool|apply f_list
        |apply f_objs|apply f_seq; intros ?|idtac].

Lemma f_open_req o : frees h_open_request_free (rep_opt rep_open_req o).
Proof. frees_record. Qed.
Lemma f_open_res o : frees h_open_response_free (rep_opt rep_open_res o).
Proof. frees_record. Qed.
Lemma f_close_req o : frees h_close_request_free (rep_opt rep_close_req o).
Proof. frees_record. Qed.
Lemma f_close_res o : frees h_close_response_free (rep_opt rep_close_res o).
Proof. frees_record. Qed.
Lemma f_pack_req o : frees h_get_profile_pack_request_free (rep_opt rep_pack_req o).
Proof. frees_record. Qed.
Lemma f_header o : frees h_prof_obj_header_entry_free (rep_opt rep_header o).
Proof. frees_record. Qed.
Lemma f_value_entry o : frees h_value_entry_free (rep_opt rep_value_entry o).
Proof. frees_record. Qed.
Lemma f_per_entry o : frees h_prof_obj_period_entry_free (rep_opt rep_per_entry o).
Proof. frees_record. apply f_value_entry. Qed.
Lemma f_pack_res o : frees h_get_profile_pack_response_free (rep_opt rep_pack_res o).
Proof. frees_record; [apply f_header|apply f_per_entry]. Qed.
Lemma f_prof_list_res o : frees h_get_profile_list_response_free (rep_opt rep_prof_list_res o).
Proof. frees_record. apply f_period. Qed.
Lemma f_proc_req o : frees h_get_proc_parameter_request_free (rep_opt rep_proc_req o).
Proof. frees_record. Qed.
Lemma f_proc_res o : frees h_get_proc_parameter_response_free (rep_opt rep_proc_res o).
Proof. frees_record. Qed.
Lemma f_set_proc o : frees h_set_proc_parameter_request_free (rep_opt rep_set_proc o).
Proof. frees_record. Qed.
Lemma f_list_req o : frees h_get_list_request_free (rep_opt rep_list_req o).
Proof. frees_record. Qed.
Lemma f_list_res o : frees h_get_list_response_free (rep_opt rep_list_res o).
Proof. frees_record. Qed.
Lemma f_attention o : frees h_attention_response_free (rep_opt rep_attention o).
Proof. frees_record. Qed.

(** *** Messages and files *)

Lemma f_body_data d t : tag_of d t -> frees (h_body_data_free t) (rep_body_data d).
Proof.
  intros T p s Φ. destruct d; cbn [tag_of] in T; cbn [rep_body_data];
    [|destruct T as [T|T] || idtac; subst t ..].
  - iIntros "[-> K]". unfold h_body_data_free.
    repeat match goal with |- context [if ?b then _ else _] => destruct b end; by iApply wp_ret.
  - apply (f_open_req (Some m)).
  - apply (f_open_res (Some m)).
  - apply (f_close_req (Some m)).
  - apply (f_close_res (Some m)).
  - apply (f_pack_req (Some m)).
  - apply (f_pack_req (Some m)).
  - apply (f_pack_res (Some m)).
  - apply (f_prof_list_res (Some m)).
  - apply (f_proc_req (Some m)).
  - apply (f_proc_res (Some m)).
  - apply (f_set_proc (Some m)).
  - apply (f_list_req (Some m)).
  - apply (f_list_res (Some m)).
  - apply (f_attention (Some m)).
Qed.
Lemma f_body1 b : frees h_message_body_free (rep_body b).
Proof.
  intros p s Φ. iIntros "[(%t & %E & C) K]". destruct E as [E M]. unfold h_message_body_free.
  iDestruct "C" as (ss) "[P F]".
  iDestruct (fields_cons_inv with "F") as (x1 ss1 ->) "[R1 F]".
  iDestruct (fields_cons_inv with "F") as (x2 ss2 ->) "[R2 F]". rewrite fields_nil. iDestruct "F" as "->".
  cbn [app]. iApply wp_if_ptr. iFrame "P". iIntros "P".
  iApply wp_bind. hload "P". iApply wp_bind. iApply wp_load_bytes. iFrame "R1". iIntros "R1".
  iApply wp_bind. hload "P". iApply wp_bind. iApply f_body_data; [exact M|]. iFrame "R2".
  iApply wp_bind. iApply f_num1. iFrame "R1". iApply wp_free. iFrame.
Qed.
Lemma f_body o : frees h_message_body_free (rep_opt rep_body o).
Proof. apply frees_opt; [|apply f_body1]. intros p s Φ. iIntros "[-> K]". by iApply wp_ret. Qed.
Lemma f_msg o : frees h_message_free (rep_opt rep_msg o).
Proof. frees_record; apply f_body. Qed.
Lemma f_buffer bs : frees h_buffer_free (rep_buffer bs).
Proof.
  intros p s Φ. iIntros "[(%d & P & D) K]". unfold h_buffer_free.
  iApply wp_if_ptr. iFrame "P". iIntros "P". iApply wp_bind. hload "P". iApply wp_bind.
  iApply wp_if_ptr. iFrame "D". iIntros "D". iApply wp_free. iFrame "D". iApply wp_free. iFrame.
Qed.
Lemma f_file msgs bs : frees h_file_free (rep_file msgs bs).
Proof.
  intros p s Φ. iIntros "[(%arr & %b & P & A & B) K]". unfold h_file_free.
  iApply wp_if_ptr. iFrame "P". iIntros "P". iApply wp_bind. hload "P". iApply wp_bind.
  destruct (map rep_msg msgs) as [|R Rs] eqn:EM; cbn [array].
  - iDestruct "A" as "->". iApply wp_ret. iApply wp_bind. hload "P". iApply wp_bind. iApply f_buffer.
    iFrame "B". iApply wp_free. iFrame.
  - iDestruct (cell_ptr with "A") as "[A (%l & ->)]". iApply wp_bind. hload_int "P".
    rewrite Nat2Z.id -(map_length rep_msg msgs) EM.
    iDestruct "A" as (ss) "[P2 F]". rewrite app_nil_r. iApply wp_bind.
    iApply (for_each_spec h_message_free (R :: Rs) [] ss).
    { rewrite -EM. apply Forall_map, Forall_true. intros x. apply (f_msg (Some x)). }
    cbn [app]. iFrame "P2 F". iIntros "P2". iApply wp_free. iFrame "P2".
    iApply wp_bind. hload "P". iApply wp_bind. iApply f_buffer. iFrame "B". iApply wp_free. iFrame.
Qed.

End WithAllocator.
