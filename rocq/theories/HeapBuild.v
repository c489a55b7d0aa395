(** Building objects with the init and add functions. *)
From stdpp Require Import gmap.
From iris.proofmode Require Import tactics.
From Verif Require Import Base Buf Number OctetString Boolean Value Time SList Tree Bodies Message File Transport
  Lib Wf Spec Inv NumFacts Enc
  HeapBase HeapModel HeapLogic HeapRep HeapFree HeapSim HeapParse HeapWriteModel HeapWrite HeapBuildModel.

Local Existing Instance quiet.

Lemma le_of_value : forall bs, bytes_ok bs -> le_bytes (length bs) (Base.le_value bs) = bs.
Proof.
  induction bs as [|b bs IH]; intros HB; [done|]. apply Forall_cons_1 in HB as [Hb HB]. unfold byte_ok in Hb.
  cbn [length Base.le_value le_bytes]. f_equal.
  - rewrite Z.mul_comm Z.mod_add // Z.mod_small //.
  - rewrite Z.mul_comm Z.div_add // Z.div_small // Z.add_0_l. by apply IH.
Qed.
Lemma big_of_be bs : bytes_ok bs -> big_endian (length bs) (be_unsigned bs) = bs.
Proof.
  intros HB. unfold big_endian. rewrite be_le. rewrite -(rev_length bs) le_of_value; [apply rev_involutive|by apply List.Forall_rev].
Qed.

Section WithHost.
Context {HO : Host} {AL : Allocator}.

(** [b] makes an object [R] from nothing, and leaves the buffer alone *)
Definition builds (b : H slot) (R : slot -> hprop) : Prop :=
  forall s Φ, (∀ p, R p -∗ Φ p s) ⊢ wp b s Φ.

Lemma builds_nul : builds (ret Nul) rep_nul.
Proof. intros s Φ. iIntros "K". iApply wp_ret. by iApply "K". Qed.
Lemma builds_opt {A} (Q : A -> Prop) (b : A -> H slot) (R : A -> slot -> hprop) :
  (forall v, Q v -> builds (b v) (R v)) -> forall o, opt Q o -> builds (b_opt b o) (rep_opt R o).
Proof. intros HB [v|] HQ; [by apply HB|apply builds_nul]. Qed.
Lemma builds_malloc bl : builds (malloc bl) (fun p => p ↦ bl)%I.
Proof. intros s Φ. apply wp_malloc. Qed.
Lemma builds_bind b R (k : slot -> H slot) s Φ : builds b R ->
  (∀ x, R x -∗ wp (k x) s Φ) ⊢ wp (bind b k) s Φ.
Proof. intros HB. iIntros "K". iApply wp_bind. by iApply HB. Qed.

Lemma set_members_spec : forall bs Rs, Forall2 builds bs Rs -> forall pre old rest p s Φ, length old = length bs ->
  p ↦ Struct (pre ++ old ++ rest) ∗ (∀ ss, p ↦ Struct (pre ++ ss ++ rest) ∗ fields Rs ss -∗ Φ tt s)
  ⊢ wp (set_members p (length pre) bs) s Φ.
Proof.
  induction bs as [|b bs IH]; intros Rs F pre old rest p s Φ L; inversion F as [|? R ? Rs' Hb Hbs]; subst; cbn [set_members].
  - destruct old; [|done]. iIntros "[P K]". iApply wp_ret. iApply "K". iFrame "P". by rewrite fields_nil.
  - destruct old as [|o old]; [done|]. injection L as L. iIntros "[P K]". iApply wp_bind. iApply Hb. iIntros (x) "R".
    iApply wp_bind. iApply wp_store; last (iFrame "P"; iIntros "P").
    { rewrite lookup_app_r // Nat.sub_diag //. }
    rewrite insert_app_r_alt // Nat.sub_diag. cbn [app].
    change (<[0%nat:=x]> (o :: old ++ rest)) with (x :: old ++ rest).
    iPoseProof (IH Rs' Hbs (pre ++ [x]) old rest p s Φ L) as "W".
    rewrite -!(assoc_L (++)) app_length Nat.add_1_r. cbn [app]. iApply "W". iFrame "P".
    iIntros (ss) "[P F]". iApply ("K" $! (x :: ss)). rewrite fields_cons -(assoc_L (++)). cbn [app]. iFrame.
Qed.
Lemma builds_struct bs Rs rest : Forall2 builds bs Rs ->
  builds (build (malloc (Struct (repeat Nul (length bs) ++ rest))) bs) (cell rest Rs).
Proof.
  intros F s Φ. iIntros "K". iApply wp_bind. iApply wp_malloc. iIntros (p) "P". iApply wp_bind.
  iApply (set_members_spec bs Rs F [] (repeat Nul (length bs)) rest); [by rewrite repeat_length|]. iFrame "P".
  iIntros (ss) "[P F]". iApply wp_ret. iApply "K". iExists ss. iFrame.
Qed.
Lemma add_all_spec (add : slot -> H unit) (bs : list (H slot)) (Rs : list (slot -> hprop)) (I : list (slot -> hprop) -> hprop) :
  (forall R done s Φ x, I done ∗ R x ∗ (I (done ++ [R]) -∗ Φ tt s) ⊢ wp (add x) s Φ) ->
  Forall2 builds bs Rs -> forall done s Φ, I done ∗ (I (done ++ Rs) -∗ Φ tt s) ⊢ wp (add_all add bs) s Φ.
Proof.
  intros HA F. induction F as [|b R bs Rs Hb F IH]; intros done s Φ; iIntros "[I K]"; cbn [add_all].
  - iApply wp_ret. iApply "K". by rewrite app_nil_r.
  - iApply wp_bind. iApply Hb. iIntros (x) "R". iApply wp_bind. iApply (HA R done). iFrame "I R". iIntros "I".
    iApply (IH (done ++ [R])). rewrite -(assoc_L (++)). iFrame.
Qed.

(** *** Numbers, strings, values *)
Lemma init_mem m : bytes_ok m -> (length m <= 8)%nat -> sml_number_init (mem_u m) (length m) = m.
Proof.
  intros HB L. rewrite init_host //. replace (mem_u m) with (be_unsigned (host_order m)) by (by rewrite -mem_u_host host_twice).
  rewrite -(host_length m) big_of_be; [apply host_twice|by apply host_ok].
Qed.
Lemma b_num_ok n m : wf_num n m -> builds (b_num m) (rep_num m).
Proof.
  intros [L HB]. unfold b_num. destruct (Nat.leb_spec (length m) 8) as [L8|L8]; [|apply builds_malloc].
  unfold h_number_init. rewrite init_mem //. apply builds_malloc.
Qed.
Lemma str_init_ok bs len s Φ : length bs = Z.to_nat len -> 0 <= len ->
  (∀ p, rep_str bs p -∗ Φ p s) ⊢ wp (h_octet_string_init bs len) s Φ.
Proof.
  intros L H0. iIntros "K". unfold h_octet_string_init. iApply wp_bind. iApply wp_malloc. iIntros (p) "P".
  destruct bs as [|x bs].
  - destruct (len >? 0) eqn:E; [rewrite Z.gtb_ltb in E; apply Z.ltb_lt in E; cbn in L; lia|].
    iApply wp_bind. iApply wp_ret. iApply wp_ret. iApply "K". iExact "P".
  - destruct (len >? 0) eqn:E; [|rewrite Z.gtb_ltb in E; apply Z.ltb_ge in E; cbn in L; lia].
    iApply wp_bind. iApply wp_bind. iApply wp_malloc. iIntros (d) "D".
    iApply wp_bind. iApply wp_store; last (iFrame "P"; iIntros "P"); [by eauto|].
    iApply wp_store; last (iFrame "P"; iIntros "P"); [by eauto|]. iApply wp_ret. iApply "K".
    rewrite -L take_ge //. iExists d. cbn [insert list_insert]. rewrite L Z2Nat.id //. iFrame.
Qed.
Lemma b_str_ok v : wf_oct v -> builds (b_str v) (rep_str v).
Proof. intros _ s Φ. apply str_init_ok; lia. Qed.
Lemma b_bool_ok b : wf_bool b -> builds (b_bool b) (rep_bool b).
Proof. intros _. apply builds_malloc. Qed.

(** A value whose type does not contradict its data *)
Definition typed (v : sml_value) : Prop :=
  match v_data v with
  | VNull => True
  | VBytes s => v_type v = 0 /\ wf_oct s
  | VBool b => v_type v <> 0 /\ wf_bool b
  | VNum m => v_type v <> 0 /\ exists n, wf_num n m
  end.
Lemma wf_typed v : wf_value v -> typed v.
Proof.
  intros W. destruct W; unfold typed; cbn [v_data v_type]; (split; [|eauto]); try done;
    match goal with H : width_ok ?w |- _ => destruct H as [->|[->|[->| ->]]]; done end.
Qed.
Lemma b_typed_ok v : typed v -> builds (b_value v) (rep_value v).
Proof.
  intros T s Φ. iIntros "K". unfold b_value. iApply wp_bind. iApply wp_malloc. iIntros (p) "P".
  iApply wp_bind. iApply wp_store; last (iFrame "P"; iIntros "P"); [by eauto|]. cbn [insert list_insert].
  iApply wp_bind.
  assert (HD : builds (match v_data v with VNull => ret Nul | VBytes s => b_str s | VBool b => b_bool b | VNum m => b_num m end)
    (rep_vdata (v_type v) (v_data v))).
  { unfold typed in T. unfold rep_vdata. destruct (v_data v) as [|z|z|z].
    - apply builds_nul.
    - destruct T as [-> W]. by apply b_str_ok.
    - destruct T as [N W]. intros s1 Ψ. iIntros "K". iApply b_bool_ok; [done|]. iIntros (q) "Q". iApply "K". by iFrame.
    - destruct T as [N [n W]]. intros s1 Ψ. iIntros "K". iApply b_num_ok; [done|]. iIntros (q) "Q". iApply "K". by iFrame. }
  iApply HD. iIntros (d) "D". iApply wp_bind. iApply wp_store; last (iFrame "P"; iIntros "P"); [by eauto|]. cbn [insert list_insert].
  iApply wp_ret. iApply "K". iExists d. iFrame.
Qed.
Lemma b_value_ok v : wf_value v -> builds (b_value v) (rep_value v).
Proof. intros W. by apply b_typed_ok, wf_typed. Qed.
Lemma b_status_ok v : wf_status v -> builds (b_status v) (rep_status v).
Proof.
  intros W s Φ. iIntros "K". unfold b_status. iApply wp_bind. iApply wp_malloc. iIntros (p) "P".
  iApply wp_bind. iApply wp_store; last (iFrame "P"; iIntros "P"); [by eauto|]. cbn [insert list_insert].
  iApply wp_bind.
  assert (HD : builds (b_opt b_num (st_data v)) (rep_opt rep_num (st_data v))).
  { apply (builds_opt (fun m => exists n, wf_num n m)); [|by destruct W; cbn; eauto]. intros m [n Wm]. by eapply b_num_ok. }
  iApply HD. iIntros (d) "D". iApply wp_bind. iApply wp_store; last (iFrame "P"; iIntros "P"); [by eauto|]. cbn [insert list_insert].
  iApply wp_ret. iApply "K". iExists d. iFrame.
Qed.

Lemma bo_num n o : opt (wf_num n) o -> builds (b_opt b_num o) (rep_opt rep_num o).
Proof. apply builds_opt, b_num_ok. Qed.
Lemma bo_str o : opt wf_oct o -> builds (b_opt b_str o) (rep_opt rep_str o).
Proof. apply builds_opt, b_str_ok. Qed.
Lemma bo_bool o : opt wf_bool o -> builds (b_opt b_bool o) (rep_opt rep_bool o).
Proof. apply builds_opt, b_bool_ok. Qed.
Lemma bo_value o : opt wf_value o -> builds (b_opt b_value o) (rep_opt rep_value o).
Proof. apply builds_opt, b_value_ok. Qed.
Lemma bo_status o : opt wf_status o -> builds (b_opt b_status o) (rep_opt rep_status o).
Proof. apply builds_opt, b_status_ok. Qed.
Lemma b_time_ok t : wf_time t -> builds (b_time t) (rep_time t).
Proof.
  intros [W1 W2]. apply (builds_struct [b_opt b_num (tm_tag t); b_opt b_num (tm_data t)] _ []).
  apply Forall2_cons; [by eapply bo_num|]. apply Forall2_cons; [by eapply bo_num|apply Forall2_nil].
Qed.
Lemma bo_time o : opt wf_time o -> builds (b_opt b_time o) (rep_opt rep_time o).
Proof. apply builds_opt, b_time_ok. Qed.

(** *** Sequences, lists *)
Lemma seq_init_add (p : slot) (bs : list (H slot)) Rs s Φ : Forall2 builds bs Rs ->
  p ↦ Struct [Nul; Int 0] ∗ (∀ arr, p ↦ Struct [arr; Int (Z.of_nat (length Rs))] ∗ array Rs arr -∗ Φ tt s)
  ⊢ wp (add_all (fun x => append p 0 x) bs) s Φ.
Proof.
  intros F. pose (I := fun done => (∃ arr, p ↦ Struct [arr; Int (Z.of_nat (length done))] ∗ array done arr)%I).
  assert (HA : forall R done s Φ x, I done ∗ R x ∗ (I (done ++ [R]) -∗ Φ tt s) ⊢ wp (append p 0 x) s Φ).
  { intros R done s1 Ψ x. iIntros "((%arr & P & A) & R & K)". iApply (wp_append [] [] arr done R x p 0 s1 Ψ eq_refl). cbn [app].
    iFrame "P A R". iIntros (arr') "[P A]". iApply "K". iExists arr'. iFrame. }
  iIntros "[P K]". iApply (add_all_spec _ bs Rs I HA F []).
  iSplitL "P"; [iExists Nul; by iFrame|]. iIntros "(%arr & P & A)". iApply "K". iFrame.
Qed.
Lemma forall2_map {A} (f : A -> H slot) (g : A -> slot -> hprop) l : Forall (fun x => builds (f x) (g x)) l ->
  Forall2 builds (map f l) (map g l).
Proof. induction 1 as [|x l Hx HF IH]; cbn [List.map]; constructor; auto. Qed.
Lemma b_seq_ok {A} (Q : A -> Prop) (b : A -> H slot) (R : A -> slot -> hprop) : (forall v, Q v -> builds (b v) (R v)) ->
  forall l, Forall (opt Q) l -> builds (b_seq b l) (rep_seq R l).
Proof.
  intros HB l W s Φ. iIntros "K". unfold b_seq. iApply wp_bind. iApply wp_malloc. iIntros (p) "P". iApply wp_bind.
  iApply (seq_init_add p _ (map (rep_opt R) l)).
  { apply forall2_map. eapply Forall_impl; [|exact W]. intros o Ho. by apply (builds_opt Q). }
  iFrame "P". iIntros (arr) "[P A]". iApply wp_ret. iApply "K". iExists arr. rewrite map_length. iFrame.
Qed.
Lemma b_path_ok l : wf_path l -> builds (b_tree_path l) (rep_tree_path l).
Proof.
  intros W s Φ. iIntros "K". unfold b_tree_path. iApply wp_bind. iApply wp_malloc. iIntros (p) "P". iApply wp_bind.
  iApply (seq_init_add p _ (map rep_str l)).
  { apply forall2_map. eapply Forall_impl; [|exact W]. intros o Ho. by apply b_str_ok. }
  iFrame "P". iIntros (arr) "[P A]". iApply wp_ret. iApply "K". iExists arr. rewrite map_length. iFrame.
Qed.
Lemma bo_path o : opt wf_path o -> builds (b_opt b_tree_path o) (rep_opt rep_tree_path o).
Proof. apply builds_opt, b_path_ok. Qed.

Ltac members := repeat (apply Forall2_cons; [first [by eapply bo_num | by apply bo_str | by apply bo_value | by apply bo_time
  | by apply bo_status | by apply bo_bool | by apply bo_path | idtac]|]); try apply Forall2_nil.

(** An entry: no text under the type of a number (C47) *)
Record entry_ok (e : list_entry) : Prop := {
  eo_wf : wf_entry e;
  eo_typed : opt typed (SList.le_value e) }.
Lemma b_entry_ok e : entry_ok e -> builds (b_entry e) (cell [Nul] (entry_fields e)).
Proof.
  intros [[W1 W2 W3 W4 W5 _ W7] W6]. unfold b_entry.
  apply (builds_struct [b_opt b_str (le_obj_name e); b_opt b_status (le_status e); b_opt b_time (le_val_time e);
    b_opt b_num (le_unit e); b_opt b_num (le_scaler e); b_opt b_value (SList.le_value e); b_opt b_str (le_value_signature e)]
    (entry_fields e) [Nul]).
  unfold entry_fields. members. by apply (builds_opt typed b_value rep_value b_typed_ok).
Qed.
Lemma cell_next x y Rs p s Φ : length Rs = 7%nat ->
  cell [x] Rs p ∗ (cell [y] Rs p -∗ Φ tt s) ⊢ wp (h_list_add p y) s Φ.
Proof. intros L. unfold h_list_add. rewrite -L. apply wp_cell_store_rest0. Qed.
Lemma b_entries_ok : forall l Rs last s Φ, length Rs = 7%nat -> Forall entry_ok l ->
  cell [Nul] Rs last ∗ (∀ n, cell [n] Rs last ∗ rep_list l n -∗ Φ tt s) ⊢ wp (b_entries last l) s Φ.
Proof.
  induction l as [|e l IH]; intros Rs last s Φ L W; cbn [b_entries].
  - iIntros "[C K]". iApply wp_ret. iApply "K". iFrame. done.
  - apply Forall_cons_1 in W as [We W]. iIntros "[C K]". iApply wp_bind. iApply b_entry_ok; [done|]. iIntros (x) "E".
    iApply wp_bind. iApply cell_next; [done|]. iFrame "C". iIntros "C".
    iApply (IH (entry_fields e)); [done|done|]. iFrame "E". iIntros (n) "[E L]". iApply "K". iFrame "C". iExists n. iFrame.
Qed.
Lemma b_list_ok l : Forall entry_ok l -> builds (b_list l) (rep_list l).
Proof.
  destruct l as [|e l]; intros W; [apply builds_nul|]. apply Forall_cons_1 in W as [We W]. intros s Φ. iIntros "K". cbn [b_list].
  iApply wp_bind. iApply b_entry_ok; [done|]. iIntros (x) "E". iApply wp_bind. iApply (b_entries_ok l (entry_fields e)); [done|done|].
  iFrame "E". iIntros (n) "[E L]". iApply wp_ret. iApply "K". iExists n. iFrame.
Qed.

(** *** Trees *)
Ltac record := match goal with |- builds (build _ ?bs) (cell [] ?Rs) => apply (builds_struct bs Rs []) end; members.
Lemma b_tupel_ok v : wf_tupel v -> builds (b_tupel v) (rep_tupel v).
Proof. intros []. unfold b_tupel, rep_tupel. record. Qed.
Lemma b_period_ok v : wf_period v -> builds (b_period v) (rep_period v).
Proof. intros []. unfold b_period, rep_period. record. Qed.
Lemma b_ppv_ok v : wf_ppv v -> builds (b_ppv v) (rep_ppv v).
Proof.
  intros (t & Et & Wt & W). 
  assert (HM : ppv_matches v /\ builds (match ppv_dat v with
    | PNull => ret Nul | PValue v => b_value v | PPeriod v => b_period v | PTupel v => b_tupel v | PTime v => b_time v
    end) (rep_ppv_data (ppv_dat v))).
  { unfold ppv_matches. rewrite Et.
    destruct (mem_u t) as [|[[q|q|]|[q|[q|q|]|]|]|q]; try done; destruct W as ([w|] & -> & Ww); cbn [from_opt];
      (split; [done|]); try apply builds_nul; [by apply b_tupel_ok|by apply b_time_ok|by apply b_period_ok|by apply b_value_ok]. }
  destruct HM as [HM HD]. intros s Φ. iIntros "K". unfold b_ppv, rep_ppv.
  iApply (builds_struct [b_opt b_num (ppv_tag v); _] [rep_opt rep_num (ppv_tag v); rep_ppv_data (ppv_dat v)] []).
  { apply Forall2_cons; [rewrite Et; by eapply (bo_num _ (Some t))|]. apply Forall2_cons; [exact HD|apply Forall2_nil]. }
  iIntros (p) "C". iApply "K". iFrame. done.
Qed.
Lemma bo_ppv o : opt wf_ppv o -> builds (b_opt b_ppv o) (rep_opt rep_ppv o).
Proof. apply builds_opt, b_ppv_ok. Qed.
Lemma b_tree_ok : forall t, wf_tree t -> builds (b_tree t) (rep_tree t).
Proof.
  apply (tree_induction (fun t => wf_tree t -> builds (b_tree t) (rep_tree t))). intros name value children IH W.
  inversion W as [? ? ? W1 W2 W3]; subst. intros s Φ. iIntros "K". cbn [b_tree]. iApply wp_bind.
  iApply (builds_struct [b_opt b_str name; b_opt b_ppv value] [rep_opt rep_str name; rep_opt rep_ppv value] [Nul; Int 0]).
  { apply Forall2_cons; [by apply bo_str|]. apply Forall2_cons; [by apply bo_ppv|apply Forall2_nil]. }
  iIntros (p) "(%ss & P & F)". iDestruct (fields_length with "F") as %L. iApply wp_bind.
  pose (I := fun done => (∃ arr, p ↦ Struct (ss ++ [arr; Int (Z.of_nat (length done))]) ∗ array done arr)%I).
  assert (HA : forall R done s Φ x, I done ∗ R x ∗ (I (done ++ [R]) -∗ Φ tt s) ⊢ wp (h_tree_add_tree p x) s Φ).
  { intros R done s1 Ψ x. iIntros "((%arr & P & A) & R & K)". unfold h_tree_add_tree.
    iApply (wp_append ss [] arr done R x p 2 s1 Ψ); [by rewrite -L|]. iFrame "P A R".
    iIntros (arr') "[P A]". iApply "K". iExists arr'. iFrame. }
  assert (HF : Forall2 builds (map b_tree children) (map rep_tree children)).
  { apply forall2_map. clear -IH W3. induction IH as [|t l Ht IH IHl]; [constructor|]. apply Forall_cons_1 in W3 as [W1 W3]. constructor; auto. }
  iApply (add_all_spec _ _ _ I HA HF []).
  iSplitL "P"; [iExists Nul; by iFrame|]. iIntros "(%arr & P & A)". iApply wp_ret. iApply "K".
  rewrite map_length. iExists arr. iFrame "A". iExists ss. iFrame.
Qed.
Lemma bo_tree o : opt wf_tree o -> builds (b_opt b_tree o) (rep_opt rep_tree o).
Proof. apply builds_opt, b_tree_ok. Qed.

(** *** The bodies *)
Lemma b_objs_ok : forall l, Forall (opt wf_oct) l -> builds (b_objs l) (fun p => rep_objs l p Nul).
Proof.
  induction l as [|o l IH]; intros W; cbn [b_objs]; [apply builds_nul|]. apply Forall_cons_1 in W as [Wo W].
  intros s Φ. iIntros "K". iApply wp_bind. iApply IH; [done|]. iIntros (n) "N". iApply wp_bind. iApply bo_str; [done|]. iIntros (x) "X".
  iApply wp_malloc. iIntros (p) "P". iApply "K". iExists n. iFrame "N". iExists [x]. iFrame "P". rewrite fields_cons fields_nil. by iFrame.
Qed.
Lemma b_open_req_ok v : wf_open_req v -> builds (b_open_req v) (rep_open_req v).
Proof. intros []. unfold b_open_req, rep_open_req. record. Qed.
Lemma b_open_res_ok v : wf_open_res v -> builds (b_open_res v) (rep_open_res v).
Proof. intros []. unfold b_open_res, rep_open_res. record. Qed.
Lemma b_close_req_ok v : wf_close_req v -> builds (b_close_req v) (rep_close_req v).
Proof. intros W. unfold b_close_req, rep_close_req. record. Qed.
Lemma b_close_res_ok v : wf_close_res v -> builds (b_close_res v) (rep_close_res v).
Proof. intros W. unfold b_close_res, rep_close_res. record. Qed.
Lemma b_pack_req_ok v : wf_pack_req v -> builds (b_pack_req v) (rep_pack_req v).
Proof. intros []. unfold b_pack_req, rep_pack_req. record; [by apply b_objs_ok|by apply bo_tree]. Qed.
Lemma b_header_ok v : wf_header v -> builds (b_header v) (rep_header v).
Proof. intros []. unfold b_header, rep_header. record. Qed.
Lemma b_value_entry_ok v : wf_value_entry v -> builds (b_value_entry v) (rep_value_entry v).
Proof. intros []. unfold b_value_entry, rep_value_entry. record. Qed.
Lemma somes {A} (Q : A -> Prop) l : Forall Q l -> Forall (opt Q) (map Some l).
Proof. induction 1; constructor; auto. Qed.
Lemma bo_seq {A} (Q : A -> Prop) (b : A -> H slot) (R : A -> slot -> hprop) o : (forall v, Q v -> builds (b v) (R v)) ->
  (exists l, o = Some (map Some l) /\ Forall Q l) -> builds (b_opt (b_seq b) o) (rep_opt (rep_seq R) o).
Proof. intros HB (l & -> & W). apply (b_seq_ok Q); [done|]. by apply somes. Qed.
Lemma b_per_entry_ok v : wf_per_entry v -> builds (b_per_entry v) (rep_per_entry v).
Proof. intros []. unfold b_per_entry, rep_per_entry. record. apply (bo_seq wf_value_entry); [apply b_value_entry_ok|done]. Qed.
Lemma b_pack_res_ok v : wf_pack_res v -> builds (b_pack_res v) (rep_pack_res v).
Proof.
  intros []. unfold b_pack_res, rep_pack_res. record.
  - apply (bo_seq wf_header); [apply b_header_ok|done].
  - apply (bo_seq wf_per_entry); [apply b_per_entry_ok|done].
Qed.
Lemma b_prof_list_res_ok v : wf_prof_list_res v -> builds (b_prof_list_res v) (rep_prof_list_res v).
Proof.
  intros [W1 W2 W3 W4 W5 W6 (l & El & W7) W8 W9]. unfold b_prof_list_res, rep_prof_list_res. record.
  rewrite El. apply (b_seq_ok wf_period); [apply b_period_ok|done].
Qed.
Lemma b_proc_req_ok v : wf_proc_req v -> builds (b_proc_req v) (rep_proc_req v).
Proof. intros []. unfold b_proc_req, rep_proc_req. record. Qed.
Lemma b_proc_res_ok v : wf_proc_res v -> builds (b_proc_res v) (rep_proc_res v).
Proof. intros []. unfold b_proc_res, rep_proc_res. record. by apply bo_tree. Qed.
Lemma b_set_proc_ok v : wf_set_proc v -> builds (b_set_proc v) (rep_set_proc v).
Proof. intros []. unfold b_set_proc, rep_set_proc. record. by apply bo_tree. Qed.
Lemma b_list_req_ok v : wf_list_req v -> builds (b_list_req v) (rep_list_req v).
Proof. intros []. unfold b_list_req, rep_list_req. record. Qed.
Lemma b_list_res_ok v : wf_list_res v -> Forall (fun e => opt typed (SList.le_value e)) (lr_val_list v) ->
  builds (b_list_res v) (rep_list_res v).
Proof.
  intros [W1 W2 W3 W4 W5 W6 W7] WT. unfold b_list_res, rep_list_res. record.
  apply b_list_ok. clear -W5 WT. induction W5; [constructor|]. apply Forall_cons_1 in WT as [T1 T2]. constructor; auto. by split.
Qed.
Lemma b_attention_ok v : wf_attention v -> builds (b_attention v) (rep_attention v).
Proof. intros []. unfold b_attention, rep_attention. record. by apply bo_tree. Qed.

(** no text under the type of a number *)
Definition body_typed (d : body_data) : Prop :=
  match d with BListRes m => Forall (fun e => opt typed (SList.le_value e)) (lr_val_list m) | _ => True end.
Lemma b_body_data_ok tag d : wf_body_data tag d -> body_typed d -> builds (b_body_data d) (rep_body_data d) /\ tag_of d tag.
Proof.
  destruct d; cbn [wf_body_data body_typed b_body_data rep_body_data tag_of]; intros W T; [split; [apply builds_nul|done]|..];
    destruct W as [E W]; (split; [|done]).
  - by apply b_open_req_ok.
  - by apply b_open_res_ok.
  - by apply b_close_req_ok.
  - by apply b_close_res_ok.
  - by apply b_pack_req_ok.
  - by apply b_pack_res_ok.
  - by apply b_prof_list_res_ok.
  - by apply b_proc_req_ok.
  - by apply b_proc_res_ok.
  - by apply b_set_proc_ok.
  - by apply b_list_req_ok.
  - by apply b_list_res_ok.
  - by apply b_attention_ok.
Qed.
Lemma b_body_ok b : wf_body b -> body_typed (mb_data b) -> builds (b_body b) (rep_body b).
Proof.
  intros (t & Et & [Lt Bt] & W) T. destruct (b_body_data_ok _ _ W T) as [HB HT]. intros s Φ. iIntros "K".
  unfold b_body, h_message_body_init. rewrite Et. iApply wp_bind. iApply HB. iIntros (d) "D".
  unfold h_number_init. rewrite -Lt init_mem //; [|lia]. iApply wp_bind. iApply wp_malloc. iIntros (q) "Q". iApply wp_malloc. iIntros (p) "P".
  iApply "K". iExists t. iSplit; [done|]. iExists [q; d]. iFrame "P". rewrite !fields_cons fields_nil. iFrame. done.
Qed.

(** *** Messages and files *)
Lemma upd_length (i : nat) (f : Z -> Z) l :
  length (match nth_error l i with Some x => firstn i l ++ f x :: skipn (S i) l | None => l end) = length l.
Proof.
  destruct (nth_error l i) as [x|] eqn:E; [|done]. assert (L : (i < length l)%nat) by (apply nth_error_Some; congruence).
  rewrite app_length firstn_length. cbn [length]. rewrite skipn_length. lia.
Qed.
Lemma uuid_length random : length (uuid_of random) = length random.
Proof. unfold uuid_of. by rewrite !upd_length. Qed.
Lemma message_init_ok random s Φ : length random = 16%nat ->
  (∀ p, rep_msg (mkMsg (Some (uuid_of random)) None None None None) p -∗ Φ p s) ⊢ wp (h_message_init random) s Φ.
Proof.
  intros L. iIntros "K". unfold h_message_init, h_octet_string_generate_uuid. iApply wp_bind. iApply wp_malloc. iIntros (p) "P".
  iApply wp_bind. iApply str_init_ok; [by rewrite uuid_length|lia|]. iIntros (u) "U".
  iApply wp_bind. iApply wp_store; last (iFrame "P"; iIntros "P"); [by eauto|]. iApply wp_ret. iApply "K".
  iExists [u; Nul; Nul; Nul; Nul]. iFrame "P". rewrite !fields_cons fields_nil. iFrame. done.
Qed.
Record buildable (m : sml_message) : Prop := {
  bu_writable : writable m;
  bu_typed : forall b, m_message_body m = Some b -> body_typed (mb_data b);
  bu_crc : m_crc m = None }.
Lemma b_msg_ok random m : length random = 16%nat -> buildable m -> builds (b_msg random m) (rep_msg m).
Proof.
  intros L [[W1 W2 W3 (b & Eb & W4)] WT Ec] s Φ. iIntros "K". unfold b_msg. iApply wp_bind. iApply message_init_ok; [done|].
  iIntros (p) "M". iApply wp_bind.
  iAssert (wp (if decide (m_transaction_id m = Some (uuid_of random)) then ret tt
     else old <- load p 0 ;; h_octet_string_free old ;;; x <- b_opt b_str (m_transaction_id m) ;; store p 0 x) s
     (fun _ s' => ⟨s' = s⟩ ∗ ∃ x, p ↦ Struct [x; Nul; Nul; Nul; Nul] ∗ rep_opt rep_str (m_transaction_id m) x)%I)%I with "[M]" as "W".
  { iDestruct "M" as (ss) "[P F]". rewrite app_nil_r. cbn [m_transaction_id m_group_id m_abort_on_error m_message_body m_crc].
    iDestruct (fields_cons_inv with "F") as (x0 s0 ->) "[U F]". iDestruct (fields_cons_inv with "F") as (x1 s1 ->) "[-> F]".
    iDestruct (fields_cons_inv with "F") as (x2 s2 ->) "[-> F]". iDestruct (fields_cons_inv with "F") as (x3 s3 ->) "[-> F]".
    iDestruct (fields_cons_inv with "F") as (x4 s4 ->) "[-> F]". rewrite fields_nil. iDestruct "F" as "->".
    destruct (decide (m_transaction_id m = Some (uuid_of random))) as [->|N].
    - iApply wp_ret. iSplit; [done|]. iExists x0. iFrame.
    - iApply wp_bind. hload "P". iApply wp_bind. iApply f_str. iFrame "U". iApply wp_bind. iApply bo_str; [done|]. iIntros (x) "X".
      iApply wp_store; last (iFrame "P"; iIntros "P"); [by eauto|]. iSplit; [done|]. iExists x. iFrame. }
  iApply wp_wand. iSplitL "W"; [iExact "W"|]. iIntros (? s') "(-> & %x & P & X)". iApply wp_bind.
  assert (HF : Forall2 builds [b_opt b_num (m_group_id m); b_opt b_num (m_abort_on_error m); b_opt b_body (m_message_body m)]
    [rep_opt rep_num (m_group_id m); rep_opt rep_num (m_abort_on_error m); rep_opt rep_body (m_message_body m)]).
  { members. rewrite Eb. apply b_body_ok; [done|]. by apply WT. }
  iApply (set_members_spec _ _ HF [x] [Nul; Nul; Nul] [Nul] p s _ eq_refl).
  iFrame "P". iIntros (ss) "[P F]". iApply wp_ret. iApply "K". iDestruct (fields_length with "F") as %LF.
  iExists (x :: ss ++ [Nul]). rewrite app_nil_r. iFrame "P". rewrite fields_cons. iFrame "X".
  change [rep_opt rep_num (m_group_id m); rep_opt rep_num (m_abort_on_error m); rep_opt rep_body (m_message_body m); rep_opt rep_num (m_crc m)]
    with ([rep_opt rep_num (m_group_id m); rep_opt rep_num (m_abort_on_error m); rep_opt rep_body (m_message_body m)] ++ [rep_opt rep_num (m_crc m)]).
  rewrite fields_app //. iFrame "F". rewrite Ec fields_cons fields_nil. done.
Qed.
Lemma file_init_ok s Φ : (∀ p, rep_file [] (repeat 0 512) p -∗ Φ p s) ⊢ wp h_file_init_run s Φ.
Proof.
  iIntros "K". unfold h_file_init_run, h_buffer_init. iApply wp_bind. iApply wp_malloc. iIntros (p) "P".
  iApply wp_bind. iApply wp_bind. iApply wp_malloc. iIntros (b) "B". iApply wp_bind. iApply wp_malloc. iIntros (d) "D".
  iApply wp_bind. iApply wp_store; last (iFrame "B"; iIntros "B"); [by eauto|]. iApply wp_ret.
  iApply wp_bind. iApply wp_store; last (iFrame "P"; iIntros "P"); [by eauto|]. iApply wp_ret. iApply "K".
  iExists Nul, b. iFrame "P". iSplit; [done|]. iExists d. iFrame.
Qed.
Lemma add_message_ok l bytes p m x s Φ : (length l < Z.to_nat 32767)%nat ->
  rep_file l bytes p ∗ rep_msg m x ∗ (rep_file (l ++ [m]) bytes p -∗ Φ tt s) ⊢ wp (h_file_add_message p x) s Φ.
Proof.
  intros L. iIntros "((%arr & %b & P & A & B) & M & K)". unfold h_file_add_message. iApply wp_bind. hload_int "P".
  destruct (Z.leb_spec (Z.of_nat (length l) + 1) 32767) as [_|N]; [|lia].
  iApply (wp_append [] [b] arr (map rep_msg l) (rep_msg m) x p 0 s Φ eq_refl). cbn [app]. rewrite map_length. iFrame "P A M".
  iIntros (arr') "[P A]". iApply "K". iExists arr', b. rewrite app_length map_length app_length. iFrame "P B".
  rewrite map_app. iFrame "A".
Qed.
Lemma add_messages_ok random bytes p : (forall i, length (random i) = 16%nat) -> forall l i acc s Φ,
  Forall buildable l -> (length acc + length l <= Z.to_nat 32767)%nat ->
  rep_file acc bytes p ∗ (rep_file (acc ++ l) bytes p -∗ Φ tt s) ⊢ wp (add_all (h_file_add_message p) (b_msgs random i l)) s Φ.
Proof.
  intros HR. induction l as [|m l IH]; intros i acc s Φ W L; cbn [b_msgs add_all].
  - iIntros "[F K]". iApply wp_ret. iApply "K". by rewrite app_nil_r.
  - apply Forall_cons_1 in W as [Wm W]. cbn [length] in L. iIntros "[F K]". iApply wp_bind. iApply b_msg_ok; [done|done|]. iIntros (x) "M".
    iApply wp_bind. iApply (add_message_ok acc bytes p m x); [lia|]. iFrame "F M". iIntros "F".
    iApply (IH (S i) (acc ++ [m])); [done|rewrite app_length; cbn [length]; lia|]. rewrite -(assoc_L (++)). iFrame.
Qed.

(** *** sml_transport_write *)
Local Instance keeps_quiet {A} (c : Buf.P A) : Keeps c.
Proof. by intros s a s' E. Qed.
Lemma w_frame l bytes p s : sim (rep_file l bytes p) s (transport_frame l) (h_transport_frame p)
  (PostR (fun l' _ => rep_file l' bytes p ∗ [∗ list] m ∈ l, old_crc m)%I).
Proof.
  unfold transport_frame, h_transport_frame.
  do 3 (apply sim_lift; [apply _|]; intros ? ? _).
  eapply (sim_bind _ _ (write_messages l) (h_file_write p)); [apply w_file|]. intros l' s9 _ x9.
  do 8 (apply sim_lift; [apply _|]; intros ? ? _). cbv zeta.
  do 3 (apply sim_lift; [apply _|]; intros ? ? _).
  intros b s' E. apply bind_inv in E as ([] & s77 & E1 & E). injection E as <- <-.
  iIntros "H". iApply (wp_lift_run _ _ _ _ _ E1). iSplit; [done|]. iExact "H".
Qed.
End WithHost.
