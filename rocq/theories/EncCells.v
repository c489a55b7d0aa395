(** The writers over memory that is not zero: the cells of the item trees. *)
From Verif Require Import Base Buf Crc16 Number OctetString Boolean Value Time SList Tree Bodies Message File
  Lib Wf Spec TL Inv Reads Write TLWrite TLRound NumFacts PropsString Item Enc Cells.

Section WithHost.
Context {H : Host}.

Lemma lays_list n : 0 <= n -> size_ok false (IList n []) -> lays (sml_buf_set_type_and_length 112 n) (ctl 112 n).
Proof.
  intros Hn [HS _]. apply lays_tl; unfold count, tl_types; cbn [In Z.eqb]; try tauto; change (112 =? 112) with true; cbv iota; auto.
Qed.
Lemma lays_header n : 0 <= n <= 15 -> lays (sml_buf_set_type_and_length SML_TYPE_LIST n) (ctl 112 n).
Proof. intros Hn. apply lays_list; [lia|]. split; [change (2 ^ 28) with 268435456; lia|discriminate]. Qed.
Lemma lays_oct o : opt wf_oct o -> every (size_ok false) (oct_item o) -> lays (sml_octet_string_write o) (cenc (oct_item o)).
Proof.
  destruct o as [s|]; cbn [opt oct_item cenc]; intros HW HS; [|apply lays_skipped].
  apply every_here in HS. destruct HS as [HS _]. destruct HW as [HB _]. change (2 ^ 28) with 268435456 in HS. unfold sml_octet_string_write, write_opt.
  replace (to_u32 (Z.of_nat (length s))) with (Z.of_nat (length s)) by (unfold to_u32; rewrite Z.mod_small; lia).
  apply lays_seq; [|now apply lays_free, writes_data]. apply lays_tl; unfold count, tl_types; cbn [In Z.eqb]; try tauto; try lia.
Qed.
Lemma cenc_num t o : cenc (num_item t o) = free_bytes (enc (num_item t o)).
Proof. destruct o; reflexivity. Qed.
Lemma lays_u8 o : opt (wf_num 1) o -> lays (sml_u8_write o) (cenc (num_item 96 o)).
Proof. intros HW. rewrite cenc_num. now apply lays_free, writes_u8. Qed.
Lemma lays_u16 o : opt (wf_num 2) o -> lays (sml_u16_write o) (cenc (num_item 96 o)).
Proof. intros HW. rewrite cenc_num. now apply lays_free, writes_u16. Qed.
Lemma lays_u32 o : opt (wf_num 4) o -> lays (sml_u32_write o) (cenc (num_item 96 o)).
Proof. intros HW. rewrite cenc_num. now apply lays_free, writes_u32. Qed.
Lemma lays_u64 o : opt (wf_num 8) o -> lays (sml_u64_write o) (cenc (num_item 96 o)).
Proof. intros HW. rewrite cenc_num. now apply lays_free, writes_u64. Qed.
Lemma lays_i8 o : opt (wf_num 1) o -> lays (sml_i8_write o) (cenc (num_item 80 o)).
Proof. intros HW. rewrite cenc_num. now apply lays_free, writes_i8. Qed.
Lemma lays_i64 o : opt (wf_num 8) o -> lays (sml_i64_write o) (cenc (num_item 80 o)).
Proof. intros HW. rewrite cenc_num. now apply lays_free, writes_i64. Qed.
Lemma lays_num type n (o : option mem) : type = 80 \/ type = 96 -> (n <= 14)%nat -> opt (wf_num n) o ->
  lays (sml_number_write o type (Z.of_nat n)) (cenc (num_item type o)).
Proof. intros HT Hn HW. rewrite cenc_num. now apply lays_free, writes_num. Qed.
Lemma lays_bool o : opt wf_bool o -> lays (sml_boolean_write o) (cenc (bool_item o)).
Proof. intros HW. replace (cenc (bool_item o)) with (free_bytes (enc (bool_item o))) by (destruct o; reflexivity). now apply lays_free, writes_bool. Qed.
Lemma lays_empty_num type m : type = 80 \/ type = 96 -> lays (sml_number_write (Some m) type 0) (free_bytes [type + 1]).
Proof. intros HT. now apply lays_free, writes_empty_num. Qed.
Lemma lays_value_some v : wf_entry_value v -> every (size_ok false) (value_item (Some v)) ->
  lays (sml_value_write (Some v)) (cenc (value_item (Some v))).
Proof.
  assert (HN : forall a w m, a = 80 \/ a = 96 -> width_ok w -> wf_num w m ->
    lays (sml_value_write (Some (mkValue (a + Z.of_nat w) (VNum m)))) (cenc (value_item (Some (mkValue (a + Z.of_nat w) (VNum m)))))).
  { intros a w m Ha Hw Hm. rewrite (num_value_item a w m Ha Hw Hm).
    apply (lays_ext (sml_number_write (Some m) a (Z.of_nat w))); [intros s; now rewrite (num_value_write a w m Ha Hw Hm)|].
    apply (lays_num a w (Some m)); auto. apply width_cases in Hw. lia. }
  assert (H97 : forall d, d <> VNull -> lays (sml_value_write (Some (mkValue 96 d))) (cenc (value_item (Some (mkValue 96 d))))).
  { intros d Hd. replace (cenc (value_item (Some (mkValue 96 d)))) with (free_bytes [97]) by (destruct d as [| | |m]; try reflexivity; congruence).
    destruct d as [|s|b|m]; [congruence|apply (lays_empty_num 96 []); auto|apply (lays_empty_num 96 []); auto|apply (lays_empty_num 96 m); auto]. }
  intros [HV|(v0 & HV & ->)] HS; inversion HV; subst; clear HV.
  - apply (lays_oct (Some s)); auto.
  - apply (lays_bool (Some b)); auto.
  - apply HN; auto.
  - apply HN; auto.
  - apply (lays_empty_num 80 m); auto.
  - apply lays_ret.
  - apply H97. discriminate.
  - apply H97. discriminate.
  - replace (force_unsigned (mkValue (80 + Z.of_nat w) (VNum m))) with (mkValue (96 + Z.of_nat w) (VNum m)).
    + apply HN; auto.
    + unfold force_unsigned. cbn [v_type v_data]. f_equal. destruct H0 as [->|[->|[->| ->]]]; reflexivity.
  - replace (force_unsigned (mkValue (96 + Z.of_nat w) (VNum m))) with (mkValue (96 + Z.of_nat w) (VNum m)).
    + apply HN; auto.
    + unfold force_unsigned. cbn [v_type v_data]. f_equal. destruct H0 as [->|[->|[->| ->]]]; reflexivity.
  - apply H97. discriminate.
  - apply H97. discriminate.
Qed.
Lemma lays_entry_value o : opt wf_entry_value o -> every (size_ok false) (value_item o) -> lays (sml_value_write o) (cenc (value_item o)).
Proof. destruct o as [v|]; intros HW HS; [now apply lays_value_some|apply lays_skipped]. Qed.
Lemma lays_value o : opt wf_value o -> every (size_ok false) (value_item o) -> lays (sml_value_write o) (cenc (value_item o)).
Proof. intros HW. apply lays_entry_value. destruct o; [left; exact HW|exact I]. Qed.
Lemma lays_status o : opt wf_status o -> lays (sml_status_write o) (cenc (status_item o)).
Proof.
  intros HW. replace (cenc (status_item o)) with (free_bytes (enc (status_item o))); [now apply lays_free, writes_status|].
  destruct o as [v|]; [|reflexivity]. cbn [opt] in HW. inversion HW as [w m Hw [HL HB]|m [HL HB]]; subst; [|reflexivity].
  pose proof (width_cases _ Hw). destruct (land_type 96 _ (or_intror eq_refl) Hw) as [E1 E2].
  unfold status_item. cbn [st_type st_data]. rewrite E1, E2. destruct (Z.eqb_spec (96 + Z.of_nat (length m)) 112); [lia|].
  rewrite number_bytes_num by (rewrite Nat2Z.id, firstn_all; destruct m; [cbn in *; lia|discriminate]). reflexivity.
Qed.
Lemma cenc_list n l : cenc (IList n l) = ctl 112 n ++ flat_map cenc l.
Proof. reflexivity. Qed.
Lemma cflat_cons i l : flat_map cenc (i :: l) = cenc i ++ flat_map cenc l.
Proof. reflexivity. Qed.
Lemma cflat_one i : flat_map cenc [i] = cenc i.
Proof. cbn [flat_map]. apply app_nil_r. Qed.

Lemma lays_time o : opt wf_time o -> lays (sml_time_write o) (cenc (time_item o)).
Proof.
  destruct o as [t|]; intros HW; [|apply lays_skipped]. destruct HW as [W1 W2]. cbn [time_item]. rewrite cenc_list, cflat_cons, cflat_one.
  unfold sml_time_write, write_opt. apply lays_seq; [apply lays_header; lia|]. apply lays_seq; [now apply lays_u8|].
  replace (cenc match tm_data t with None => IWrong [1] | Some m => INum 96 (host_order m) end) with (cenc (num_item 96 (tm_data t)))
    by (destruct (tm_data t); reflexivity).
  now apply lays_u32.
Qed.
Lemma lays_all_items {A} (f : A -> P unit) (g : A -> item) l : (forall x, In x l -> lays (f x) (cenc (g x))) ->
  lays (write_all f l) (flat_map cenc (map g l)).
Proof.
  induction l as [|x l IH]; intros HL; [apply lays_ret|]. cbn [write_all map flat_map]. apply lays_seq; [apply HL; left; reflexivity|].
  apply IH. intros y Hy. apply HL. now right.
Qed.
Lemma lays_counted {A} (f : A -> P unit) (g : A -> item) l :
  (forall x, In x l -> every (size_ok false) (g x) -> lays (f x) (cenc (g x))) ->
  every (size_ok false) (list_of g l) ->
  lays (sml_buf_set_type_and_length SML_TYPE_LIST (to_u32 (Z.of_nat (length l))) ;;; write_all f l) (cenc (list_of g l)).
Proof.
  intros HL HS. unfold list_of in *. apply every_list in HS. destruct HS as [HS HE]. rewrite (u32_len false l _ HS), cenc_list.
  apply lays_seq; [apply lays_list; [lia|exact HS]|]. apply lays_all_items. intros x Hx. apply HL; auto.
  rewrite Forall_map in HE. rewrite Forall_forall in HE. now apply HE.
Qed.

(** [sized]: the sizes of all elements of a list item *)
Ltac sized HS := apply every_list in HS; destruct HS as [_ HS]; repeat (apply Forall_cons_iff in HS; let HS1 := fresh "S" in destruct HS as [HS1 HS]); clear HS.
Ltac seqs := rewrite ?cenc_list, ?cflat_cons, ?cflat_one; repeat (apply lays_seq; [|]).

Lemma lays_entry e : wf_entry e -> every (size_ok false) (entry_item e) -> lays (sml_list_entry_write e) (cenc (entry_item e)).
Proof.
  intros [W1 W2 W3 W4 W5 W6 W7] HS. unfold entry_item in *. sized HS. unfold sml_list_entry_write. rewrite cenc_list, !cflat_cons, app_nil_r.
  apply lays_seq; [apply lays_header; lia|]. apply lays_seq; [now apply lays_oct|]. apply lays_seq; [now apply lays_status|].
  apply lays_seq; [now apply lays_time|]. apply lays_seq; [now apply lays_u8|]. apply lays_seq; [now apply lays_i8|].
  apply lays_seq; [now apply lays_entry_value|]. now apply lays_oct.
Qed.
Lemma lays_entries l : Forall wf_entry l -> every (size_ok false) (entries_item l) -> lays (sml_list_write l) (cenc (entries_item l)).
Proof.
  destruct l as [|e l]; intros HW HS; [apply lays_skipped|]. unfold sml_list_write, entries_item in *.
  apply lays_counted; [|exact HS]. intros x Hx Sx. apply lays_entry; [|exact Sx]. rewrite Forall_forall in HW. auto.
Qed.
Lemma lays_sequence {A} (f : option A -> P unit) (g : option A -> item) o :
  (forall l x, o = Some l -> In x l -> every (size_ok false) (g x) -> lays (f x) (cenc (g x))) -> every (size_ok false) (seq_item g o) ->
  lays (sml_sequence_write f o) (cenc (seq_item g o)).
Proof.
  destruct o as [l|]; intros HL HS; [|apply lays_skipped]. cbn [seq_item] in *. unfold sml_sequence_write, write_opt.
  apply lays_counted; [|exact HS]. intros x Hx. now apply (HL l).
Qed.
Lemma lays_path o : opt wf_path o -> every (size_ok false) (path_item o) -> lays (sml_tree_path_write o) (cenc (path_item o)).
Proof.
  destruct o as [[|s p]|]; intros HW HS; [apply lays_ret| |apply lays_skipped]. cbn [path_item] in *. unfold sml_tree_path_write, write_opt.
  replace (Z.of_nat (length (s :: p)) >? 0) with true by (symmetry; apply Z.gtb_lt; cbn [length]; lia).
  apply lays_counted; [|exact HS]. intros x Hx Sx. apply (lays_oct (Some x)); [|exact Sx]. cbn [opt] in HW. unfold wf_path in HW. rewrite Forall_forall in HW. now apply HW.
Qed.
Lemma lays_tupel o : opt wf_tupel o -> every (size_ok false) (tupel_item o) -> lays (sml_tupel_entry_write o) (cenc (tupel_item o)).
Proof.
  destruct o as [t|]; intros HW HS; [|apply lays_skipped]. cbn [opt] in HW. destruct HW.
  cbn [tupel_item] in *. sized HS. unfold sml_tupel_entry_write, write_opt. rewrite cenc_list, !cflat_cons, app_nil_r.
  apply lays_seq.
  { apply lays_list; [lia|]. split; [change (2 ^ 28) with 268435456; lia|discriminate]. }
  apply lays_seq; [now apply lays_oct|]. apply lays_seq; [now apply lays_time|]. apply lays_seq; [now apply lays_u64|].
  do 3 (apply lays_seq; [now apply lays_u8|]; apply lays_seq; [now apply lays_i8|]; apply lays_seq; [now apply lays_i64|]).
  apply lays_seq; [now apply lays_oct|].
  do 3 (apply lays_seq; [now apply lays_u8|]; apply lays_seq; [now apply lays_i8|]; apply lays_seq; [now apply lays_i64|]).
  now apply lays_oct.
Qed.
Lemma lays_period o : opt wf_period o -> every (size_ok false) (period_item o) -> lays (sml_period_entry_write o) (cenc (period_item o)).
Proof.
  destruct o as [p|]; intros HW HS; [|apply lays_skipped]. cbn [opt] in HW. destruct HW.
  cbn [period_item] in *. sized HS. unfold sml_period_entry_write, write_opt. rewrite cenc_list, !cflat_cons, app_nil_r.
  apply lays_seq; [apply lays_header; lia|]. apply lays_seq; [now apply lays_oct|]. apply lays_seq; [now apply lays_u8|].
  apply lays_seq; [now apply lays_i8|]. apply lays_seq; [now apply lays_value|]. now apply lays_oct.
Qed.
Lemma lays_ppv o : opt wf_ppv o -> every (size_ok false) (ppv_item o) -> lays (sml_proc_par_value_write o) (cenc (ppv_item o)).
Proof.
  destruct o as [v|]; intros HW HS; [|apply lays_skipped]. cbn [opt] in HW. destruct HW as (t & ET & HT & HD).
  cbn [ppv_item] in *. sized HS. unfold sml_proc_par_value_write, write_opt. rewrite cenc_list, !cflat_cons, app_nil_r.
  apply lays_seq; [apply lays_header; lia|]. apply lays_seq; [apply lays_u8; rewrite ET; exact HT|].
  rewrite ET. 
  assert (HC : mem_u t = 1 \/ mem_u t = 2 \/ mem_u t = 3 \/ mem_u t = 4).
  { destruct (mem_u t) as [|[[?|?|]|[?|[?|?|]|]|]|]; try contradiction; tauto. }
  destruct HC as [E|[E|[E|E]]]; rewrite E in *; destruct HD as (d & ED & HD); rewrite ED in *; cbv iota beta in *.
  - change (1 =? SML_PROC_PAR_VALUE_TAG_VALUE) with true. cbv iota. apply (lays_bind_ret _ _ d); [destruct d; reflexivity|].
    destruct d as [d|]; [|apply lays_skipped]. now apply lays_value.
  - change (2 =? SML_PROC_PAR_VALUE_TAG_VALUE) with false. change (2 =? SML_PROC_PAR_VALUE_TAG_PERIOD_ENTRY) with true.
    cbv iota. apply (lays_bind_ret _ _ d); [destruct d; reflexivity|].
    destruct d as [d|]; [|apply lays_skipped]. now apply lays_period.
  - change (3 =? SML_PROC_PAR_VALUE_TAG_VALUE) with false. change (3 =? SML_PROC_PAR_VALUE_TAG_PERIOD_ENTRY) with false.
    change (3 =? SML_PROC_PAR_VALUE_TAG_TUPEL_ENTRY) with true.
    cbv iota. apply (lays_bind_ret _ _ d); [destruct d; reflexivity|].
    destruct d as [d|]; [|apply lays_skipped]. apply lays_tupel; auto.
  - change (4 =? SML_PROC_PAR_VALUE_TAG_VALUE) with false. change (4 =? SML_PROC_PAR_VALUE_TAG_PERIOD_ENTRY) with false.
    change (4 =? SML_PROC_PAR_VALUE_TAG_TUPEL_ENTRY) with false. change (4 =? SML_PROC_PAR_VALUE_TAG_TIME) with true.
    cbv iota. apply (lays_bind_ret _ _ d); [destruct d; reflexivity|].
    destruct d as [d|]; [|apply lays_skipped]. now apply lays_time.
Qed.
Lemma lays_node t : wf_tree t -> every (size_ok false) (node_item t) -> lays (sml_tree_write_node t) (cenc (node_item t)).
Proof.
  induction t as [name value children IH] using tree_ind'. intros HW HS. inversion HW as [n v c W1 W2 W3]; subst. clear HW.
  cbn [node_item] in *. sized HS. cbn [sml_tree_write_node]. rewrite cenc_list, !cflat_cons, app_nil_r.
  apply lays_seq; [apply lays_header; lia|]. apply lays_seq; [now apply lays_oct|]. apply lays_seq; [now apply lays_ppv|].
  assert (EC : children = [] \/ children <> []) by (destruct children; [now left|right; discriminate]).
  destruct EC as [->|EC]; [apply lays_skipped|].
  assert (EI : match children with [] => IOmitted | _ => IList (Z.of_nat (length children)) (map node_item children) end = list_of node_item children)
    by (destruct children; [congruence|reflexivity]).
  rewrite EI in *. clear EI.
  replace (Z.of_nat (length children) >? 0) with true by (symmetry; apply Z.gtb_lt; destruct children; [congruence|cbn [length]; lia]).
  assert (EW : forall s, write_all sml_tree_write_node children s =
    (fix go l := match l with [] => ret tt | c :: t => sml_tree_write_node c ;;; go t end) children s).
  { clear. induction children as [|c l IH]; intros s; [reflexivity|]. cbn [write_all]. unfold bind.
    destruct (sml_tree_write_node c s) as [[[] s1]| |]; auto. }
  apply (lays_ext (sml_buf_set_type_and_length SML_TYPE_LIST (to_u32 (Z.of_nat (length children))) ;;; write_all sml_tree_write_node children)).
  { intros s. unfold bind. destruct (sml_buf_set_type_and_length _ _ s) as [[[] s1]| |]; auto. }
  apply (lays_counted sml_tree_write_node node_item); [|exact S1]. rewrite Forall_forall in IH, W3. auto.
Qed.
Lemma lays_tree o : opt wf_tree o -> every (size_ok false) (tree_item o) -> lays (sml_tree_write o) (cenc (tree_item o)).
Proof. destruct o as [t|]; intros HW HS; [now apply lays_node|apply lays_skipped]. Qed.

Lemma lays_objects l : Forall (opt wf_oct) l -> every (size_ok false) (objects_item l) -> lays (object_list_write l) (cenc (objects_item l)).
Proof.
  intros HW HS. unfold object_list_write, objects_item in *. destruct l as [|x0 l0] eqn:E; [apply lays_skipped|]. rewrite <- E in *.
  clear E x0 l0. apply every_list in HS. destruct HS as [HS HE]. rewrite (u32_len false _ _ HS), cenc_list.
  apply lays_seq; [apply lays_list; [lia|exact HS]|]. apply lays_all_items. intros x Hx. 
  rewrite Forall_map, Forall_forall in HE. rewrite Forall_forall in HW. apply lays_oct; [|auto]. apply HW.
  clear -Hx. destruct l as [|a l0] eqn:E; [contradiction|]. rewrite <- E in *. rewrite (app_removelast_last None) by (subst; discriminate). apply in_or_app. now left.
Qed.

(** *** bodies *)
Ltac deref_some := match goal with |- lays (deref (Some ?x) ?k) _ => change (deref (Some x) k) with (k x); cbv beta end.
Ltac step := first [apply lays_seq; [first [apply lays_header; lia|now apply lays_oct|now apply lays_time|now apply lays_u8|now apply lays_u32|now apply lays_u64|
   now apply lays_path|now apply lays_bool|now apply lays_i8|now apply lays_value|now apply lays_objects]|]].
Lemma lays_header_entry e : wf_header e -> every (size_ok false) (header_item (Some e)) ->
  lays (sml_prof_obj_header_entry_write (Some e)) (cenc (header_item (Some e))).
Proof.
  intros [W1 W2 W3] HS. cbn [header_item] in *. sized HS. unfold sml_prof_obj_header_entry_write. rewrite cenc_list, !cflat_cons, app_nil_r.
  step. deref_some. do 2 step. now apply lays_i8.
Qed.
Lemma lays_val_entry e : wf_value_entry e -> every (size_ok false) (val_entry_item (Some e)) ->
  lays (sml_value_entry_write (Some e)) (cenc (val_entry_item (Some e))).
Proof.
  intros [W1 W2] HS. cbn [val_entry_item] in *. sized HS. unfold sml_value_entry_write. rewrite cenc_list, !cflat_cons, app_nil_r.
  step. deref_some. step. now apply lays_oct.
Qed.
Lemma lays_somes {A} (f : option A -> P unit) g (l : list A) (Q : A -> Prop) :
  (forall x, Q x -> every (size_ok false) (g (Some x)) -> lays (f (Some x)) (cenc (g (Some x)))) ->
  Forall Q l -> every (size_ok false) (seq_item g (Some (map Some l))) ->
  lays (sml_sequence_write f (Some (map Some l))) (cenc (seq_item g (Some (map Some l)))).
Proof.
  intros HF HQ HS. apply lays_sequence; [|exact HS]. intros l0 x [= <-] Hx Sx. apply in_map_iff in Hx. destruct Hx as (y & <- & Hy).
  rewrite Forall_forall in HQ. auto.
Qed.
Lemma lays_per_entry e : wf_per_entry e -> every (size_ok false) (per_entry_item (Some e)) ->
  lays (sml_prof_obj_period_entry_write (Some e)) (cenc (per_entry_item (Some e))).
Proof.
  intros [W1 W2 (l & El & W3) W4] HS. cbn [per_entry_item] in *. sized HS. unfold sml_prof_obj_period_entry_write. rewrite cenc_list, !cflat_cons, app_nil_r.
  step. deref_some. do 2 step. apply lays_seq; [|now apply lays_oct]. rewrite El in *. apply (lays_somes _ _ l wf_value_entry); auto.
  apply lays_val_entry.
Qed.
Lemma lays_periods l : wf_seq wf_period l -> every (size_ok false) (seq_item period_item (Some l)) ->
  lays (sml_sequence_write sml_period_entry_write (Some l)) (cenc (seq_item period_item (Some l))).
Proof.
  intros HW HS. apply lays_sequence; [|exact HS]. intros l0 x [= <-] Hx Sx. apply lays_period; [|exact Sx].
  unfold wf_seq in HW. rewrite Forall_forall in HW. auto.
Qed.
Ltac eq_tests := repeat match goal with |- context [?a =? ?b] =>
    let v := eval vm_compute in (a =? b) in change (a =? b) with v end; cbv iota.
Ltac start_body HS W W' := destruct W as [-> W']; cbn [body_data_item] in *; sized HS; unfold body_data_write; eq_tests;
    (apply (lays_bind_ret _ _ _ _ (fun _ => eq_refl))).
Lemma lays_body_data tag d : wf_body_data tag d -> every (size_ok false) (body_data_item d) ->
  lays (body_data_write tag d) (cenc (body_data_item d)).
Proof.
  destruct d as [|m|m|m|m|m|m|m|m|m|m|m|m|m]; cbn [wf_body_data]; intros W HS.
  - assert (E0 : body_data_write tag BNull = ret tt); [|rewrite E0; apply lays_ret]. unfold body_data_write. cbn [In] in W.
    unfold SML_MESSAGE_OPEN_REQUEST, SML_MESSAGE_OPEN_RESPONSE, SML_MESSAGE_CLOSE_REQUEST, SML_MESSAGE_CLOSE_RESPONSE,
      SML_MESSAGE_GET_PROFILE_PACK_REQUEST, SML_MESSAGE_GET_PROFILE_PACK_RESPONSE, SML_MESSAGE_GET_PROFILE_LIST_REQUEST,
      SML_MESSAGE_GET_PROFILE_LIST_RESPONSE, SML_MESSAGE_GET_PROC_PARAMETER_REQUEST, SML_MESSAGE_GET_PROC_PARAMETER_RESPONSE,
      SML_MESSAGE_SET_PROC_PARAMETER_REQUEST, SML_MESSAGE_GET_LIST_REQUEST, SML_MESSAGE_GET_LIST_RESPONSE, SML_MESSAGE_ATTENTION_RESPONSE.
    repeat match goal with |- context [tag =? ?z] => destruct (Z.eqb_spec tag z); [exfalso; intuition congruence|] end. reflexivity.
  - start_body HS W W'. destruct W'. unfold sml_open_request_write. rewrite cenc_list, !cflat_cons, app_nil_r. step. deref_some. repeat step. now apply lays_u8.
  - start_body HS W W'. destruct W'. unfold sml_open_response_write. rewrite cenc_list, !cflat_cons, app_nil_r. step. deref_some. repeat step. now apply lays_u8.
  - start_body HS W W'. unfold sml_close_request_write. rewrite cenc_list, !cflat_cons, app_nil_r. step. deref_some. now apply lays_oct.
  - start_body HS W W'. unfold sml_close_response_write. rewrite cenc_list, !cflat_cons, app_nil_r. step. deref_some. now apply lays_oct.
  - assert (HW : lays (sml_get_profile_pack_request_write (Some m)) (cenc (body_data_item (BPackReq m)))).
    { destruct W as [_ W']. destruct W'. cbn [body_data_item] in *; sized HS. unfold sml_get_profile_pack_request_write.
      rewrite cenc_list, !cflat_cons, app_nil_r. step. deref_some. repeat step. now apply lays_tree. }
    destruct W as [[->| ->] _]; unfold body_data_write; eq_tests; (apply (lays_bind_ret _ _ _ _ (fun _ => eq_refl))); exact HW.
  - start_body HS W W'. destruct W' as [W1 W2 W3 W4 (l5 & E5 & W5) (l6 & E6 & W6) W7 W8]. unfold sml_get_profile_pack_response_write. rewrite cenc_list, !cflat_cons, app_nil_r. step. deref_some.
    do 4 step. rewrite E5, E6 in *. apply lays_seq; [apply (lays_somes _ _ l5 wf_header); auto; apply lays_header_entry|].
    apply lays_seq; [apply (lays_somes _ _ l6 wf_per_entry); auto; apply lays_per_entry|]. step. now apply lays_oct.
  - start_body HS W W'. destruct W' as [W1 W2 W3 W4 W5 W6 (l7 & E7 & W7) W8 W9]. unfold sml_get_profile_list_response_write. rewrite cenc_list, !cflat_cons, app_nil_r. step. deref_some.
    do 6 step. rewrite E7 in *. apply lays_seq; [now apply lays_periods|]. step. now apply lays_oct.
  - start_body HS W W'. destruct W'. unfold sml_get_proc_parameter_request_write. rewrite cenc_list, !cflat_cons, app_nil_r. step. deref_some. repeat step. now apply lays_oct.
  - start_body HS W W'. destruct W'. unfold sml_get_proc_parameter_response_write. rewrite cenc_list, !cflat_cons, app_nil_r. step. deref_some. repeat step. now apply lays_tree.
  - start_body HS W W'. destruct W'. unfold sml_set_proc_parameter_request_write. rewrite cenc_list, !cflat_cons, app_nil_r. step. deref_some. repeat step. now apply lays_tree.
  - start_body HS W W'. destruct W'. unfold sml_get_list_request_write. rewrite cenc_list, !cflat_cons, app_nil_r. step. deref_some. repeat step. now apply lays_oct.
  - start_body HS W W'. destruct W'. unfold sml_get_list_response_write. rewrite cenc_list, !cflat_cons, app_nil_r. step. deref_some. do 4 step.
    apply lays_seq; [now apply lays_entries|]. step. now apply lays_time.
  - start_body HS W W'. destruct W'. unfold sml_attention_response_write. rewrite cenc_list, !cflat_cons, app_nil_r. step. deref_some. repeat step. now apply lays_tree.
Qed.
Lemma lays_body b : wf_body b -> every (size_ok false) (body_item (Some b)) ->
  lays (sml_message_body_write (Some b)) (cenc (body_item (Some b))).
Proof.
  intros (t & ET & HT & HD) HS. cbn [body_item] in *. sized HS. unfold sml_message_body_write. rewrite cenc_list, !cflat_cons, app_nil_r.
  step. rewrite ET in *. apply lays_seq; [now apply lays_u32|]. now apply lays_body_data.
Qed.


Definition checked_cells (m : sml_message) : list cellb := free_bytes [118] ++ flat_map cenc (message_items m).
Lemma lays_checked m : writable m -> Forall (every (size_ok false)) (message_items m) ->
  lays (sml_buf_set_type_and_length SML_TYPE_LIST 6 ;;; sml_octet_string_write (m_transaction_id m) ;;;
    sml_u8_write (m_group_id m) ;;; sml_u8_write (m_abort_on_error m) ;;; sml_message_body_write (m_message_body m)) (checked_cells m).
Proof.
  intros [W1 W2 W3 (b & Eb & W4)] HS. unfold checked_cells, message_items in *. rewrite !cflat_cons, app_nil_r.
  repeat (apply Forall_cons_iff in HS; let HS1 := fresh "S" in destruct HS as [HS1 HS]).
  apply lays_seq; [change (free_bytes [118]) with (ctl 112 6); apply lays_header; lia|]. step. step. step. rewrite Eb in *. now apply lays_body.
Qed.

Lemma checked_cells_bytes m : map snd (checked_cells m) = checked_bytes m.
Proof.
  unfold checked_cells, checked_bytes. rewrite map_app, free_snd, map_flat. f_equal. apply flat_eq, Forall_forall. intros x _. apply cenc_enc.
Qed.
Lemma checked_cells_length m : length (checked_cells m) = length (checked_bytes m).
Proof. now rewrite <- checked_cells_bytes, map_length. Qed.

(** *** a message over what was there before: its own checksum is of what is now there *)
Definition sent_over (old : list Z) (m : sml_message) : list Z :=
  let out := over (firstn (length (checked_bytes m)) old) (checked_cells m) in out ++ seal out.
Definition sealed_over (old : list Z) (m : sml_message) : sml_message :=
  mkMsg (m_transaction_id m) (m_group_id m) (m_abort_on_error m) (m_message_body m)
    (Some (sml_u16_init (sml_crc16_calculate (over (firstn (length (checked_bytes m)) old) (checked_cells m))))).
Lemma seal_ok body : bytes_ok (seal body).
Proof. apply (writes_bytes _ _ (writes_seal true body)). Qed.
Lemma message_length m : length (message_bytes m) = (length (checked_bytes m) + 4)%nat.
Proof. unfold message_bytes. now rewrite app_length, seal_length. Qed.
Lemma message_over m pre old post e o : writable m -> Forall (every (size_ok false)) (message_items m) ->
  bytes_ok (pre ++ old ++ post) -> Z.of_nat (length (pre ++ old ++ post)) < 2147483648 -> length old = length (message_bytes m) ->
  bytes_ok (sent_over old m) /\ length (sent_over old m) = length (message_bytes m) /\ exists o',
  sml_message_write m (mkBuf (pre ++ old ++ post) (length pre) e o) =
    Ret (sealed_over old m, mkBuf (pre ++ sent_over old m ++ post) (length pre + length (message_bytes m)) e o').
Proof.
  intros HW HS HB HL HO. pose proof (lays_checked m HW HS) as WC. rewrite message_length in *. pose proof (checked_cells_length m) as LC.
  destruct (split_at old (length (checked_bytes m)) 4 HO) as (x & y & -> & Lx & Ly). unfold sent_over, sealed_over.
  rewrite firstn_app, Lx, Nat.sub_diag, firstn_O, app_nil_r, (firstn_all2 x) by lia. rewrite <- app_assoc in *.
  destruct (WC pre x (y ++ post) e o HB ltac:(lia)) as (B1 & o1 & E1). pose proof (over_length x (checked_cells m) ltac:(lia)) as L1.
  set (out1 := over x (checked_cells m)) in *. rewrite LC in *. set (bs := checked_bytes m) in *.
  split; [apply Forall_app; split; [exact B1|apply seal_ok]|]. split; [rewrite app_length, seal_length; lia|].
  rewrite message_write_eq, E1. cbv zeta. cbn [cursor]. rewrite !app_length in HL.
  rewrite Z.sub_0_r, !wrap32_small by lia.
  replace (Z.of_nat (length pre + length bs) - Z.of_nat (length pre)) with (Z.of_nat (length bs)) by lia.
  unfold buffer_slice. destruct (Z.ltb_spec (Z.of_nat (length pre)) 0); [lia|]. destruct (Z.ltb_spec (Z.of_nat (length bs)) 0); [lia|].
  rewrite !Nat2Z.id. unfold buffer_len. cbn [buffer].
  replace (length pre + length bs <=? length (pre ++ out1 ++ y ++ post))%nat with true by (symmetry; apply Nat.leb_le; rewrite !app_length; lia).
  rewrite skipn_app, Nat.sub_diag, skipn_O, skipn_all, app_nil_l.
  rewrite firstn_app, L1, Nat.sub_diag, firstn_O, app_nil_r. rewrite (firstn_all2 out1) by lia.
  assert (HB2 : bytes_ok ((pre ++ out1) ++ y ++ post)) by (unfold bytes_ok in *; rewrite !Forall_app in *; tauto).
  destruct (proj1 (writes_seal true out1 (pre ++ out1) y post e o1 HB2)) as (out2 & o2 & E2 & L2 & B2 & Z2); [now rewrite seal_length|].
  rewrite Z2 in E2 by now left. rewrite <- !app_assoc, app_length, L1, seal_length in *. rewrite E2.
  exists o2. now rewrite Nat.add_assoc.
Qed.
Fixpoint messages_over (old : list Z) (l : list sml_message) : list Z :=
  match l with
  | [] => []
  | m :: l' => let n := length (message_bytes m) in sent_over (firstn n old) m ++ messages_over (skipn n old) l'
  end.
Fixpoint sealed_all_over (old : list Z) (l : list sml_message) : list sml_message :=
  match l with
  | [] => []
  | m :: l' => let n := length (message_bytes m) in sealed_over (firstn n old) m :: sealed_all_over (skipn n old) l'
  end.
Lemma messages_are_over l : forall pre old post e o, Forall writable l -> Forall (fun m => Forall (every (size_ok false)) (message_items m)) l ->
  bytes_ok (pre ++ old ++ post) -> Z.of_nat (length (pre ++ old ++ post)) < 2147483648 -> length old = length (flat_map message_bytes l) ->
  bytes_ok (messages_over old l) /\ length (messages_over old l) = length (flat_map message_bytes l) /\ exists o',
  write_messages l (mkBuf (pre ++ old ++ post) (length pre) e o) =
    Ret (sealed_all_over old l, mkBuf (pre ++ messages_over old l ++ post) (length pre + length (flat_map message_bytes l)) e o').
Proof.
  induction l as [|m l IH]; intros pre old post e o HW HS HB HL HO.
  - destruct old; [|discriminate]. split; [constructor|]. split; [reflexivity|]. exists o. cbn [flat_map length]. now rewrite Nat.add_0_r.
  - apply Forall_cons_iff in HW. destruct HW as [W1 W2]. apply Forall_cons_iff in HS. destruct HS as [S1 S2].
    cbn [flat_map write_messages messages_over sealed_all_over] in *. cbv zeta. rewrite (app_length (message_bytes m)) in *.
    destruct (split_at old (length (message_bytes m)) (length (flat_map message_bytes l)) HO) as (x & y & -> & Lx & Ly).
    assert (EF : firstn (length (message_bytes m)) (x ++ y) = x) by (rewrite <- Lx, firstn_app, Nat.sub_diag, firstn_O, app_nil_r; apply firstn_all).
    assert (ES : skipn (length (message_bytes m)) (x ++ y) = y) by (rewrite <- Lx, skipn_app, Nat.sub_diag, skipn_O, skipn_all; reflexivity).
    rewrite EF, ES. rewrite <- app_assoc in *.
    destruct (message_over m pre x (y ++ post) e o W1 S1 HB HL Lx) as (B1 & L1 & o1 & E1).
    assert (HB2 : bytes_ok ((pre ++ sent_over x m) ++ y ++ post)) by (unfold bytes_ok in *; rewrite !Forall_app in *; tauto).
    assert (HL2 : Z.of_nat (length ((pre ++ sent_over x m) ++ y ++ post)) < 2147483648) by (rewrite !app_length in *; lia).
    destruct (IH (pre ++ sent_over x m) y post e o1 W2 S2 HB2 HL2 Ly) as (B2 & L2 & o2 & E2).
    split; [now apply Forall_app|]. split; [rewrite app_length; lia|]. exists o2. unfold bind. rewrite E1.
    rewrite <- app_assoc, app_length, L1 in E2. rewrite E2. rewrite <- !app_assoc, Nat.add_assoc. reflexivity.
Qed.

(** *** when that is right *)
Definition fits_over (old : list Z) (cs : list cellb) : Prop :=
  Forall2 (fun x c => fst c = true -> Z.lor x (snd c) = snd c) old cs.
Lemma over_fits old : forall cs, length old = length cs -> (over old cs = map snd cs <-> fits_over old cs).
Proof.
  induction old as [|x old IH]; intros [|c cs] HL; try discriminate; [split; constructor|]. cbn [over map length] in *. unfold fits_over in *.
  specialize (IH cs ltac:(lia)). split.
  - intros E. injection E as E1 E2. constructor; [|now apply IH]. intros Hc. now rewrite Hc in E1.
  - intros HF. inversion HF as [|a b l1 l2 H1 H2]; subst. rewrite (proj2 IH H2). f_equal. destruct (fst c); [now apply H1|reflexivity].
Qed.
Definition message_cells (m : sml_message) : list cellb := checked_cells m ++ free_bytes (seal (checked_bytes m)).
Lemma message_cells_bytes m : map snd (message_cells m) = message_bytes m.
Proof. unfold message_cells, message_bytes. now rewrite map_app, checked_cells_bytes, free_snd. Qed.
Lemma message_cells_length m : length (message_cells m) = length (message_bytes m).
Proof. now rewrite <- message_cells_bytes, map_length. Qed.
Lemma sent_fits old m : length old = length (message_bytes m) -> (sent_over old m = message_bytes m <-> fits_over old (message_cells m)).
Proof.
  intros HO. rewrite <- over_fits by (rewrite message_cells_length; exact HO). rewrite message_cells_bytes. rewrite message_length in HO.
  destruct (split_at old _ 4 HO) as (x & y & -> & Lx & Ly). unfold sent_over, message_cells. cbv zeta.
  rewrite over_app by (rewrite checked_cells_length; exact Lx). rewrite over_free by (rewrite seal_length; exact Ly).
  rewrite firstn_app, Lx, Nat.sub_diag, firstn_O, app_nil_r, (firstn_all2 x) by lia. unfold message_bytes.
  assert (LO : length (over x (checked_cells m)) = length (checked_bytes m)) by (rewrite over_length; rewrite checked_cells_length; auto).
  split; intros E.
  - apply app_eq_len in E; [|exact LO]. destruct E as [-> _]. reflexivity.
  - apply app_eq_len in E; [|exact LO]. destruct E as [-> _]. reflexivity.
Qed.
Lemma messages_fit l : forall old, length old = length (flat_map message_bytes l) ->
  (messages_over old l = flat_map message_bytes l <-> fits_over old (flat_map message_cells l)).
Proof.
  induction l as [|m l IH]; intros old HO.
  - destruct old; [|discriminate]. split; [constructor|reflexivity].
  - cbn [flat_map messages_over] in *. cbv zeta. rewrite app_length in HO.
    destruct (split_at old _ _ HO) as (x & y & -> & Lx & Ly).
    assert (EF : firstn (length (message_bytes m)) (x ++ y) = x) by (rewrite <- Lx, firstn_app, Nat.sub_diag, firstn_O, app_nil_r; apply firstn_all).
    assert (ES : skipn (length (message_bytes m)) (x ++ y) = y) by (rewrite <- Lx, skipn_app, Nat.sub_diag, skipn_O, skipn_all; reflexivity).
    rewrite EF, ES. pose proof (sent_fits x m Lx) as H1. pose proof (IH y Ly) as H2.
    assert (LS : length (sent_over x m) = length (message_bytes m)).
    { unfold sent_over. cbv zeta. rewrite message_length in *. rewrite app_length, seal_length, over_length; rewrite checked_cells_length; [reflexivity|]. rewrite firstn_length. lia. }
    split.
    + intros E. apply app_eq_len in E; [|exact LS]. destruct E as [E1 E2]. apply Forall2_app; [now apply H1|now apply H2].
    + intros HF. apply Forall2_app_inv_r in HF. destruct HF as (x' & y' & F1 & F2 & EE).
      assert (LF : length x' = length (message_cells m)) by (clear -F1; induction F1; cbn [length]; auto). rewrite message_cells_length in LF.
      apply app_eq_len in EE; [|lia]. destruct EE as [-> ->]. f_equal; [now apply H1|now apply H2].
Qed.
Lemma sealed_fits l : forall old, length old = length (flat_map message_bytes l) -> messages_over old l = flat_map message_bytes l ->
  sealed_all_over old l = map sealed l.
Proof.
  induction l as [|m l IH]; intros old HO HE; [reflexivity|]. cbn [flat_map messages_over sealed_all_over map] in *. cbv zeta in *. rewrite app_length in HO.
  destruct (split_at old _ _ HO) as (x & y & -> & Lx & Ly).
  assert (EF : firstn (length (message_bytes m)) (x ++ y) = x) by (rewrite <- Lx, firstn_app, Nat.sub_diag, firstn_O, app_nil_r; apply firstn_all).
  assert (ES : skipn (length (message_bytes m)) (x ++ y) = y) by (rewrite <- Lx, skipn_app, Nat.sub_diag, skipn_O, skipn_all; reflexivity).
  rewrite EF, ES in *.
  assert (LO : length (over (firstn (length (checked_bytes m)) x) (checked_cells m)) = length (checked_bytes m)).
  { rewrite message_length in Lx. rewrite over_length; rewrite checked_cells_length; [reflexivity|]. rewrite firstn_length. lia. }
  apply app_eq_len in HE; [|unfold sent_over; cbv zeta; rewrite message_length, app_length, seal_length; lia].
  destruct HE as [E1 E2]. f_equal; [|now apply IH]. unfold sent_over, message_bytes in E1. cbv zeta in E1. apply app_eq_len in E1; [|exact LO].
  destruct E1 as [E1 _]. unfold sealed_over, sealed. now rewrite E1.
Qed.
End WithHost.
