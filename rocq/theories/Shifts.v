(** Undefined arithmetic while writing: when the writers execute the shift of
    sml_shared.c:71 (0xF0 << 24 does not fit an int). *)
From Verif Require Import Base Buf Crc16 Number OctetString Boolean Value Time SList Tree Bodies Message File
  Lib Wf Spec TL Inv Reads Write TLWrite TLRound NumFacts PropsString Item Enc.

(** An element whose length, or number of elements, needs more than one byte. *)
Fixpoint longb (i : item) : bool :=
  match i with
  | IOctets bs => 14 <? Z.of_nat (length bs)
  | IList n l => (15 <? n) || existsb longb l
  | _ => false
  end.

(** [w] leaves [ovf] set if it was or if [b]. *)
Definition shifts {A} (w : P A) (b : bool) : Prop := forall s x s', w s = Ret (x, s') -> ovf s' = ovf s || b.
Lemma sh_bind {A B} (p : P A) (k : A -> P B) b1 b2 : shifts p b1 -> (forall x, shifts (k x) b2) -> shifts (bind p k) (b1 || b2).
Proof.
  intros H1 H2 s x s' E. unfold bind in E. destruct (p s) as [[y s1]| |] eqn:E1; try discriminate.
  rewrite (H2 _ _ _ _ E), (H1 _ _ _ E1). now rewrite orb_assoc.
Qed.
Lemma sh_seq (w1 w2 : P unit) b1 b2 : shifts w1 b1 -> shifts w2 b2 -> shifts (w1 ;;; w2) (b1 || b2).
Proof. intros H1 H2. apply sh_bind; auto. Qed.
Lemma sh_quiet (w1 : P unit) {B} (k : unit -> P B) b : shifts w1 false -> (forall x, shifts (k x) b) -> shifts (bind w1 k) b.
Proof. intros H1 H2. change b with (false || b). now apply sh_bind. Qed.
Lemma sh_ext {A} (w w' : P A) b : (forall s, w s = w' s) -> shifts w b -> shifts w' b.
Proof. intros E Hw s x s' Es. rewrite <- E in Es. eauto. Qed.
Lemma sh_bind_ret {A B} (p : P A) (k : A -> P B) v b : (forall s, p s = Ret (v, s)) -> shifts (k v) b -> shifts (bind p k) b.
Proof. intros E. apply sh_ext. intros s. unfold bind. now rewrite E. Qed.
Lemma sh_ret {A} (x : A) : shifts (ret x) false.
Proof. intros s y s' E. injection E as <- <-. now rewrite orb_false_r. Qed.
Lemma sh_fail {A} f b : shifts (fail f : P A) b.
Proof. intros s x s' E. discriminate. Qed.
Lemma sh_store v : shifts (store_current v) false.
Proof. intros s x s' E. unfold store_current in E. destruct (_ <? _)%nat; [|discriminate]. injection E as <- <-. now rewrite orb_false_r. Qed.
Lemma sh_or v : shifts (or_current v) false.
Proof. intros s x s' E. unfold or_current in E. destruct (nth_error _ _); [|discriminate]. injection E as <- <-. now rewrite orb_false_r. Qed.
Lemma sh_inc : shifts inc_cursor false.
Proof. intros s x s' E. injection E as <- <-. now rewrite orb_false_r. Qed.
Lemma sh_write bs : shifts (write_current bs) false.
Proof. intros s x s' E. unfold write_current in E. destruct (_ <=? _)%nat; [|discriminate]. injection E as <- <-. now rewrite orb_false_r. Qed.
Lemma sh_update n : shifts (sml_buf_update_bytes_read n) false.
Proof. intros s x s' E. unfold sml_buf_update_bytes_read in E. destruct (_ <? _); [discriminate|]. injection E as <- <-. now rewrite orb_false_r. Qed.
Lemma sh_byte v : shifts (store_current v ;;; inc_cursor) false.
Proof. apply sh_quiet; [apply sh_store|intros _; apply sh_inc]. Qed.
Lemma sh_skipped : shifts sml_buf_optional_write false.
Proof. apply sh_byte. Qed.
Lemma sh_nibbles fuel : forall mask mp l, shifts (copy_nibbles fuel mask mp l) false.
Proof.
  induction fuel as [|fuel IH]; intros mask mp l; [intros s x s' E; discriminate|]. cbn [copy_nibbles]. destruct (_ >? _); [|apply sh_ret].
  apply sh_quiet; [apply sh_or|]; intros _. apply sh_quiet; [apply sh_or|]; intros _. apply sh_quiet; [apply sh_inc|]; intros _. apply IH.
Qed.
Lemma sh_mask fuel : forall mask mp l, shifts (find_mask fuel mask mp l) false.
Proof.
  induction fuel as [|fuel IH]; intros mask mp l; [intros s x s' E; discriminate|]. cbn [find_mask]. destruct (_ =? _); [apply IH|apply sh_ret].
Qed.
(** The length field itself. *)
Lemma sh_tl type l : 0 <= l < 2 ^ 28 -> shifts (sml_buf_set_type_and_length type l) (15 <? (if type =? 112 then l else l + 1)).
Proof.
  intros HL. change (2 ^ 28) with 268435456 in HL. unfold sml_buf_set_type_and_length. apply sh_quiet; [apply sh_store|]. intros _.
  replace (if negb (type =? SML_TYPE_LIST) then to_u32 (l + 1) else l) with (if type =? 112 then l else l + 1).
  2:{ change SML_TYPE_LIST with 112. destruct (type =? 112); [reflexivity|]. cbn [negb]. unfold to_u32. rewrite Z.mod_small; [reflexivity|lia]. }
  set (n := if type =? 112 then l else l + 1). rewrite <- (orb_false_r (15 <? n)). apply sh_bind.
  - rewrite Z.gtb_ltb. change SML_LENGTH_FIELD with 15. destruct (15 <? n); [|apply sh_ret].
    change true with (true || false). apply (sh_bind (fun s => Ret (tt, set_ovf true s))).
    { intros s x s' E. injection E as <- <-. reflexivity. }
    intros _. change false with (false || false). apply sh_bind; [apply sh_mask|]. intros [mask mp]. cbn [fst snd].
    destruct (8 <=? mp + 1); [apply sh_fail|]. cbv zeta. apply sh_quiet; [apply sh_nibbles|]. intros _. apply sh_ret.
  - intros k. apply sh_quiet; [apply sh_or|]. intros _. apply sh_inc.
Qed.

Section WithHost.
Context {H : Host}.
Definition ors (l : list item) : bool := existsb longb l.
Lemma longb_list n l : longb (IList n l) = (15 <? n) || ors l.
Proof. reflexivity. Qed.
Lemma ors_cons i l : ors (i :: l) = longb i || ors l.
Proof. reflexivity. Qed.
Lemma ors_one i : ors [i] = longb i.
Proof. apply orb_false_r. Qed.
Lemma ors_nil : ors [] = false.
Proof. reflexivity. Qed.
Lemma sh_list n : 0 <= n -> size_ok false (IList n []) -> shifts (sml_buf_set_type_and_length 112 n) (15 <? n).
Proof. intros Hn [HS _]. apply (sh_tl 112 n). split; assumption. Qed.
Lemma sh_header n : 0 <= n <= 15 -> shifts (sml_buf_set_type_and_length SML_TYPE_LIST n) (15 <? n).
Proof. intros Hn. apply sh_list; [lia|]. split; [change (2 ^ 28) with 268435456; lia|discriminate]. Qed.
Lemma sh_oct o : opt wf_oct o -> every (size_ok false) (oct_item o) -> shifts (sml_octet_string_write o) (longb (oct_item o)).
Proof.
  destruct o as [s|]; cbn [opt oct_item longb]; intros HW HS; [|apply sh_skipped].
  apply every_here in HS. destruct HS as [HS _]. change (2 ^ 28 - 1) with 268435455 in HS. unfold sml_octet_string_write, write_opt. cbv zeta.
  rewrite <- (orb_false_r (14 <? _)). apply sh_seq.
  - unfold to_u32. rewrite Z.mod_small by lia. replace (14 <? Z.of_nat (length s)) with (15 <? (if SML_TYPE_OCTET_STRING =? 112 then Z.of_nat (length s) else Z.of_nat (length s) + 1)).
    + apply sh_tl. change (2 ^ 28) with 268435456. lia.
    + change (SML_TYPE_OCTET_STRING =? 112) with false. cbv iota. destruct (Z.ltb_spec 14 (Z.of_nat (length s))), (Z.ltb_spec 15 (Z.of_nat (length s) + 1)); lia.
  - apply sh_quiet; [apply sh_write|]. intros _. apply sh_update.
Qed.
(** numbers of any type, the list type included *)
Lemma sh_number o type size : 0 <= size <= 14 -> shifts (sml_number_write o type size) false.
Proof.
  intros HS. destruct o as [m|]; [|apply sh_skipped]. unfold sml_number_write, write_opt. apply sh_quiet.
  - replace false with (15 <? (if type =? 112 then size else size + 1)).
    + apply sh_tl. change (2 ^ 28) with 268435456. lia.
    + apply Z.ltb_ge. destruct (type =? 112); lia.
  - intros _. apply sh_quiet; [destruct (_ <? _)%nat; [apply sh_fail|apply sh_ret]|]. intros _. cbv zeta.
    apply sh_quiet; [apply sh_write|]. intros _. apply sh_update.
Qed.
Lemma longb_num type o : longb (num_item type o) = false.
Proof. now destruct o. Qed.
Lemma longb_bytes type m : longb (number_bytes type m) = false.
Proof. now destruct m. Qed.
Lemma sh_num type n (o : option mem) : (n <= 14)%nat -> shifts (sml_number_write o type (Z.of_nat n)) (longb (num_item type o)).
Proof. intros Hn. rewrite longb_num. apply sh_number. lia. Qed.
Lemma sh_u8 o : opt (wf_num 1) o -> shifts (sml_u8_write o) (longb (num_item 96 o)).
Proof. intros. apply (sh_num 96 1); auto; lia. Qed.
Lemma sh_u16 o : opt (wf_num 2) o -> shifts (sml_u16_write o) (longb (num_item 96 o)).
Proof. intros. apply (sh_num 96 2); auto; lia. Qed.
Lemma sh_u32 o : opt (wf_num 4) o -> shifts (sml_u32_write o) (longb (num_item 96 o)).
Proof. intros. apply (sh_num 96 4); auto; lia. Qed.
Lemma sh_u64 o : opt (wf_num 8) o -> shifts (sml_u64_write o) (longb (num_item 96 o)).
Proof. intros. apply (sh_num 96 8); auto; lia. Qed.
Lemma sh_i8 o : opt (wf_num 1) o -> shifts (sml_i8_write o) (longb (num_item 80 o)).
Proof. intros. apply (sh_num 80 1); auto; lia. Qed.
Lemma sh_i64 o : opt (wf_num 8) o -> shifts (sml_i64_write o) (longb (num_item 80 o)).
Proof. intros. apply (sh_num 80 8); auto; lia. Qed.
Lemma sh_bool o : shifts (sml_boolean_write o) (longb (bool_item o)).
Proof.
  destruct o as [b|]; [|apply sh_skipped]. unfold sml_boolean_write, write_opt. apply sh_quiet; [apply (sh_tl 64 1); lia|]. intros _.
  apply sh_quiet; [destruct (b =? 0); apply sh_store|]. intros _. apply sh_inc.
Qed.
Lemma sh_empty_num type m : shifts (sml_number_write (Some m) type 0) false.
Proof. apply sh_number. lia. Qed.
Lemma sh_value_some v : wf_entry_value v -> every (size_ok false) (value_item (Some v)) ->
  shifts (sml_value_write (Some v)) (longb (value_item (Some v))).
Proof.
  assert (HN : forall a w m, a = 80 \/ a = 96 -> width_ok w -> wf_num w m ->
    shifts (sml_value_write (Some (mkValue (a + Z.of_nat w) (VNum m)))) (longb (value_item (Some (mkValue (a + Z.of_nat w) (VNum m)))))).
  { intros a w m Ha Hw Hm. rewrite (num_value_item a w m Ha Hw Hm).
    apply (sh_ext (sml_number_write (Some m) a (Z.of_nat w))); [intros s; now rewrite (num_value_write a w m Ha Hw Hm)|].
    apply (sh_num a w (Some m)); auto. apply width_cases in Hw. lia. }
  assert (H97 : forall d, d <> VNull -> shifts (sml_value_write (Some (mkValue 96 d))) (longb (value_item (Some (mkValue 96 d))))).
  { intros d Hd. replace (longb (value_item (Some (mkValue 96 d)))) with false by (destruct d as [| | |m]; reflexivity).
    destruct d as [|s|b|m]; [congruence|apply (sh_empty_num 96 []); auto|apply (sh_empty_num 96 []); auto|apply (sh_empty_num 96 m); auto]. }
  intros [HV|(v0 & HV & ->)] HS; inversion HV; subst; clear HV.
  - apply (sh_oct (Some s)); auto.
  - apply (sh_bool (Some b)); auto.
  - apply HN; auto.
  - apply HN; auto.
  - apply (sh_empty_num 80 m); auto.
  - apply sh_ret.
  - apply H97. discriminate.
  - apply H97. discriminate.
  - replace (force_unsigned (mkValue (80 + Z.of_nat w) (VNum m))) with (mkValue (96 + Z.of_nat w) (VNum m)).
    + apply HN; auto.
    + unfold force_unsigned. cbn [v_type v_data]. f_equal. destruct H0 as [->|[->|[->| ->]]]; reflexivity.
  - replace (force_unsigned (mkValue (96 + Z.of_nat w) (VNum m))) with (mkValue (96 + Z.of_nat w) (VNum m)).
    + apply HN; auto.
    + unfold force_unsigned. cbn [v_type v_data]. f_equal. destruct H0 as [->|[->|[->| ->]]]; reflexivity.
  - apply H97. discriminate.
  - apply H97. discriminate.
Qed.
Lemma sh_entry_value o : opt wf_entry_value o -> every (size_ok false) (value_item o) -> shifts (sml_value_write o) (longb (value_item o)).
Proof. destruct o as [v|]; intros HW HS; [now apply sh_value_some|apply sh_skipped]. Qed.
Lemma sh_value o : opt wf_value o -> every (size_ok false) (value_item o) -> shifts (sml_value_write o) (longb (value_item o)).
Proof. intros HW. apply sh_entry_value. destruct o; [left; exact HW|exact I]. Qed.
Lemma sh_status o : opt wf_status o -> shifts (sml_status_write o) (longb (status_item o)).
Proof.
  destruct o as [v|]; intros HW; [|apply sh_skipped]. cbn [opt] in HW. inversion HW as [w m Hw [HL HB]|m [HL HB]]; subst.
  - destruct (land_type 96 _ (or_intror eq_refl) Hw) as [E1 E2]. pose proof (width_cases _ Hw).
    unfold status_item, sml_status_write, write_opt. cbn [st_type st_data]. change SML_TYPE_FIELD with 112. change SML_LENGTH_FIELD with 15. rewrite E1, E2.
    destruct (Z.eqb_spec (96 + Z.of_nat (length m)) 112); [lia|]. rewrite longb_bytes. apply sh_number. lia.
  - cbn [status_item longb]. unfold sml_status_write, write_opt. cbn [st_type st_data]. apply sh_number. now split.
Qed.
Lemma sh_time o : opt wf_time o -> shifts (sml_time_write o) (longb (time_item o)).
Proof.
  destruct o as [t|]; intros HW; [|apply sh_skipped]. destruct HW as [W1 W2]. cbn [time_item]. rewrite longb_list, ors_cons, ors_one.
  unfold sml_time_write, write_opt. apply sh_seq; [apply sh_header; lia|]. apply sh_seq; [now apply sh_u8|].
  replace (longb match tm_data t with None => IWrong [1] | Some m => INum 96 (host_order m) end) with (longb (num_item 96 (tm_data t)))
    by (destruct (tm_data t); reflexivity).
  now apply sh_u32.
Qed.
Lemma sh_all_items {A} (f : A -> P unit) (g : A -> item) l : (forall x, In x l -> shifts (f x) (longb (g x))) ->
  shifts (write_all f l) (ors (map g l)).
Proof.
  induction l as [|x l IH]; intros HL; [apply sh_ret|]. cbn [write_all map flat_map]. apply sh_seq; [apply HL; left; reflexivity|].
  apply IH. intros y Hy. apply HL. now right.
Qed.
Lemma sh_counted {A} (f : A -> P unit) (g : A -> item) l :
  (forall x, In x l -> every (size_ok false) (g x) -> shifts (f x) (longb (g x))) ->
  every (size_ok false) (list_of g l) ->
  shifts (sml_buf_set_type_and_length SML_TYPE_LIST (to_u32 (Z.of_nat (length l))) ;;; write_all f l) (longb (list_of g l)).
Proof.
  intros HL HS. unfold list_of in *. apply every_list in HS. destruct HS as [HS HE]. rewrite (u32_len false l _ HS), longb_list.
  apply sh_seq; [apply sh_list; [lia|exact HS]|]. apply sh_all_items. intros x Hx. apply HL; auto.
  rewrite Forall_map in HE. rewrite Forall_forall in HE. now apply HE.
Qed.

(** [sized]: the sizes of all elements of a list item *)
Ltac sized HS := apply every_list in HS; destruct HS as [_ HS]; repeat (apply Forall_cons_iff in HS; let HS1 := fresh "S" in destruct HS as [HS1 HS]); clear HS.
Ltac seqs := rewrite ?longb_list, ?ors_cons, ?ors_one; repeat (apply sh_seq; [|]).

Lemma sh_entry e : wf_entry e -> every (size_ok false) (entry_item e) -> shifts (sml_list_entry_write e) (longb (entry_item e)).
Proof.
  intros [W1 W2 W3 W4 W5 W6 W7] HS. unfold entry_item in *. sized HS. unfold sml_list_entry_write. rewrite longb_list, !ors_cons, orb_false_r.
  apply sh_seq; [apply sh_header; lia|]. apply sh_seq; [now apply sh_oct|]. apply sh_seq; [now apply sh_status|].
  apply sh_seq; [now apply sh_time|]. apply sh_seq; [now apply sh_u8|]. apply sh_seq; [now apply sh_i8|].
  apply sh_seq; [now apply sh_entry_value|]. now apply sh_oct.
Qed.
Lemma sh_entries l : Forall wf_entry l -> every (size_ok false) (entries_item l) -> shifts (sml_list_write l) (longb (entries_item l)).
Proof.
  destruct l as [|e l]; intros HW HS; [apply sh_skipped|]. unfold sml_list_write, entries_item in *.
  apply sh_counted; [|exact HS]. intros x Hx Sx. apply sh_entry; [|exact Sx]. rewrite Forall_forall in HW. auto.
Qed.
Lemma sh_sequence {A} (f : option A -> P unit) (g : option A -> item) o :
  (forall l x, o = Some l -> In x l -> every (size_ok false) (g x) -> shifts (f x) (longb (g x))) -> every (size_ok false) (seq_item g o) ->
  shifts (sml_sequence_write f o) (longb (seq_item g o)).
Proof.
  destruct o as [l|]; intros HL HS; [|apply sh_skipped]. cbn [seq_item] in *. unfold sml_sequence_write, write_opt.
  apply sh_counted; [|exact HS]. intros x Hx. now apply (HL l).
Qed.
Lemma sh_path o : opt wf_path o -> every (size_ok false) (path_item o) -> shifts (sml_tree_path_write o) (longb (path_item o)).
Proof.
  destruct o as [[|s p]|]; intros HW HS; [apply sh_ret| |apply sh_skipped]. cbn [path_item] in *. unfold sml_tree_path_write, write_opt.
  replace (Z.of_nat (length (s :: p)) >? 0) with true by (symmetry; apply Z.gtb_lt; cbn [length]; lia).
  apply sh_counted; [|exact HS]. intros x Hx Sx. apply (sh_oct (Some x)); [|exact Sx]. cbn [opt] in HW. unfold wf_path in HW. rewrite Forall_forall in HW. now apply HW.
Qed.
Lemma sh_tupel o : opt wf_tupel o -> every (size_ok false) (tupel_item o) -> shifts (sml_tupel_entry_write o) (longb (tupel_item o)).
Proof.
  destruct o as [t|]; intros HW HS; [|apply sh_skipped]. cbn [opt] in HW. destruct HW.
  cbn [tupel_item] in *. sized HS. unfold sml_tupel_entry_write, write_opt. rewrite longb_list, !ors_cons, orb_false_r.
  apply sh_seq.
  { apply sh_list; [lia|]. split; [change (2 ^ 28) with 268435456; lia|discriminate]. }
  apply sh_seq; [now apply sh_oct|]. apply sh_seq; [now apply sh_time|]. apply sh_seq; [now apply sh_u64|].
  do 3 (apply sh_seq; [now apply sh_u8|]; apply sh_seq; [now apply sh_i8|]; apply sh_seq; [now apply sh_i64|]).
  apply sh_seq; [now apply sh_oct|].
  do 3 (apply sh_seq; [now apply sh_u8|]; apply sh_seq; [now apply sh_i8|]; apply sh_seq; [now apply sh_i64|]).
  now apply sh_oct.
Qed.
Lemma sh_period o : opt wf_period o -> every (size_ok false) (period_item o) -> shifts (sml_period_entry_write o) (longb (period_item o)).
Proof.
  destruct o as [p|]; intros HW HS; [|apply sh_skipped]. cbn [opt] in HW. destruct HW.
  cbn [period_item] in *. sized HS. unfold sml_period_entry_write, write_opt. rewrite longb_list, !ors_cons, orb_false_r.
  apply sh_seq; [apply sh_header; lia|]. apply sh_seq; [now apply sh_oct|]. apply sh_seq; [now apply sh_u8|].
  apply sh_seq; [now apply sh_i8|]. apply sh_seq; [now apply sh_value|]. now apply sh_oct.
Qed.
Lemma sh_ppv o : opt wf_ppv o -> every (size_ok false) (ppv_item o) -> shifts (sml_proc_par_value_write o) (longb (ppv_item o)).
Proof.
  destruct o as [v|]; intros HW HS; [|apply sh_skipped]. cbn [opt] in HW. destruct HW as (t & ET & HT & HD).
  cbn [ppv_item] in *. sized HS. unfold sml_proc_par_value_write, write_opt. rewrite longb_list, !ors_cons, orb_false_r.
  apply sh_seq; [apply sh_header; lia|]. apply sh_seq; [apply sh_u8; rewrite ET; exact HT|].
  rewrite ET. 
  assert (HC : mem_u t = 1 \/ mem_u t = 2 \/ mem_u t = 3 \/ mem_u t = 4).
  { destruct (mem_u t) as [|[[?|?|]|[?|[?|?|]|]|]|]; try contradiction; tauto. }
  destruct HC as [E|[E|[E|E]]]; rewrite E in *; destruct HD as (d & ED & HD); rewrite ED in *; cbv iota beta in *.
  - change (1 =? SML_PROC_PAR_VALUE_TAG_VALUE) with true. cbv iota. apply (sh_bind_ret _ _ d); [destruct d; reflexivity|].
    destruct d as [d|]; [|apply sh_skipped]. now apply sh_value.
  - change (2 =? SML_PROC_PAR_VALUE_TAG_VALUE) with false. change (2 =? SML_PROC_PAR_VALUE_TAG_PERIOD_ENTRY) with true.
    cbv iota. apply (sh_bind_ret _ _ d); [destruct d; reflexivity|].
    destruct d as [d|]; [|apply sh_skipped]. now apply sh_period.
  - change (3 =? SML_PROC_PAR_VALUE_TAG_VALUE) with false. change (3 =? SML_PROC_PAR_VALUE_TAG_PERIOD_ENTRY) with false.
    change (3 =? SML_PROC_PAR_VALUE_TAG_TUPEL_ENTRY) with true.
    cbv iota. apply (sh_bind_ret _ _ d); [destruct d; reflexivity|].
    destruct d as [d|]; [|apply sh_skipped]. now apply sh_tupel.
  - change (4 =? SML_PROC_PAR_VALUE_TAG_VALUE) with false. change (4 =? SML_PROC_PAR_VALUE_TAG_PERIOD_ENTRY) with false.
    change (4 =? SML_PROC_PAR_VALUE_TAG_TUPEL_ENTRY) with false. change (4 =? SML_PROC_PAR_VALUE_TAG_TIME) with true.
    cbv iota. apply (sh_bind_ret _ _ d); [destruct d; reflexivity|].
    destruct d as [d|]; [|apply sh_skipped]. now apply sh_time.
Qed.
Lemma sh_node t : wf_tree t -> every (size_ok false) (node_item t) -> shifts (sml_tree_write_node t) (longb (node_item t)).
Proof.
  induction t as [name value children IH] using tree_ind'. intros HW HS. inversion HW as [n v c W1 W2 W3]; subst. clear HW.
  cbn [node_item] in *. sized HS. cbn [sml_tree_write_node]. rewrite longb_list, !ors_cons, orb_false_r.
  apply sh_seq; [apply sh_header; lia|]. apply sh_seq; [now apply sh_oct|]. apply sh_seq; [now apply sh_ppv|].
  assert (EC : children = [] \/ children <> []) by (destruct children; [now left|right; discriminate]).
  destruct EC as [->|EC]; [apply sh_skipped|].
  assert (EI : match children with [] => IOmitted | _ => IList (Z.of_nat (length children)) (map node_item children) end = list_of node_item children)
    by (destruct children; [congruence|reflexivity]).
  rewrite EI in *. clear EI.
  replace (Z.of_nat (length children) >? 0) with true by (symmetry; apply Z.gtb_lt; destruct children; [congruence|cbn [length]; lia]).
  assert (EW : forall s, write_all sml_tree_write_node children s =
    (fix go l := match l with [] => ret tt | c :: t => sml_tree_write_node c ;;; go t end) children s).
  { clear. induction children as [|c l IH]; intros s; [reflexivity|]. cbn [write_all]. unfold bind.
    destruct (sml_tree_write_node c s) as [[[] s1]| |]; auto. }
  apply (sh_ext (sml_buf_set_type_and_length SML_TYPE_LIST (to_u32 (Z.of_nat (length children))) ;;; write_all sml_tree_write_node children)).
  { intros s. unfold bind. destruct (sml_buf_set_type_and_length _ _ s) as [[[] s1]| |]; auto. }
  apply (sh_counted sml_tree_write_node node_item); [|exact S1]. rewrite Forall_forall in IH, W3. auto.
Qed.
Lemma sh_tree o : opt wf_tree o -> every (size_ok false) (tree_item o) -> shifts (sml_tree_write o) (longb (tree_item o)).
Proof. destruct o as [t|]; intros HW HS; [now apply sh_node|apply sh_skipped]. Qed.

Lemma sh_objects l : Forall (opt wf_oct) l -> every (size_ok false) (objects_item l) -> shifts (object_list_write l) (longb (objects_item l)).
Proof.
  intros HW HS. unfold object_list_write, objects_item in *. destruct l as [|x0 l0] eqn:E; [apply sh_skipped|]. rewrite <- E in *.
  clear E x0 l0. apply every_list in HS. destruct HS as [HS HE]. rewrite (u32_len false _ _ HS), longb_list.
  apply sh_seq; [apply sh_list; [lia|exact HS]|]. apply sh_all_items. intros x Hx. 
  rewrite Forall_map, Forall_forall in HE. rewrite Forall_forall in HW. apply sh_oct; [|auto]. apply HW.
  clear -Hx. destruct l as [|a l0] eqn:E; [contradiction|]. rewrite <- E in *. rewrite (app_removelast_last None) by (subst; discriminate). apply in_or_app. now left.
Qed.

(** *** bodies *)
Ltac deref_some := match goal with |- shifts (deref (Some ?x) ?k) _ => change (deref (Some x) k) with (k x); cbv beta end.
Ltac step := first [apply sh_seq; [first [apply sh_header; lia|now apply sh_oct|now apply sh_time|now apply sh_u8|now apply sh_u32|now apply sh_u64|
   now apply sh_path|now apply sh_bool|now apply sh_i8|now apply sh_value|now apply sh_objects]|]].
Lemma sh_header_entry e : wf_header e -> every (size_ok false) (header_item (Some e)) ->
  shifts (sml_prof_obj_header_entry_write (Some e)) (longb (header_item (Some e))).
Proof.
  intros [W1 W2 W3] HS. cbn [header_item] in *. sized HS. unfold sml_prof_obj_header_entry_write. rewrite longb_list, !ors_cons, orb_false_r.
  step. deref_some. do 2 step. now apply sh_i8.
Qed.
Lemma sh_val_entry e : wf_value_entry e -> every (size_ok false) (val_entry_item (Some e)) ->
  shifts (sml_value_entry_write (Some e)) (longb (val_entry_item (Some e))).
Proof.
  intros [W1 W2] HS. cbn [val_entry_item] in *. sized HS. unfold sml_value_entry_write. rewrite longb_list, !ors_cons, orb_false_r.
  step. deref_some. step. now apply sh_oct.
Qed.
Lemma sh_somes {A} (f : option A -> P unit) g (l : list A) (Q : A -> Prop) :
  (forall x, Q x -> every (size_ok false) (g (Some x)) -> shifts (f (Some x)) (longb (g (Some x)))) ->
  Forall Q l -> every (size_ok false) (seq_item g (Some (map Some l))) ->
  shifts (sml_sequence_write f (Some (map Some l))) (longb (seq_item g (Some (map Some l)))).
Proof.
  intros HF HQ HS. apply sh_sequence; [|exact HS]. intros l0 x [= <-] Hx Sx. apply in_map_iff in Hx. destruct Hx as (y & <- & Hy).
  rewrite Forall_forall in HQ. auto.
Qed.
Lemma sh_per_entry e : wf_per_entry e -> every (size_ok false) (per_entry_item (Some e)) ->
  shifts (sml_prof_obj_period_entry_write (Some e)) (longb (per_entry_item (Some e))).
Proof.
  intros [W1 W2 (l & El & W3) W4] HS. cbn [per_entry_item] in *. sized HS. unfold sml_prof_obj_period_entry_write. rewrite longb_list, !ors_cons, orb_false_r.
  step. deref_some. do 2 step. apply sh_seq; [|now apply sh_oct]. rewrite El in *. apply (sh_somes _ _ l wf_value_entry); auto.
  apply sh_val_entry.
Qed.
Lemma sh_periods l : wf_seq wf_period l -> every (size_ok false) (seq_item period_item (Some l)) ->
  shifts (sml_sequence_write sml_period_entry_write (Some l)) (longb (seq_item period_item (Some l))).
Proof.
  intros HW HS. apply sh_sequence; [|exact HS]. intros l0 x [= <-] Hx Sx. apply sh_period; [|exact Sx].
  unfold wf_seq in HW. rewrite Forall_forall in HW. auto.
Qed.
Ltac eq_tests := repeat match goal with |- context [?a =? ?b] =>
    let v := eval vm_compute in (a =? b) in change (a =? b) with v end; cbv iota.
Ltac start_body HS W W' := destruct W as [-> W']; cbn [body_data_item] in *; sized HS; unfold body_data_write; eq_tests;
    (apply (sh_bind_ret _ _ _ _ (fun _ => eq_refl))).
Lemma sh_body_data tag d : wf_body_data tag d -> every (size_ok false) (body_data_item d) ->
  shifts (body_data_write tag d) (longb (body_data_item d)).
Proof.
  destruct d as [|m|m|m|m|m|m|m|m|m|m|m|m|m]; cbn [wf_body_data]; intros W HS.
  - assert (E0 : body_data_write tag BNull = ret tt); [|rewrite E0; apply sh_ret]. unfold body_data_write. cbn [In] in W.
    unfold SML_MESSAGE_OPEN_REQUEST, SML_MESSAGE_OPEN_RESPONSE, SML_MESSAGE_CLOSE_REQUEST, SML_MESSAGE_CLOSE_RESPONSE,
      SML_MESSAGE_GET_PROFILE_PACK_REQUEST, SML_MESSAGE_GET_PROFILE_PACK_RESPONSE, SML_MESSAGE_GET_PROFILE_LIST_REQUEST,
      SML_MESSAGE_GET_PROFILE_LIST_RESPONSE, SML_MESSAGE_GET_PROC_PARAMETER_REQUEST, SML_MESSAGE_GET_PROC_PARAMETER_RESPONSE,
      SML_MESSAGE_SET_PROC_PARAMETER_REQUEST, SML_MESSAGE_GET_LIST_REQUEST, SML_MESSAGE_GET_LIST_RESPONSE, SML_MESSAGE_ATTENTION_RESPONSE.
    repeat match goal with |- context [tag =? ?z] => destruct (Z.eqb_spec tag z); [exfalso; intuition congruence|] end. reflexivity.
  - start_body HS W W'. destruct W'. unfold sml_open_request_write. rewrite longb_list, !ors_cons, orb_false_r. step. deref_some. repeat step. now apply sh_u8.
  - start_body HS W W'. destruct W'. unfold sml_open_response_write. rewrite longb_list, !ors_cons, orb_false_r. step. deref_some. repeat step. now apply sh_u8.
  - start_body HS W W'. unfold sml_close_request_write. rewrite longb_list, !ors_cons, orb_false_r. step. deref_some. now apply sh_oct.
  - start_body HS W W'. unfold sml_close_response_write. rewrite longb_list, !ors_cons, orb_false_r. step. deref_some. now apply sh_oct.
  - assert (HW : shifts (sml_get_profile_pack_request_write (Some m)) (longb (body_data_item (BPackReq m)))).
    { destruct W as [_ W']. destruct W'. cbn [body_data_item] in *; sized HS. unfold sml_get_profile_pack_request_write.
      rewrite longb_list, !ors_cons, orb_false_r. step. deref_some. repeat step. now apply sh_tree. }
    destruct W as [[->| ->] _]; unfold body_data_write; eq_tests; (apply (sh_bind_ret _ _ _ _ (fun _ => eq_refl))); exact HW.
  - start_body HS W W'. destruct W' as [W1 W2 W3 W4 (l5 & E5 & W5) (l6 & E6 & W6) W7 W8]. unfold sml_get_profile_pack_response_write. rewrite longb_list, !ors_cons, orb_false_r. step. deref_some.
    do 4 step. rewrite E5, E6 in *. apply sh_seq; [apply (sh_somes _ _ l5 wf_header); auto; apply sh_header_entry|].
    apply sh_seq; [apply (sh_somes _ _ l6 wf_per_entry); auto; apply sh_per_entry|]. step. now apply sh_oct.
  - start_body HS W W'. destruct W' as [W1 W2 W3 W4 W5 W6 (l7 & E7 & W7) W8 W9]. unfold sml_get_profile_list_response_write. rewrite longb_list, !ors_cons, orb_false_r. step. deref_some.
    do 6 step. rewrite E7 in *. apply sh_seq; [now apply sh_periods|]. step. now apply sh_oct.
  - start_body HS W W'. destruct W'. unfold sml_get_proc_parameter_request_write. rewrite longb_list, !ors_cons, orb_false_r. step. deref_some. repeat step. now apply sh_oct.
  - start_body HS W W'. destruct W'. unfold sml_get_proc_parameter_response_write. rewrite longb_list, !ors_cons, orb_false_r. step. deref_some. repeat step. now apply sh_tree.
  - start_body HS W W'. destruct W'. unfold sml_set_proc_parameter_request_write. rewrite longb_list, !ors_cons, orb_false_r. step. deref_some. repeat step. now apply sh_tree.
  - start_body HS W W'. destruct W'. unfold sml_get_list_request_write. rewrite longb_list, !ors_cons, orb_false_r. step. deref_some. repeat step. now apply sh_oct.
  - start_body HS W W'. destruct W'. unfold sml_get_list_response_write. rewrite longb_list, !ors_cons, orb_false_r. step. deref_some. do 4 step.
    apply sh_seq; [now apply sh_entries|]. step. now apply sh_time.
  - start_body HS W W'. destruct W'. unfold sml_attention_response_write. rewrite longb_list, !ors_cons, orb_false_r. step. deref_some. repeat step. now apply sh_tree.
Qed.
Lemma sh_body b : wf_body b -> every (size_ok false) (body_item (Some b)) ->
  shifts (sml_message_body_write (Some b)) (longb (body_item (Some b))).
Proof.
  intros (t & ET & HT & HD) HS. cbn [body_item] in *. sized HS. unfold sml_message_body_write. rewrite longb_list, !ors_cons, orb_false_r.
  step. rewrite ET in *. apply sh_seq; [now apply sh_u32|]. now apply sh_body_data.
Qed.

End WithHost.
