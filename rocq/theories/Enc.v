(** The writers write the bytes of the item trees. *)
From Verif Require Import Base Buf Crc16 Number OctetString Boolean Value Time SList Tree Bodies Message File
  Lib Wf Spec TL Inv Reads Write TLWrite TLRound NumFacts PropsString Item.

Section WithHost.
Context {H : Host}.

(** [every] on lists *)
Lemma every_list Q n l : every Q (IList n l) <-> Q (IList n l) /\ Forall (every Q) l.
Proof.
  cbn [every]. match goal with |- _ /\ ?a <-> _ /\ ?b => enough (a <-> b) by tauto end.
  induction l as [|x l IH]; [split; constructor|]. rewrite Forall_cons_iff, IH. tauto.
Qed.
Lemma every_here Q i : every Q i -> Q i.
Proof. destruct i; cbn [every]; tauto. Qed.

Lemma writes_list any n : 0 <= n -> size_ok any (IList n []) -> writes any (sml_buf_set_type_and_length 112 n) (tl_text 112 n).
Proof.
  intros Hn [HS HA]. apply writes_tl; unfold count, tl_types; cbn [In Z.eqb]; try tauto; change (112 =? 112) with true; cbv iota; auto.

Qed.
Lemma writes_header any n : 0 <= n <= 15 -> writes any (sml_buf_set_type_and_length SML_TYPE_LIST n) (tl_text 112 n).
Proof. intros Hn. apply writes_list; [lia|]. split; [change (2 ^ 28) with 268435456|]; lia. Qed.

Lemma writes_oct any o : opt wf_oct o -> every (size_ok any) (oct_item o) -> writes any (sml_octet_string_write o) (enc (oct_item o)).
Proof.
  destruct o as [s|]; cbn [opt oct_item enc]; intros HW HS; [|apply writes_skipped].
  apply every_here in HS. destruct HS as [HS HA]. destruct HW as [HB _]. now apply writes_octet.
Qed.
Lemma writes_num any type n (o : option mem) : type = 80 \/ type = 96 -> (n <= 14)%nat -> opt (wf_num n) o ->
  writes any (sml_number_write o type (Z.of_nat n)) (enc (num_item type o)).
Proof.
  intros HT Hn HW. destruct o as [m|]; cbn [num_item enc opt] in *; [|apply writes_skipped].
  destruct HW as [HL HB]. rewrite host_length. subst n. now apply writes_number.
Qed.
Lemma writes_u8 any o : opt (wf_num 1) o -> writes any (sml_u8_write o) (enc (num_item 96 o)).
Proof. intros. apply (writes_num any 96 1); auto; lia. Qed.
Lemma writes_u16 any o : opt (wf_num 2) o -> writes any (sml_u16_write o) (enc (num_item 96 o)).
Proof. intros. apply (writes_num any 96 2); auto; lia. Qed.
Lemma writes_u32 any o : opt (wf_num 4) o -> writes any (sml_u32_write o) (enc (num_item 96 o)).
Proof. intros. apply (writes_num any 96 4); auto; lia. Qed.
Lemma writes_u64 any o : opt (wf_num 8) o -> writes any (sml_u64_write o) (enc (num_item 96 o)).
Proof. intros. apply (writes_num any 96 8); auto; lia. Qed.
Lemma writes_i8 any o : opt (wf_num 1) o -> writes any (sml_i8_write o) (enc (num_item 80 o)).
Proof. intros. apply (writes_num any 80 1); auto; lia. Qed.
Lemma writes_i64 any o : opt (wf_num 8) o -> writes any (sml_i64_write o) (enc (num_item 80 o)).
Proof. intros. apply (writes_num any 80 8); auto; lia. Qed.
Lemma writes_bool any o : opt wf_bool o -> writes any (sml_boolean_write o) (enc (bool_item o)).
Proof.
  destruct o as [b|]; cbn [opt bool_item enc]; intros HW; [|apply writes_skipped].
  change [66; if negb (b =? 0) then 255 else 0] with ([66] ++ [if negb (b =? 0) then 255 else 0]).
  unfold sml_boolean_write, write_opt. apply writes_seq.
  - change [66] with (tl_text 64 1). apply writes_tl; unfold count, tl_types; cbn [In]; try tauto; change (64 =? 112) with false; cbv iota; try lia.
  - change SML_BOOLEAN_FALSE with 0. change SML_BOOLEAN_TRUE with 255.
    destruct (b =? 0); cbn [negb]; apply writes_byte; unfold byte_ok; lia.
Qed.
(** a number of which no byte is written *)
Lemma writes_empty_num any type m : type = 80 \/ type = 96 -> writes any (sml_number_write (Some m) type 0) [type + 1].
Proof.
  intros HT. pose proof (writes_number any type [] HT (Forall_nil _) ltac:(cbn; lia)) as HW.
  cbn [length Z.of_nat] in HW. unfold host_order in HW. replace (match sml_number_endian with BigEndian => [] | LittleEndian => rev [] end) with (@nil Z) in HW by (destruct sml_number_endian; reflexivity).
  rewrite app_nil_r, Z.add_0_r in HW. revert HW. apply writes_ext. intros s. unfold sml_number_write, write_opt, bind.
  destruct (sml_buf_set_type_and_length type 0 s) as [[[] s1]| |]; reflexivity.
Qed.

Lemma width_cases w : width_ok w -> (1 <= w <= 8)%nat.
Proof. unfold width_ok. lia. Qed.
Lemma land_type a w : a = 80 \/ a = 96 -> width_ok w ->
  Z.land (a + Z.of_nat w) 112 = a /\ Z.land (a + Z.of_nat w) 15 = Z.of_nat w.
Proof. intros [->| ->] [->|[->|[->| ->]]]; split; reflexivity. Qed.
Lemma number_bytes_num type m : m <> [] -> number_bytes type m = INum type (host_order m).
Proof. destruct m; [congruence|reflexivity]. Qed.
Lemma num_value_item a w m : a = 80 \/ a = 96 -> width_ok w -> wf_num w m ->
  value_item (Some (mkValue (a + Z.of_nat w) (VNum m))) = INum a (host_order m).
Proof.
  intros Ha Hw [HL HB]. destruct (land_type a w Ha Hw) as [E1 E2]. pose proof (width_cases w Hw). unfold value_item. cbn [v_type v_data]. rewrite E1, E2.
  rewrite Nat2Z.id, <- HL, firstn_all. rewrite number_bytes_num by (destruct m; [cbn in HL; lia|discriminate]).
  destruct Ha as [->| ->]; reflexivity.
Qed.
Lemma num_value_write a w m : a = 80 \/ a = 96 -> width_ok w -> wf_num w m ->
  forall s, sml_value_write (Some (mkValue (a + Z.of_nat w) (VNum m))) s = sml_number_write (Some m) a (Z.of_nat w) s.
Proof.
  intros Ha Hw [HL HB] s. destruct (land_type a w Ha Hw) as [E1 E2]. unfold sml_value_write, write_opt. cbn [v_type v_data].
  change SML_TYPE_FIELD with 112. change SML_LENGTH_FIELD with 15. rewrite E1, E2. destruct Ha as [->| ->]; reflexivity.
Qed.
Lemma writes_value_some any v : wf_entry_value v -> every (size_ok any) (value_item (Some v)) ->
  writes any (sml_value_write (Some v)) (enc (value_item (Some v))).
Proof.
  assert (HN : forall a w m, a = 80 \/ a = 96 -> width_ok w -> wf_num w m ->
    writes any (sml_value_write (Some (mkValue (a + Z.of_nat w) (VNum m)))) (enc (value_item (Some (mkValue (a + Z.of_nat w) (VNum m)))))).
  { intros a w m Ha Hw Hm. rewrite (num_value_item a w m Ha Hw Hm).
    apply (writes_ext any (sml_number_write (Some m) a (Z.of_nat w))); [intros s; now rewrite (num_value_write a w m Ha Hw Hm)|].
    apply (writes_num any a w (Some m)); auto. apply width_cases in Hw. lia. }
  assert (H97 : forall d, d <> VNull -> writes any (sml_value_write (Some (mkValue 96 d))) (enc (value_item (Some (mkValue 96 d))))).
  { intros d Hd. replace (enc (value_item (Some (mkValue 96 d)))) with [97] by (destruct d as [| | |m]; try reflexivity; congruence).
    destruct d as [|s|b|m]; [congruence|apply (writes_empty_num any 96 []); auto|apply (writes_empty_num any 96 []); auto|apply (writes_empty_num any 96 m); auto]. }
  intros [HV|(v0 & HV & ->)] HS; inversion HV; subst; clear HV.
  - apply (writes_oct any (Some s)); auto.
  - apply (writes_bool any (Some b)); auto.
  - apply HN; auto.
  - apply HN; auto.
  - apply (writes_empty_num any 80 m); auto.
  - apply writes_ret.
  - apply H97. discriminate.
  - apply H97. discriminate.
  - replace (force_unsigned (mkValue (80 + Z.of_nat w) (VNum m))) with (mkValue (96 + Z.of_nat w) (VNum m)).
    + apply HN; auto.
    + unfold force_unsigned. cbn [v_type v_data]. f_equal. destruct H0 as [->|[->|[->| ->]]]; reflexivity.
  - replace (force_unsigned (mkValue (96 + Z.of_nat w) (VNum m))) with (mkValue (96 + Z.of_nat w) (VNum m)).
    + apply HN; auto.
    + unfold force_unsigned. cbn [v_type v_data]. f_equal. destruct H0 as [->|[->|[->| ->]]]; reflexivity.
  - apply H97. discriminate.
  - apply H97. discriminate.
Qed.
Lemma writes_entry_value any o : opt wf_entry_value o -> every (size_ok any) (value_item o) -> writes any (sml_value_write o) (enc (value_item o)).
Proof. destruct o as [v|]; intros HW HS; [now apply writes_value_some|apply writes_skipped]. Qed.
Lemma writes_value any o : opt wf_value o -> every (size_ok any) (value_item o) -> writes any (sml_value_write o) (enc (value_item o)).
Proof. intros HW. apply writes_entry_value. destruct o; [left; exact HW|exact I]. Qed.
Lemma writes_status any o : opt wf_status o -> writes any (sml_status_write o) (enc (status_item o)).
Proof.
  destruct o as [v|]; intros HW; [|apply writes_skipped]. cbn [opt] in HW. inversion HW as [w m Hw [HL HB]|m [HL HB]]; subst.
  - destruct (land_type 96 _ (or_intror eq_refl) Hw) as [E1 E2]. pose proof (width_cases _ Hw).
    unfold status_item, sml_status_write, write_opt. cbn [st_type st_data]. change SML_TYPE_FIELD with 112. change SML_LENGTH_FIELD with 15. rewrite E1, E2.
    destruct (Z.eqb_spec (96 + Z.of_nat (length m)) 112); [lia|]. rewrite Nat2Z.id, firstn_all, number_bytes_num by (destruct m; [cbn in *; lia|discriminate]).
    apply (writes_num any 96 (length m) (Some m)); auto; [lia|]. split; auto.
  - cbn [status_item enc]. unfold sml_status_write, write_opt. cbn [st_type st_data].
    change (Z.land 112 SML_TYPE_FIELD) with 112. change (Z.land 112 SML_LENGTH_FIELD) with 0.
    change [112] with (tl_text 112 0 ++ []). unfold sml_number_write, write_opt. apply writes_seq; [apply (writes_header any 0); lia|].
    destruct m as [|b m]; [discriminate|]. cbn [length Z.to_nat]. change (S (length m) <? 0)%nat with false. cbv iota.
    apply (writes_ext any (write_current [] ;;; sml_buf_update_bytes_read (Z.of_nat (length (@nil Z))))); [|apply writes_data; constructor].
    intros s. unfold bind, ret. cbn [firstn]. unfold sml_number_byte_swap. destruct sml_number_endian; reflexivity.
Qed.
Lemma enc_list n l : enc (IList n l) = tl_text 112 n ++ flat_map enc l.
Proof. reflexivity. Qed.
Lemma flat_cons i l : flat_map enc (i :: l) = enc i ++ flat_map enc l.
Proof. reflexivity. Qed.
Lemma flat_one i : flat_map enc [i] = enc i.
Proof. cbn [flat_map]. apply app_nil_r. Qed.

Lemma writes_time any o : opt wf_time o -> writes any (sml_time_write o) (enc (time_item o)).
Proof.
  destruct o as [t|]; intros HW; [|apply writes_skipped]. destruct HW as [W1 W2]. cbn [time_item]. rewrite enc_list, flat_cons, flat_one.
  unfold sml_time_write, write_opt. apply writes_seq; [apply writes_header; lia|]. apply writes_seq; [now apply writes_u8|].
  replace (enc match tm_data t with None => IWrong [1] | Some m => INum 96 (host_order m) end) with (enc (num_item 96 (tm_data t)))
    by (destruct (tm_data t); reflexivity).
  now apply writes_u32.
Qed.
Lemma writes_all_items {A} any (f : A -> P unit) (g : A -> item) l : (forall x, In x l -> writes any (f x) (enc (g x))) ->
  writes any (write_all f l) (flat_map enc (map g l)).
Proof.
  induction l as [|x l IH]; intros HL; [apply writes_ret|]. cbn [write_all map flat_map]. apply writes_seq; [apply HL; left; reflexivity|].
  apply IH. intros y Hy. apply HL. now right.
Qed.
Lemma u32_len {A} any (l : list A) items : size_ok any (IList (Z.of_nat (length l)) items) -> to_u32 (Z.of_nat (length l)) = Z.of_nat (length l).
Proof. intros [HS _]. change (2 ^ 28) with 268435456 in HS. unfold to_u32. apply Z.mod_small. lia. Qed.
Lemma writes_counted {A} any (f : A -> P unit) (g : A -> item) l :
  (forall x, In x l -> every (size_ok any) (g x) -> writes any (f x) (enc (g x))) ->
  every (size_ok any) (list_of g l) ->
  writes any (sml_buf_set_type_and_length SML_TYPE_LIST (to_u32 (Z.of_nat (length l))) ;;; write_all f l) (enc (list_of g l)).
Proof.
  intros HL HS. unfold list_of in *. apply every_list in HS. destruct HS as [HS HE]. rewrite (u32_len any l _ HS), enc_list.
  apply writes_seq; [apply writes_list; [lia|exact HS]|]. apply writes_all_items. intros x Hx. apply HL; auto.
  rewrite Forall_map in HE. rewrite Forall_forall in HE. now apply HE.
Qed.

(** [sized]: the sizes of all elements of a list item *)
Ltac sized HS := apply every_list in HS; destruct HS as [_ HS]; repeat (apply Forall_cons_iff in HS; let HS1 := fresh "S" in destruct HS as [HS1 HS]); clear HS.
Ltac seqs := rewrite ?enc_list, ?flat_cons, ?flat_one; repeat (apply writes_seq; [|]).

Lemma writes_entry any e : wf_entry e -> every (size_ok any) (entry_item e) -> writes any (sml_list_entry_write e) (enc (entry_item e)).
Proof.
  intros [W1 W2 W3 W4 W5 W6 W7] HS. unfold entry_item in *. sized HS. unfold sml_list_entry_write. rewrite enc_list, !flat_cons, app_nil_r.
  apply writes_seq; [apply writes_header; lia|]. apply writes_seq; [now apply writes_oct|]. apply writes_seq; [now apply writes_status|].
  apply writes_seq; [now apply writes_time|]. apply writes_seq; [now apply writes_u8|]. apply writes_seq; [now apply writes_i8|].
  apply writes_seq; [now apply writes_entry_value|]. now apply writes_oct.
Qed.
Lemma writes_entries any l : Forall wf_entry l -> every (size_ok any) (entries_item l) -> writes any (sml_list_write l) (enc (entries_item l)).
Proof.
  destruct l as [|e l]; intros HW HS; [apply writes_skipped|]. unfold sml_list_write, entries_item in *.
  apply writes_counted; [|exact HS]. intros x Hx Sx. apply writes_entry; [|exact Sx]. rewrite Forall_forall in HW. auto.
Qed.
Lemma writes_sequence {A} any (f : option A -> P unit) (g : option A -> item) o :
  (forall l x, o = Some l -> In x l -> every (size_ok any) (g x) -> writes any (f x) (enc (g x))) -> every (size_ok any) (seq_item g o) ->
  writes any (sml_sequence_write f o) (enc (seq_item g o)).
Proof.
  destruct o as [l|]; intros HL HS; [|apply writes_skipped]. cbn [seq_item] in *. unfold sml_sequence_write, write_opt.
  apply writes_counted; [|exact HS]. intros x Hx. now apply (HL l).
Qed.
Lemma writes_path any o : opt wf_path o -> every (size_ok any) (path_item o) -> writes any (sml_tree_path_write o) (enc (path_item o)).
Proof.
  destruct o as [[|s p]|]; intros HW HS; [apply writes_ret| |apply writes_skipped]. cbn [path_item] in *. unfold sml_tree_path_write, write_opt.
  replace (Z.of_nat (length (s :: p)) >? 0) with true by (symmetry; apply Z.gtb_lt; cbn [length]; lia).
  apply writes_counted; [|exact HS]. intros x Hx Sx. apply (writes_oct any (Some x)); [|exact Sx]. cbn [opt] in HW. unfold wf_path in HW. rewrite Forall_forall in HW. now apply HW.
Qed.
Lemma writes_tupel any o : opt wf_tupel o -> (o <> None -> any = false) -> every (size_ok any) (tupel_item o) -> writes any (sml_tupel_entry_write o) (enc (tupel_item o)).
Proof.
  destruct o as [t|]; intros HW HA HS; [|apply writes_skipped]. specialize (HA ltac:(discriminate)). cbn [opt] in HW. destruct HW.
  cbn [tupel_item] in *. sized HS. unfold sml_tupel_entry_write, write_opt. rewrite enc_list, !flat_cons, app_nil_r.
  apply writes_seq.
  { apply writes_list; [lia|]. rewrite HA. split; [change (2 ^ 28) with 268435456; lia|discriminate]. }
  apply writes_seq; [now apply writes_oct|]. apply writes_seq; [now apply writes_time|]. apply writes_seq; [now apply writes_u64|].
  do 3 (apply writes_seq; [now apply writes_u8|]; apply writes_seq; [now apply writes_i8|]; apply writes_seq; [now apply writes_i64|]).
  apply writes_seq; [now apply writes_oct|].
  do 3 (apply writes_seq; [now apply writes_u8|]; apply writes_seq; [now apply writes_i8|]; apply writes_seq; [now apply writes_i64|]).
  now apply writes_oct.
Qed.
Lemma writes_period any o : opt wf_period o -> every (size_ok any) (period_item o) -> writes any (sml_period_entry_write o) (enc (period_item o)).
Proof.
  destruct o as [p|]; intros HW HS; [|apply writes_skipped]. cbn [opt] in HW. destruct HW.
  cbn [period_item] in *. sized HS. unfold sml_period_entry_write, write_opt. rewrite enc_list, !flat_cons, app_nil_r.
  apply writes_seq; [apply writes_header; lia|]. apply writes_seq; [now apply writes_oct|]. apply writes_seq; [now apply writes_u8|].
  apply writes_seq; [now apply writes_i8|]. apply writes_seq; [now apply writes_value|]. now apply writes_oct.
Qed.
Lemma tupel_any any t : every (size_ok any) (tupel_item (Some t)) -> any = false.
Proof.
  intros HS. apply every_here in HS. destruct HS as [_ HA]. destruct any; [|reflexivity]. specialize (HA eq_refl). lia.
Qed.
Lemma writes_ppv any o : opt wf_ppv o -> every (size_ok any) (ppv_item o) -> writes any (sml_proc_par_value_write o) (enc (ppv_item o)).
Proof.
  destruct o as [v|]; intros HW HS; [|apply writes_skipped]. cbn [opt] in HW. destruct HW as (t & ET & HT & HD).
  cbn [ppv_item] in *. sized HS. unfold sml_proc_par_value_write, write_opt. rewrite enc_list, !flat_cons, app_nil_r.
  apply writes_seq; [apply writes_header; lia|]. apply writes_seq; [apply writes_u8; rewrite ET; exact HT|].
  rewrite ET. 
  assert (HC : mem_u t = 1 \/ mem_u t = 2 \/ mem_u t = 3 \/ mem_u t = 4).
  { destruct (mem_u t) as [|[[?|?|]|[?|[?|?|]|]|]|]; try contradiction; tauto. }
  destruct HC as [E|[E|[E|E]]]; rewrite E in *; destruct HD as (d & ED & HD); rewrite ED in *; cbv iota beta in *.
  - change (1 =? SML_PROC_PAR_VALUE_TAG_VALUE) with true. cbv iota. apply (writes_bind_ret any _ _ d); [destruct d; reflexivity|].
    destruct d as [d|]; [|apply writes_skipped]. now apply writes_value.
  - change (2 =? SML_PROC_PAR_VALUE_TAG_VALUE) with false. change (2 =? SML_PROC_PAR_VALUE_TAG_PERIOD_ENTRY) with true.
    cbv iota. apply (writes_bind_ret any _ _ d); [destruct d; reflexivity|].
    destruct d as [d|]; [|apply writes_skipped]. now apply writes_period.
  - change (3 =? SML_PROC_PAR_VALUE_TAG_VALUE) with false. change (3 =? SML_PROC_PAR_VALUE_TAG_PERIOD_ENTRY) with false.
    change (3 =? SML_PROC_PAR_VALUE_TAG_TUPEL_ENTRY) with true.
    cbv iota. apply (writes_bind_ret any _ _ d); [destruct d; reflexivity|].
    destruct d as [d|]; [|apply writes_skipped]. apply writes_tupel; auto. intros _. now apply (tupel_any any d).
  - change (4 =? SML_PROC_PAR_VALUE_TAG_VALUE) with false. change (4 =? SML_PROC_PAR_VALUE_TAG_PERIOD_ENTRY) with false.
    change (4 =? SML_PROC_PAR_VALUE_TAG_TUPEL_ENTRY) with false. change (4 =? SML_PROC_PAR_VALUE_TAG_TIME) with true.
    cbv iota. apply (writes_bind_ret any _ _ d); [destruct d; reflexivity|].
    destruct d as [d|]; [|apply writes_skipped]. now apply writes_time.
Qed.
Lemma tree_ind' (Q : sml_tree -> Prop) : (forall name value children, Forall Q children -> Q (Tree name value children)) -> forall t, Q t.
Proof.
  intros HQ. fix IH 1. intros [name value children]. apply HQ. induction children as [|c l IHl]; constructor; [apply IH|exact IHl].
Qed.
Lemma writes_node any t : wf_tree t -> every (size_ok any) (node_item t) -> writes any (sml_tree_write_node t) (enc (node_item t)).
Proof.
  induction t as [name value children IH] using tree_ind'. intros HW HS. inversion HW as [n v c W1 W2 W3]; subst. clear HW.
  cbn [node_item] in *. sized HS. cbn [sml_tree_write_node]. rewrite enc_list, !flat_cons, app_nil_r.
  apply writes_seq; [apply writes_header; lia|]. apply writes_seq; [now apply writes_oct|]. apply writes_seq; [now apply writes_ppv|].
  assert (EC : children = [] \/ children <> []) by (destruct children; [now left|right; discriminate]).
  destruct EC as [->|EC]; [apply writes_skipped|].
  assert (EI : match children with [] => IOmitted | _ => IList (Z.of_nat (length children)) (map node_item children) end = list_of node_item children)
    by (destruct children; [congruence|reflexivity]).
  rewrite EI in *. clear EI.
  replace (Z.of_nat (length children) >? 0) with true by (symmetry; apply Z.gtb_lt; destruct children; [congruence|cbn [length]; lia]).
  assert (EW : forall s, write_all sml_tree_write_node children s =
    (fix go l := match l with [] => ret tt | c :: t => sml_tree_write_node c ;;; go t end) children s).
  { clear. induction children as [|c l IH]; intros s; [reflexivity|]. cbn [write_all]. unfold bind.
    destruct (sml_tree_write_node c s) as [[[] s1]| |]; auto. }
  apply (writes_ext any (sml_buf_set_type_and_length SML_TYPE_LIST (to_u32 (Z.of_nat (length children))) ;;; write_all sml_tree_write_node children)).
  { intros s. unfold bind. destruct (sml_buf_set_type_and_length _ _ s) as [[[] s1]| |]; auto. }
  apply (writes_counted any sml_tree_write_node node_item); [|exact S1]. rewrite Forall_forall in IH, W3. auto.
Qed.
Lemma writes_tree any o : opt wf_tree o -> every (size_ok any) (tree_item o) -> writes any (sml_tree_write o) (enc (tree_item o)).
Proof. destruct o as [t|]; intros HW HS; [now apply writes_node|apply writes_skipped]. Qed.

Lemma writes_objects any l : Forall (opt wf_oct) l -> every (size_ok any) (objects_item l) -> writes any (object_list_write l) (enc (objects_item l)).
Proof.
  intros HW HS. unfold object_list_write, objects_item in *. destruct l as [|x0 l0] eqn:E; [apply writes_skipped|]. rewrite <- E in *.
  clear E x0 l0. apply every_list in HS. destruct HS as [HS HE]. rewrite (u32_len any _ _ HS), enc_list.
  apply writes_seq; [apply writes_list; [lia|exact HS]|]. apply writes_all_items. intros x Hx. 
  rewrite Forall_map, Forall_forall in HE. rewrite Forall_forall in HW. apply writes_oct; [|auto]. apply HW.
  clear -Hx. destruct l as [|a l0] eqn:E; [contradiction|]. rewrite <- E in *. rewrite (app_removelast_last None) by (subst; discriminate). apply in_or_app. now left.
Qed.

(** *** bodies *)
Ltac deref_some := match goal with |- writes _ (deref (Some ?x) ?k) _ => change (deref (Some x) k) with (k x); cbv beta end.
Ltac step := first [apply writes_seq; [first [apply writes_header; lia|now apply writes_oct|now apply writes_time|now apply writes_u8|now apply writes_u32|now apply writes_u64|
   now apply writes_path|now apply writes_bool|now apply writes_i8|now apply writes_value|now apply writes_objects]|]].
Lemma writes_header_entry any e : wf_header e -> every (size_ok any) (header_item (Some e)) ->
  writes any (sml_prof_obj_header_entry_write (Some e)) (enc (header_item (Some e))).
Proof.
  intros [W1 W2 W3] HS. cbn [header_item] in *. sized HS. unfold sml_prof_obj_header_entry_write. rewrite enc_list, !flat_cons, app_nil_r.
  step. deref_some. do 2 step. now apply writes_i8.
Qed.
Lemma writes_val_entry any e : wf_value_entry e -> every (size_ok any) (val_entry_item (Some e)) ->
  writes any (sml_value_entry_write (Some e)) (enc (val_entry_item (Some e))).
Proof.
  intros [W1 W2] HS. cbn [val_entry_item] in *. sized HS. unfold sml_value_entry_write. rewrite enc_list, !flat_cons, app_nil_r.
  step. deref_some. step. now apply writes_oct.
Qed.
Lemma writes_somes {A} any (f : option A -> P unit) g (l : list A) (Q : A -> Prop) :
  (forall x, Q x -> every (size_ok any) (g (Some x)) -> writes any (f (Some x)) (enc (g (Some x)))) ->
  Forall Q l -> every (size_ok any) (seq_item g (Some (map Some l))) ->
  writes any (sml_sequence_write f (Some (map Some l))) (enc (seq_item g (Some (map Some l)))).
Proof.
  intros HF HQ HS. apply writes_sequence; [|exact HS]. intros l0 x [= <-] Hx Sx. apply in_map_iff in Hx. destruct Hx as (y & <- & Hy).
  rewrite Forall_forall in HQ. auto.
Qed.
Lemma writes_per_entry any e : wf_per_entry e -> every (size_ok any) (per_entry_item (Some e)) ->
  writes any (sml_prof_obj_period_entry_write (Some e)) (enc (per_entry_item (Some e))).
Proof.
  intros [W1 W2 (l & El & W3) W4] HS. cbn [per_entry_item] in *. sized HS. unfold sml_prof_obj_period_entry_write. rewrite enc_list, !flat_cons, app_nil_r.
  step. deref_some. do 2 step. apply writes_seq; [|now apply writes_oct]. rewrite El in *. apply (writes_somes any _ _ l wf_value_entry); auto.
  apply writes_val_entry.
Qed.
Lemma writes_periods any l : wf_seq wf_period l -> every (size_ok any) (seq_item period_item (Some l)) ->
  writes any (sml_sequence_write sml_period_entry_write (Some l)) (enc (seq_item period_item (Some l))).
Proof.
  intros HW HS. apply writes_sequence; [|exact HS]. intros l0 x [= <-] Hx Sx. apply writes_period; [|exact Sx].
  unfold wf_seq in HW. rewrite Forall_forall in HW. auto.
Qed.
Ltac eq_tests := repeat match goal with |- context [?a =? ?b] =>
    let v := eval vm_compute in (a =? b) in change (a =? b) with v end; cbv iota.
Ltac start_body HS W W' := destruct W as [-> W']; cbn [body_data_item] in *; sized HS; unfold body_data_write; eq_tests;
    (apply (writes_bind_ret _ _ _ _ _ (fun _ => eq_refl))).
Lemma writes_body_data any tag d : wf_body_data tag d -> every (size_ok any) (body_data_item d) ->
  writes any (body_data_write tag d) (enc (body_data_item d)).
Proof.
  destruct d as [|m|m|m|m|m|m|m|m|m|m|m|m|m]; cbn [wf_body_data]; intros W HS.
  - assert (E0 : body_data_write tag BNull = ret tt); [|rewrite E0; apply writes_ret]. unfold body_data_write. cbn [In] in W.
    unfold SML_MESSAGE_OPEN_REQUEST, SML_MESSAGE_OPEN_RESPONSE, SML_MESSAGE_CLOSE_REQUEST, SML_MESSAGE_CLOSE_RESPONSE,
      SML_MESSAGE_GET_PROFILE_PACK_REQUEST, SML_MESSAGE_GET_PROFILE_PACK_RESPONSE, SML_MESSAGE_GET_PROFILE_LIST_REQUEST,
      SML_MESSAGE_GET_PROFILE_LIST_RESPONSE, SML_MESSAGE_GET_PROC_PARAMETER_REQUEST, SML_MESSAGE_GET_PROC_PARAMETER_RESPONSE,
      SML_MESSAGE_SET_PROC_PARAMETER_REQUEST, SML_MESSAGE_GET_LIST_REQUEST, SML_MESSAGE_GET_LIST_RESPONSE, SML_MESSAGE_ATTENTION_RESPONSE.
    repeat match goal with |- context [tag =? ?z] => destruct (Z.eqb_spec tag z); [exfalso; intuition congruence|] end. reflexivity.
  - start_body HS W W'. destruct W'. unfold sml_open_request_write. rewrite enc_list, !flat_cons, app_nil_r. step. deref_some. repeat step. now apply writes_u8.
  - start_body HS W W'. destruct W'. unfold sml_open_response_write. rewrite enc_list, !flat_cons, app_nil_r. step. deref_some. repeat step. now apply writes_u8.
  - start_body HS W W'. unfold sml_close_request_write. rewrite enc_list, !flat_cons, app_nil_r. step. deref_some. now apply writes_oct.
  - start_body HS W W'. unfold sml_close_response_write. rewrite enc_list, !flat_cons, app_nil_r. step. deref_some. now apply writes_oct.
  - assert (HW : writes any (sml_get_profile_pack_request_write (Some m)) (enc (body_data_item (BPackReq m)))).
    { destruct W as [_ W']. destruct W'. cbn [body_data_item] in *; sized HS. unfold sml_get_profile_pack_request_write.
      rewrite enc_list, !flat_cons, app_nil_r. step. deref_some. repeat step. now apply writes_tree. }
    destruct W as [[->| ->] _]; unfold body_data_write; eq_tests; (apply (writes_bind_ret _ _ _ _ _ (fun _ => eq_refl))); exact HW.
  - start_body HS W W'. destruct W' as [W1 W2 W3 W4 (l5 & E5 & W5) (l6 & E6 & W6) W7 W8]. unfold sml_get_profile_pack_response_write. rewrite enc_list, !flat_cons, app_nil_r. step. deref_some.
    do 4 step. rewrite E5, E6 in *. apply writes_seq; [apply (writes_somes any _ _ l5 wf_header); auto; apply writes_header_entry|].
    apply writes_seq; [apply (writes_somes any _ _ l6 wf_per_entry); auto; apply writes_per_entry|]. step. now apply writes_oct.
  - start_body HS W W'. destruct W' as [W1 W2 W3 W4 W5 W6 (l7 & E7 & W7) W8 W9]. unfold sml_get_profile_list_response_write. rewrite enc_list, !flat_cons, app_nil_r. step. deref_some.
    do 6 step. rewrite E7 in *. apply writes_seq; [now apply writes_periods|]. step. now apply writes_oct.
  - start_body HS W W'. destruct W'. unfold sml_get_proc_parameter_request_write. rewrite enc_list, !flat_cons, app_nil_r. step. deref_some. repeat step. now apply writes_oct.
  - start_body HS W W'. destruct W'. unfold sml_get_proc_parameter_response_write. rewrite enc_list, !flat_cons, app_nil_r. step. deref_some. repeat step. now apply writes_tree.
  - start_body HS W W'. destruct W'. unfold sml_set_proc_parameter_request_write. rewrite enc_list, !flat_cons, app_nil_r. step. deref_some. repeat step. now apply writes_tree.
  - start_body HS W W'. destruct W'. unfold sml_get_list_request_write. rewrite enc_list, !flat_cons, app_nil_r. step. deref_some. repeat step. now apply writes_oct.
  - start_body HS W W'. destruct W'. unfold sml_get_list_response_write. rewrite enc_list, !flat_cons, app_nil_r. step. deref_some. do 4 step.
    apply writes_seq; [now apply writes_entries|]. step. now apply writes_time.
  - start_body HS W W'. destruct W'. unfold sml_attention_response_write. rewrite enc_list, !flat_cons, app_nil_r. step. deref_some. repeat step. now apply writes_tree.
Qed.
Lemma writes_body any b : wf_body b -> every (size_ok any) (body_item (Some b)) ->
  writes any (sml_message_body_write (Some b)) (enc (body_item (Some b))).
Proof.
  intros (t & ET & HT & HD) HS. cbn [body_item] in *. sized HS. unfold sml_message_body_write. rewrite enc_list, !flat_cons, app_nil_r.
  step. rewrite ET in *. apply writes_seq; [now apply writes_u32|]. now apply writes_body_data.
Qed.

(** *** messages *)
(** What a message needs so that it can be written: the body is present. *)
Record writable (m : sml_message) : Prop := {
  wrm_tid : opt wf_oct (m_transaction_id m);
  wrm_group : opt (wf_num 1) (m_group_id m);
  wrm_abort : opt (wf_num 1) (m_abort_on_error m);
  wrm_body : exists b, m_message_body m = Some b /\ wf_body b }.

Definition seal (body : list Z) : list Z := [99] ++ big_endian 2 (sml_crc16_calculate body) ++ [0].
Definition message_bytes (m : sml_message) : list Z := checked_bytes m ++ seal (checked_bytes m).
Definition sealed (m : sml_message) : sml_message :=
  mkMsg (m_transaction_id m) (m_group_id m) (m_abort_on_error m) (m_message_body m)
    (Some (sml_u16_init (sml_crc16_calculate (checked_bytes m)))).

Lemma seal_length body : length (seal body) = 4%nat.
Proof. unfold seal. rewrite !app_length, big_length. reflexivity. Qed.
Lemma writes_checked any m : writable m -> Forall (every (size_ok any)) (message_items m) ->
  writes any (sml_buf_set_type_and_length SML_TYPE_LIST 6 ;;; sml_octet_string_write (m_transaction_id m) ;;;
    sml_u8_write (m_group_id m) ;;; sml_u8_write (m_abort_on_error m) ;;; sml_message_body_write (m_message_body m)) (checked_bytes m).
Proof.
  intros [W1 W2 W3 (b & Eb & W4)] HS. unfold checked_bytes, message_items in *. rewrite !flat_cons, app_nil_r.
  repeat (apply Forall_cons_iff in HS; let HS1 := fresh "S" in destruct HS as [HS1 HS]).
  apply writes_seq; [change [118] with (tl_text 112 6); apply writes_header; lia|]. step. step. step. rewrite Eb in *. now apply writes_body.
Qed.
Lemma writes_seal any body : 
  writes any (sml_u16_write (Some (sml_u16_init (sml_crc16_calculate body))) ;;; store_current 0 ;;; inc_cursor) (seal body).
Proof.
  unfold seal. rewrite app_assoc. apply writes_seq; [|apply writes_byte; unfold byte_ok; lia].
  pose proof (writes_u16 any (Some (sml_u16_init (sml_crc16_calculate body)))) as HW. cbn [opt num_item enc] in HW.
  unfold sml_u16_init in *. rewrite init_host in * by lia. rewrite host_twice, big_length in HW. apply HW.
  split; [rewrite host_length; apply big_length|apply host_ok, big_ok].
Qed.
Lemma wrap32_small z : -2147483648 <= z < 2147483648 -> wrap32 z = z.
Proof. intros Hz. unfold wrap32. rewrite Z.mod_small by lia. lia. Qed.

Definition mwrites {A} (any : bool) (w : P A) (bs : list Z) (v : A) : Prop := forall pre old post e o,
  bytes_ok (pre ++ old ++ post) -> Z.of_nat (length (pre ++ old ++ post)) < 2147483648 ->
  (length old = length bs -> exists out v' o',
     w (mkBuf (pre ++ old ++ post) (length pre) e o) =
       Ret (v', mkBuf (pre ++ out ++ post) (length pre + length bs) e o') /\
     length out = length bs /\ bytes_ok out /\ (any = true \/ old = repeat 0 (length bs) -> out = bs /\ v' = v)) /\
  ((length (old ++ post) < length bs)%nat ->
     w (mkBuf (pre ++ old ++ post) (length pre) e o) = Fault OobWrite).

Lemma message_write_eq m s : sml_message_write m s =
  match (sml_buf_set_type_and_length SML_TYPE_LIST 6 ;;; sml_octet_string_write (m_transaction_id m) ;;;
    sml_u8_write (m_group_id m) ;;; sml_u8_write (m_abort_on_error m) ;;; sml_message_body_write (m_message_body m)) s with
  | Ret (_, s1) =>
      let start := wrap32 (Z.of_nat (cursor s) - 0) in
      match buffer_slice start (wrap32 (Z.of_nat (cursor s1) - start)) s1 with
      | Ret (bs, s2) =>
          match (sml_u16_write (Some (sml_u16_init (sml_crc16_calculate bs))) ;;; store_current 0 ;;; inc_cursor) s2 with
          | Ret (_, s3) => Ret (mkMsg (m_transaction_id m) (m_group_id m) (m_abort_on_error m) (m_message_body m) (Some (sml_u16_init (sml_crc16_calculate bs))), s3)
          | Fault f => Fault f
          | NoFuel => NoFuel
          end
      | Fault f => Fault f
      | NoFuel => NoFuel
      end
  | Fault f => Fault f
  | NoFuel => NoFuel
  end.
Proof.
  unfold sml_message_write, cursor_int. unfold bind.
  destruct (sml_buf_set_type_and_length SML_TYPE_LIST 6 s) as [[[] s1]| |]; auto.
  destruct (sml_octet_string_write (m_transaction_id m) s1) as [[[] s2]| |]; auto.
  destruct (sml_u8_write (m_group_id m) s2) as [[[] s3]| |]; auto.
  destruct (sml_u8_write (m_abort_on_error m) s3) as [[[] s4]| |]; auto.
  destruct (sml_message_body_write (m_message_body m) s4) as [[[] s5]| |]; auto.
  cbv zeta. destruct (buffer_slice _ _ s5) as [[bs s6]| |]; auto.
  destruct (sml_u16_write _ s6) as [[[] s7]| |]; auto.
  destruct (store_current 0 s7) as [[[] s8]| |]; auto.
Qed.
Lemma mwrites_message any m : writable m -> Forall (every (size_ok any)) (message_items m) ->
  mwrites any (sml_message_write m) (message_bytes m) (sealed m).
Proof.
  intros HW HS pre old post e o HB HL. pose proof (writes_checked any m HW HS) as WC. set (bs := checked_bytes m) in *.
  unfold message_bytes. fold bs. rewrite !app_length, seal_length. rewrite !app_length in HL. split.
  - intros HO. destruct (split_at old (length bs) 4 HO) as (x & y & -> & Lx & Ly). rewrite <- app_assoc in *.
    destruct (proj1 (WC pre x (y ++ post) e o HB) Lx) as (out1 & o1 & E1 & L1 & B1 & Z1).
    rewrite message_write_eq, E1. cbv zeta. cbn [cursor].
    rewrite Z.sub_0_r, !wrap32_small by (rewrite ?app_length in HL; lia).
    replace (Z.of_nat (length pre + length bs) - Z.of_nat (length pre)) with (Z.of_nat (length bs)) by lia.
    unfold buffer_slice. destruct (Z.ltb_spec (Z.of_nat (length pre)) 0); [lia|]. destruct (Z.ltb_spec (Z.of_nat (length bs)) 0); [lia|].
    rewrite !Nat2Z.id. unfold buffer_len. cbn [buffer].
    replace (length pre + length bs <=? length (pre ++ out1 ++ y ++ post))%nat with true by (symmetry; apply Nat.leb_le; rewrite !app_length; lia).
    rewrite skipn_app, Nat.sub_diag, skipn_O, skipn_all, app_nil_l.
    rewrite firstn_app, L1, Nat.sub_diag, firstn_O, app_nil_r. rewrite (firstn_all2 out1) by lia.
    assert (HB2 : bytes_ok ((pre ++ out1) ++ y ++ post)) by (unfold bytes_ok in *; rewrite !Forall_app in *; tauto).
    destruct (proj1 (writes_seal any out1 (pre ++ out1) y post e o1 HB2)) as (out2 & o2 & E2 & L2 & B2 & Z2); [now rewrite seal_length|].
    rewrite <- !app_assoc, app_length, L1, seal_length in *. rewrite E2.
    exists (out1 ++ out2). eexists. exists o2. rewrite <- !app_assoc. split; [rewrite Nat.add_assoc; reflexivity|].
    split; [rewrite app_length; lia|]. split; [now apply Forall_app|].
    intros HZ. assert (EZ : out1 = bs /\ out2 = seal out1).
    { destruct HZ as [HZ|HZ]; [split; auto|]. rewrite repeat_add in HZ. apply app_eq_len in HZ; [|now rewrite repeat_length].
      destruct HZ as [Ex Ey]. split; auto. }
    destruct EZ as [-> ->]. split; reflexivity.
  - intros HO. rewrite message_write_eq. destruct (Nat.lt_ge_cases (length (old ++ post)) (length bs)) as [Hlt|Hge].
    { now rewrite (proj2 (WC pre old post e o HB) Hlt). }
    destruct (split_at (old ++ post) (length bs) (length (old ++ post) - length bs)) as (x & y & E & Lx & Ly); [lia|].
    pose proof (f_equal (@length Z) E) as EL. rewrite !app_length in EL. rewrite E in *. destruct (proj1 (WC pre x y e o HB) Lx) as (out1 & o1 & E1 & L1 & B1 & _).
    assert (HL' : Z.of_nat (length pre + length bs + length y) < 2147483648) by lia.
    rewrite E1. cbv zeta. cbn [cursor].
    rewrite Z.sub_0_r, !wrap32_small by lia.
    replace (Z.of_nat (length pre + length bs) - Z.of_nat (length pre)) with (Z.of_nat (length bs)) by lia.
    unfold buffer_slice. destruct (Z.ltb_spec (Z.of_nat (length pre)) 0); [lia|]. destruct (Z.ltb_spec (Z.of_nat (length bs)) 0); [lia|].
    rewrite !Nat2Z.id. unfold buffer_len. cbn [buffer].
    replace (length pre + length bs <=? length (pre ++ out1 ++ y))%nat with true by (symmetry; apply Nat.leb_le; rewrite !app_length; lia).
    match goal with |- context [sml_crc16_calculate ?b] => set (bb := b) end.
    assert (HB2 : bytes_ok ((pre ++ out1) ++ y ++ [])) by (unfold bytes_ok in *; rewrite !Forall_app in *; repeat split; try tauto; constructor).
    pose proof (proj2 (writes_seal any bb (pre ++ out1) y [] e o1 HB2)) as HF. rewrite !app_nil_r, <- app_assoc, app_length, L1 in HF.
    rewrite HF; [reflexivity|]. rewrite seal_length. lia.
Qed.
Lemma mwrites_messages any l : Forall writable l -> Forall (fun m => Forall (every (size_ok any)) (message_items m)) l ->
  mwrites any (write_messages l) (flat_map message_bytes l) (map sealed l).
Proof.
  induction l as [|m l IH]; intros HW HS.
  - intros pre old post e o HB HL. split; intros Hl; [|cbn in Hl; lia]. destruct old; [|discriminate].
    exists [], [], o. cbn [length]. rewrite Nat.add_0_r. repeat split; auto. constructor.
  - apply Forall_cons_iff in HW. destruct HW as [W1 W2]. apply Forall_cons_iff in HS. destruct HS as [S1 S2]. specialize (IH W2 S2).
    pose proof (mwrites_message any m W1 S1) as WM. cbn [flat_map map write_messages].
    intros pre old post e o Hb HL. rewrite app_length. set (b1 := message_bytes m) in *. set (b2 := flat_map message_bytes l) in *. split.
    + intros Hl. destruct (split_at old (length b1) (length b2) Hl) as (x & y & -> & Lx & Ly).
      rewrite <- app_assoc in *.
      destruct (proj1 (WM pre x (y ++ post) e o Hb HL) Lx) as (o1 & m1 & v1 & E1 & L1 & B1 & Z1).
      unfold bind. rewrite E1.
      assert (Hb2 : bytes_ok ((pre ++ o1) ++ y ++ post)) by (unfold bytes_ok in *; rewrite !Forall_app in *; tauto).
      assert (HL2 : Z.of_nat (length ((pre ++ o1) ++ y ++ post)) < 2147483648) by (rewrite !app_length in *; lia).
      destruct (proj1 (IH (pre ++ o1) y post e v1 Hb2 HL2) Ly) as (o2 & m2 & v2 & E2 & L2 & B2 & Z2).
      rewrite <- app_assoc in E2. rewrite app_length, L1 in E2. rewrite E2.
      exists (o1 ++ o2), (m1 :: m2), v2. rewrite <- !app_assoc, Nat.add_assoc, app_length. split; [reflexivity|]. split; [lia|].
      split; [now apply Forall_app|].
      intros HZ. assert (EZ : (o1 = b1 /\ m1 = sealed m) /\ o2 = b2 /\ m2 = map sealed l).
      { destruct HZ as [E|E]; [split; auto|]. rewrite repeat_add in E. apply app_eq_len in E; [|now rewrite repeat_length].
        destruct E as [Ea Eb]. split; auto. }
      destruct EZ as [[-> ->] [-> ->]]. auto.
    + intros Hl. destruct (Nat.lt_ge_cases (length (old ++ post)) (length b1)) as [Hlt|Hge].
      * unfold bind. now rewrite (proj2 (WM pre old post e o Hb HL) Hlt).
      * destruct (split_at (old ++ post) (length b1) (length (old ++ post) - length b1)) as (x & y & E & Lx & Ly); [lia|].
        rewrite E in *. destruct (proj1 (WM pre x y e o Hb HL) Lx) as (o1 & m1 & v1 & E1 & L1 & B1 & _).
        unfold bind. rewrite E1.
        assert (Hb2 : bytes_ok ((pre ++ o1) ++ y ++ [])) by (unfold bytes_ok in *; rewrite !Forall_app in *; repeat split; try tauto; constructor).
        assert (HL2 : Z.of_nat (length ((pre ++ o1) ++ y ++ [])) < 2147483648) by (rewrite !app_length in *; cbn [length]; lia).
        pose proof (proj2 (IH (pre ++ o1) y [] e v1 Hb2 HL2)) as HF. rewrite !app_nil_r in HF.
        rewrite <- app_assoc, app_length, L1 in HF. rewrite HF; [reflexivity|lia].
Qed.
End WithHost.
