(** What the library writes is in the language of Grammar.v, without the quirks. *)
From Verif Require Import Base Buf Crc16 Number OctetString Boolean Value Time SList Tree Bodies Message File
  Lib Wf Ctx Ctx2 Ctx3 Spec TL Inv CrcProof Reads Write TLWrite TLRound NumFacts PropsString Item Enc Dzg Round Round2 Round3 PropsRound Grammar.

Section WithHost.
Context {H : Host}.

(** The bytes of the item are in the language, in front of anything. *)
Definition says (w : list Z -> list Z -> Prop) (i : item) : Prop := forall t, t <> [] -> w (enc i) t.

Lemma nonnil_app (a b : list Z) : b <> [] -> a ++ b <> [].
Proof. destruct a; [auto|discriminate]. Qed.
Lemma says_fields ws is : Forall2 says ws is -> forall t, t <> [] -> fields ws (flat_map enc is) t.
Proof.
  induction 1 as [|w i ws is Hw HF IH]; intros t Ht; cbn [fields flat_map]; [reflexivity|].
  exists (enc i), (flat_map enc is). split; [reflexivity|]. split; [apply Hw; now apply nonnil_app|now apply IH].
Qed.
Lemma list_head n : 0 <= n <= 15 -> header 112 n (tl_text 112 n).
Proof. intros Hn. rewrite count_text by exact Hn. destruct (list_header n Hn) as (A & B & _ & C). now split. Qed.
Lemma says_structure n ws is : Forall2 says ws is -> Z.of_nat (length ws) = n -> n <= 15 -> says (structure ws) (IList n is).
Proof.
  intros HF HL Hn t Ht. exists (tl_text 112 n), (flat_map enc is). split; [reflexivity|]. rewrite HL. split; [apply list_head; lia|now apply says_fields].
Qed.
Lemma says_sequence {A} (W : lang A) (f : A -> item) l : Z.of_nat (length l) <= 15 -> Forall (fun x => says (W x) (f x)) l ->
  says (sequence_of W l) (Item.list_of f l).
Proof.
  intros HL HF. unfold sequence_of, Item.list_of. apply says_structure; [|now rewrite map_length|exact HL]. clear HL.
  induction HF; cbn [map]; constructor; auto.
Qed.
Lemma says_optional {A} (W : lang A) (f : A -> item) o : opt (fun x => says (W x) (f x)) o ->
  says (optional W o) (match o with None => IOmitted | Some x => f x end).
Proof. destruct o as [x|]; intros HO; [exact HO|]. intros t Ht. reflexivity. Qed.

(** *** simple elements *)
Lemma says_octets s : wf_oct s -> every readable (IOctets s) -> says (octets s) (IOctets s).
Proof.
  intros [HB _] HR t Ht. destruct (hd_oct s HR) as (b & l & E & Hb & _). apply every_here in HR. destruct HR as (HN & HS & HL).
  change (2 ^ 28) with 268435456 in HS. assert (HT : In 0 tl_types) by (unfold tl_types; cbn [In]; tauto).
  set (n := Z.of_nat (length s)) in *.
  destruct (text_read 0 n HT ltac:(lia) ltac:(lia) ltac:(change (16 ^ 7) with 268435456; lia)) as [_ T2].
  exists (tl_text 0 n). split; [reflexivity|]. split.
  - split; [now apply text_field|]. split; [now apply text_type|]. apply T2.
    rewrite lost_crossing in HL by (change (2 ^ 28) with 268435456; lia). destruct (crossing (n + 1)); [exfalso; auto|reflexivity].
  - split; [rewrite E; intros X; injection X as X _; auto|]. split; [exact HB|exact Ht].
Qed.
Lemma says_oct o : opt wf_oct o -> every readable (oct_item o) -> says (optional octets o) (oct_item o).
Proof. destruct o as [s|]; intros HW HR; [now apply says_octets|]. intros t Ht. reflexivity. Qed.
Lemma num_header a n : a = 80 \/ a = 96 -> (n <= 14)%nat -> header a (Z.of_nat n) [a + 1 + Z.of_nat n].
Proof.
  intros Ha Hn. assert (HA : forallb (fun n => (tl_type [a + 1 + Z.of_nat n] =? a) && (tl_length [a + 1 + Z.of_nat n] =? Z.of_nat n)) (seq 0 15) = true)
    by (destruct Ha as [->| ->]; reflexivity).
  rewrite forallb_forall in HA. specialize (HA n ltac:(apply in_seq; lia)). apply andb_true_iff in HA. destruct HA as [A B].
  apply Z.eqb_eq in A, B. split; [|auto]. exists [], (a + 1 + Z.of_nat n). split; [reflexivity|]. split; [constructor|]. lia.
Qed.
Lemma says_unsigned n m : (1 <= n <= 14)%nat -> wf_num n m -> says (unsigned false n m) (INum 96 (host_order m)).
Proof.
  intros Hn [HL HB] t Ht. exists [96 + 1 + Z.of_nat n], (host_order m). cbn [enc]. rewrite host_length, HL. split; [reflexivity|].
  split; [apply num_header; [tauto|lia]|]. split; [now apply host_ok|]. split; [lia|]. split; [auto|]. split; [exact HB|]. split.
  - rewrite <- mem_u_host. now rewrite host_twice.
  - intros E. apply (f_equal (@length Z)) in E. rewrite host_length in E. cbn in E. lia.
Qed.
Lemma says_signed n m : (1 <= n <= 14)%nat -> wf_num n m -> says (signed false n m) (INum 80 (host_order m)).
Proof.
  intros Hn [HL HB] t Ht. exists [80 + 1 + Z.of_nat n], (host_order m). cbn [enc]. rewrite host_length, HL. split; [reflexivity|].
  split; [apply num_header; [tauto|lia]|]. split; [now apply host_ok|]. split; [lia|]. split; [auto|]. split; [exact HB|].
  destruct (host_order m) as [|x l] eqn:E.
  - apply (f_equal (@length Z)) in E. rewrite host_length in E. cbn in E. lia.
  - rewrite <- E, <- mem_i_host. now rewrite host_twice.
Qed.
Lemma says_num n o : (1 <= n <= 14)%nat -> opt (wf_num n) o -> says (optional (unsigned false n) o) (num_item 96 o).
Proof. intros Hn. destruct o as [m|]; intros HW; [now apply says_unsigned|]. intros t Ht. reflexivity. Qed.
Lemma says_int n o : (1 <= n <= 14)%nat -> opt (wf_num n) o -> says (optional (signed false n) o) (num_item 80 o).
Proof. intros Hn. destruct o as [m|]; intros HW; [now apply says_signed|]. intros t Ht. reflexivity. Qed.
Lemma says_boolean b : wf_bool b -> says (boolean b) (IBool (negb (b =? 0))).
Proof.
  intros HB t Ht. exists [66], (if negb (b =? 0) then 255 else 0). split; [reflexivity|]. split.
  - split; [|split; reflexivity]. exists [], 66. split; [reflexivity|]. split; [constructor|lia].
  - destruct HB as [->| ->]; split; try reflexivity; unfold byte_ok; cbn; lia.
Qed.
Lemma says_bool o : opt wf_bool o -> says (optional boolean o) (bool_item o).
Proof. destruct o as [b|]; intros HW; [now apply says_boolean|]. intros t Ht. reflexivity. Qed.

Lemma sized_num a w m : a = 80 \/ a = 96 -> width_ok w -> wf_num w m -> sized false (enc (INum a (host_order m))) w /\ a + Z.of_nat w = Z.lor a (Z.of_nat w).
Proof.
  intros Ha Hw [HL _]. cbn [enc app]. rewrite host_length, HL. unfold sized. cbn [hd].
  destruct Ha as [->| ->]; destruct Hw as [->|[->|[->| ->]]]; (split; [split; [reflexivity|right; split; [reflexivity|lia]]|reflexivity]).
Qed.
Lemma says_value_some v : wf_entry_value v -> every readable (value_item (Some v)) -> says (value false v) (value_item (Some v)).
Proof.
  intros HW HR. destruct (reads_value_some v HW HR) as [HV _]. destruct HV as [b Hb|b Hb|w m Hw Hm|w m Hw Hm|m Hm|m Hm].
  - intros t Ht. left. exists b. split; [|reflexivity]. now apply says_octets.
  - intros t Ht. right. left. exists b. split; [|reflexivity]. now apply says_boolean.
  - rewrite (num_value_item 80 w m) by auto. destruct (sized_num 80 w m) as [S E]; auto. pose proof (width_cases w Hw).
    intros t Ht. right. right. left. exists w, m. split; [apply says_signed; auto; lia|]. split; [exact S|]. now rewrite E.
  - rewrite (num_value_item 96 w m) by auto. destruct (sized_num 96 w m) as [S E]; auto. pose proof (width_cases w Hw).
    intros t Ht. right. right. right. exists w, m. split; [apply says_unsigned; auto; lia|]. split; [exact S|]. now rewrite E.
  - apply every_here in HR. contradiction.
  - apply every_here in HR. contradiction.
Qed.
Lemma says_entry_value o : opt wf_entry_value o -> every readable (value_item o) -> says (optional (value false) o) (value_item o).
Proof. destruct o as [v|]; intros HW HR; [now apply says_value_some|]. intros t Ht. reflexivity. Qed.
Lemma says_value o : opt wf_value o -> every readable (value_item o) -> says (optional (value false) o) (value_item o).
Proof. intros HW. apply says_entry_value. destruct o; [left; exact HW|exact I]. Qed.
Lemma says_status o : opt wf_status o -> every readable (status_item o) -> says (optional (status false) o) (status_item o).
Proof.
  destruct o as [v|]; intros HW HR; [|intros t Ht; reflexivity]. cbn [opt] in HW. inversion HW as [w m Hw Hm|m Hm]; subst.
  - destruct (land_type 96 _ (or_intror eq_refl) Hw) as [E1 E2]. pose proof (width_cases _ Hw). destruct (sized_num 96 w m) as [S E]; auto.
    intros t Ht. destruct Hm as [HL HB]. unfold status_item in *. cbn [st_type st_data] in *. rewrite E1, E2 in *.
    destruct (Z.eqb_spec (96 + Z.of_nat w) 112); [lia|]. rewrite Nat2Z.id in *. rewrite <- HL in *. rewrite firstn_all, number_bytes_num in * by (destruct m; [cbn in *; lia|discriminate]).
    exists (length m), m. split; [apply says_unsigned; auto; [lia|now split]|]. split; [exact S|]. now rewrite E.
  - apply every_here in HR. contradiction.
Qed.
Lemma says_time o : opt wf_time o -> every readable (time_item o) -> says (time false o) (time_item o).
Proof.
  destruct o as [[tag data]|]; intros HW HR t Ht; [|now left]. destruct HW as [W1 W2]. cbn [tm_tag tm_data time_item] in *.
  apply every_list in HR. destruct HR as [_ HR]. apply Forall_cons_iff in HR. destruct HR as [_ HR]. apply Forall_cons_iff in HR. destruct HR as [HR _].
  destruct data as [m|]; [|apply every_here in HR; contradiction].
  right. right. left. exists tag, m. split; [|reflexivity]. apply says_structure; [|reflexivity|lia|exact Ht].
  constructor; [apply says_num; auto; lia|]. constructor; [apply says_unsigned; auto; lia|constructor].
Qed.

(** *** structures *)
Ltac fld := repeat first [apply Forall2_nil | apply Forall2_cons; [
  first [now apply says_oct | now apply says_time | (now apply says_num; [lia|]) | (now apply says_int; [lia|]) | (apply says_num; [lia|assumption]) |
         (apply says_int; [lia|assumption]) | now apply says_bool | now apply says_value | now apply says_status | idtac]|]].
Ltac str := apply says_structure; [|reflexivity|lia].
Ltac rd HR := apply every_list in HR; destruct HR as [_ HR];
  repeat (apply Forall_cons_iff in HR; let h := fresh "R" in destruct HR as [h HR]).
Lemma says_period o : opt wf_period o -> every readable (period_item o) -> says (optional (period false) o) (period_item o).
Proof.
  destruct o as [[a b c d e]|]; intros HW HR; [|intros t Ht; reflexivity]. destruct HW as [W1 W2 W3 W4 W5]. cbn [period_item pe_obj_name pe_unit pe_scaler pe_value pe_value_signature] in *.
  rd HR. cbn [optional]. unfold period. cbn [pe_obj_name pe_unit pe_scaler pe_value pe_value_signature]. str. fld.
Qed.
Lemma says_path o : opt wf_path o -> every readable (path_item o) -> says (tree_path o) (path_item o).
Proof.
  destruct o as [l|]; intros HW HR; [|intros t Ht; now left]. assert (EC : l <> []).
  { intros ->. apply every_here in HR. exact HR. }
  replace (path_item (Some l)) with (Item.list_of IOctets l) in * by (destruct l; [congruence|reflexivity]).
  pose proof (readable_count _ _ HR) as HC. pose proof (readable_all _ _ HR) as HA.
  intros t Ht. right. exists (map Some l). split.
  - replace (Item.list_of IOctets l) with (Item.list_of oct_item (map Some l)).
    + apply says_sequence; [rewrite map_length; apply inj_le in HC; exact HC| |exact Ht]. cbn [opt] in HW. unfold wf_path in HW. rewrite Forall_forall in *. intros x Hx.
      apply in_map_iff in Hx. destruct Hx as (s & <- & Hs). apply says_oct; [now apply HW|now apply HA].
    + unfold Item.list_of. rewrite map_length, map_map. reflexivity.
  - f_equal. clear. induction l; cbn; congruence.
Qed.
Lemma says_ppv o : opt wf_ppv o -> every readable (ppv_item o) -> says (proc_par_value false o) (ppv_item o).
Proof.
  destruct o as [[tag d]|]; intros HW HR; [|intros t Ht; now left]. destruct HW as (m & ET & HM & HD). cbn [ppv_tag ppv_dat ppv_item] in *. subst tag. rd HR.
  intros t Ht. right. left. exists m, d. split; [|reflexivity]. apply says_structure; [|reflexivity|lia|exact Ht].
  constructor; [apply says_unsigned; auto; lia|]. constructor; [|constructor].
  intros u Hu. unfold ppv_content.
  destruct (Z.eqb_spec (mem_u m) 1) as [E|E1]; [rewrite E in *; destruct HD as (x & -> & HX); left|].
  { split; [reflexivity|]. exists x. split; [|reflexivity]. destruct x as [x|]; [|reflexivity]. now apply (says_value (Some x)). }
  destruct (Z.eqb_spec (mem_u m) 2) as [E|E2]; [rewrite E in *; destruct HD as (x & -> & HX); right; left|].
  { split; [reflexivity|]. exists x. split; [|reflexivity]. destruct x as [x|]; [|reflexivity]. now apply (says_period (Some x)). }
  destruct (Z.eqb_spec (mem_u m) 3) as [E|E3]; [rewrite E in *; destruct HD as (x & -> & HX); right; right; left|].
  { split; [reflexivity|]. exists x. split; [|reflexivity]. destruct x as [x|]; [|reflexivity].
    exfalso. cbn [from_opt] in R0. apply every_here in R0. destruct R0 as [_ R0]. lia. }
  destruct (Z.eqb_spec (mem_u m) 4) as [E|E4]; [rewrite E in *; destruct HD as (x & -> & HX); right; right; right|].
  { split; [reflexivity|]. exists x. split; [|reflexivity]. destruct x as [x|]; [|now left]. now apply (says_time (Some x)). }
  exfalso. destruct (mem_u m) as [|p|p]; [exact HD| |exact HD]. do 3 (destruct p as [p|p|]; try exact HD; try congruence).
Qed.

(** *** trees *)
Lemma says_optionals {A} (W : lang A) (f : A -> item) l : every readable (Item.list_of f l) -> Forall (fun x => says (W x) (f x)) l ->
  says (sequence_of (optional W) (map Some l)) (Item.list_of f l).
Proof.
  intros HR HF. pose proof (readable_count _ _ HR) as HC.
  replace (Item.list_of f l) with (Item.list_of (fun o => match o with None => IOmitted | Some x => f x end) (map Some l)).
  - apply says_sequence; [rewrite map_length; lia|]. rewrite Forall_forall in *. intros x Hx. apply in_map_iff in Hx. destruct Hx as (y & <- & Hy).
    exact (HF y Hy).
  - unfold Item.list_of. rewrite map_length, map_map. reflexivity.
Qed.
Lemma present_some {A} (l : list A) : present (map Some l) = l.
Proof. induction l; cbn; congruence. Qed.
Lemma common_depth (Q : nat -> sml_tree -> Prop) l : Forall (fun c => exists d0, forall d, (d0 <= d)%nat -> Q d c) l -> exists d0, forall d, (d0 <= d)%nat -> Forall (Q d) l.
Proof.
  induction 1 as [|c l (d1 & H1) _ (d2 & H2)]; [exists O; constructor|]. exists (Nat.max d1 d2). intros d Hd. constructor; [apply H1; lia|apply H2; lia].
Qed.
Lemma says_node : forall t, wf_tree t -> every readable (node_item t) -> exists d0, forall d, (d0 <= d)%nat -> says (tree_upto false d t) (node_item t).
Proof.
  induction t as [name value children IH] using tree_ind'. intros HW HR. inversion HW as [? ? ? W1 W2 W3]; subst.
  destruct (readable_node _ _ _ HR) as (R1 & R2 & R3).
  assert (HD : exists d0, forall d, (d0 <= d)%nat -> Forall (fun c => says (tree_upto false d c) (node_item c)) children).
  { apply common_depth. destruct R3 as [->|R3]; [constructor|]. apply readable_all in R3. rewrite Forall_forall in *. intros c Hc. apply IH; auto. }
  destruct HD as (d0 & HD). exists (S d0). intros d Hd. destruct d as [|d]; [lia|]. specialize (HD d ltac:(lia)).
  rewrite node_eq. cbn [tree_upto]. str. constructor; [now apply says_oct|]. constructor; [now apply says_ppv|]. constructor; [|constructor].
  assert (EC : children = [] \/ children <> []) by (destruct children; [left; reflexivity|right; discriminate]). destruct EC as [->|EC].
  - intros t Ht. now left.
  - destruct R3 as [R3|R3]; [contradiction|]. rewrite (kids_eq _ EC). intros t Ht. right. exists (map Some children). split; [|symmetry; apply present_some].
    now apply says_optionals.
Qed.
Lemma says_tree o : opt wf_tree o -> every readable (tree_item o) -> says (optional (tree false) o) (tree_item o).
Proof.
  destruct o as [v|]; intros HW HR t Ht; [|reflexivity]. destruct (says_node v HW HR) as (d & HD). exists d. now apply HD.
Qed.

(** *** lists of values *)
Definition with_head (e : list_entry) : list_entry * Z := (e, hd 0 (enc (value_item (le_value e)))).
Lemma says_entry e : wf_entry e -> every readable (entry_item e) -> says (entry false (with_head e)) (entry_item e).
Proof.
  destruct e as [a b c d f v g]. intros [W1 W2 W3 W4 W5 W6 W7] HR. unfold entry_item, with_head, entry in *. cbn [le_obj_name le_status le_val_time le_unit le_scaler SList.le_value le_value_signature] in *.
  rd HR. str. fld. intros t Ht. split; [|reflexivity]. now apply says_entry_value.
Qed.
Lemma head_short o : opt wf_entry_value o -> every readable (value_item o) -> let b := hd 0 (enc (value_item o)) in
  (b <? 128) && (1 <=? b mod 16) && (b mod 16 <=? 3) = true -> (length (enc (value_item o)) <= 3)%nat.
Proof.
  destruct o as [v|]; intros HW HR; [|intros b _; cbn; lia].
  destruct (proj1 (reads_value_some v HW HR)) as [b Hb|b Hb|w m Hw Hm|w m Hw Hm|m Hm|m Hm]; cbv zeta; rewrite !andb_true_iff, Z.ltb_lt, !Z.leb_le.
  - change (value_item (Some (mkValue 0 (VBytes b)))) with (IOctets b) in *. apply every_here in HR. destruct HR as (HN & HS & HL). cbn [enc]. rewrite app_length.
    assert (HT : In 0 tl_types) by (unfold tl_types; cbn [In]; tauto). set (n := Z.of_nat (length b)) in *.
    destruct (Nat.le_gt_cases (length b) 14) as [Hs|Hs].
    + unfold n. rewrite text_one by (auto; unfold count; cbn; lia). unfold count. change (0 =? 112) with false. cbv iota. cbn [app hd length].
      rewrite Z.mod_small by lia. lia.
    + assert (length (tl_text 0 n) > 1)%nat.
      { rewrite text_length. unfold count. change (0 =? 112) with false. cbv iota. cbn [extra]. destruct (Z.leb_spec (n + 1) 15); lia. }
      destruct (text_field 0 n HT) as (i & x & E & Hi & Hx). rewrite E in *. destruct i as [|y i]; [cbn in *; lia|]. cbn [app hd]. apply Forall_cons_iff in Hi. lia.
  - intros _. cbn. lia.
  - rewrite (num_value_item 80 w m) by auto. cbn [enc app hd length]. destruct Hm as [HL _]. rewrite host_length, HL. destruct Hw as [->|[->|[->| ->]]]; cbn; lia.
  - rewrite (num_value_item 96 w m) by auto. cbn [enc app hd length]. destruct Hm as [HL _]. rewrite host_length, HL. destruct Hw as [->|[->|[->| ->]]]; cbn; lia.
  - apply every_here in HR. contradiction.
  - apply every_here in HR. contradiction.
Qed.
Lemma unsigned_same v : wf_entry_value v -> every readable (value_item (Some v)) -> Z.land (v_type v) 112 = 96 -> mkValue (96 + v_type v mod 16) (v_data v) = v.
Proof.
  intros HW HR. destruct (proj1 (reads_value_some v HW HR)) as [b Hb|b Hb|w m Hw Hm|w m Hw Hm|m Hm|m Hm]; cbn [v_type v_data]; intros E; try discriminate.
  - destruct Hw as [->|[->|[->| ->]]]; discriminate.
  - destruct Hw as [->|[->|[->| ->]]]; reflexivity.
Qed.
Lemma stable_list l : forall pre seen, dzg_stable (pre ++ l) -> (seen = true -> Exists affected pre) -> Forall wf_entry l ->
  Forall (fun e => every readable (entry_item e)) l -> dzg_list seen (map with_head l) = l.
Proof.
  induction l as [|e l IH]; intros pre seen HS Hs HW HR; [reflexivity|]. apply Forall_cons_iff in HW, HR. destruct HW as [We HW], HR as [Re HR].
  cbn [map dzg_list]. unfold with_head at 1. rewrite (IH (pre ++ [e])); [|now rewrite <- app_assoc| |exact HW|exact HR].
  - f_equal. destruct (seen && negb (affectedb e) && match le_obj_name e with Some n => list_eqb n power_name | None => false end) eqn:E1; [|reflexivity].
    destruct We as [_ _ _ _ _ W6 _]. unfold entry_item in Re. rd Re. pose proof (head_short _ W6 R4) as HH. cbv zeta in HH.
    cbn [andb]. destruct ((_ <? _) && _ && _) eqn:E2; [|reflexivity]. specialize (HH eq_refl).
    apply andb_true_iff in E1. destruct E1 as [E1 E3]. apply andb_true_iff in E1. destruct E1 as [E1 _]. specialize (Hs E1).
    destruct (le_obj_name e) as [n|] eqn:EN; [|discriminate]. apply list_eqb_eq in E3. subst n.
    destruct e as [a b c d f [v|] g]; unfold unsigned_value; cbn [le_obj_name le_status le_val_time le_unit le_scaler SList.le_value le_value_signature] in *; [|now subst].
    rewrite unsigned_same; [|exact W6|exact R4|]; [now subst|]. eapply (HS pre); eauto.
  - intros E. apply Exists_app. destruct seen; [left; auto|right]. cbn [orb] in E. constructor. now apply affectedb_iff.
Qed.
Lemma says_list l : Forall wf_entry l -> dzg_stable l -> every readable (entries_item l) -> says (value_list false l) (entries_item l).
Proof.
  intros HW HS HR. assert (EC : l = [] \/ l <> []) by (destruct l; [left; reflexivity|right; discriminate]). destruct EC as [->|EC]; [intros t Ht; now left|].
  replace (entries_item l) with (Item.list_of entry_item l) in * by (destruct l; [congruence|reflexivity]).
  pose proof (readable_count _ _ HR) as HC. pose proof (readable_all _ _ HR) as HA.
  intros t Ht. right. exists (map with_head l). split.
  - replace (Item.list_of entry_item l) with (Item.list_of (fun p => entry_item (fst p)) (map with_head l)).
    + apply says_sequence; [rewrite map_length; lia| |exact Ht]. rewrite Forall_forall in *. intros x Hx. apply in_map_iff in Hx. destruct Hx as (e & <- & He).
      apply says_entry; auto.
    + unfold Item.list_of. rewrite map_length, map_map. reflexivity.
  - symmetry. apply (stable_list l []); auto. discriminate.
Qed.

(** *** bodies *)
Lemma says_some_seq {A} (W : lang A) (f : option A -> item) (Q : A -> Prop) o :
  (forall e, Q e -> every readable (f (Some e)) -> says (W e) (f (Some e))) -> (exists l, o = Some (map Some l) /\ Forall Q l) ->
  every readable (seq_item f o) -> says (Grammar.list_of W o) (seq_item f o).
Proof.
  intros HP (l & -> & HW) HR. cbn [seq_item] in *. unfold Grammar.list_of. cbn [required].
  pose proof (readable_count _ _ HR) as HC. pose proof (readable_all _ _ HR) as HA. apply says_sequence; [lia|]. rewrite Forall_forall in *. intros x Hx.
  pose proof (HA x Hx) as HX. apply in_map_iff in Hx. destruct Hx as (e & <- & He). exact (HP e (HW e He) HX).
Qed.
Lemma says_header e : wf_header e -> every readable (header_item (Some e)) -> says (header_entry false e) (header_item (Some e)).
Proof. destruct e as [a b c]. intros [W1 W2 W3] HR. unfold header_entry. cbn [header_item he_obj_name he_unit he_scaler] in *. rd HR. str. fld. Qed.
Lemma says_val_entry e : wf_value_entry e -> every readable (val_entry_item (Some e)) -> says (value_entry false e) (val_entry_item (Some e)).
Proof. destruct e as [a b]. intros [W1 W2] HR. unfold value_entry. cbn [val_entry_item ve_value ve_value_signature] in *. rd HR. str. fld. Qed.
Lemma says_per_entry e : wf_per_entry e -> every readable (per_entry_item (Some e)) -> says (period_of_objects false e) (per_entry_item (Some e)).
Proof.
  destruct e as [a b c d]. intros [W1 W2 W3 W4] HR. unfold period_of_objects. cbn [per_entry_item pp_val_time pp_status pp_value_list pp_period_signature] in *. rd HR. str. fld.
  now apply (says_some_seq _ _ wf_value_entry); [apply says_val_entry| |].
Qed.
Lemma says_periods o : (exists l, o = Some l /\ wf_seq wf_period l) -> every readable (seq_item period_item o) ->
  says (required (sequence_of (optional (period false))) o) (seq_item period_item o).
Proof.
  intros (l & -> & HW) HR. cbn [seq_item required] in *. pose proof (readable_count _ _ HR) as HC. pose proof (readable_all _ _ HR) as HA.
  apply says_sequence; [lia|]. unfold wf_seq in HW. rewrite Forall_forall in *. intros x Hx. apply says_period; auto.
Qed.
Lemma says_body_data tag d : wf_body_data tag d -> d <> BNull -> body_stable d -> every readable (body_data_item d) -> says (body_content false tag d) (body_data_item d).
Proof.
  destruct d as [|m|m|m|m|m|m|m|m|m|m|m|m|m]; cbn [wf_body_data]; intros HW HN HS HR; [congruence|..].
  - destruct HW as [-> [W1 W2 W3 W4 W5 W6 W7]]. intros t Ht. left. split; [reflexivity|]. exists m. split; [|reflexivity]. revert t Ht. change (says (open_request false m) (body_data_item (BOpenReq m))).
    cbn [body_data_item] in *. rd HR. unfold open_request. str. fld.
  - destruct HW as [-> [W1 W2 W3 W4 W5 W6]]. intros t Ht. do 1 right. left. split; [reflexivity|]. exists m. split; [|reflexivity]. revert t Ht. change (says (open_response false m) (body_data_item (BOpenRes m))).
    cbn [body_data_item] in *. rd HR. unfold open_response. str. fld.
  - destruct HW as [-> W1]. intros t Ht. do 2 right. left. split; [reflexivity|]. exists m. split; [|reflexivity]. revert t Ht. change (says (close_request m) (body_data_item (BCloseReq m))).
    cbn [body_data_item] in *. rd HR. unfold close_request. str. fld.
  - destruct HW as [-> W1]. intros t Ht. do 3 right. left. split; [reflexivity|]. exists m. split; [|reflexivity]. revert t Ht. change (says (close_response m) (body_data_item (BCloseRes m))).
    cbn [body_data_item] in *. rd HR. unfold close_response. str. fld.
  - destruct HW as [ET [W1 W2 W3 W4 W5 W6 W7 W8 W9]]. assert (X : says (profile_request false m) (body_data_item (BPackReq m))).
    { cbn [body_data_item] in *. rd HR. unfold profile_request. str. fld.
      - now apply says_path.
      - apply objects_none in R6. rewrite R6. intros t Ht. now left.
      - now apply says_tree. }
    intros t Ht. destruct ET as [->| ->]; [do 4 right; left|do 6 right; left]; (split; [reflexivity|]); exists m; (split; [|reflexivity]); now apply X.
  - destruct HW as [-> [W1 W2 W3 W4 W5 W6 W7 W8]]. intros t Ht. do 5 right. left. split; [reflexivity|]. exists m. split; [|reflexivity]. revert t Ht. change (says (profile_pack_response false m) (body_data_item (BPackRes m))).
    cbn [body_data_item] in *. rd HR. unfold profile_pack_response. str. fld.
    + now apply says_path.
    + now apply (says_some_seq _ _ wf_header); [apply says_header| |].
    + now apply (says_some_seq _ _ wf_per_entry); [apply says_per_entry| |].
  - destruct HW as [-> [W1 W2 W3 W4 W5 W6 W7 W8 W9]]. intros t Ht. do 7 right. left. split; [reflexivity|]. exists m. split; [|reflexivity]. revert t Ht. change (says (profile_list_response false m) (body_data_item (BProfListRes m))).
    cbn [body_data_item] in *. rd HR. unfold profile_list_response. str. fld; [now apply says_path|now apply says_periods].
  - destruct HW as [-> [W1 W2 W3 W4 W5]]. intros t Ht. do 8 right. left. split; [reflexivity|]. exists m. split; [|reflexivity]. revert t Ht. change (says (proc_parameter_request m) (body_data_item (BProcReq m))).
    cbn [body_data_item] in *. rd HR. unfold proc_parameter_request. str. fld. now apply says_path.
  - destruct HW as [-> [W1 W2 W3]]. intros t Ht. do 9 right. left. split; [reflexivity|]. exists m. split; [|reflexivity]. revert t Ht. change (says (proc_parameter_response false m) (body_data_item (BProcRes m))).
    cbn [body_data_item] in *. rd HR. unfold proc_parameter_response. str. fld; [now apply says_path|now apply says_tree].
  - destruct HW as [-> [W1 W2 W3 W4 W5]]. intros t Ht. do 10 right. left. split; [reflexivity|]. exists m. split; [|reflexivity]. revert t Ht. change (says (set_proc_parameter_request false m) (body_data_item (BSetProc m))).
    cbn [body_data_item] in *. rd HR. unfold set_proc_parameter_request. str. fld; [now apply says_path|now apply says_tree].
  - destruct HW as [-> [W1 W2 W3 W4 W5]]. intros t Ht. do 11 right. left. split; [reflexivity|]. exists m. split; [|reflexivity]. revert t Ht. change (says (list_request m) (body_data_item (BListReq m))).
    cbn [body_data_item] in *. rd HR. unfold list_request. str. fld.
  - destruct HW as [-> [W1 W2 W3 W4 W5 W6 W7]]. intros t Ht. do 12 right. left. split; [reflexivity|]. exists m. split; [|reflexivity]. revert t Ht. change (says (list_response false m) (body_data_item (BListRes m))).
    cbn [body_data_item body_stable] in *. rd HR. unfold list_response. str. fld. now apply says_list.
  - destruct HW as [-> [W1 W2 W3 W4]]. intros t Ht. do 13 right. left. split; [reflexivity|]. exists m. split; [|reflexivity]. revert t Ht. change (says (attention false m) (body_data_item (BAttention m))).
    cbn [body_data_item] in *. rd HR. unfold attention. str. fld. now apply says_tree.
Qed.

(** *** messages *)
Definition known (m : sml_message) : Prop := forall b, m_message_body m = Some b -> mb_data b <> BNull.
Lemma written_ok any w bs : writes any w bs -> bytes_ok bs.
Proof.
  intros HW. assert (HZ : bytes_ok (repeat 0 (length bs))) by (apply Forall_forall; intros x Hx; apply repeat_spec in Hx; unfold byte_ok; lia).
  destruct (HW [] (repeat 0 (length bs)) [] false false) as [X _].
  - cbn [app]. now rewrite app_nil_r.
  - destruct (X (repeat_length _ _)) as (out & o' & _ & _ & HB & HE). rewrite <- HE; auto.
Qed.
Lemma says_message m t : round_trippable m -> known m -> Grammar.message false (sealed m) (message_bytes m) t.
Proof.
  intros (HW & HR & HS) HK. pose proof (written_ok _ _ _ (writes_checked false m HW (readable_sizes _ HR))) as HB.
  destruct HW as [W1 W2 W3 (b & Eb & (tag & ET & HT & HD))]. unfold message_stable in HS. rewrite Eb in HS. specialize (HK b Eb).
  unfold message_items in HR. rewrite Eb in HR. repeat (apply Forall_cons_iff in HR; let h := fresh "R" in destruct HR as [h HR]).
  set (crc := sml_crc16_calculate (checked_bytes m)).
  assert (HC : 0 <= crc < 65536) by (unfold crc; rewrite x25_ok by exact HB; pose proof (x25_range (checked_bytes m)); unfold swap16; Z.div_mod_to_equations; lia).
  exists [118], (flat_map enc (message_items m)), ([99] ++ big_endian 2 crc), [0], (sml_u16_init crc).
  split. { unfold message_bytes, seal, checked_bytes. fold (checked_bytes m). fold crc. now rewrite <- !app_assoc. }
  split; [split; [exists [], 118; split; [reflexivity|split; [constructor|lia]]|split; reflexivity]|].
  split.
  { unfold sealed. cbn [m_transaction_id m_group_id m_abort_on_error m_message_body]. unfold message_items. apply says_fields; [|discriminate]. rewrite Eb.
    constructor; [now apply says_oct|]. constructor; [apply says_num; [lia|assumption]|]. constructor; [apply says_num; [lia|assumption]|]. constructor; [|constructor].
    intros u Hu. left. destruct b as [bt d]. cbn [mb_tag mb_data body_item] in *. subst bt. exists tag, d. split; [|reflexivity]. revert u Hu. rd R2. str.
    constructor; [apply says_unsigned; [lia|assumption]|]. constructor; [|constructor]. now apply says_body_data. }
  split; [reflexivity|]. split; [|split; [rewrite !app_length, big_length; cbn [length]; lia|split; [|now left]]].
  - unfold sml_u16_init. rewrite init_host by lia. exists [99], (big_endian 2 crc). split; [reflexivity|]. rewrite big_length.
    split; [split; [exists [], 99; split; [reflexivity|split; [constructor|lia]]|split; reflexivity]|]. split; [apply big_ok|]. split; [lia|].
    split; [rewrite host_length; apply big_length|]. split; [apply host_ok, big_ok|]. split; [apply mem_u_host|discriminate].
  - left. unfold sml_u16_init. rewrite init_u by lia. change (256 ^ Z.of_nat 2) with 65536. rewrite Z.mod_small by exact HC. unfold crc. apply x25_ok. exact HB.
Qed.
End WithHost.
