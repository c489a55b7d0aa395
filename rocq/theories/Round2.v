(** The parsers read back what the writers wrote: structures, bodies, messages. *)
From Verif Require Import Base Buf Crc16 Number OctetString Boolean Value Time SList Tree Bodies Message File
  Lib Wf Ctx Spec TL Inv Reads Write TLWrite TLRound NumFacts PropsString Item Enc Dzg Round.

Section WithHost.
Context {H : Host}.

Lemma count_text n : 0 <= n <= 15 -> tl_text 112 n = [112 + n].
Proof. intros Hn. rewrite text_one; [unfold count; rewrite Z.eqb_refl; reflexivity|unfold tl_types; cbn; tauto|unfold count; rewrite Z.eqb_refl; lia]. Qed.
Lemma reads_struct {B} n (k : P (option B)) items v : 0 <= n <= 15 -> reads k (flat_map enc items) v -> reads (expect_list n k) (enc (IList n items)) v.
Proof. intros Hn Hk. rewrite enc_list, count_text by lia. now apply reads_expect. Qed.
Lemma hd_struct n items : 0 <= n <= 15 -> hd 1 (enc (IList n items)) <> 1.
Proof. intros Hn. rewrite enc_list, count_text by lia. cbn [app hd]. lia. Qed.
Lemma reads_done {A} (v : A) : reads (ret v) (flat_map enc []) v.
Proof. apply reads_ret. Qed.
Lemma reads_fl {A B} (p : P A) (k : A -> P (option B)) i l v r : reads p (enc i) v -> reads (k v) (flat_map enc l) r ->
  reads (field p k) (flat_map enc (i :: l)) r.
Proof. intros Hp Hk. rewrite flat_cons. now apply (reads_fld _ _ _ _ v). Qed.

(** *** loops *)
Lemma reads_fuel {A} (g : nat -> P A) bs v : (forall fuel, (length bs < fuel)%nat -> reads (g fuel) bs v) -> reads (with_fuel g) bs v.
Proof.
  intros Hg s t R Ht He Sm. unfold with_fuel. apply (Hg (fuel_of s)) with (t := t); auto.
  unfold fuel_of. rewrite <- rest_length, R, app_length. lia.
Qed.
Lemma reads_elems {A} (p : P A) (f : A -> list Z) l : Forall (fun x => reads p (f x) x) l -> forall fuel, (length l <= fuel)%nat ->
  reads (elems_loop fuel (Z.of_nat (length l)) p) (flat_map f l) (Some l).
Proof.
  induction l as [|x l IH]; intros HF fuel Hf.
  - destruct fuel; apply reads_ret.
  - apply Forall_cons_iff in HF. destruct HF as [Hx HF]. destruct fuel as [|fuel]; [cbn in Hf; lia|]. cbn [length] in *.
    cbn [elems_loop flat_map]. destruct (Z.leb_spec (Z.of_nat (S (length l))) 0); [lia|].
    replace (Z.of_nat (S (length l)) - 1) with (Z.of_nat (length l)) by lia.
    apply (reads_bind _ _ _ _ x); [exact Hx|]. intros s t R Ht He Sm. unfold bind at 1, sml_buf_has_errors. rewrite He.
    apply (reads_then _ _ _ _ _ (IH HF fuel ltac:(lia)) (fun _ => eq_refl) s t); auto.
Qed.
Lemma reads_seq_loop {A} (p : P (option A)) (f : option A -> list Z) l : Forall (fun x => reads p (f x) x) l -> forall fuel, (length l <= fuel)%nat ->
  reads (sequence_loop fuel (Z.of_nat (length l)) p) (flat_map f l) (Some l).
Proof.
  induction l as [|x l IH]; intros HF fuel Hf.
  - destruct fuel; apply reads_ret.
  - apply Forall_cons_iff in HF. destruct HF as [Hx HF]. destruct fuel as [|fuel]; [cbn in Hf; lia|]. cbn [length] in *.
    cbn [sequence_loop flat_map]. destruct (Z.leb_spec (Z.of_nat (S (length l))) 0); [lia|].
    replace (Z.of_nat (S (length l)) - 1) with (Z.of_nat (length l)) by lia.
    apply (reads_bind _ _ _ _ x); [exact Hx|]. intros s t R Ht He Sm. unfold bind at 1, sml_buf_has_errors. rewrite He.
    apply (reads_then _ _ _ _ _ (IH HF fuel ltac:(lia)) (fun _ => eq_refl) s t); auto.
Qed.
Lemma flat_long {A} (f : A -> list Z) l : Forall (fun x => f x <> []) l -> (length l <= length (flat_map f l))%nat.
Proof.
  induction 1 as [|x l Hx HF IH]; [cbn; lia|]. cbn [flat_map]. rewrite app_length. destruct (f x); [congruence|]. cbn [length]. lia.
Qed.
Lemma flat_map_map {A B C} (g : A -> B) (f : B -> list C) l : flat_map f (map g l) = flat_map (fun x => f (g x)) l.
Proof. induction l; cbn; [reflexivity|]. now rewrite IHl. Qed.
Lemma text_nonnil t n : In t tl_types -> tl_text t n <> [].
Proof. intros HT. destruct (tl_hd _ (text_field t n HT)) as (b & l & ->). discriminate. Qed.
Lemma enc_nonnil i : every readable i -> i <> IVoid -> enc i <> [].
Proof.
  destruct i as [| |bs|bs|b|ty bs|n l]; intros HR HV; cbn [enc]; try congruence.
  - apply every_here in HR. contradiction.
  - assert (HT := text_nonnil 0 (Z.of_nat (length bs)) ltac:(unfold tl_types; cbn; tauto)). destruct (tl_text _ _); [congruence|discriminate].
  - discriminate.
  - assert (HT := text_nonnil 112 n ltac:(unfold tl_types; cbn; tauto)). destruct (tl_text _ _); [congruence|discriminate].
Qed.
Lemma readable_count {A} (f : A -> item) l : every readable (list_of f l) -> (length l <= 15)%nat.
Proof. intros HR. apply every_here in HR. destruct HR as [_ HR]. lia. Qed.
Lemma readable_all {A} (f : A -> item) l : every readable (list_of f l) -> Forall (fun x => every readable (f x)) l.
Proof.
  intros HR. apply every_list in HR. destruct HR as [_ HR]. apply Forall_forall. intros x Hx. rewrite Forall_forall in HR. apply HR.
  now apply in_map.
Qed.
Lemma reads_sequence {A} (p : P (option A)) (f : option A -> item) l :
  every readable (list_of f l) -> Forall (fun x => f x <> IVoid /\ (every readable (f x) -> reads p (enc (f x)) x)) l ->
  reads (sml_sequence_parse p) (enc (seq_item f (Some l))) (Some l).
Proof.
  intros HR HF. pose proof (readable_count _ _ HR) as HC. pose proof (readable_all _ _ HR) as HA. cbn [seq_item]. unfold sml_sequence_parse. apply reads_label.
  intros s t R Ht He Sm. unfold list_of in *.
  assert (HP : forall fuel, (length (flat_map enc (map f l)) < fuel)%nat -> reads (sequence_loop fuel (Z.of_nat (length l)) p) (flat_map enc (map f l)) (Some l)).
  { intros fuel Hf. rewrite flat_map_map in *. apply reads_seq_loop.
    - rewrite Forall_forall in *. intros x Hx. now apply HF, HA.
    - assert (length l <= length (flat_map (fun x => enc (f x)) l))%nat; [|lia]. apply flat_long. rewrite Forall_forall in *.
      intros x Hx. apply enc_nonnil; [now apply HA|now apply HF]. }
  destruct (list_header (Z.of_nat (length l)) ltac:(lia)) as (TF & TT & TN & TL). rewrite enc_list, count_text in * by lia. rewrite <- app_assoc in R.
  unfold bind at 1. rewrite (type_fwd _ _ _ R TF), TT. change (112 =? SML_TYPE_LIST) with true. cbn [negb].
  unfold bind at 1. rewrite (length_fwd _ _ _ Sm R TF) by lia. rewrite TL.
  rewrite (reads_fuel _ _ _ HP _ t) by (auto; now apply at_app). rewrite at_at. now rewrite app_length.
Qed.
Lemma somes_some {A} (l : list A) : somes (map Some l) = l.
Proof. induction l; cbn; [reflexivity|]. now rewrite IHl. Qed.
Lemma reads_path o : opt wf_path o -> every readable (path_item o) -> reads sml_tree_path_parse (enc (path_item o)) o.
Proof.
  destruct o as [l|]; intros HW HR; [|apply unless_reads_none]. destruct l as [|x l]; [apply every_here in HR; contradiction|].
  change (path_item (Some (x :: l))) with (list_of IOctets (x :: l)) in *. remember (x :: l) as p eqn:Ep. clear Ep.
  pose proof (readable_count _ _ HR) as HC. unfold octet_string in *. pose proof (readable_all _ _ HR) as HA.
  apply unless_reads; [apply hd_struct; lia|]. apply reads_label. intros s t R Ht He Sm. unfold list_of in *.
  destruct (list_header (Z.of_nat (length p)) ltac:(lia)) as (TF & TT & TN & TL). rewrite enc_list, count_text in * by lia. rewrite <- app_assoc in R.
  unfold bind at 1. rewrite (type_fwd _ _ _ R TF), TT. change (112 =? SML_TYPE_LIST) with true. cbn [negb].
  unfold bind at 1. rewrite (length_fwd _ _ _ Sm R TF) by lia. rewrite TL.
  assert (HP : forall fuel, (length (flat_map enc (map IOctets p)) < fuel)%nat ->
    reads (elems_loop fuel (Z.of_nat (length p)) sml_octet_string_parse) (flat_map enc (map IOctets p)) (Some (map Some p))).
  { intros fuel Hf. replace (flat_map enc (map IOctets p)) with (flat_map (fun o => enc (oct_item o)) (map Some p)) in * by (rewrite !flat_map_map; reflexivity).
    rewrite <- (map_length Some p). apply reads_elems.
    - rewrite Forall_forall in *. intros y Hy. apply in_map_iff in Hy. destruct Hy as (z & <- & Hz). apply reads_oct. apply HA, Hz.
    - assert (length (map Some p) <= length (flat_map (fun o => enc (oct_item o)) (map Some p)))%nat; [|unfold octet_string in *; lia]. apply flat_long. rewrite Forall_forall in *.
      intros y Hy. apply in_map_iff in Hy. destruct Hy as (z & <- & Hz). apply enc_nonnil; [apply HA, Hz|discriminate]. }
  pose proof (reads_then _ (fun r => ret (match r with None => None | Some l => Some (somes l) end)) _ _ (Some p) (reads_fuel _ _ _ HP)) as HQ.
  cbv beta iota in HQ. rewrite somes_some in HQ. rewrite (HQ (fun _ => eq_refl) _ t) by (auto; now apply at_app).
  rewrite at_at. now rewrite app_length.
Qed.

(** *** structures *)
Ltac rd HR := apply every_list in HR; destruct HR as [_ HR];
  repeat (apply Forall_cons_iff in HR; let h := fresh "R" in destruct HR as [h HR]).
Ltac fl lem := eapply reads_fl; [apply lem; assumption|].
Ltac fin := apply reads_done.

Lemma reads_period o : opt wf_period o -> every readable (period_item o) -> reads sml_period_entry_parse (enc (period_item o)) o.
Proof.
  destruct o as [[a b c d e]|]; intros HW HR; [|apply unless_reads_none]. destruct HW as [W1 W2 W3 W4 W5]. cbn [period_item pe_obj_name pe_unit pe_scaler pe_value pe_value_signature] in *.
  apply unless_reads; [apply hd_struct; lia|]. apply reads_struct; [lia|]. rd HR.
  fl reads_oct. fl reads_u8. fl reads_i8. fl reads_value'. fl reads_oct. fin.
Qed.
Lemma reads_tupel_none o : every readable (tupel_item o) -> o = None.
Proof. destruct o as [t|]; [|reflexivity]. intros HR. apply every_here in HR. destruct HR as [_ HR]. lia. Qed.
Lemma reads_ppv o : opt wf_ppv o -> every readable (ppv_item o) -> reads sml_proc_par_value_parse (enc (ppv_item o)) o.
Proof.
  destruct o as [[tag d]|]; intros HW HR; [|apply unless_reads_none]. destruct HW as (t & E & Ht & HW). cbn [ppv_tag ppv_dat ppv_item] in *. subst tag.
  apply unless_reads; [apply hd_struct; lia|]. apply reads_struct; [lia|]. rd HR.
  eapply reads_fl; [now apply reads_u8|]. cbv beta iota zeta.
  assert (HB : forall {X} (p : P (option X)) g (o : option X) i, reads p (enc i) o -> reads (bind p (fun d => ret (Some (mkPpv (Some t) (from_opt PNull g d))))) (flat_map enc [i]) (Some (mkPpv (Some t) (from_opt PNull g o)))).
  { intros X p g o i Hp. rewrite flat_one. apply (reads_then _ _ _ _ _ Hp). reflexivity. }
  destruct (mem_u t) as [|q|q] eqn:Em; try contradiction. unfold SML_PROC_PAR_VALUE_TAG_VALUE, SML_PROC_PAR_VALUE_TAG_PERIOD_ENTRY, SML_PROC_PAR_VALUE_TAG_TUPEL_ENTRY, SML_PROC_PAR_VALUE_TAG_TIME.
  destruct (Z.eqb_spec (Z.pos q) 1) as [E1|E1]; [|destruct (Z.eqb_spec (Z.pos q) 2) as [E2|E2]; [|destruct (Z.eqb_spec (Z.pos q) 3) as [E3|E3]; [|destruct (Z.eqb_spec (Z.pos q) 4) as [E4|E4]]]].
  - injection E1 as ->. destruct HW as (o & -> & Ho). apply HB. destruct o as [x|]; cbn [from_opt] in *; [now apply reads_value'|apply unless_reads_none].
  - injection E2 as ->. destruct HW as (o & -> & Ho). apply HB. destruct o as [x|]; cbn [from_opt] in *; [now apply reads_period|apply unless_reads_none].
  - injection E3 as ->. destruct HW as (o & -> & Ho). apply HB. destruct o as [x|]; cbn [from_opt] in *; [apply reads_tupel_none in R0; discriminate|apply unless_reads_none].
  - injection E4 as ->. destruct HW as (o & -> & Ho). apply HB. destruct o as [x|]; cbn [from_opt] in *; [now apply reads_time|apply unless_reads_none].
  - exfalso. clear -HW E1 E2 E3 E4. destruct q as [q|q|]; try lia; destruct q as [q|q|]; try lia; try contradiction; destruct q; try lia; contradiction.
Qed.
Lemma readable_node name value children : every readable (node_item (Tree name value children)) ->
  every readable (oct_item name) /\ every readable (ppv_item value) /\ (children = [] \/ every readable (list_of node_item children)).
Proof.
  intros HR. cbn [node_item] in HR. rd HR. split; [assumption|]. split; [assumption|]. destruct children; [now left|right; assumption].
Qed.
Definition kids_item (l : list sml_tree) : item := match l with [] => IOmitted | _ => list_of node_item l end.
Lemma node_eq name value children : node_item (Tree name value children) = IList 3 [oct_item name; ppv_item value; kids_item children].
Proof. reflexivity. Qed.
Lemma kids_eq l : l <> [] -> kids_item l = list_of node_item l.
Proof. destruct l; [congruence|reflexivity]. Qed.
Lemma node_shape name value children : children <> [] ->
  enc (node_item (Tree name value children)) = [115] ++ enc (oct_item name) ++ enc (ppv_item value) ++ enc (list_of node_item children).
Proof.
  intros HC. cbn [node_item]. rewrite enc_list. change (tl_text 112 3) with [115]. rewrite !flat_cons. cbn [flat_map]. rewrite app_nil_r. now destruct children.
Qed.
Lemma reads_node : forall t depth, wf_tree t -> every readable (node_item t) -> (length (enc (node_item t)) <= depth)%nat ->
  reads (sml_tree_parse_rec depth) (enc (node_item t)) (Some t).
Proof.
  induction t as [name value children IH] using tree_ind'. intros depth HW HR Hd. inversion HW as [? ? ? W1 W2 W3]; subst.
  destruct (readable_node _ _ _ HR) as (R1 & R2 & R3).
  destruct depth as [|depth]. { exfalso. cbn [node_item] in Hd. rewrite enc_list, count_text in Hd by lia. cbn [app length] in Hd. lia. }
  cbn [sml_tree_parse_rec]. rewrite node_eq. apply unless_reads; [apply hd_struct; lia|]. apply reads_struct; [lia|].
  fl reads_oct. fl reads_ppv. rewrite flat_one.
  assert (EC : children = [] \/ children <> []) by (destruct children; [left; reflexivity|right; discriminate]). destruct EC as [->|EC].
  - cbn [kids_item enc]. apply (reads_then _ _ _ 1); [|reflexivity]. intros s t Rs _ _ _. now apply skip_fwd with (t := t).
  - destruct R3 as [R3|R3]; [contradiction|]. rewrite node_shape in Hd by assumption.
    rewrite (kids_eq _ EC).
    pose proof (readable_count _ _ R3) as HC. pose proof (readable_all _ _ R3) as HA.
    intros s t R Ht He Sm. unfold list_of in *.
    destruct (list_header (Z.of_nat (length children)) ltac:(lia)) as (TF & TT & TN & TL). rewrite enc_list, count_text in * by lia. rewrite <- app_assoc in R.
    unfold bind at 1. rewrite (noskip_fwd _ _ _ R) by lia. change (0 =? 0) with true. cbn [negb].
    unfold bind at 1. rewrite (type_fwd _ _ _ R TF), TT. change (112 =? SML_TYPE_LIST) with true. cbn [negb].
    unfold bind at 1. rewrite (length_fwd _ _ _ Sm R TF) by lia. rewrite TL.
    assert (HP : forall fuel, (length (flat_map enc (map node_item children)) < fuel)%nat ->
      reads (elems_loop fuel (Z.of_nat (length children)) (sml_tree_parse_rec depth)) (flat_map enc (map node_item children)) (Some (map Some children))).
    { intros fuel Hf. replace (flat_map enc (map node_item children)) with (flat_map (fun o => enc (tree_item o)) (map Some children)) in * by (rewrite !flat_map_map; reflexivity).
      rewrite <- (map_length Some children). apply reads_elems.
      - rewrite Forall_forall in *. intros y Hy. apply in_map_iff in Hy. destruct Hy as (z & <- & Hz). apply IH; auto.
        assert (length (enc (node_item z)) <= length (flat_map (fun o => enc (tree_item o)) (map Some children)))%nat.
        { rewrite flat_map_map. apply in_split in Hz. destruct Hz as (a & b & ->). rewrite flat_map_app. cbn [flat_map tree_item]. rewrite !app_length. lia. }
        rewrite !app_length in Hd. cbn [length] in Hd. lia.
      - assert (length (map Some children) <= length (flat_map (fun o => enc (tree_item o)) (map Some children)))%nat; [|lia]. apply flat_long. rewrite Forall_forall in *.
        intros y Hy. apply in_map_iff in Hy. destruct Hy as (z & <- & Hz). apply enc_nonnil; [apply HA, Hz|]. destruct z; discriminate. }
    pose proof (reads_then _ (fun r => match r with None => ret None | Some l => ret (Some (Tree name value (somes l))) end) _ _ (Some (Tree name value children))
      (reads_fuel _ _ _ HP)) as HQ.
    cbv beta iota in HQ. rewrite somes_some in HQ. rewrite (HQ (fun _ => eq_refl) _ t) by (auto; now apply at_app).
    rewrite at_at. now rewrite app_length.
Qed.
Lemma reads_tree o : opt wf_tree o -> every readable (tree_item o) -> reads sml_tree_parse (enc (tree_item o)) o.
Proof.
  destruct o as [t|]; intros HW HR.
  - unfold sml_tree_parse. apply reads_fuel. intros fuel Hf. apply reads_node; auto. cbn [tree_item] in *. lia.
  - intros s t R Ht He Sm. unfold sml_tree_parse, with_fuel, fuel_of. apply (unless_reads_none _ s t R Ht He Sm).
Qed.

(** *** list entries *)
Definition short_value (e : list_entry) : bool := (length (enc (value_item (le_value e))) <=? 3)%nat.
Lemma hd_short o : opt wf_entry_value o -> every readable (value_item o) -> exists b l, enc (value_item o) = b :: l /\
  ((Z.land b 143 =? 1) || (Z.land b 143 =? 2) || (Z.land b 143 =? 3)) = (length (enc (value_item o)) <=? 3)%nat.
Proof.
  destruct o as [v|]; intros HW HR; [|now exists 1, []].
  destruct (proj1 (reads_value_some v HW HR)) as [b Hb|b Hb|w m Hw Hm|w m Hw Hm|m Hm|m Hm].
  - change (value_item (Some (mkValue 0 (VBytes b)))) with (IOctets b) in *. apply every_here in HR. destruct HR as (HN & HS & HL). cbn [enc]. rewrite app_length.
    assert (HT : In 0 tl_types) by (unfold tl_types; cbn [In]; tauto). set (n := Z.of_nat (length b)) in *.
    destruct (Nat.le_gt_cases (length b) 14) as [Hs|Hs].
    + unfold n. rewrite text_one by (auto; unfold count; cbn; lia). unfold count. change (0 =? 112) with false. cbv iota. cbn [app]. do 2 eexists. split; [reflexivity|].
      cbn [length]. destruct b as [|b0 b]; [congruence|]. cbn [length] in *.
      do 14 (destruct b as [|? b]; [reflexivity|]). cbn [length] in Hs. lia.
    + assert (length (tl_text 0 n) > 1)%nat.
      { rewrite text_length. unfold count. change (0 =? 112) with false. cbv iota. cbn [extra]. destruct (Z.leb_spec (n + 1) 15); lia. }
      destruct (text_field 0 n HT) as (i & x & E & Hi & Hx). rewrite E in *. destruct i as [|y i]; [cbn in *; lia|]. cbn [app]. do 2 eexists. split; [reflexivity|].
      apply Forall_cons_iff in Hi. destruct Hi as [Hy _].
      assert (HL7 : 128 <= Z.land y 143).
      { assert (HA : forallb (fun k => 128 <=? Z.land (128 + Z.of_nat k) 143) (seq 0 128) = true) by reflexivity.
        rewrite forallb_forall in HA. specialize (HA (Z.to_nat (y - 128)) ltac:(apply in_seq; lia)). rewrite Z2Nat.id in HA by lia.
        replace (128 + (y - 128)) with y in HA by lia. lia. }
      destruct (Z.eqb_spec (Z.land y 143) 1); [lia|]. destruct (Z.eqb_spec (Z.land y 143) 2); [lia|]. destruct (Z.eqb_spec (Z.land y 143) 3); [lia|]. symmetry. apply Nat.leb_gt. lia.
  - change (value_item (Some (mkValue 64 (VBool b)))) with (IBool (negb (b =? 0))). cbn [enc]. do 2 eexists. split; [reflexivity|]. reflexivity.
  - rewrite (num_value_item 80 w m) by auto. cbn [enc]. destruct Hm as [HL HB]. do 2 eexists. split; [reflexivity|]. cbn [app length]. rewrite host_length, HL. destruct Hw as [->|[->|[->| ->]]]; reflexivity.
  - rewrite (num_value_item 96 w m) by auto. cbn [enc]. destruct Hm as [HL HB]. do 2 eexists. split; [reflexivity|]. cbn [app length]. rewrite host_length, HL. destruct Hw as [->|[->|[->| ->]]]; reflexivity.
  - apply every_here in HR. contradiction.
  - apply every_here in HR. contradiction.
Qed.
Lemma reads_current {B} (k : Z -> P (option B)) b bs r : reads (k b) (b :: bs) r ->
  reads (bind at_end (fun e : bool => if e then ret None else bind sml_buf_get_current_byte k)) (b :: bs) r.
Proof.
  intros Hk s t R Ht He Sm. unfold bind at 1. rewrite (at_end_cons _ _ _ R). unfold bind at 1. rewrite (current_cons _ _ _ R). now apply (Hk s t).
Qed.
Lemma reads_entry w e : wf_entry e -> every readable (entry_item e) ->
  reads (sml_list_entry_parse w) (enc (entry_item e)) (Some (worked w (short_value e) e)).
Proof.
  destruct e as [a b c d f v g]. intros [W1 W2 W3 W4 W5 W6 W7] HR. unfold entry_item in *. cbn [le_obj_name le_status le_val_time le_unit le_scaler le_value le_value_signature] in *.
  apply reads_label. apply reads_struct; [lia|]. rd HR.
  fl reads_oct. fl reads_status. fl reads_time. fl reads_u8. fl reads_i8.
  destruct (hd_short v W6 R4) as (x & l & EX & ES).
  assert (HV : opt wf_value v) by (destruct v as [v|]; [now apply reads_value_some|exact I]).
  rewrite !flat_cons. rewrite EX. cbn [app]. apply reads_current. cbv zeta. change (x :: l ++ ?y) with ((x :: l) ++ y). rewrite <- EX.
  apply (reads_fld _ _ _ _ v); [now apply reads_value|].
  eapply reads_fld; [now apply reads_oct|]. intros s t Rs _ _ _. unfold bind. rewrite apply_eq by exact HV. change (Z.lor SML_ANOTHER_TL SML_LENGTH_FIELD) with 143. rewrite ES.
  unfold ret. unfold short_value. cbn [le_value]. cbn [flat_map length]. now rewrite at_0.
Qed.
Fixpoint dzg_run (after : bool) (l : sml_list) : sml_list :=
  match l with
  | [] => []
  | e :: t => let r := worked after (short_value e) e in fst r :: dzg_run (snd r) t
  end.
Lemma reads_list_loop l : forall w fuel, Forall wf_entry l -> Forall (fun e => every readable (entry_item e)) l -> (length l <= fuel)%nat ->
  reads (list_loop fuel (Z.of_nat (length l)) w) (flat_map (fun e => enc (entry_item e)) l) (Some (dzg_run w l)).
Proof.
  induction l as [|x l IH]; intros w fuel HW HR Hf.
  - destruct fuel; apply reads_ret.
  - apply Forall_cons_iff in HW, HR. destruct HW as [Wx HW], HR as [Rx HR]. destruct fuel as [|fuel]; [cbn in Hf; lia|]. cbn [length] in *.
    cbn [list_loop flat_map dzg_run]. destruct (Z.leb_spec (Z.of_nat (S (length l))) 0); [lia|].
    replace (Z.of_nat (S (length l)) - 1) with (Z.of_nat (length l)) by lia.
    apply (reads_bind _ _ _ _ _ _ (reads_entry w x Wx Rx)). intros s t R Ht He Sm. unfold bind at 1, sml_buf_has_errors. rewrite He.
    destruct (worked w (short_value x) x) as [e' w']. cbv zeta. cbn [fst snd].
    apply (reads_then _ _ _ _ _ (IH w' fuel HW HR ltac:(lia)) (fun _ => eq_refl) s t); auto.
Qed.
Lemma reads_entries l : Forall wf_entry l -> every readable (entries_item l) -> reads sml_list_parse (enc (entries_item l)) (dzg_run false l).
Proof.
  intros HW HR. assert (EC : l = [] \/ l <> []) by (destruct l; [left; reflexivity|right; discriminate]). destruct EC as [->|EC].
  - intros s t R _ _ _. cbn [entries_item enc dzg_run] in *. unfold sml_list_parse. unfold bind at 1. rewrite (skip_fwd _ _ R). reflexivity.
  - replace (entries_item l) with (list_of entry_item l) in * by (destruct l; [congruence|reflexivity]).
    pose proof (readable_count _ _ HR) as HC. pose proof (readable_all _ _ HR) as HA.
    intros s t R Ht He Sm. unfold list_of in *.
    destruct (list_header (Z.of_nat (length l)) ltac:(lia)) as (TF & TT & TN & TL). rewrite enc_list, count_text in * by lia. rewrite <- app_assoc in R.
    unfold sml_list_parse. unfold bind at 1. rewrite (noskip_fwd _ _ _ R) by lia. change (0 =? 0) with true. cbn [negb].
    unfold bind at 1. rewrite (type_fwd _ _ _ R TF), TT. change (112 =? SML_TYPE_LIST) with true. cbn [negb].
    unfold bind at 1. rewrite (length_fwd _ _ _ Sm R TF) by lia. rewrite TL.
    assert (HP : forall fuel, (length (flat_map enc (map entry_item l)) < fuel)%nat ->
      reads (list_loop fuel (Z.of_nat (length l)) false) (flat_map enc (map entry_item l)) (Some (dzg_run false l))).
    { intros fuel Hf. rewrite flat_map_map in *. apply reads_list_loop; auto.
      assert (length l <= length (flat_map (fun x => enc (entry_item x)) l))%nat; [|lia]. apply flat_long. rewrite Forall_forall in *.
      intros x Hx. apply enc_nonnil; [now apply HA|discriminate]. }
    pose proof (reads_then _ (fun r => match r with Some l => ret l | None => bind set_error (fun _ => ret []) end) _ _ (dzg_run false l)
      (reads_fuel _ _ _ HP) (fun _ => eq_refl)) as HQ. rewrite (HQ _ t) by (auto; now apply at_app).
    rewrite at_at. now rewrite app_length.
Qed.
End WithHost.
