(** The converse of Round.v - Round3.v, continued: trees, sequences and paths. *)
From Verif Require Import Base Buf Crc16 Number OctetString Boolean Value Time SList Tree Bodies Message File
  Lib Wf Safe Safe2 Safe3 Ctx Spec TL Inv MinSize Reads Write TLWrite TLRound NumFacts PropsString Item Enc Dzg Round Round2 Round3 Exact.

(** [p], called again and again without an error, returns the elements of [l]. *)
Inductive runs {A} (p : P A) : list A -> sbuf -> sbuf -> Prop :=
| runs_nil s : runs p [] s s
| runs_cons x l s s2 s1 : p s = Ret (x, s2) -> error s2 = false -> runs p l s2 s1 -> runs p (x :: l) s s1.
Lemma elems_runs {A} (p : P A) fuel : forall k s l s1, 0 <= k -> elems_loop fuel k p s = Ret (Some l, s1) -> runs p l s s1 /\ Z.of_nat (length l) = k.
Proof.
  induction fuel as [|fuel IH]; intros k s l s1 Hk E; cbn [elems_loop] in E; destruct (Z.leb_spec k 0); try discriminate; try (injection E as <- <-; split; [constructor|cbn; lia]).
  apply bind_inv in E. destruct E as (r & s2 & E1 & E). unfold bind at 1, sml_buf_has_errors in E. destruct (error s2) eqn:Er; [discriminate|].
  apply bind_inv in E. destruct E as (r2 & s3 & E2 & E). injection E as EE ->. destruct r2 as [l'|]; [|discriminate]. injection EE as <-.
  apply IH in E2; [|lia]. destruct E2 as [E2 E3]. split; [econstructor; eauto|cbn [length]; lia].
Qed.
Lemma seq_runs {A} (p : P (option A)) fuel : forall k s l s1, 0 <= k -> sequence_loop fuel k p s = Ret (Some l, s1) -> runs p l s s1 /\ Z.of_nat (length l) = k.
Proof.
  induction fuel as [|fuel IH]; intros k s l s1 Hk E; cbn [sequence_loop] in E; destruct (Z.leb_spec k 0); try discriminate; try (injection E as <- <-; split; [constructor|cbn; lia]).
  apply bind_inv in E. destruct E as (r & s2 & E1 & E). unfold bind at 1, sml_buf_has_errors in E. destruct (error s2) eqn:Er; [discriminate|].
  apply bind_inv in E. destruct E as (r2 & s3 & E2 & E). injection E as EE ->. destruct r2 as [l'|]; [|discriminate]. injection EE as <-.
  apply IH in E2; [|lia]. destruct E2 as [E2 E3]. split; [econstructor; eauto|cbn [length]; lia].
Qed.
Lemma runs_error {A} (p : P A) l s s1 : runs p l s s1 -> error s = false -> error s1 = false.
Proof. induction 1; auto. Qed.
Lemma runs_exact {A B} (p : P A) (f : B -> item) (g : B -> A) l : forall s t s1, Forall (fun x => exact_on ne p (f x) (g x)) l ->
  rest s = flat_map enc (map f l) ++ t -> ne t -> error s = false -> small s -> runs p (map g l) s s1 ->
  Forall (fun x => every readable (f x)) l /\ rest s1 = t /\ small s1.
Proof.
  induction l as [|x l IH]; intros s t s1 HF R Ht He Sm HR; inversion HR as [|y l0 sa sb sc P1 P2 P3]; subst; [auto|]. apply Forall_cons_iff in HF. destruct HF as [HX HF].
  cbn [map flat_map] in R. rewrite <- app_assoc in R.
  destruct (HX _ _ _ R (app_nonnil _ _ Ht) He Sm P1 P2) as (HI & R2 & Sm2). destruct (IH _ _ _ HF R2 Ht P2 Sm2 P3) as (HJ & R1 & Sm1). auto.
Qed.
Lemma somes_length {A} (l : list (option A)) : (length (somes l) <= length l)%nat.
Proof. induction l as [|[x|] l IH]; cbn [somes length]; lia. Qed.
Lemma somes_full {A} (l : list (option A)) : length (somes l) = length l -> l = map Some (somes l).
Proof.
  induction l as [|[x|] l IH]; cbn [somes length map]; intros HL; [reflexivity| |].
  - f_equal. apply IH. lia.
  - pose proof (somes_length l). lia.
Qed.

(** [t] does not start with the omitted element *)
Definition not1 (t : list Z) : Prop := exists b u, t = b :: u /\ b <> 1.
Lemma not1_ne t : not1 t -> ne t. Proof. intros (b & u & -> & _). discriminate. Qed.
Lemma list_not1 n items t : 0 <= n <= 15 -> not1 (enc (IList n items) ++ t).
Proof. intros Hn. rewrite enc_list, count_text by lia. exists (112 + n), (flat_map enc items ++ t). split; [reflexivity|lia]. Qed.
Lemma any_list_head n items t : exists b u, enc (IList n items) ++ t = b :: u /\ b <> 1 /\ b / 16 mod 8 * 16 = 112.
Proof.
  assert (HT : In 112 tl_types) by (unfold tl_types; cbn [In]; tauto). rewrite enc_list, <- app_assoc.
  destruct (app_cons_eq (tl_text 112 n) (flat_map enc items ++ t) (text_nonnil _ _ HT)) as (b & l' & EB & EA).
  pose proof (text_type 112 n HT) as TT. rewrite EB in TT. cbn [tl_type] in TT. exists b, (l' ++ flat_map enc items ++ t).
  split; [exact EA|]. split; [|exact TT]. intros ->. discriminate.
Qed.

Section WithHost.
Context {H : Host}.

Ltac fields E Er := repeat (apply field_inv in E; [|exact Er]; let v := fresh "v" in let s' := fresh "s" in let E1 := fresh "E" in let Er1 := fresh "Er" in destruct E as (v & s' & E1 & Er1 & E)).
Ltac ctx := first [assumption | apply oct_fol; unfold ne in *; repeat apply nn_app; assumption | unfold ne in *; repeat apply nn_app; first [assumption | discriminate]].
Ltac g L := match goal with
  | R : rest ?s = enc ?i ++ ?t, He : error ?s = false, Sm : small ?s, E : _ ?s = Ret (_, ?s1), Er : error ?s1 = false |- _ =>
    let HC := fresh in let HR := fresh "HR" in let R' := fresh "R" in let Sm' := fresh "Sm" in
    match type of L with exact_on ?C _ _ _ => assert (HC : C t) by ctx end;
    destruct (go _ _ _ _ _ _ _ L R HC He Sm E Er) as (HR & R' & Sm'); clear R E HC He Sm
  end.
Ltac splice R := cbn [flat_map] in R; rewrite ?app_nil_r, <- ?app_assoc in R.
Ltac all_readable := apply every_list; (split; [split; [reflexivity|lia]|]); repeat (apply Forall_cons; [assumption|]); apply Forall_nil.
Ltac sizes HS := apply every_list in HS; destruct HS as [_ HS]; repeat (apply Forall_cons_iff in HS; let h := fresh "S" in destruct HS as [h HS]).
(** from [expect_list n k s = Ret ...] to the fields *)
Ltac into n R Sm He E := let s0 := fresh "s" in let R1 := fresh "R" in let Sm1 := fresh "Sm" in let He1 := fresh "He" in let E1 := fresh "E" in
  destruct (expect_step n _ _ _ _ _ _ ltac:(lia) R Sm He E) as (s0 & E1 & R1 & Sm1 & He1); clear E R Sm He; rename E1 into E, R1 into R, Sm1 into Sm, He1 into He; splice R.

Lemma ex_none {A} (k : P (option A)) : exact_on ne (unless_skipped k) IOmitted None.
Proof. apply ex_reads; [exact (conj I I)|apply unless_reads_none]. Qed.
Lemma struct_go {A} (k : P (option A)) n items s t r s1 : 0 <= n <= 15 -> rest s = enc (IList n items) ++ t -> unless_skipped k s = Ret (r, s1) -> k s = Ret (r, s1).
Proof.
  intros Hn R E. destruct (any_list_head n items t) as (b & u & EB & Hb & _). rewrite EB in R. now rewrite (unless_noskip _ _ _ _ R Hb) in E.
Qed.

(** *** period entries and parameter values *)
Lemma ex_period o : opt wf_period o -> every (size_ok false) (period_item o) -> exact_on ne sml_period_entry_parse (period_item o) o.
Proof.
  intros HW HS. destruct o as [p|]; [|apply ex_none]. intros s t s1 R Ht He Sm E Er. destruct HW as [W1 W2 W3 W4 W5]. cbn [period_item] in *. sizes HS.
  apply (struct_go _ 5 _ _ _ _ _ ltac:(lia) R) in E. into 5 R Sm He E. fields E Er. inversion E. subst p. clear E. cbn [pe_obj_name pe_unit pe_scaler pe_value pe_value_signature] in *. subst.
  g (ex_oct _ S). g (ex_u8 _ W2). g (ex_i8 _ W3). g (ex_value _ W4 S2). g (ex_oct _ S3). split; [all_readable|auto].
Qed.
Lemma expect_wrong {B} n (k : P (option B)) s items t r s1 : 15 < n < 2 ^ 28 -> rest s = enc (IList n items) ++ t -> small s -> error s = false ->
  expect_list n k s = Ret (r, s1) -> error s1 = true.
Proof.
  intros Hn R Sm He E. rewrite enc_list, <- app_assoc in R. destruct (header_go n s _ (conj (Z.le_trans 0 15 n ltac:(lia) ltac:(lia)) (proj2 Hn)) R He Sm)
    as (b & u & k0 & s2 & RB & Hb & HB & ET & EL & R2 & He2 & Sm2 & K0 & K1 & K2).
  unfold expect_list in E. unfold bind at 1 in E. rewrite ET in E. change (112 =? SML_TYPE_LIST) with true in E. cbn [negb] in E.
  unfold bind at 1 in E. rewrite EL in E. destruct (Z.eqb_spec k0 n) as [HE|_]; [apply K1 in HE; lia|]. cbn [negb] in E. now apply err_null_inv in E.
Qed.
Lemma tupel_lost v s t r s1 : rest s = enc (tupel_item (Some v)) ++ t -> small s -> error s = false ->
  sml_tupel_entry_parse s = Ret (r, s1) -> error s1 = true.
Proof.
  intros R Sm He E. unfold sml_tupel_entry_parse in E. cbn [tupel_item] in R.
  match type of R with _ = enc (IList 23 ?l) ++ _ => destruct (any_list_head 23 l t) as (b & u & EB & Hb & _) end.
  rewrite (unless_noskip _ _ _ _ (eq_trans R EB) Hb) in E. apply (expect_wrong 23 _ _ _ _ _ _ ltac:(change (2 ^ 28) with 268435456; lia) R Sm He E).
Qed.
Lemma ppv_inv {A} (p : P (option A)) (c : A -> ppv_data) tag d s s1 : bind p (fun x => ret (Some (mkPpv tag (from_opt PNull c x)))) s = Ret (Some (mkPpv tag d), s1) ->
  exists x, p s = Ret (x, s1) /\ d = from_opt PNull c x.
Proof. intros E. apply bind_inv in E. destruct E as (x & s2 & E1 & E). injection E as <- <-. eauto. Qed.
Lemma ex_ppv o : opt wf_ppv o -> every (size_ok false) (ppv_item o) -> exact_on fol sml_proc_par_value_parse (ppv_item o) o.
Proof.
  intros HW HS. destruct o as [v|]; [|apply (ex_weaken ne); [apply fol_ne|apply ex_none]]. intros s t s1 R Ct He Sm E Er. pose proof (fol_ne _ Ct) as Ht.
  destruct v as [tag d]. destruct HW as (m & ET & Hm & HD). cbn [ppv_item ppv_tag ppv_dat] in *. subst tag. sizes HS.
  apply (struct_go _ 2 _ _ _ _ _ ltac:(lia) R) in E. into 2 R Sm He E.
  assert (HM : exists s2, sml_u8_parse s0 = Ret (Some m, s2) /\ error s2 = false /\
    (let t := mem_u m in
      if t =? SML_PROC_PAR_VALUE_TAG_VALUE then
        d <- sml_value_parse ;; ret (Some (mkPpv (Some m) (from_opt PNull PValue d)))
      else if t =? SML_PROC_PAR_VALUE_TAG_PERIOD_ENTRY then
        d <- sml_period_entry_parse ;; ret (Some (mkPpv (Some m) (from_opt PNull PPeriod d)))
      else if t =? SML_PROC_PAR_VALUE_TAG_TUPEL_ENTRY then
        d <- sml_tupel_entry_parse ;; ret (Some (mkPpv (Some m) (from_opt PNull PTupel d)))
      else if t =? SML_PROC_PAR_VALUE_TAG_TIME then
        d <- sml_time_parse ;; ret (Some (mkPpv (Some m) (from_opt PNull PTime d)))
      else err_null) s2 = Ret (Some (mkPpv (Some m) d), s1)).
  { assert (HN : forall c, opt (wf_num 1) (Some c) -> True) by auto. unfold field in E. unfold bind at 1 in E.
    match type of R with _ = _ ++ ?u => assert (Hu : u <> []) by (apply nn_app, Ht) end.
    rewrite (reads_u8 (Some m) Hm s0 _ R Hu He Sm) in E. unfold bind at 1, sml_buf_has_errors in E. rewrite at_error, He in E. cbn [orb] in E.
    eexists. split; [apply (reads_u8 (Some m) Hm s0 _ R Hu He Sm)|]. split; [rewrite at_error, He; reflexivity|]. exact E. }
  destruct HM as (s2 & E0 & Er0 & E1). clear E. g (ex_u8 (Some m) Hm). cbv zeta in E1.
  assert (HC : mem_u m = 1 \/ mem_u m = 2 \/ mem_u m = 3 \/ mem_u m = 4).
  { destruct (mem_u m) as [|[[?|?|]|[?|[?|?|]|]|]|]; try contradiction; tauto. }
  destruct HC as [E|[E|[E|E]]]; rewrite E in *; destruct HD as (x & -> & HX); cbv iota beta in *.
  - change (1 =? SML_PROC_PAR_VALUE_TAG_VALUE) with true in E1. cbv iota in E1. apply ppv_inv in E1. destruct E1 as (y & E1 & EY).
    assert (y = x) as -> by (destruct x, y; cbn in EY; congruence).
    destruct x as [x|]; cbn [from_opt] in *; [g (ex_value (Some x) HX S0)|g (ex_value None I (conj I I))]; (split; [all_readable|auto]).
  - change (2 =? SML_PROC_PAR_VALUE_TAG_VALUE) with false in E1. change (2 =? SML_PROC_PAR_VALUE_TAG_PERIOD_ENTRY) with true in E1. cbv iota in E1. apply ppv_inv in E1. destruct E1 as (y & E1 & EY).
    assert (y = x) as -> by (destruct x, y; cbn in EY; congruence).
    destruct x as [x|]; cbn [from_opt] in *; [g (ex_period (Some x) HX S0)|g (ex_period None I (conj I I))]; (split; [all_readable|auto]).
  - change (3 =? SML_PROC_PAR_VALUE_TAG_VALUE) with false in E1. change (3 =? SML_PROC_PAR_VALUE_TAG_PERIOD_ENTRY) with false in E1. change (3 =? SML_PROC_PAR_VALUE_TAG_TUPEL_ENTRY) with true in E1.
    cbv iota in E1. apply ppv_inv in E1. destruct E1 as (y & E1 & EY).
    assert (y = x) as -> by (destruct x, y; cbn in EY; congruence).
    destruct x as [x|]; cbn [from_opt] in *.
    + exfalso. match goal with R : rest s2 = _, Sm : small s2 |- _ => pose proof (tupel_lost x _ _ _ _ R Sm Er0 E1) end. congruence.
    + assert (HN : exact_on ne sml_tupel_entry_parse IOmitted None) by apply ex_none. g HN. split; [all_readable|auto].
  - change (4 =? SML_PROC_PAR_VALUE_TAG_VALUE) with false in E1. change (4 =? SML_PROC_PAR_VALUE_TAG_PERIOD_ENTRY) with false in E1. change (4 =? SML_PROC_PAR_VALUE_TAG_TUPEL_ENTRY) with false in E1.
    change (4 =? SML_PROC_PAR_VALUE_TAG_TIME) with true in E1. cbv iota in E1. apply ppv_inv in E1. destruct E1 as (y & E1 & EY).
    assert (y = x) as -> by (destruct x, y; cbn in EY; congruence).
    destruct x as [x|]; cbn [from_opt] in *; [g (ex_time (Some x) HX)|g (ex_time None I)]; (split; [all_readable|auto]).
Qed.

(** *** sequences *)
Lemma list_readable {A} (f : A -> item) l : Forall (fun x => every readable (f x)) l -> Z.of_nat (length l) <= 15 -> every readable (list_of f l).
Proof. intros HF HL. apply every_list. split; [|now rewrite Forall_map]. split; [now rewrite map_length|exact HL]. Qed.
Lemma ex_seq {A} (p : P (option A)) (f : option A -> item) l : every (size_ok false) (seq_item f (Some l)) ->
  Forall (fun x => every (size_ok false) (f x) -> exact_on ne p (f x) x) l -> exact_on ne (sml_sequence_parse p) (seq_item f (Some l)) (Some l).
Proof.
  intros HS HF s t s1 R Ht He Sm E Er. cbn [seq_item] in *. unfold list_of in *. apply every_list in HS. destruct HS as [[HS _] HA]. rewrite enc_list, <- app_assoc in R.
  destruct (header_go (Z.of_nat (length l)) s _ (conj (Nat2Z.is_nonneg _) HS) R He Sm) as (b & u & k & s2 & RB & Hb & HB & ET & EL & R2 & He2 & Sm2 & K0 & K1 & K2).
  unfold sml_sequence_parse in E. destruct (label_inv _ _ _ _ E Er) as (x & Ex & E0). injection Ex as <-. clear E.
  unfold bind at 1 in E0. rewrite ET in E0. change (112 =? SML_TYPE_LIST) with true in E0. cbn [negb] in E0. unfold bind at 1 in E0. rewrite EL in E0.
  unfold with_fuel in E0. destruct (seq_runs _ _ _ _ _ _ K0 E0) as [HR HL]. symmetry in HL. pose proof (proj1 K1 HL) as Hn.
  rewrite Forall_map in HA. assert (HX : Forall (fun x => exact_on ne p (f x) (id x)) l). { rewrite Forall_forall in *. intros x Hx. apply HF; auto. }
  rewrite <- (map_id l) in HR. destruct (runs_exact p f id l s2 t s1 HX R2 Ht He2 Sm2 HR) as (HI & R1 & Sm1). split; [|auto]. now apply list_readable.
Qed.

(** *** trees *)
Lemma kids_fol l t : fol t \/ l <> [] \/ ne t -> ne t -> fol (enc (kids_item l) ++ t).
Proof.
  intros _ Ht. destruct l as [|x l]; [exists 1, t; auto|]. change (kids_item (x :: l)) with (list_of node_item (x :: l)). unfold list_of.
  destruct (any_list_head (Z.of_nat (length (x :: l))) (map node_item (x :: l)) t) as (b & u & EB & Hb & HB). exists b, u. auto.
Qed.
Lemma node_not1 c t : not1 (enc (node_item c) ++ t).
Proof. destruct c as [a b c]. rewrite node_eq. apply list_not1. lia. Qed.
Lemma tree_none depth s b t s1 : rest s = b :: t -> sml_tree_parse_rec depth s = Ret (None, s1) -> error s1 = false -> b = 1.
Proof.
  intros R E Er. destruct depth as [|depth]; [discriminate|]. cbn [sml_tree_parse_rec] in E. destruct (unless_go _ _ _ _ _ _ R E) as [(-> & _)|[Hb E0]]; [reflexivity|exfalso]. clear E.
  unfold expect_list in E0. apply bind_inv in E0. destruct E0 as (ty & s2 & _ & E). destruct (negb _); [apply err_null_inv in E; congruence|].
  apply bind_inv in E. destruct E as (k & s3 & _ & E). destruct (negb _); [apply err_null_inv in E; congruence|].
  fields E Er. apply bind_inv in E. destruct E as (sk & sx & EK1 & E). destruct (negb _); [discriminate|].
  apply bind_inv in E. destruct E as (ty' & sy & EK2 & E). destruct (negb _); [apply err_null_inv in E; congruence|].
  apply bind_inv in E. destruct E as (k' & sz & EK3 & E). apply bind_inv in E. destruct E as (r & sw & EK4 & E). destruct r as [l|]; [discriminate|]. injection E as <-.
  unfold with_fuel in EK4. clear -EK4 Er. revert EK4. generalize (fuel_of sz). intros fuel. revert k' sz. induction fuel as [|fuel IH]; intros k s E; cbn [elems_loop] in E; destruct (Z.leb_spec k 0); try discriminate.
  apply bind_inv in E. destruct E as (r & s2 & E1 & E). unfold bind at 1, sml_buf_has_errors in E. destruct (error s2) eqn:Er2; [injection E as <-; congruence|].
  apply bind_inv in E. destruct E as (r2 & s3 & E2 & E). injection E as EE ->. destruct r2 as [l'|]; [discriminate|]. eauto.
Qed.
Lemma kids_runs depth : forall l l' s t s1, Forall (fun c => exact_on not1 (sml_tree_parse_rec depth) (node_item c) (Some c)) l ->
  rest s = flat_map enc (map node_item l) ++ t -> not1 t -> error s = false -> small s -> runs (sml_tree_parse_rec depth) l' s s1 -> somes l' = l ->
  Forall (fun c => every readable (node_item c)) l /\ length l' = length l /\ rest s1 = t /\ small s1.
Proof.
  induction l as [|c l IH]; intros l' s t s1 HF R Ct He Sm HR EL.
  - cbn [map flat_map app] in R. destruct Ct as (b & u & -> & Hb). inversion HR as [|y l0 sa sb sc P1 P2 P3]; subst; [auto|]. exfalso.
    destruct y as [y|]; [discriminate|]. apply Hb. eapply tree_none; eauto.
  - cbn [map flat_map] in R. rewrite <- app_assoc in R. apply Forall_cons_iff in HF. destruct HF as [HX HF].
    inversion HR as [|y l0 sa sb sc P1 P2 P3]; subst; [discriminate|].
    assert (CN : not1 (flat_map enc (map node_item l) ++ t)). { destruct l as [|c2 l]; [exact Ct|]. cbn [map flat_map]. rewrite <- app_assoc. apply node_not1. }
    destruct y as [y|].
    + cbn [somes] in EL. injection EL as -> EL. destruct (HX _ _ _ R CN He Sm P1 P2) as (HI & R2 & Sm2). destruct (IH _ _ _ _ HF R2 Ct P2 Sm2 P3 EL) as (HJ & HL & R1 & Sm1).
      split; [auto|]. cbn [length]. auto.
    + exfalso. destruct (node_not1 c (flat_map enc (map node_item l) ++ t)) as (b & u & EB & Hb). apply Hb. eapply tree_none; [|exact P1|exact P2]. rewrite R. exact EB.
Qed.
Lemma ex_node : forall c depth, wf_tree c -> every (size_ok false) (node_item c) -> exact_on not1 (sml_tree_parse_rec depth) (node_item c) (Some c).
Proof.
  induction c as [name value children IH] using tree_ind'. intros depth HW HS s t s1 R Ct He Sm E Er. inversion HW as [? ? ? W1 W2 W3]; subst.
  pose proof (not1_ne _ Ct) as Ht. rewrite node_eq in *. sizes HS. destruct depth as [|depth]; [discriminate|]. cbn [sml_tree_parse_rec] in E.
  apply (struct_go _ 3 _ _ _ _ _ ltac:(lia) R) in E. into 3 R Sm He E. fields E Er.
  apply bind_inv in E. destruct E as (sk & sx & EK & E).
  assert (EV : v = name /\ v0 = value).
  { destruct (negb _); [injection E; intros; auto|]. apply bind_inv in E. destruct E as (ty' & sy & _ & E). destruct (negb _); [apply err_null_inv in E; congruence|].
    apply bind_inv in E. destruct E as (k' & sz & _ & E). apply bind_inv in E. destruct E as (r & sw & _ & E). destruct r as [l|]; [|discriminate]. injection E; intros; auto. }
  destruct EV as [-> ->]. g (ex_oct _ S).
  assert (CF : fol (enc (kids_item children) ++ t)) by (apply kids_fol; auto). g (ex_ppv _ W2 S0).
  assert (EC : children = [] \/ children <> []) by (destruct children; [left; reflexivity|right; discriminate]). destruct EC as [->|EC].
  - match goal with R : rest s3 = _ |- _ => cbn [kids_item enc app] in R; rewrite (skip_fwd _ _ R) in EK; injection EK as <- <-; change (negb (1 =? 0)) with true in E; cbv iota in E; injection E as <-;
      (split; [all_readable|split; [exact (at_app s3 [1] t false R)|now apply at_small]]) end.
  - rewrite (kids_eq _ EC) in *. unfold list_of in *. apply every_list in S1. destruct S1 as [[S1 _] SA]. rewrite Forall_map in SA.
    match goal with R : rest s3 = _ |- _ => rename R into RK end. match goal with Q : small s3 |- _ => rename Q into SmK end.
    rewrite enc_list, <- app_assoc in RK.
    destruct (header_go (Z.of_nat (length children)) s3 _ (conj (Nat2Z.is_nonneg _) S1) RK Er1 SmK) as (b & u & k & sy & RB & Hb & HB & ET & EL & R2 & He2 & Sm2 & K0 & K1 & K2).
    rewrite (noskip_fwd _ _ _ RB Hb) in EK. injection EK as <- <-. change (negb (0 =? 0)) with false in E. cbv iota in E.
    unfold bind at 1 in E. rewrite ET in E. change (112 =? SML_TYPE_LIST) with true in E. cbn [negb] in E. unfold bind at 1 in E. rewrite EL in E.
    apply bind_inv in E. destruct E as (r & sw & E4 & E). destruct r as [l|]; [|discriminate]. injection E as E <-. unfold with_fuel in E4.
    destruct (elems_runs _ _ _ _ _ _ K0 E4) as [HR' HL].
    assert (HX : Forall (fun c => exact_on not1 (sml_tree_parse_rec depth) (node_item c) (Some c)) children).
    { rewrite Forall_forall in *. intros c Hc. apply IH; auto. }
    destruct (kids_runs depth children l sy t sw HX R2 Ct He2 Sm2 HR' E) as (HI & HL' & R1 & Sm1).
    assert (HK : every readable (IList (Z.of_nat (length children)) (map node_item children))).
    { apply (list_readable node_item); [exact HI|]. apply K1. lia. }
    split; [all_readable|auto].
Qed.
Lemma ex_tree o : opt wf_tree o -> every (size_ok false) (tree_item o) -> exact_on not1 sml_tree_parse (tree_item o) o.
Proof.
  intros HW HS. destruct o as [c|].
  - intros s t s1 R Ct He Sm E Er. unfold sml_tree_parse, with_fuel in E. apply (ex_node c (fuel_of s) HW HS s t s1); auto.
  - apply (ex_weaken ne); [apply not1_ne|]. apply ex_reads; [exact (conj I I)|]. apply reads_tree; [exact I|exact (conj I I)].
Qed.

(** *** paths *)
(** Nothing is added, or an empty string first. *)
Definition dull (l : list (option octet_string)) : Prop := somes l = [] \/ exists x, somes l = [] :: x.
Lemma dull_head r l : dull (r :: l) -> (r = None /\ dull l) \/ r = Some [].
Proof. intros HD. destruct r as [v|]; [right|left; split; [reflexivity|exact HD]]. destruct HD as [HD|(x & HD)]; [discriminate|]. injection HD as -> _. reflexivity. Qed.
Notation octets_run := (runs sml_octet_string_parse).
Lemma dull_one b u r l s s1 : b = 1 \/ b / 16 mod 8 * 16 <> 0 -> rest s = b :: u -> small s -> octets_run (r :: l) s s1 -> dull (r :: l) ->
  b = 1 /\ exists s2, rest s2 = u /\ small s2 /\ error s2 = false /\ octets_run l s2 s1 /\ dull l.
Proof.
  intros Hb R Sm HR HD. inversion HR as [|y l0 sa sb sc P1 P2 P3]; subst. destruct (Z.eq_dec b 1) as [->|Hn].
  - split; [reflexivity|]. rewrite (octet_1 _ _ R) in P1. injection P1 as <- <-. exists (at_ s 1 false). split; [exact (at_app s [1] u false R)|].
    split; [now apply at_small|]. split; [exact P2|]. split; [exact P3|]. destruct (dull_head _ _ HD) as [[_ HD']|HD']; [exact HD'|discriminate].
  - exfalso. destruct Hb as [Hb|Hb]; [contradiction|]. pose proof (octet_not _ _ _ _ _ R Hb P1). congruence.
Qed.
Lemma dull_oct o u r l s s1 : every (size_ok false) (oct_item o) -> rest s = enc (oct_item o) ++ u -> ne u -> small s -> error s = false -> octets_run (r :: l) s s1 -> dull (r :: l) ->
  enc (oct_item o) = [1] /\ exists s2, rest s2 = u /\ small s2 /\ error s2 = false /\ octets_run l s2 s1 /\ dull l.
Proof.
  intros HS R Hu Sm He HR HD. destruct o as [v|].
  - inversion HR as [|y l0 sa sb sc P1 P2 P3]; subst. cbn [oct_item] in *. destruct (octet_at_string v s u _ _ HS R Hu He Sm P1 P2) as [(-> & -> & -> & R2)|(Hv & _ & -> & _)].
    + split; [reflexivity|]. exists (at_ s 1 false). split; [exact R2|]. split; [now apply at_small|]. split; [exact P2|]. split; [exact P3|].
      destruct (dull_head _ _ HD) as [[_ HD']|HD']; [exact HD'|discriminate].
    + exfalso. destruct (dull_head _ _ HD) as [[HD' _]|HD']; congruence.
  - cbn [oct_item enc app] in R. destruct (dull_one _ _ _ _ _ _ (or_introl eq_refl) R Sm HR HD) as [_ HX]. auto.
Qed.
Lemma dull_list n items u r l s s1 : rest s = enc (IList n items) ++ u -> small s -> octets_run (r :: l) s s1 -> dull (r :: l) -> False.
Proof.
  intros R Sm HR HD. destruct (any_list_head n items u) as (b & w & EB & Hb & HB). rewrite EB in R.
  destruct (dull_one b w r l s s1 ltac:(right; rewrite HB; discriminate) R Sm HR HD) as [E _]. contradiction.
Qed.
Lemma dull_99 u r l s s1 : rest s = 99 :: u -> small s -> octets_run (r :: l) s s1 -> dull (r :: l) -> False.
Proof. intros R Sm HR HD. destruct (dull_one 99 u r l s s1 ltac:(right; discriminate) R Sm HR HD) as [E _]. discriminate. Qed.
(** reading over written octet strings *)
Lemma dull_items w : forall l s t s1, Forall (fun o => every (size_ok false) (oct_item o)) w -> rest s = flat_map enc (map oct_item w) ++ t -> ne t -> small s -> error s = false ->
  octets_run l s s1 -> dull l ->
  ((length l <= length w)%nat /\ rest s1 = flat_map enc (map oct_item (skipn (length l) w)) ++ t /\ small s1 /\ error s1 = false) \/
  (exists l2 s2, length l = (length w + length l2)%nat /\ l2 <> [] /\ rest s2 = t /\ small s2 /\ error s2 = false /\ octets_run l2 s2 s1 /\ dull l2).
Proof.
  induction w as [|o w IH]; intros l s t s1 HF R Ht Sm He HR HD.
  - destruct l as [|r l]; [left; inversion HR; subst; auto|right]. exists (r :: l), s. cbn [map flat_map app] in R. repeat split; auto. discriminate.
  - destruct l as [|r l]; [left; inversion HR; subst; cbn; repeat split; auto; lia|]. apply Forall_cons_iff in HF. destruct HF as [HO HF].
    cbn [map flat_map] in R. rewrite <- app_assoc in R.
    destruct (dull_oct o _ r l s s1 HO R (app_nonnil _ _ Ht) Sm He HR HD) as (_ & s2 & R2 & Sm2 & He2 & HR2 & HD2).
    destruct (IH l s2 t s1 HF R2 Ht Sm2 He2 HR2 HD2) as [(HL & HX)|(l2 & s3 & HL & HX)]; [left|right].
    + split; [cbn [length]; lia|exact HX].
    + exists l2, s3. split; [cbn [length]; lia|exact HX].
Qed.
(** What was read as the path [w] written before [t]. *)
Definition swallowed (t : list Z) (s1 : sbuf) : Prop :=
  exists l s, l <> [] /\ dull l /\ rest s = t /\ small s /\ error s = false /\ octets_run l s s1.
Lemma path_runs0 w : forall l s t s1, Forall (fun v => every (size_ok false) (IOctets v)) w -> rest s = flat_map enc (map IOctets w) ++ t -> ne t -> small s -> error s = false ->
  octets_run l s s1 -> (exists x, somes l = [] :: x) -> swallowed t s1.
Proof.
  induction w as [|v w IH]; intros l s t s1 HF R Ht Sm He HR (x & HX).
  - exists l, s. cbn [map flat_map app] in R. repeat split; auto; [destruct l; discriminate|right; eauto].
  - apply Forall_cons_iff in HF. destruct HF as [HO HF]. cbn [map flat_map] in R. rewrite <- app_assoc in R. destruct l as [|r l]; [discriminate|].
    inversion HR as [|y l0 sa sb sc P1 P2 P3]; subst. destruct (octet_at_string v s _ _ _ HO R (app_nonnil _ _ Ht) He Sm P1 P2) as [(-> & -> & -> & R2)|(Hv & _ & -> & _)].
    + apply (IH l (at_ s 1 false)); eauto using at_small.
    + injection HX as -> _. congruence.
Qed.
Lemma path_runs w : forall l s t s1, Forall (fun v => every (size_ok false) (IOctets v)) w -> rest s = flat_map enc (map IOctets w) ++ t -> ne t -> small s -> error s = false ->
  octets_run l s s1 -> somes l = w ->
  (length l = length w /\ Forall (fun v => every readable (IOctets v)) w /\ rest s1 = t /\ small s1) \/ swallowed t s1.
Proof.
  induction w as [|v w IH]; intros l s t s1 HF R Ht Sm He HR HX.
  - cbn [map flat_map app] in R. destruct l as [|r l]; [left; inversion HR; subst; auto|right]. exists (r :: l), s. repeat split; auto; [discriminate|left; exact HX].
  - apply Forall_cons_iff in HF. destruct HF as [HO HF]. cbn [map flat_map] in R. rewrite <- app_assoc in R. destruct l as [|r l]; [discriminate|].
    inversion HR as [|y l0 sa sb sc P1 P2 P3]; subst. destruct (octet_at_string v s _ _ _ HO R (app_nonnil _ _ Ht) He Sm P1 P2) as [(-> & -> & -> & R2)|(Hv & HI & -> & R2 & Sm2)].
    + right. apply (path_runs0 w l (at_ s 1 false)); eauto using at_small.
    + cbn [somes] in HX. injection HX as HX. destruct (IH l sb t s1 HF R2 Ht Sm2 P2 P3 HX) as [(HL & HJ & HK)|HS]; [left|right; exact HS].
      split; [cbn [length]; lia|]. split; [constructor; [exact (conj HI I)|exact HJ]|exact HK].
Qed.
Lemma path_back p s t s1 : every (size_ok false) (path_item p) -> rest s = enc (path_item p) ++ t -> ne t -> error s = false -> small s ->
  sml_tree_path_parse s = Ret (p, s1) -> error s1 = false ->
  (every readable (path_item p) /\ rest s1 = t /\ small s1) \/ swallowed t s1 \/
  (p = Some [] /\ rest s = t /\ exists b u k s2 l, t = b :: u /\ b <> 1 /\ b / 16 mod 8 * 16 = 112 /\ sml_buf_get_next_length s = Ret (k, s2) /\ octets_run l s2 s1 /\ (0 <= k -> Z.of_nat (length l) = k) /\ somes l = []).
Proof.
  intros HS R Ht He Sm E Er. destruct p as [w|].
  2:{ left. cbn [path_item] in *. assert (HN : exact_on ne sml_tree_path_parse IOmitted None) by apply ex_none. apply (HN s t s1); auto. }
  destruct w as [|x w0].
  - right. right. split; [reflexivity|]. cbn [path_item enc app] in R. split; [exact R|]. destruct t as [|b u]; [exfalso; apply Ht; reflexivity|].
    unfold sml_tree_path_parse in E. destruct (unless_go _ _ _ _ _ _ R E) as [(_ & E0 & _)|[Hb E0]]; [discriminate|]. clear E.
    destruct (label_inv _ _ _ _ E0 Er) as (y & Ey & E). injection Ey as <-. unfold bind at 1 in E. rewrite (next_type_eq _ _ _ R) in E.
    destruct (Z.eqb_spec (b / 16 mod 8 * 16) SML_TYPE_LIST) as [HB|]; [|discriminate]. cbn [negb] in E.
    apply bind_inv in E. destruct E as (k & s2 & EL & E). apply bind_inv in E. destruct E as (r & s3 & E1 & E). destruct r as [l|]; [|discriminate]. injection E as E <-.
    unfold with_fuel in E1. exists b, u, k, s2.
    destruct (Z.le_gt_cases 0 k) as [Hk|Hk].
    + destruct (elems_runs _ _ _ _ _ _ Hk E1) as [HR HL]. exists l. repeat split; auto.
    + assert (l = [] /\ s2 = s3) as [-> ->].
      { revert E1. destruct (fuel_of s2); cbn [elems_loop]; destruct (Z.leb_spec k 0); try lia; unfold ret; intros E1; inversion E1; auto. }
      exists []. repeat split; auto; [constructor|lia].
  - set (w := x :: w0) in *. change (path_item (Some w)) with (list_of IOctets w) in *. unfold list_of in *. apply every_list in HS. destruct HS as [[HS _] HA]. rewrite Forall_map in HA.
    assert (R0 := R). rewrite enc_list, <- app_assoc in R.
    destruct (header_go (Z.of_nat (length w)) s _ (conj (Nat2Z.is_nonneg _) HS) R He Sm) as (b & u & k & s2 & RB & Hb & HB & ET & EL & R2 & He2 & Sm2 & K0 & K1 & K2).
    unfold sml_tree_path_parse in E. rewrite (unless_noskip _ _ _ _ RB Hb) in E. destruct (label_inv _ _ _ _ E Er) as (y & Ey & E0). injection Ey as <-. clear E.
    unfold bind at 1 in E0. rewrite ET in E0. change (112 =? SML_TYPE_LIST) with true in E0. cbn [negb] in E0. unfold bind at 1 in E0. rewrite EL in E0.
    apply bind_inv in E0. destruct E0 as (r & s3 & E1 & E). destruct r as [l|]; [|discriminate]. injection E as E <-. unfold with_fuel in E1.
    destruct (elems_runs _ _ _ _ _ _ K0 E1) as [HR HL].
    destruct (path_runs w l s2 t s3 HA R2 Ht Sm2 He2 HR E) as [(HN & HI & HX)|HX]; [left|right; left; exact HX].
    split; [|exact HX]. apply (list_readable IOctets); [exact HI|]. apply K1. rewrite <- HL. f_equal. exact HN.
Qed.
End WithHost.
