(** The values of trees, and trees. *)
From Verif Require Import Base Buf Crc16 Number OctetString Boolean Value Time SList Tree Bodies
  Message File Lib Wf Safe Safe2 Safe3 Ctx Ctx2 Ctx3 Scan Spec TL Inv Reads NumFacts Dzg Exact Grammar Accept Accept2 Accept3 Accept4.

Lemma fields_impl {A} (W W' : lang A) l : forall bs t, fields (map W l) bs t ->
  (forall x b t', (length b <= length bs)%nat -> W x b t' -> W' x b t') -> fields (map W' l) bs t.
Proof.
  induction l as [|x l IH]; intros bs t X HW; [exact X|]. cbn [map fields] in *. destruct X as (b1 & b2 & -> & X1 & X2).
  exists b1, b2. split; [auto|]. rewrite app_length in HW. split; [apply HW; auto; lia|]. apply IH; auto. intros y b t' Hb. apply HW. lia.
Qed.
Lemma structure_len ws bs t : structure ws bs t -> exists tl b, bs = tl ++ b /\ (0 < length tl)%nat /\ header 112 (Z.of_nat (length ws)) tl /\ fields ws b t.
Proof.
  intros (tl & b & -> & Hh & X). exists tl, b. split; [auto|]. split; [|auto]. destruct (header_type _ _ _ [] Hh) as (c & u & -> & _). cbn. lia.
Qed.
(** a list header and what follows, at the end of a structure *)
Lemma starts_header n l b t : header 112 n l -> exists c u, (l ++ b) ++ t = c :: u /\ c <> 1.
Proof.
  intros Hh. destruct (header_type _ _ _ (b ++ t) Hh) as (b0 & u & _ & E & Hty). rewrite <- app_assoc, E. exists b0, (u ++ b ++ t). split; [auto|].
  intros ->. discriminate.
Qed.

Section WithHost.
Context {H : Host}.

Lemma acc_ppv : acc sml_proc_par_value_parse (proc_par_value true).
Proof.
  unfold sml_proc_par_value_parse. eapply acc_ext.
  - apply acc_unless; [mon| |].
    + apply acc_expect; [mon| |lia]. apply (acc_field _ _ (optional (unsigned true 1))
        (fun tag r bs t => match tag with None => r = None /\ bs = [] | Some m => exists d, ppv_content true (mem_u m) d bs t /\ r = Some (mkPpv (Some m) d) end));
        [mon|exact acc_u8|]. intros [m|]; [|apply acc_ret]. cbv zeta.
      change SML_PROC_PAR_VALUE_TAG_VALUE with 1. change SML_PROC_PAR_VALUE_TAG_PERIOD_ENTRY with 2.
      change SML_PROC_PAR_VALUE_TAG_TUPEL_ENTRY with 3. change SML_PROC_PAR_VALUE_TAG_TIME with 4. generalize (mem_u m) as tag. intros tag.
      destruct (Z.eqb_spec tag 1) as [->|N1]; [|destruct (Z.eqb_spec tag 2) as [->|N2]; [|destruct (Z.eqb_spec tag 3) as [->|N3]; [|destruct (Z.eqb_spec tag 4) as [->|N4]]]].
      * eapply acc_ext; [exact (acc_map _ (fun d => Some (mkPpv (Some m) (from_opt PNull PValue d))) _ acc_value)|]. intros v bs t _ _. split.
        -- intros (x & X & ->). eexists. split; [left; split; [reflexivity|exists x; split; [exact X|reflexivity]]|reflexivity].
        -- intros (d & [(_ & o & X & ->)|[(Y & _)|[(Y & _)|(Y & _)]]] & ->); try discriminate. eauto.
      * eapply acc_ext; [exact (acc_map _ (fun d => Some (mkPpv (Some m) (from_opt PNull PPeriod d))) _ acc_period)|]. intros v bs t _ _. split.
        -- intros (x & X & ->). eexists. split; [right; left; split; [reflexivity|exists x; split; [exact X|reflexivity]]|reflexivity].
        -- intros (d & [(Y & _)|[(_ & o & X & ->)|[(Y & _)|(Y & _)]]] & ->); try discriminate. eauto.
      * eapply acc_ext; [exact (acc_map _ (fun d => Some (mkPpv (Some m) (from_opt PNull PTupel d))) _ acc_tupel)|]. intros v bs t _ _. split.
        -- intros (x & X & ->). eexists. split; [right; right; left; split; [reflexivity|exists x; split; [exact X|reflexivity]]|reflexivity].
        -- intros (d & [(Y & _)|[(Y & _)|[(_ & o & X & ->)|(Y & _)]]] & ->); try discriminate. eauto.
      * eapply acc_ext; [exact (acc_map _ (fun d => Some (mkPpv (Some m) (from_opt PNull PTime d))) _ acc_time)|]. intros v bs t _ _. split.
        -- intros (x & X & ->). eexists. split; [right; right; right; split; [reflexivity|exists x; split; [exact X|reflexivity]]|reflexivity].
        -- intros (d & [(Y & _)|[(Y & _)|[(Y & _)|(_ & o & X & ->)]]] & ->); try discriminate. eauto.
      * eapply acc_ext; [apply acc_null|]. intros v bs t _ _. split; [contradiction|].
        intros (d & [(Y & _)|[(Y & _)|[(Y & _)|(Y & _)]]] & ->); contradiction.
    + intros v bs t (tl & b & -> & Hh & _). exact (starts_header _ _ b t Hh).
  - intros v bs t _ _. unfold proc_par_value. split.
    + intros [X|(tl & b & -> & Hh & tag & b1 & b2 & -> & X1 & X2)]; [now left|]. destruct tag as [m|].
      * destruct X2 as (d & X2 & ->). right. left. exists m, d. split; [|reflexivity]. exists tl, (b1 ++ b2). split; [auto|]. split; [exact Hh|].
        cbn [fields]. exists b1, b2. split; [auto|]. split; [exact X1|]. exists b2, []. rewrite app_nil_r. auto.
      * destruct X2 as (-> & ->). cbn in X1. subst b1. right. right. split; [auto|]. exists tl. rewrite app_nil_r. auto.
    + intros [X|[(m & d & (tl & b & -> & Hh & b1 & b2 & -> & X1 & b3 & b4 & -> & X2 & E) & ->)|(_ & tl & -> & Hh & ->)]]; [now left| |]; right; exists tl.
      * cbn in E. subst b4. rewrite app_nil_r in *. exists (b1 ++ b3). split; [auto|]. split; [exact Hh|]. exists (Some m), b1, b3. split; [auto|]. split; [exact X1|]. eauto.
      * exists [1]. split; [auto|]. split; [exact Hh|]. exists None, [1], []. cbn. auto.
Qed.
Lemma ppv_ne q : nonempty (proc_par_value q).
Proof.
  intros v bs t [(_ & ->)|[(m & d & X & _)|(_ & tl & -> & _)]]; [discriminate|now apply structure_ne in X|]. destruct tl; discriminate.
Qed.

Definition tname '(Tree n _ _) := n.
Definition tvalue '(Tree _ v _) := v.
Definition tchildren '(Tree _ _ c) := c.
Definition children_of (W : lang (option sml_tree)) (c : list sml_tree) (bs t : list Z) : Prop :=
  (c = [] /\ bs = [1]) \/ exists l, sequence_of W l bs t /\ c = present l.
(** the trees read with a given fuel *)
Fixpoint tr (d : nat) : lang (option sml_tree) :=
  match d with
  | O => fun _ _ _ => False
  | S d' => optional (fun x => structure [optional octets (tname x); proc_par_value true (tvalue x); children_of (tr d') (tchildren x)])
  end.
Lemma tr_ne d : nonempty (tr d).
Proof. destruct d; [intros ? ? ? []|]. apply optional_ne. intros v bs t. apply structure_ne. Qed.
Lemma acc_children W (p : P (option sml_tree)) name v : mon p -> acc p W -> nonempty W ->
  acc (sk <- sml_buf_optional_is_skipped ;;
      if negb (sk =? 0) then ret (Some (Tree name v []))
      else
        t <- sml_buf_get_next_type ;;
        if negb (t =? SML_TYPE_LIST) then err_null else
        elems <- sml_buf_get_next_length ;;
        r <- with_fuel (fun fuel => elems_loop fuel elems p) ;;
        match r with
        | None => ret None
        | Some l => ret (Some (Tree name v (somes l)))
        end) (rec (fun x => (True /\ tname x = name) /\ tvalue x = v) (fun x => [children_of W (tchildren x)])).
Proof.
  intros Mp Hp HN. eapply acc_ext.
  - apply acc_bind with (W2 := (fun sk : Z => if negb (sk =? 0) then fun r bs t => r = Some (Tree name v []) /\ bs = []
      else fun r bs t => exists tl b n, bs = tl ++ b /\ header 112 n tl /\ tl_nibbles tl < 2147483648 /\
        exists l, r = Some (Tree name v (somes l)) /\ length l = Z.to_nat n /\ fields (map W l) b t)); [mon|apply acc_skip|].
    intros sk. destruct (negb (sk =? 0)); [apply acc_ret|].
    apply (acc_header 112 _ (fun n r b t => exists l, r = Some (Tree name v (somes l)) /\ length l = Z.to_nat n /\ fields (map W l) b t)); [mon| |mon|apply acc_null].
    intros n. eapply acc_ext; [apply acc_bind with (W2 := (fun o r bs t => r = (match o with None => None | Some l => Some (Tree name v (somes l)) end) /\ bs = []));
      [mon|exact (acc_items p W n Mp Hp HN)|intros [l|]; apply acc_ret]|].
    intros r bs t _ _. split.
    + intros (o & b1 & b2 & -> & (l & -> & HL & X) & -> & ->). rewrite app_nil_r. eauto.
    + intros (l & -> & HL & X). exists (Some l), bs, []. rewrite app_nil_r. eauto 8.
  - intros r bs t _ HL. split.
    + intros (sk & b1 & b2 & -> & [(-> & ->)|(-> & -> & _)] & X); cbn [Z.eqb negb] in X.
      * destruct X as (-> & ->). exists (Tree name v []). split; [auto|]. split; [auto|]. exists [1], []. split; [auto|]. split; [left; auto|reflexivity].
      * destruct X as (tl & b & n & -> & Hh & TN & l & -> & HX & X). exists (Tree name v (somes l)). split; [auto|]. split; [auto|].
        cbn [app fields] in *. exists (tl ++ b), []. rewrite app_nil_r. split; [auto|]. split; [|reflexivity]. right. exists l. split; [|apply somes_present].
        apply items_structure; auto. exists tl, b, n. auto.
    + intros (x & -> & ((_ & <-) & <-) & b1 & b2 & -> & X & E). cbn in E. subst b2. rewrite app_nil_r in *. destruct X as [(E & ->)|(l & X & E)].
      * exists 1, [1], []. split; [auto|]. split; [auto|]. cbn. destruct x as [n0 v0 c]. cbn in *. subst c. auto.
      * apply items_structure in X; auto. destruct X as (tl & b & n & -> & Hh & TN & HX & X). exists 0, [], (tl ++ b). split; [auto|].
        destruct (starts_header _ _ b t Hh) as (c0 & u & E0 & Hc). split; [right; eauto 8|]. cbn [Z.eqb negb].
        exists tl, b, n. split; [auto|]. split; [auto|]. split; [auto|]. exists l. split; [|auto]. rewrite somes_present. destruct x as [n0 v0 c]. cbn in *. now subst c.
Qed.
Lemma acc_tree_rec d : acc (sml_tree_parse_rec d) (tr d).
Proof.
  induction d as [|d IH]; [apply acc_fuel|]. cbn [sml_tree_parse_rec tr]. apply acc_optional; [mon| |intros v; apply starts_structure].
  apply (acc_structure _ _ _); [mon| |lia|reflexivity].
  refine (acc_fld _ _ _ _ tname _ _ _ _); [mon|exact acc_octets|intros name].
  refine (acc_fld _ _ _ _ tvalue _ _ _ _); [mon|exact acc_ppv|intros v].
  apply acc_children; [mon|exact IH|apply tr_ne].
Qed.
Lemma tr_upto d : forall x bs t, tr d (Some x) bs t -> tree_upto true d x bs t.
Proof.
  induction d as [|d IH]; intros x bs t; [intros []|]. cbn [tr optional tree_upto]. destruct x as [n v c]. cbn [tname tvalue tchildren].
  intros (tl & b & -> & Hh & X). exists tl, b. split; [auto|]. split; [exact Hh|]. cbn [fields] in *.
  destruct X as (b1 & b2 & -> & X1 & b3 & b4 & -> & X2 & b5 & b6 & -> & X3 & E). exists b1, (b3 ++ b5 ++ b6). split; [auto|]. split; [exact X1|].
  exists b3, (b5 ++ b6). split; [auto|]. split; [exact X2|]. exists b5, b6. split; [auto|]. split; [|exact E].
  destruct X3 as [X3|(l & (tl' & b' & -> & Hh' & X3) & E3)]; [now left|right]. exists l. split; [|exact E3]. exists tl', b'. split; [auto|]. rewrite map_length in *. split; [auto|].
  eapply fields_impl; [exact X3|]. intros [y|] bb tt _; cbn [optional]; [apply IH|]. intros Y. destruct d; [destruct Y|exact Y].
Qed.
Lemma upto_tr d : forall k x bs t, tree_upto true k x bs t -> (length bs < d)%nat -> tr d (Some x) bs t.
Proof.
  induction d as [|d IH]; intros k x bs t; [lia|]. destruct k as [|k]; [intros []|]. cbn [tr optional tree_upto]. destruct x as [n v c]. cbn [tname tvalue tchildren].
  intros X HL. destruct (structure_len _ _ _ X) as (tl & b & -> & HT & Hh & Y). clear X. exists tl, b. split; [auto|]. split; [exact Hh|]. cbn [fields] in *.
  destruct Y as (b1 & b2 & -> & X1 & b3 & b4 & -> & X2 & b5 & b6 & -> & X3 & E). exists b1, (b3 ++ b5 ++ b6). split; [auto|]. split; [exact X1|].
  exists b3, (b5 ++ b6). split; [auto|]. split; [exact X2|]. exists b5, b6. split; [auto|]. split; [|exact E].
  destruct X3 as [X3|(l & X3 & E3)]; [now left|right]. exists l. split; [|exact E3]. destruct X3 as (tl' & b' & -> & Hh' & X3). exists tl', b'. split; [auto|]. rewrite map_length in *. split; [auto|].
  eapply fields_impl; [exact X3|]. rewrite !app_length in HL. intros [y|] bb tt Hb Y; cbn [optional] in Y; [eapply IH; [exact Y|lia]|]. subst bb. cbn in Hb. destruct d; [lia|]. reflexivity.
Qed.
Lemma acc_tree : acc sml_tree_parse (optional (tree true)).
Proof.
  unfold sml_tree_parse. apply acc_with. intros n s G Hf v s1. rewrite (acc_tree_rec n s G v s1).
  split; intros (bs & t & R & X & E); exists bs, t; (split; [exact R|]); (split; [|exact E]).
  - destruct v as [x|]; [exists n; now apply tr_upto|]. destruct n; [destruct X|exact X].
  - destruct v as [x|]; [destruct X as (k & X); eapply upto_tr; [exact X|rewrite R, app_length in Hf; lia]|]. destruct n; [lia|exact X].
Qed.
End WithHost.
