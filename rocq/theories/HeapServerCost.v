(** How much memory the receiver takes while it prints. *)
From stdpp Require Import gmap.
From Verif Require Import Base Buf Number OctetString Boolean Value Time SList Tree Bodies Message File Transport Server ServerMain Lib
  HeapBase HeapModel HeapCost HeapServerModel HeapServer.

Section Modest.
Context {HO : Host} {AL : Allocator} {ME : Memory}.

(** leaves nothing behind and never needs more than four times what is there *)
Definition modest {A} (p : H A) : Prop := forall st r st', p st = Ret (r, st') ->
  used (hmem st') <= used (hmem st) /\ hpeak st' <= Z.max (hpeak st) (4 * used (hmem st)).

Lemma modest_calm {A} (p : H A) : calm p -> modest p.
Proof. intros C st r st' E. destruct (C _ _ _ E) as (_ & _ & HU & HP). lia. Qed.
Lemma modest_bind {A B} (p : H A) (k : A -> H B) : modest p -> (forall a, modest (k a)) -> modest (bind p k).
Proof.
  intros M1 M2 st r st' E. apply HeapCost.bind_inv in E as (a & st1 & E1 & E2). destruct (M1 _ _ _ E1), (M2 _ _ _ _ E2). lia.
Qed.
Lemma modest_ret {A} (a : A) : modest (ret a).
Proof. apply modest_calm, calm_ret. Qed.
Lemma modest_fail {A} f : modest (@fail hstate A f).
Proof. apply modest_calm, calm_fail. Qed.
Lemma modest_fuel {A} : modest (@out_of_fuel hstate A).
Proof. apply modest_calm, calm_fuel. Qed.
Lemma modest_pure {A} (o : outcome A) : modest (pure_step o).
Proof. intros st r st' E. unfold pure_step in E. destruct o; try discriminate. injection E as <- <-. lia. Qed.
Lemma modest_load p i : modest (load p i).
Proof. apply modest_calm, calm_load. Qed.
Lemma modest_load_int p i : modest (load_int p i).
Proof. apply modest_calm, calm_load_int. Qed.
Lemma modest_load_bytes p : modest (load_bytes p).
Proof. apply modest_calm, calm_load_bytes. Qed.
Lemma modest_heap_fuel {A} (f : nat -> H A) : (forall n, modest (f n)) -> modest (with_heap_fuel f).
Proof. intros C st r st'. unfold with_heap_fuel. apply C. Qed.
Lemma modest_gather {A} (f : slot -> H (list A)) arr : (forall x, modest (f x)) -> forall n i, modest (gather n i arr f).
Proof.
  intros C. induction n as [|n IH]; intros i; [apply modest_ret|]. cbn [gather]. apply modest_bind; [apply modest_load|]. intros x.
  apply modest_bind; [apply C|]. intros a. apply modest_bind; [apply IH|]. intros b. apply modest_ret.
Qed.

Lemma load_bytes_inv p st bs st' : load_bytes p st = Ret (bs, st') -> st' = st /\ exists l, p = Ptr l /\ hmem st !! l = Some (Bytes bs).
Proof.
  intros E. apply HeapCost.bind_inv in E as (b & st1 & E1 & E2). apply load_block_inv in E1 as (-> & l & -> & EL). destruct b; [|discriminate]. injection E2 as -> <-. eauto.
Qed.
Lemma load_inv p i st x st' : load p i st = Ret (x, st') -> st' = st.
Proof.
  intros E. apply HeapCost.bind_inv in E as (ss & st1 & E1 & E2). apply load_struct_inv in E1 as (-> & _). destruct (ss !! i); [|discriminate]. now injection E2 as _ <-.
Qed.
Lemma load_int_inv p i st x st' : load_int p i st = Ret (x, st') -> st' = st.
Proof. intros E. apply HeapCost.bind_inv in E as (y & st1 & E1 & E2). apply load_inv in E1 as ->. destruct y; try discriminate. now injection E2 as _ <-. Qed.
Lemma put_char_length st c st' : put_char st c = Ret st' -> length (fst st') = length (fst st).
Proof. unfold put_char. destruct (_ <? _)%nat; [|discriminate]. intros [= <-]. cbn. apply upd_length. Qed.
Lemma strhex_length str : forall mixed st st', strhex_loop str mixed st = Ret st' -> length (fst st') = length (fst st).
Proof.
  induction str as [|c t IH]; intros mixed st st' E; cbn [strhex_loop] in E; [now injection E as <-|]. destruct (mixed && _).
  - apply obind_inv in E as (s1 & E1 & E). apply put_char_length in E1. apply IH in E. congruence.
  - apply obind_inv in E as (s1 & E1 & E). apply obind_inv in E as (s2 & E2 & E). apply obind_inv in E as (s3 & E3 & E).
    apply put_char_length in E1, E2, E3. apply IH in E. congruence.
Qed.
(** the new text is at most three times as heavy as the one it shows *)
Lemma strhex_block value mixed st r st' : h_value_to_strhex value mixed st = Ret (r, st') ->
  match r with
  | None => st' = st
  | Some (q, _) => q = Nul /\ st' = st \/ exists l b, q = Ptr l /\ hmem st !! l = None /\ hmem st' = <[l := b]> (hmem st) /\
      weight b <= 3 * used (hmem st) /\ hpeak st' = Z.max (hpeak st) (used (hmem st'))
  end.
Proof.
  assert (HN : ret None st = Ret (r, st') -> match r with None => st' = st | Some (q, _) => q = Nul /\ st' = st \/ exists l b, q = Ptr l /\ hmem st !! l = None /\ hmem st' = <[l := b]> (hmem st) /\
      weight b <= 3 * used (hmem st) /\ hpeak st' = Z.max (hpeak st) (used (hmem st')) end) by now intros [= <- <-].
  unfold h_value_to_strhex. destruct value as [|lv|iv]; [exact HN| |];
  (intros E; apply HeapCost.bind_inv in E as (y & st1 & E1 & E); apply load_inv in E1 as ->; destruct y as [|ly|iy]; [exact (HN E)| |];
   (apply HeapCost.bind_inv in E as (tx & st1 & E1 & E); apply load_inv in E1 as ->; destruct tx as [|lz|iz]; [exact (HN E)| |];
    (apply HeapCost.bind_inv in E as (len & st1 & E1 & E); apply load_int_inv in E1 as ->; apply HeapCost.bind_inv in E as (bs & st1 & E1 & E); apply load_bytes_inv in E1 as (-> & lt & _ & EL);
     destruct (Nat.ltb_spec (length bs) (Z.to_nat len)) as [|HL]; [discriminate|]; apply HeapCost.bind_inv in E as (w & st1 & E1 & E);
     unfold pure_step in E1; destruct (strhex_loop _ _ _) as [w'| |] eqn:EW; try discriminate; injection E1 as -> <-;
     destruct (_ <? _)%nat; [|discriminate]; apply HeapCost.bind_inv in E as (p & st1 & E1 & E); injection E as <- <-;
     unfold try_malloc in E1; destruct (grants _ _); [right|injection E1 as <- <-; left; split; reflexivity]; unfold alloc in E1; injection E1 as <- <-;
     eexists _, _; split; [reflexivity|]; split; [apply choose_fresh|]; split; [reflexivity|]; split; [|reflexivity];
     apply strhex_length in EW; cbn [fst] in EW; rewrite repeat_length in EW; pose proof (used_delete _ _ _ EL) as HU; unfold weight in HU |- *;
     rewrite upd_length, EW; match type of HU with context [used (delete ?a ?b)] => pose proof (used_nonneg (delete a b)) end; lia))).
Qed.

Lemma calm_optional {A} p (none : A) f : (forall m, modest (f m)) -> modest (h_optional p none f).
Proof. intros C. destruct p; [apply modest_ret|..]; (apply modest_bind; [apply modest_load_bytes|exact C]). Qed.
Ltac m1 := first [apply modest_ret | apply modest_fail | apply modest_fuel | apply modest_pure | apply modest_load | apply modest_load_int | apply modest_load_bytes
  | apply calm_optional; intros ? | apply modest_bind; [|intros ?] | match goal with |- modest (if ?b then _ else _) => destruct b end].
Ltac ms := cbv zeta beta; repeat (m1; cbv zeta beta).

Lemma modest_entry e : modest (h_receive_entry e).
Proof.
  unfold h_receive_entry. apply modest_bind; [apply modest_load|]. intros v. destruct v as [|lv|]; [apply modest_ret| |];
  (apply modest_bind; [apply modest_load_int|]; intros t; destruct (_ =? _);
   [apply modest_bind; [apply modest_load|]; intros nm; apply modest_bind; [unfold h_obis; ms|]; intros o|unfold h_obis, h_value_to_double, h_num_to_double, h_deref; ms]);
  (intros st r st' E; apply HeapCost.bind_inv in E as (x & st1 & E1 & E); apply strhex_block in E1; destruct x as [[q n]|]; [|discriminate];
   destruct E1 as [[-> ->]|E1]; [discriminate|]; destruct E1 as (l & b & -> & EN & EM & HW & HP); apply HeapCost.bind_inv in E as (tx & st2 & E2 & E); apply load_bytes_inv in E2 as (-> & _);
   apply HeapCost.bind_inv in E as ([] & st2 & E2 & E); injection E as _ <-; unfold free in E2; rewrite EM, lookup_insert in E2; injection E2 as <-;
   unfold set_mem; cbn [hmem hpeak]; rewrite (delete_insert _ _ _ EN), HP, EM, (used_insert _ _ _ EN); pose proof (used_nonneg (hmem st)); lia).
Qed.
Lemma modest_entries fuel : forall e, modest (h_receive_entries fuel e).
Proof.
  induction fuel as [|fuel IH]; intros e; [apply modest_fuel|]. cbn [h_receive_entries]. destruct e; [apply modest_ret|..];
  (apply modest_bind; [apply modest_entry|]; intros a; apply modest_bind; [apply modest_load|]; intros n; apply modest_bind; [apply IH|]; intros b; apply modest_ret).
Qed.
Lemma modest_tag m : modest (h_message_tag m).
Proof. unfold h_message_tag. ms. Qed.
Lemma modest_message m : modest (h_receive_message m).
Proof.
  unfold h_receive_message. apply modest_bind; [apply modest_tag|]. intros t. destruct (_ =? _); [|apply modest_ret]. ms. apply modest_heap_fuel. intros n. apply modest_entries.
Qed.
Lemma modest_first n : forall i arr, modest (h_receive_first n i arr).
Proof.
  induction n as [|n IH]; intros i arr; [apply modest_ret|]. cbn [h_receive_first]. apply modest_bind; [apply modest_load|]. intros m.
  apply modest_bind; [apply modest_message|]. intros a. apply modest_bind; [apply modest_tag|]. intros t. destruct (_ =? _); [apply modest_ret|].
  apply modest_bind; [apply IH|]. intros b. apply modest_ret.
Qed.
Lemma modest_print p : modest (h_file_print p).
Proof.
  unfold h_file_print. apply modest_bind; [apply modest_load_int|]. intros n. apply modest_bind; [apply modest_calm, calm_lift, still_pure|]. intros s.
  apply modest_bind; [apply modest_load|]. intros ms. apply modest_bind; [|intros t; apply modest_ret]. apply modest_gather. intros x.
  apply modest_bind; [apply modest_tag|]. intros t. apply modest_ret.
Qed.
Lemma calm_file_free p : calm (h_file_free p).
Proof.
  unfold h_file_free, h_buffer_free. apply calm_if_ptr, calm_bind; [apply calm_load|]. intros ms. apply calm_bind.
  - destruct ms; [apply calm_ret|..]; (apply calm_bind; [apply calm_load_int|]; intros n; apply calm_bind; [apply calm_for_each; intros x; apply calm_message_free|];
      intros _; apply calm_free).
  - intros _. apply calm_bind; [apply calm_load|]. intros b. apply calm_bind; [|intros _; apply calm_free].
    apply calm_if_ptr, calm_bind; [apply calm_load|]. intros d. apply calm_bind; [apply calm_if_ptr, calm_free|]. intros _. apply calm_free.
Qed.
Lemma modest_show v sf p : modest (h_show v sf p).
Proof.
  unfold h_show. apply modest_bind; [destruct v; [apply modest_print|apply modest_ret]|]. intros head. apply modest_bind; [apply modest_load_int|]. intros n.
  apply modest_bind; [apply modest_load|]. intros arr. apply modest_bind.
  - destruct sf; [apply modest_first|]. apply modest_bind; [apply modest_gather, modest_message|]. intros ls. apply modest_ret.
  - intros r. cbv zeta. destruct (snd r); [apply modest_ret|]. apply modest_bind; [apply modest_calm, calm_file_free|]. intros _. apply modest_ret.
Qed.
End Modest.
