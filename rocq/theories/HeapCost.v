(** How much memory the parser takes, counted on the heap model. *)
From stdpp Require Import gmap.
From Verif Require Import Base Buf Crc16 Number OctetString Boolean Value Time SList Tree Bodies Message File HeapBase HeapModel.

Lemma used_empty : used ∅ = 0.
Proof. apply map_fold_empty. Qed.
Lemma used_insert h l b : h !! l = None -> used (<[l := b]> h) = weight b + used h.
Proof. intros E. unfold used. apply (map_fold_insert_L (fun (_ : nat) b n => weight b + n) 0 l b h); [intros; lia|exact E]. Qed.
Lemma used_delete h l b : h !! l = Some b -> used h = weight b + used (delete l h).
Proof. intros E. rewrite <- (insert_delete h l b E) at 1. apply used_insert, lookup_delete. Qed.
Lemma used_replace h l b b' : h !! l = Some b -> weight b' = weight b -> used (<[l := b']> h) = used h.
Proof.
  intros E W. rewrite <- insert_delete_insert, used_insert by apply lookup_delete. rewrite (used_delete h l b E). lia.
Qed.
Lemma weight_pos b : 16 <= weight b.
Proof. unfold weight. destruct b; lia. Qed.
Lemma used_size h : 16 * Z.of_nat (size h) <= used h.
Proof.
  induction h as [|l b h E IH] using map_ind; [rewrite used_empty, map_size_empty; lia|].
  rewrite used_insert, map_size_insert_None by exact E. pose proof (weight_pos b). lia.
Qed.
Lemma used_union h b : h ##ₘ b -> used (h ∪ b) = used h + used b.
Proof.
  induction b as [|l x b E IH] using map_ind; intros D; [rewrite (right_id_L ∅ (∪)), used_empty; lia|].
  apply map_disjoint_insert_r in D as [D1 D2]. rewrite <- insert_union_r by exact D1. rewrite used_insert.
  - rewrite used_insert, IH by auto. lia.
  - apply lookup_union_None. auto.
Qed.

(** bytes charged for a byte of input *)
Definition rate : Z := 96.

Section Cost.
Context {HO : Host} {AL : Allocator} {ME : Memory}.

(** [calm]: reads nothing and takes no memory *)
Definition calm {A} (p : H A) : Prop := forall st r st', p st = Ret (r, st') ->
  cursor (hbuf st') = cursor (hbuf st) /\ (error (hbuf st) = true -> error (hbuf st') = true) /\
  (used (hmem st') <= used (hmem st) /\ hpeak st' = hpeak st).
(** [cost d e]: the memory taken exceeds what the bytes read pay for by at most
    [d], or [e] if the error flag is set; on the way, it has exceeded it by at most
    [e], not counting that realloc may need memory for two arrays, and so twice as
    much in any case. *)
Definition paid (st st' : hstate) : Z := rate * (Z.of_nat (cursor (hbuf st')) - Z.of_nat (cursor (hbuf st))).
Definition cost {A} (d e : Z) (p : H A) : Prop := forall st r st', p st = Ret (r, st') ->
  0 <= e /\ (cursor (hbuf st) <= cursor (hbuf st'))%nat /\ (error (hbuf st) = true -> error (hbuf st') = true) /\
  used (hmem st') <= used (hmem st) + paid st st' + (if error (hbuf st') then e else d) /\
  hpeak st' <= Z.max (hpeak st) (2 * (used (hmem st) + paid st st' + e)) /\
  hpeak st <= hpeak st' /\ (used (hmem st) <= hpeak st -> used (hmem st') <= hpeak st').

Lemma used_nonneg h : 0 <= used h.
Proof. pose proof (used_size h). lia. Qed.
(** arithmetic on the numbers of several states *)
Ltac sums :=
  unfold paid, rate in *;
  repeat match goal with |- context [used ?h] => lazymatch goal with _ : 0 <= used h |- _ => fail | _ => pose proof (used_nonneg h) end end;
  repeat match goal with H : context [used ?h] |- _ => lazymatch goal with _ : 0 <= used h |- _ => fail | _ => pose proof (used_nonneg h) end end;
  repeat match goal with
  | H : context [if error ?s then _ else _] |- _ => destruct (error s) eqn:?
  | |- context [if error ?s then _ else _] => destruct (error s) eqn:?
  end;
  try congruence; try lia.
Ltac settle := split_and!; try lia; try tauto; try solve [intros; auto]; sums.

Lemma cost_weaken {A} d e d' e' (p : H A) : cost d e p -> d <= d' -> e <= e' -> cost d' e' p.
Proof. intros C L1 L2 st r st' E. destruct (C _ _ _ E) as (H0 & HC & HE & HU & HP). settle. Qed.
Lemma cost_calm {A} (p : H A) D E : calm p -> 0 <= D -> 0 <= E -> cost D E p.
Proof. intros C LD LE st r st' X. destruct (C _ _ _ X) as (HC & HE & HU & HP). settle. Qed.
Lemma bind_inv {A B} (p : H A) (k : A -> H B) st r st' : bind p k st = Ret (r, st') ->
  exists a st1, p st = Ret (a, st1) /\ k a st1 = Ret (r, st').
Proof. unfold bind. destruct (p st) as [[a st1]| |]; try discriminate. eauto. Qed.

(** *** Calm actions *)
Lemma calm_bind {A B} (p : H A) (k : A -> H B) : calm p -> (forall a, calm (k a)) -> calm (bind p k).
Proof.
  intros C1 C2 st r st' E. apply bind_inv in E as (a & st1 & E1 & E2). destruct (C1 _ _ _ E1) as (H1 & H2 & H3), (C2 _ _ _ _ E2) as (K1 & K2 & K3).
  split; [congruence|]. split; [auto|lia].
Qed.
Lemma calm_ret {A} (a : A) : calm (ret a).
Proof. intros st r st' E. injection E as <- <-. split; [reflexivity|]. split; [auto|lia]. Qed.
Lemma calm_fail {A} f : calm (@fail hstate A f).
Proof. intros st r st' E. discriminate. Qed.
Lemma calm_fuel {A} : calm (@out_of_fuel hstate A).
Proof. intros st r st' E. discriminate. Qed.
Lemma calm_free p : calm (free p).
Proof.
  intros st r st' E. unfold free in E. destruct p as [|l|z]; [injection E as <- <-; split; [reflexivity|split; [auto|lia]]| |discriminate].
  destruct (hmem st !! l) as [b|] eqn:EL; [|discriminate]. injection E as <- <-. cbn. split; [reflexivity|]. split; [auto|]. rewrite (used_delete _ _ _ EL). pose proof (weight_pos b). lia.
Qed.
Lemma load_block_inv p st b st' : load_block p st = Ret (b, st') -> st' = st /\ exists l, p = Ptr l /\ hmem st !! l = Some b.
Proof. unfold load_block. destruct p as [|l|]; try discriminate. destruct (hmem st !! l) eqn:E; [|discriminate]. intros [= -> <-]. eauto. Qed.
Lemma calm_load_block p : calm (load_block p).
Proof. intros st r st' E. apply load_block_inv in E as [-> _]. split; [reflexivity|]. split; [auto|lia]. Qed.
Lemma calm_load_struct p : calm (load_struct p).
Proof. apply calm_bind; [apply calm_load_block|]. intros [|]; [apply calm_fail|apply calm_ret]. Qed.
Lemma calm_load p i : calm (load p i).
Proof. apply calm_bind; [apply calm_load_struct|]. intros ss. destruct (ss !! i); [apply calm_ret|apply calm_fail]. Qed.
Lemma calm_load_int p i : calm (load_int p i).
Proof. apply calm_bind; [apply calm_load|]. intros []; auto using @calm_ret, @calm_fail. Qed.
Lemma calm_load_bytes p : calm (load_bytes p).
Proof. apply calm_bind; [apply calm_load_block|]. intros [|]; [apply calm_ret|apply calm_fail]. Qed.
Lemma load_struct_inv p st ss st' : load_struct p st = Ret (ss, st') -> st' = st /\ exists l, p = Ptr l /\ hmem st !! l = Some (Struct ss).
Proof.
  intros E. apply bind_inv in E as (b & st1 & E1 & E2). apply load_block_inv in E1 as (-> & l & -> & EL). destruct b; [discriminate|]. injection E2 as -> <-. eauto.
Qed.
Lemma calm_store p i x : calm (store p i x).
Proof.
  intros st r st' E. apply bind_inv in E as (ss & st1 & E1 & E2). apply load_struct_inv in E1 as (-> & l & -> & EL).
  destruct (ss !! i); [|discriminate]. injection E2 as <- <-. cbn. split; [reflexivity|]. split; [auto|]. rewrite (used_replace _ _ _ _ EL); [lia|]. unfold weight. now rewrite insert_length.
Qed.
Lemma calm_store_bytes p bs : calm (store_bytes p bs).
Proof.
  intros st r st' E. apply bind_inv in E as (old & st1 & E1 & E2). apply bind_inv in E1 as (b & st2 & E0 & E1). apply load_block_inv in E0 as (-> & l & -> & EL).
  destruct b; [|discriminate]. injection E1 as -> <-. destruct (Nat.eqb_spec (length old) (length bs)) as [HL|]; [|discriminate]. injection E2 as <- <-. cbn.
  split; [reflexivity|]. split; [auto|]. rewrite (used_replace _ _ _ _ EL); [lia|]. unfold weight. now rewrite HL.
Qed.
Lemma calm_if_ptr p k : calm k -> calm (if_ptr p k).
Proof. intros C. destruct p; [apply calm_ret|exact C..]. Qed.
Lemma calm_for_each n : forall i arr f, (forall x, calm (f x)) -> calm (for_each n i arr f).
Proof. induction n as [|n IH]; intros i arr f C; [apply calm_ret|]. apply calm_bind; [apply calm_load|]. intros x. apply calm_bind; auto. Qed.
Lemma calm_members fs : Forall (fun f : slot -> H unit => forall x, calm (f x)) fs -> forall p i, calm (free_members p i fs).
Proof. induction 1 as [|f fs C _ IH]; intros p i; [apply calm_ret|]. apply calm_bind; [apply calm_load|]. intros x. apply calm_bind; auto. Qed.
Lemma calm_free_struct fs p : Forall (fun f : slot -> H unit => forall x, calm (f x)) fs -> calm (free_struct fs p).
Proof. intros C. apply calm_if_ptr, calm_bind; [now apply calm_members|]. intros _. apply calm_free. Qed.
Lemma calm_heap_fuel {A} (f : nat -> H A) : (forall n, calm (f n)) -> calm (with_heap_fuel f).
Proof. intros C st r st'. unfold with_heap_fuel. apply C. Qed.

(** actions on the buffer *)
Definition still {A} (p : P A) : Prop := forall s r s', p s = Ret (r, s') -> cursor s' = cursor s /\ (error s = true -> error s' = true).
Lemma calm_lift {A} (p : P A) : still p -> calm (lift p).
Proof.
  intros S st r st' E. unfold lift in E. destruct (p (hbuf st)) as [[a s]| |] eqn:EP; try discriminate. injection E as <- <-. destruct (S _ _ _ EP) as [H1 H2]. cbn. split; [exact H1|]. split; [exact H2|lia].
Qed.
Lemma still_bind {A B} (p : P A) (k : A -> P B) : still p -> (forall a, still (k a)) -> still (bind p k).
Proof.
  intros S1 S2 s r s' E. unfold bind in E. destruct (p s) as [[a s1]| |] eqn:E1; try discriminate. destruct (S1 _ _ _ E1) as [H1 H2], (S2 _ _ _ _ E) as [K1 K2]. split; [congruence|auto].
Qed.
Lemma still_ret {A} (a : A) : still (ret a).
Proof. intros s r s' [= <- <-]. auto. Qed.
Lemma still_pure {A} (f : sbuf -> A) : still (fun s => Ret (f s, s)).
Proof. intros s r s' [= <- <-]. auto. Qed.
Lemma still_set_error : still set_error.
Proof. intros s r s' [= <- <-]. auto. Qed.
Lemma still_has_errors : still sml_buf_has_errors.
Proof. apply still_pure. Qed.
Lemma still_at_end : still at_end.
Proof. apply still_pure. Qed.
Lemma still_byte : still sml_buf_get_current_byte.
Proof. intros s r s' E. unfold sml_buf_get_current_byte in E. destruct (nth_error _ _); [|discriminate]. injection E as <- <-. auto. Qed.
Lemma still_read n : still (read_current n).
Proof. intros s r s' E. unfold read_current in E. destruct (_ <=? _)%nat; [|discriminate]. injection E as <- <-. auto. Qed.
Lemma still_int_op z : still (int_op z).
Proof. intros s r s' [= <- <-]. auto. Qed.
Lemma still_type : still sml_buf_get_next_type.
Proof.
  apply still_bind; [apply still_at_end|]. intros []; [apply still_bind; [apply still_set_error|intros; apply still_ret]|apply still_bind; [apply still_byte|intros; apply still_ret]].
Qed.


(** *** Costs, backwards: from the claim for a program to claims for its parts *)
Lemma cost_pre {A B} (p : H A) (k : A -> H B) D E : calm p -> (forall a, cost D E (k a)) -> cost D E (bind p k).
Proof.
  intros C1 C2 st r st' X. apply bind_inv in X as (a & st1 & E1 & E2). destruct (C1 _ _ _ E1) as (H1 & H2 & H3), (C2 _ _ _ _ E2) as (K0 & K1 & K2 & K3 & K4). settle.
Qed.
Lemma cost_bind {A B} (p : H A) (k : A -> H B) d1 e1 D E :
  cost d1 e1 p -> (forall a, cost (D - d1) (E - Z.max d1 e1) (k a)) -> cost D E (bind p k).
Proof.
  intros C1 C2 st r st' X. apply bind_inv in X as (a & st1 & E1 & E2).
  destruct (C1 _ _ _ E1) as (H0 & H1 & H2 & H3 & H4), (C2 _ _ _ _ E2) as (K0 & K1 & K2 & K3 & K4). settle.
Qed.
Lemma cost_malloc {B} b (k : slot -> H B) D E : (forall a, cost (D - weight b) (E - weight b) (k a)) -> cost D E (bind (malloc b) k).
Proof.
  intros C st r st' X. apply bind_inv in X as (a & st1 & E1 & E2). unfold malloc in E1. destruct (grants st b); [|discriminate]. injection E1 as <- <-. destruct (C _ _ _ _ E2) as (K0 & K1 & K2 & K3 & K4).
  unfold paid in *. cbn [hbuf hmem hpeak] in *. rewrite used_insert in K3, K4 by apply choose_fresh. pose proof (weight_pos b). settle.
Qed.
Lemma cost_abort {A} (p : H A) D E : calm p -> 0 <= E -> cost D E (lift set_error ;;; p).
Proof.
  intros C L st r st' X. apply bind_inv in X as (a & st1 & E1 & E2). injection E1 as <- <-. destruct (C _ _ _ E2) as (H1 & H2 & H3 & H4). cbn in H1, H2, H3, H4.
  specialize (H2 eq_refl). settle.
Qed.
Lemma cost_check {A} (p q : H A) D E : calm p -> 0 <= E -> cost D E q ->
  cost D E (e <- lift sml_buf_has_errors ;; if (e : bool) then p else q).
Proof.
  intros C L Q st r st' X. apply bind_inv in X as (a & st1 & E1 & E2). injection E1 as <- <-. destruct st as [s h c pk]. cbn in E2. destruct (error s) eqn:ES; [|exact (Q _ _ _ E2)].
  destruct (C _ _ _ E2) as (H1 & H2 & H3 & H4). specialize (H2 ES). settle.
Qed.
(** "x = p(buf); ...; if (sml_buf_has_errors(buf)) { ... }" *)
Lemma cost_checked {A B C} (p : H A) (m : A -> H B) (onerr k : A -> B -> H C) dp ep D E :
  cost dp ep p -> (forall x, calm (m x)) -> (forall x y, calm (onerr x y)) -> Z.max dp ep <= E -> (forall x y, cost (D - dp) (E - dp) (k x y)) ->
  cost D E (x <- p ;; y <- m x ;; e <- lift sml_buf_has_errors ;; if (e : bool) then onerr x y else k x y).
Proof.
  intros P M C0 L K st r st' X. apply bind_inv in X as (x & st1 & E1 & X). apply bind_inv in X as (y & st2 & E2 & X). apply bind_inv in X as (e & st3 & E3 & X). injection E3 as <- <-.
  destruct (P _ _ _ E1) as (P0 & P1 & P2 & P3 & P4), (M _ _ _ _ E2) as (S1 & S2 & S3 & S4). destruct st2 as [s2 h2 c2 pk2]. cbn [hbuf hmem hconf hpeak] in *. destruct (error s2) eqn:ES.
  - destruct (C0 _ _ _ _ _ X) as (C1 & C2 & C3 & C4). cbn [hbuf hmem hconf hpeak] in *. specialize (C2 ES). settle.
  - destruct (K _ _ _ _ _ X) as (K0 & K1 & K2 & K3 & K4). cbn [hbuf hmem hconf hpeak] in *. destruct (error (hbuf st1)) eqn:EE; [specialize (S2 eq_refl); congruence|].
    unfold paid in *. cbn [hbuf] in *. settle. intros F. specialize (P2 F). congruence.
Qed.
Lemma cost_checked0 {A C} (p : H A) (onerr k : A -> H C) dp ep D E :
  cost dp ep p -> (forall x, calm (onerr x)) -> Z.max dp ep <= E -> (forall x, cost (D - dp) (E - dp) (k x)) ->
  cost D E (x <- p ;; e <- lift sml_buf_has_errors ;; if (e : bool) then onerr x else k x).
Proof. intros P C0 L K. exact (cost_checked p (fun _ => ret tt) (fun x _ => onerr x) (fun x _ => k x) dp ep D E P (fun _ => calm_ret tt) (fun x _ => C0 x) L (fun x _ => K x)). Qed.
Lemma cost_field {A} p i parse (onerr k : H A) dp ep D E :
  cost dp ep parse -> calm onerr -> Z.max dp ep <= E -> cost (D - dp) (E - dp) k -> cost D E (hfield p i parse onerr k).
Proof. intros P C L K. apply (cost_checked parse (fun x => store p i x) (fun _ _ => onerr) (fun _ _ => k) dp ep D E P (fun x => calm_store _ _ _) (fun _ _ => C) L (fun _ _ => K)). Qed.

(** reading on *)
Definition moves {A} (p : P A) : Prop := forall s r s', p s = Ret (r, s') -> (cursor s <= cursor s')%nat /\ (error s = true -> error s' = true).
Lemma moves_still {A} (p : P A) : still p -> moves p.
Proof. intros S s r s' E. destruct (S _ _ _ E) as [-> H]. auto. Qed.
Lemma moves_bind {A B} (p : P A) (k : A -> P B) : moves p -> (forall a, moves (k a)) -> moves (bind p k).
Proof.
  intros S1 S2 s r s' E. unfold bind in E. destruct (p s) as [[a s1]| |] eqn:E1; try discriminate. destruct (S1 _ _ _ E1) as [H1 H2], (S2 _ _ _ _ E) as [K1 K2]. split; [lia|auto].
Qed.
Lemma moves_update n : moves (sml_buf_update_bytes_read n).
Proof. intros s r s' E. unfold sml_buf_update_bytes_read in E. destruct (n <? 0); [discriminate|]. injection E as <- <-. cbn. split; [lia|auto]. Qed.
Lemma moves_loop fuel : forall l m, moves (get_next_length_loop fuel l m).
Proof.
  induction fuel as [|fuel IH]; intros l m; cbn [get_next_length_loop]; [intros s r s' E; discriminate|].
  apply moves_bind; [apply moves_still, still_at_end|]. intros []; [apply moves_still, still_ret|].
  apply moves_bind; [apply moves_still, still_byte|]. intros b. apply moves_bind; [apply moves_still, still_int_op|]. intros l1.
  destruct (negb _); [apply moves_still, still_ret|]. apply moves_bind; [apply moves_update|]. intros _. apply moves_bind; [|intros; apply IH].
  destruct (negb _); apply moves_still; [apply still_int_op|apply still_ret].
Qed.
Lemma length_moves s l s' : sml_buf_get_next_length s = Ret (l, s') -> (error s = true -> error s' = true) /\
  (cursor s <= cursor s')%nat /\ ((l = -1 /\ error s' = true) \/ (cursor s < cursor s')%nat).
Proof.
  unfold sml_buf_get_next_length, bind at 1. cbn [at_end]. destruct (_ <=? _)%nat; [intros [= <- <-]; cbn; auto|]. unfold bind at 1.
  destruct (sml_buf_get_current_byte s) as [[b s0]| |] eqn:E0; try discriminate. destruct (still_byte _ _ _ E0) as [B1 B2]. cbv zeta. unfold bind at 1, with_fuel.
  destruct (get_next_length_loop _ _ _ s0) as [[ll s1]| |] eqn:E1; try discriminate. destruct (moves_loop _ _ _ _ _ _ E1) as [L1 L2]. unfold bind at 1. cbn [at_end].
  destruct (_ <=? _)%nat.
  - intros [= <- <-]. cbn. split; [auto|]. split; [lia|auto].
  - intros [= _ <-]. cbn. split; [auto|]. split; [lia|]. right. lia.
Qed.
Lemma lift_inv {A} (p : P A) st r st' : lift p st = Ret (r, st') -> p (hbuf st) = Ret (r, hbuf st') /\ hmem st' = hmem st /\ hpeak st' = hpeak st.
Proof. unfold lift. destruct (p (hbuf st)) as [[a s]| |]; try discriminate. intros [= <- <-]. auto. Qed.
Lemma cost_moves {A} (p : P A) : moves p -> cost 0 0 (lift p).
Proof.
  intros M st r st' E. apply lift_inv in E as (E & EM & EP). destruct (M _ _ _ E) as [M1 M2]. rewrite EM. settle.
Qed.
Lemma cost_length {A} (k : Z -> H A) D E : calm (k (-1)) -> 0 <= E -> (forall l, cost (D + rate) (E + rate) (k l)) ->
  cost D E (bind (lift sml_buf_get_next_length) k).
Proof.
  intros C L K st r st' X. apply bind_inv in X as (l & st1 & E1 & X). apply lift_inv in E1 as (E1 & EM & EP). destruct (length_moves _ _ _ E1) as (L1 & L2 & [[-> L3]|L3]).
  - destruct (C _ _ _ X) as (C1 & C2 & C3 & C4). rewrite EM in C3. specialize (C2 L3). settle.
  - destruct (K _ _ _ _ X) as (K0 & K1 & K2 & K3 & K4). rewrite EM in K3, K4. settle.
Qed.
Lemma cost_type {A} (t : Z) (p k : H A) D E : cost D E k -> calm p -> 0 <= E ->
  cost D E (t' <- lift sml_buf_get_next_type ;; if negb (t' =? t) then lift set_error ;;; p else k).
Proof. intros K C L. apply cost_pre; [apply calm_lift, still_type|]. intros t'. destruct (negb _); [now apply cost_abort|exact K]. Qed.
Lemma calm_abort {A} (p : H A) : calm p -> calm (lift set_error ;;; p).
Proof. intros C. apply calm_bind; [apply calm_lift, still_set_error|auto]. Qed.
Lemma cost_expect {A} n (p k : H A) D E : n <> -1 -> calm p -> 0 <= E -> cost (D + rate) (E + rate) k -> cost D E (hexpect_list n p k).
Proof.
  intros N C L K. apply cost_type; [|exact C|exact L]. apply cost_length; [|exact L|].
  - destruct (Z.eqb_spec (-1) n); [congruence|]. now apply calm_abort.
  - intros l. destruct (negb _); [apply cost_abort; [exact C|unfold rate; lia]|exact K].
Qed.
Lemma skipped_inv s r s' : sml_buf_optional_is_skipped s = Ret (r, s') -> (error s = true -> error s' = true) /\
  ((r = 0 /\ s' = s) \/ (r <> 0 /\ cursor s' = S (cursor s)) \/ (r <> 0 /\ cursor s' = cursor s /\ error s' = true)).
Proof.
  unfold sml_buf_optional_is_skipped, bind at 1. cbn [at_end]. destruct (_ <=? _)%nat eqn:EE.
  { intros [= <- <-]. cbn. split; [auto|]. right; right. split; [lia|auto]. }
  unfold bind at 1. destruct (sml_buf_get_current_byte s) as [[b s0]| |] eqn:E0; try discriminate.
  assert (s0 = s) as ->. { unfold sml_buf_get_current_byte in E0. destruct (nth_error _ _); [|discriminate]. now injection E0. }
  destruct (b =? _); [|intros [= <- <-]; auto]. unfold bind at 1. cbn [at_end]. rewrite EE.
  intros [= <- <-]. cbn. split; [auto|]. right; left. split; [lia|]. change (Pos.to_nat 1) with 1%nat. lia.
Qed.
Lemma cost_skip {A} (q k : H A) D E : cost (D + rate) (E + rate) q -> calm q -> 0 <= E -> cost D E k ->
  cost D E (sk <- lift sml_buf_optional_is_skipped ;; if negb (sk =? 0) then q else k).
Proof.
  intros Q C LE K st r st' X. apply bind_inv in X as (sk & st1 & E1 & X). apply lift_inv in E1 as (E1 & EM & EP).
  destruct (skipped_inv _ _ _ E1) as (S1 & [[-> ES]|[[N ES]|(N & ES & EE)]]).
  - destruct (K _ _ _ X) as (K0 & K1 & K2 & K3 & K4). unfold paid in *. rewrite EM, ES, EP in *. auto.
  - destruct (Z.eqb_spec sk 0); [congruence|]. destruct (Q _ _ _ X) as (K0 & K1 & K2 & K3 & K4). rewrite EM in *. settle.
  - destruct (Z.eqb_spec sk 0); [congruence|]. destruct (C _ _ _ X) as (C1 & C2 & C3 & C4). rewrite EM in *. specialize (C2 EE). settle.
Qed.
Lemma cost_unless k D E : - rate <= D -> 0 <= E -> cost D E k -> cost D E (hunless_skipped k).
Proof. intros LD LE K. apply cost_skip; [apply cost_calm; [apply calm_ret|lia|unfold rate; lia]|apply calm_ret|exact LE|exact K]. Qed.
Lemma cost_fuel {A} (f : nat -> H A) D E : (forall n, cost D E (f n)) -> cost D E (hwith_fuel f).
Proof. intros C st r st'. unfold hwith_fuel. apply C. Qed.
Lemma cost_out {A} D E : cost D E (@out_of_fuel hstate A).
Proof. intros st r st' X. discriminate. Qed.
Lemma cost_append p i x : cost 24 24 (append p i x).
Proof.
  apply cost_pre; [apply calm_load_int|]. intros n. apply cost_pre; [apply calm_store|]. intros _. apply cost_pre; [apply calm_load|]. intros arr st r st' X.
  apply bind_inv in X as (old & st1 & E1 & X). apply bind_inv in X as (u & st2 & E2 & X).
  assert (st2 = st1) as -> by (destruct (_ =? _); [now injection E2|discriminate]). clear E2 u.
  apply bind_inv in X as (u & st0 & E0 & X). unfold regrant in E0. destruct (grants st1 _); [|discriminate]. injection E0 as _ E0.
  apply bind_inv in X as (u' & st2 & E2 & X). apply bind_inv in X as (a & st3 & E3 & X). injection E3 as <- <-.
  destruct (calm_store _ _ _ _ _ _ X) as (S1 & S2 & S3 & S4). cbn [hbuf hmem hpeak] in *. rewrite used_insert in S3, S4 by apply choose_fresh.
  assert (U : used (hmem st2) + 8 * Z.of_nat (length old) <= used (hmem st) /\ hbuf st2 = hbuf st /\ used (hmem st1) = used (hmem st) /\ hpeak st1 = hpeak st /\ hpeak st2 = hpeak st0).
  { rewrite <- E0 in *. destruct arr as [|l|z]; [injection E1 as <- <-; injection E2 as _ <-; cbn; split_and!; lia || reflexivity| |discriminate].
    apply load_struct_inv in E1 as (-> & l' & [= <-] & EL). unfold free in E2. cbn [hmem] in E2. rewrite EL in E2. injection E2 as _ <-. cbn. split_and!; try reflexivity.
    rewrite (used_delete _ _ _ EL). unfold weight. lia. }
  destruct U as (U & UB & U1 & U2 & U3). rewrite UB in *. rewrite <- E0 in U3. cbn [hpeak] in U3. unfold weight in *. rewrite app_length in *. cbn [length] in *. settle.
Qed.

(** *** The free functions *)
Create HintDb calm discriminated.
Hint Constants Opaque : calm.
Hint Resolve calm_ret calm_fail calm_fuel calm_free calm_load_block calm_load_struct calm_load calm_load_int calm_load_bytes calm_store calm_store_bytes
  still_ret still_pure still_set_error still_has_errors still_at_end still_byte still_read still_int_op still_type : calm.
Ltac calm1 :=
  lazymatch goal with
  | |- forall _, _ => intro
  | |- calm (lift set_error ;;; _) => apply calm_abort
  | |- calm (bind _ _) => apply calm_bind
  | |- calm (if_ptr _ _) => apply calm_if_ptr
  | |- calm (for_each _ _ _ _) => apply calm_for_each
  | |- calm (free_struct _ _) => apply calm_free_struct
  | |- calm (with_heap_fuel _) => apply calm_heap_fuel
  | |- calm (lift _) => apply calm_lift
  | |- Forall _ [] => constructor
  | |- Forall _ (_ :: _) => constructor; cbv beta
  | |- calm (if ?b then _ else _) => destruct b
  | |- calm (match ?x with _ => _ end) => destruct x
  | |- _ => solve [auto 2 with calm nocore]
  end.
Ltac calm := cbv zeta; repeat (cbv zeta beta; calm1).

Lemma calm_str_free p : calm (h_octet_string_free p).
Proof. unfold h_octet_string_free. calm. Qed.
Lemma calm_number_free p : calm (h_number_free p).
Proof. unfold h_number_free. calm. Qed.
Lemma calm_bool_free p : calm (h_boolean_free p).
Proof. unfold h_boolean_free. calm. Qed.
Hint Resolve calm_str_free calm_number_free calm_bool_free : calm.
Lemma calm_value_free p : calm (h_value_free p).
Proof. unfold h_value_free. calm. Qed.
Lemma calm_status_free p : calm (h_status_free p).
Proof. unfold h_status_free. calm. Qed.
Lemma calm_time_free p : calm (h_time_free p).
Proof. unfold h_time_free. calm. Qed.
Lemma calm_seq_free f p : (forall x, calm (f x)) -> calm (h_sequence_free f p).
Proof. intros C. unfold h_sequence_free. calm. Qed.
Hint Resolve calm_value_free calm_status_free calm_time_free : calm.
Hint Resolve calm_seq_free : calm.
Lemma calm_list_entry_free p : calm (h_list_entry_free p).
Proof. unfold h_list_entry_free. calm. Qed.
Hint Resolve calm_list_entry_free : calm.
Lemma calm_list_free_loop fuel : forall f n, calm (h_list_free_loop fuel f n).
Proof. induction fuel as [|fuel IH]; intros f n; cbn [h_list_free_loop]; calm. Qed.
Hint Resolve calm_list_free_loop : calm.
Lemma calm_list_free p : calm (h_list_free p).
Proof. unfold h_list_free. calm. Qed.
Lemma calm_tree_path_free p : calm (h_tree_path_free p).
Proof. unfold h_tree_path_free. calm. Qed.
Lemma calm_tupel_free p : calm (h_tupel_entry_free p).
Proof. unfold h_tupel_entry_free. calm. Qed.
Lemma calm_period_free p : calm (h_period_entry_free p).
Proof. unfold h_period_entry_free. calm. Qed.
Hint Resolve calm_list_free calm_tree_path_free calm_tupel_free calm_period_free : calm.
Lemma calm_ppv_free p : calm (h_proc_par_value_free p).
Proof. unfold h_proc_par_value_free. calm. Qed.
Hint Resolve calm_ppv_free : calm.
Lemma calm_tree_free_rec depth : forall p, calm (h_tree_free_rec depth p).
Proof. induction depth as [|depth IH]; intros p; cbn [h_tree_free_rec]; calm. Qed.
Hint Resolve calm_tree_free_rec : calm.
Lemma calm_tree_free p : calm (h_tree_free p).
Proof. unfold h_tree_free. calm. Qed.
Lemma calm_object_list_free_loop fuel : forall p, calm (h_object_list_free_loop fuel p).
Proof. induction fuel as [|fuel IH]; intros p; cbn [h_object_list_free_loop]; calm. Qed.
Hint Resolve calm_tree_free calm_object_list_free_loop : calm.
Lemma calm_object_list_free p : calm (h_object_list_free p).
Proof. unfold h_object_list_free. calm. Qed.
Lemma calm_header_free p : calm (h_prof_obj_header_entry_free p).
Proof. unfold h_prof_obj_header_entry_free. calm. Qed.
Lemma calm_value_entry_free p : calm (h_value_entry_free p).
Proof. unfold h_value_entry_free. calm. Qed.
Hint Resolve calm_object_list_free calm_header_free calm_value_entry_free : calm.
Lemma calm_prof_period_free p : calm (h_prof_obj_period_entry_free p).
Proof. unfold h_prof_obj_period_entry_free. calm. Qed.
Hint Resolve calm_prof_period_free : calm.
Lemma calm_open_request_free p : calm (h_open_request_free p).
Proof. unfold h_open_request_free. calm. Qed.
Lemma calm_open_response_free p : calm (h_open_response_free p).
Proof. unfold h_open_response_free. calm. Qed.
Lemma calm_close_request_free p : calm (h_close_request_free p).
Proof. unfold h_close_request_free. calm. Qed.
Lemma calm_close_response_free p : calm (h_close_response_free p).
Proof. unfold h_close_response_free. calm. Qed.
Lemma calm_profile_pack_request_free p : calm (h_get_profile_pack_request_free p).
Proof. unfold h_get_profile_pack_request_free. calm. Qed.
Lemma calm_profile_pack_response_free p : calm (h_get_profile_pack_response_free p).
Proof. unfold h_get_profile_pack_response_free. calm. Qed.
Lemma calm_profile_list_response_free p : calm (h_get_profile_list_response_free p).
Proof. unfold h_get_profile_list_response_free. calm. Qed.
Lemma calm_proc_request_free p : calm (h_get_proc_parameter_request_free p).
Proof. unfold h_get_proc_parameter_request_free. calm. Qed.
Lemma calm_proc_response_free p : calm (h_get_proc_parameter_response_free p).
Proof. unfold h_get_proc_parameter_response_free. calm. Qed.
Lemma calm_set_proc_free p : calm (h_set_proc_parameter_request_free p).
Proof. unfold h_set_proc_parameter_request_free. calm. Qed.
Lemma calm_list_request_free p : calm (h_get_list_request_free p).
Proof. unfold h_get_list_request_free. calm. Qed.
Lemma calm_list_response_free p : calm (h_get_list_response_free p).
Proof. unfold h_get_list_response_free. calm. Qed.
Lemma calm_attention_free p : calm (h_attention_response_free p).
Proof. unfold h_attention_response_free. calm. Qed.
Hint Resolve calm_open_request_free calm_open_response_free calm_close_request_free calm_close_response_free calm_profile_pack_request_free
  calm_profile_pack_response_free calm_profile_list_response_free calm_proc_request_free calm_proc_response_free calm_set_proc_free calm_list_request_free
  calm_list_response_free calm_attention_free : calm.
Lemma calm_body_free p : calm (h_message_body_free p).
Proof. unfold h_message_body_free, h_body_data_free. calm. Qed.
Hint Resolve calm_body_free : calm.
Lemma calm_message_free p : calm (h_message_free p).
Proof. unfold h_message_free. calm. Qed.
Hint Resolve calm_message_free : calm.
Lemma calm_on_error f p : (forall x, calm (f x)) -> calm (on_error f p).
Proof. intros C. unfold on_error. calm. Qed.
Lemma calm_on_error_set f p : (forall x, calm (f x)) -> calm (on_error_set f p).
Proof. intros C. unfold on_error_set. calm. Qed.
Hint Resolve calm_on_error calm_on_error_set : calm.

(** *** The parsers *)
Lemma cost_herr D E : 0 <= E -> cost D E herr_null.
Proof. apply cost_abort, calm_ret. Qed.
Lemma calm_herr : calm herr_null.
Proof. apply calm_abort, calm_ret. Qed.
Hint Resolve calm_herr : calm.

Lemma c_number t w : 0 <= w -> w <= 80 -> cost (w - 80) 0 (h_number_parse t w).
Proof.
  intros W1 W2. apply cost_unless; [unfold rate; lia|lia|].
  apply cost_pre; [calm|]. intros []; [apply cost_herr; lia|].
  apply cost_type; [|calm|lia]. apply cost_length; [cbn; calm|lia|]. intros l. destruct (_ || _); [apply cost_herr; unfold rate; lia|].
  apply cost_malloc. intros np. assert (EW : weight (Bytes (repeat 0 (Z.to_nat w))) = 16 + w) by (unfold weight; rewrite repeat_length; lia). rewrite EW.
  apply cost_pre; [calm|]. intros []; [apply cost_abort; [calm|unfold rate; lia]|].
  apply cost_pre; [calm|]. intros []; [apply cost_abort; [calm|unfold rate; lia]|].
  apply cost_pre; [calm|]. intros b. cbv zeta. apply cost_pre; [calm|]. intros data. apply cost_pre; [calm|]. intros _.
  eapply cost_bind; [apply cost_moves, moves_update|]. intros _. apply cost_calm; [calm|unfold rate; lia..].
Qed.


Lemma c_str_init bs l : 0 <= l -> cost (48 + l) (48 + l) (h_octet_string_init bs l).
Proof.
  intros L. apply cost_malloc. intros p. destruct (l >? 0) eqn:G.
  - eapply cost_bind with (d1 := 16 + l) (e1 := 16 + l); [|intros _; apply cost_calm; [calm|unfold weight; cbn [length]; lia..]]. apply cost_malloc. intros d.
    apply cost_calm; [calm|unfold weight; rewrite firstn_length; lia..].
  - apply cost_pre; [calm|]. intros _. apply cost_calm; [calm|unfold weight; cbn [length]; lia..].
Qed.
Lemma c_str_end (p : H slot) l : 0 <= l -> cost (48 + l) (48 + l) p -> cost 48 48 (str <- p ;; lift (sml_buf_update_bytes_read l) ;;; ret str).
Proof.
  intros L C st r st' X. apply bind_inv in X as (a & st1 & E1 & X). apply bind_inv in X as (u & st2 & E2 & X). injection X as <- <-.
  destruct (C _ _ _ E1) as (K0 & K1 & K2 & K3 & K4). apply lift_inv in E2 as (E2 & EM & EP). unfold sml_buf_update_bytes_read in E2.
  destruct (l <? 0); [discriminate|]. injection E2 as _ E2. unfold paid in *. rewrite EM, <- E2. cbn [set_cursor cursor error]. settle.
Qed.
Lemma c_str : cost (-48) 0 h_octet_string_parse.
Proof.
  apply cost_unless; [unfold rate; lia|lia|]. apply cost_type; [|calm|lia]. apply cost_length; [|lia|].
  - intros st r st' X. apply (calm_herr st r st'). destruct st. exact X.
  - intros l. apply cost_pre; [calm|]. intros []; [apply cost_herr; unfold rate; lia|]. apply cost_pre; [calm|]. intros bs.
    destruct (Z.lt_ge_cases l 0) as [L|L].
    + intros st r st' X. apply bind_inv in X as (p & st1 & _ & X). apply bind_inv in X as (u & st2 & X & _). apply lift_inv in X as [X _].
      unfold sml_buf_update_bytes_read in X. destruct (Z.ltb_spec l 0); [discriminate|lia].
    + eapply cost_weaken; [apply (c_str_end _ l L), c_str_init, L|unfold rate; lia..].
Qed.
Lemma c_bool : cost (-79) 0 h_boolean_parse.
Proof.
  apply cost_unless; [unfold rate; lia|lia|]. apply cost_type; [|calm|lia]. apply cost_length; [cbn; calm|lia|]. intros l.
  destruct (negb _); [apply cost_herr; unfold rate; lia|]. apply cost_pre; [calm|]. intros []; [apply cost_herr; unfold rate; lia|].
  apply cost_pre; [calm|]. intros b. eapply cost_bind; [apply cost_moves, moves_update|]. intros _.
  intros st r st' X. unfold malloc in X. destruct (grants st _); [|discriminate]. injection X as <- <-. unfold paid. cbn [hbuf hmem hpeak]. rewrite used_insert by apply choose_fresh. unfold weight. cbn [length]. settle.
Qed.
Lemma max_loop_le fuel : forall m l s r s', 0 < m -> max_loop fuel m l s = Ret (r, s') -> 0 < r <= m * 2 ^ (Z.of_nat fuel - 1) /\ s' = s.
Proof.
  induction fuel as [|fuel IH]; intros m l s r s' M; cbn [max_loop]; [discriminate|]. destruct (m <? l).
  - intros E. destruct (IH (m * 2) l s r s' ltac:(lia) E) as [B ->]. split; [|reflexivity]. destruct fuel; [discriminate E|].
    replace (Z.of_nat (S (S fuel)) - 1) with (1 + (Z.of_nat (S fuel) - 1)) by lia. rewrite Z.pow_add_r by lia. change (2 ^ 1) with 2. nia.
  - intros [= <- <-]. split; [|reflexivity]. split; [lia|]. pose proof (Z.pow_pos_nonneg 2 (Z.of_nat (S fuel) - 1) ltac:(lia) ltac:(lia)). nia.
Qed.
Lemma cost_width {A} b (k : Z -> H A) D E : (forall w, 0 <= w <= 16 -> cost D E (k w)) -> cost D E (bind (lift (number_width b)) k).
Proof.
  intros C st r st' X. apply bind_inv in X as (w & st1 & E1 & X). apply lift_inv in E1 as (E1 & EM & EP). apply max_loop_le in E1 as [B EB]; [|lia].
  change (1 * 2 ^ (Z.of_nat 5 - 1)) with 16 in B. destruct (C w ltac:(lia) _ _ _ X) as (K0 & K1 & K2 & K3 & K4). unfold paid in *. rewrite EM, EB, EP in *. auto.
Qed.

Lemma cost_set_error D E : 0 <= E -> cost D E (lift set_error).
Proof. intros L st r st' X. injection X as <- <-. unfold paid. cbn. settle. Qed.
Lemma calm_fuel_S {A} (f : nat -> H A) : (forall n, calm (f (S n))) -> calm (hwith_fuel f).
Proof. intros C st r st'. unfold hwith_fuel, fuel_of. apply C. Qed.
Lemma cost_if_append s p i x : cost 24 24 (if_ptr s (append p i x)).
Proof. destruct s; [apply cost_calm; [apply calm_ret|lia|lia]|apply cost_append..]. Qed.

Create HintDb cost discriminated.
Hint Constants Opaque : cost.
Hint Resolve c_str c_bool cost_append cost_if_append : cost.
Hint Extern 2 (cost _ _ (h_number_parse _ _)) => apply c_number; lia : cost.
Hint Extern 2 (cost _ _ h_u8_parse) => apply c_number; lia : cost.
Hint Extern 2 (cost _ _ h_u16_parse) => apply c_number; lia : cost.
Hint Extern 2 (cost _ _ h_u32_parse) => apply c_number; lia : cost.
Hint Extern 2 (cost _ _ h_u64_parse) => apply c_number; lia : cost.
Hint Extern 2 (cost _ _ h_i8_parse) => apply c_number; lia : cost.
Hint Extern 2 (cost _ _ h_i16_parse) => apply c_number; lia : cost.
Hint Extern 2 (cost _ _ h_i64_parse) => apply c_number; lia : cost.
Ltac num := unfold rate in *; lia.
Ltac step :=
  cbv zeta; lazymatch goal with
  | |- forall _, _ => intro
  | |- cost _ _ (hunless_skipped _) => apply cost_unless; [num|num|]
  | |- cost _ _ (hexpect_list _ _ _) => apply cost_expect; [lia|solve [calm]|num|]
  | |- cost _ _ (hfield _ _ _ _ _) => eapply cost_field; [solve [eauto 2 with cost nocore]|solve [calm]|num|]
  | |- cost _ _ (hwith_fuel _) => apply cost_fuel
  | |- cost _ _ herr_null => apply cost_herr; num
  | |- cost _ _ (lift set_error) => apply cost_set_error; num
  | |- cost _ _ out_of_fuel => apply cost_out
  | |- cost _ _ (ret _) => apply cost_calm; [solve [calm]|num|num]
  | |- cost _ _ (if ?b then _ else _) => destruct b
  | |- cost _ _ (match ?x with _ => _ end) => destruct x
  | |- cost _ _ (bind (malloc ?b) _) =>
      apply cost_malloc; let w := eval vm_compute in (weight b) in change (weight b) with w
  | |- cost _ _ (bind (lift (number_width _)) _) => apply cost_width
  | |- cost _ _ (bind (lift sml_buf_get_next_length) _) =>
      apply cost_length; [first [solve [calm]|apply calm_fuel_S; intro; solve [cbn; calm]]|num|]
  | |- cost _ _ (bind (lift sml_buf_optional_is_skipped) _) => apply cost_skip; [|solve [calm]|num|]
  | |- cost _ _ (bind (lift set_error) _) => apply cost_abort; [solve [calm]|num]
  | |- cost _ _ (bind (lift sml_buf_has_errors) _) => first [apply cost_check; [solve [calm]|num|] | apply cost_pre; [solve [calm]|]]
  | |- cost _ _ (bind (lift sml_buf_get_next_type) _) => first [apply cost_type; [|solve [calm]|num] | apply cost_pre; [solve [calm]|]]
  | |- cost _ _ (bind _ (fun _ => bind (lift sml_buf_has_errors) _)) => first
      [ apply cost_pre; [solve [calm]|]
      | eapply cost_checked0; [solve [eauto 2 with cost nocore]|solve [calm]|num|]
      | eapply cost_bind; [solve [eauto 2 with cost nocore]|] ]
  | |- cost _ _ (bind _ (fun _ => bind _ (fun _ => bind (lift sml_buf_has_errors) _))) => first
      [ apply cost_pre; [solve [calm]|]
      | eapply cost_checked; [solve [eauto 2 with cost nocore]|solve [calm]|solve [calm]|num|]
      | eapply cost_bind; [solve [eauto 2 with cost nocore]|] ]
  | |- cost _ _ (bind _ _) => first
      [ apply cost_pre; [solve [calm]|]
      | eapply cost_bind; [solve [eauto 2 with cost nocore]|] ]
  | |- cost _ _ _ => first [ eapply cost_weaken; [solve [eauto 2 with cost nocore]|num|num] | apply cost_calm; [solve [calm]|num|num] ]
  end.
Ltac steps := repeat step.

Lemma c_value : cost (-16) 32 h_value_parse.
Proof.
  unfold h_value_parse. do 9 step. eapply cost_bind with (d1 := -48) (e1 := 0); [|steps].
  destruct (_ =? _); [steps|]. destruct (_ =? _); [steps|]. destruct (_ || _); steps.
Qed.
Lemma c_status : cost (-16) 32 h_status_parse.
Proof.
  unfold h_status_parse. do 9 step. eapply cost_bind with (d1 := -48) (e1 := 0); [|steps].
  destruct (_ =? _); steps.
Qed.
Hint Resolve c_value c_status : cost.
Lemma c_time_value p : cost 0 0 (h_time_value p).
Proof.
  unfold h_time_value. step. step. destruct (_ =? _); [steps|]. destruct (_ =? _); [|steps].
  eapply cost_bind; [apply cost_moves; intros s r s' X; destruct (length_moves _ _ _ X) as (L1 & L2 & _); split; [exact L2|exact L1]|].
  steps.
Qed.
Hint Resolve c_time_value : cost.
Lemma c_time : cost (-27) 49 h_time_parse.
Proof.
  unfold h_time_parse. step. step. step. intros st r st' X. apply bind_inv in X as (b & st1 & E1 & X). apply lift_inv in E1 as (E1 & EM & EP).
  assert (ES : hbuf st1 = hbuf st /\ nth_error (buffer (hbuf st)) (cursor (hbuf st)) = Some b).
  { unfold sml_buf_get_current_byte in E1. destruct (nth_error _ _); [|discriminate]. injection E1 as -> ->. auto. }
  destruct ES as [ES EN]. unfold paid. rewrite <- ES, <- EM, <- EP in *. change (rate * (Z.of_nat (cursor (hbuf st')) - Z.of_nat (cursor (hbuf st1)))) with (paid st1 st'). destruct (Z.eqb_spec b (Z.lor SML_TYPE_UNSIGNED 5)) as [->|_].
  - assert (C : cost (-27 - 32) (49 - 32) (tag <- malloc (Bytes [SML_TIME_SEC_INDEX]) ;; store a 0 tag ;;; hfield a 1 h_u32_parse (on_error h_time_free a) (ret a))) by steps.
    apply (C st1 r st'). rewrite <- X. clear - EN. unfold bind at 1 3. unfold malloc, alloc. destruct (grants st1 _); [|reflexivity]. unfold bind at 1 2.
    destruct (store a 0 _ _) as [[u st2]| |] eqn:E2; try reflexivity.
    assert (hbuf st2 = hbuf st1) as EB.
    { apply bind_inv in E2 as (ss & st3 & E3 & E2). apply load_struct_inv in E3 as (-> & l & -> & EL). destruct (ss !! 0%nat); [|discriminate]. now injection E2 as _ <-. }
    unfold h_time_value. unfold bind at 1, lift, sml_buf_get_next_type, sml_buf_get_current_byte, bind. cbn [at_end]. rewrite EB.
    assert (nth_error (buffer (hbuf st1)) (cursor (hbuf st1)) <> None) as EL by congruence. apply nth_error_Some in EL.
    destruct (Nat.leb_spec (buffer_len (hbuf st1)) (cursor (hbuf st1))) as [F|F]; [unfold buffer_len in F; lia|]. rewrite EN.
    change (Z.land (Z.lor SML_TYPE_UNSIGNED 5) SML_TYPE_FIELD =? SML_TYPE_UNSIGNED) with true. cbv iota. rewrite <- EB. destruct st2. reflexivity.
  - revert X. match goal with |- ?p _ = _ -> _ => assert (C : cost (-27 - 32) (49 - 32) p) by steps end. apply C.
Qed.
Hint Resolve c_time : cost.

Lemma c_seq_loop fuel n p parse fr E : cost (-24) E parse -> 0 <= E -> (forall x, calm (fr x)) -> cost 0 E (h_sequence_loop fuel n p parse fr).
Proof.
  intros C L F. revert n. induction fuel as [|fuel IH]; intros n; cbn [h_sequence_loop]; (destruct (_ <=? _); [steps|]); [steps|].
  eapply cost_checked0; [exact C|calm|lia|]. intros x. eapply cost_bind; [apply cost_append|]. intros _. eapply cost_weaken; [apply IH|lia|lia].
Qed.
Lemma c_seq parse fr E : cost (-24) E parse -> 0 <= E -> (forall x, calm (fr x)) -> cost (-64) (E + 32) (h_sequence_parse parse fr).
Proof.
  intros C L F. unfold h_sequence_parse. steps. eapply cost_weaken; [apply c_seq_loop; eauto|num|num].
Qed.

Lemma calm_name_is l n : calm (h_name_is l n).
Proof. unfold h_name_is. calm. Qed.
Hint Resolve calm_name_is : calm.
Lemma calm_detect l : calm (h_detect_buggy_dzg_dvs74 l).
Proof. unfold h_detect_buggy_dzg_dvs74. calm. Qed.
Lemma calm_confusion t v : calm (count_confusion t v).
Proof.
  assert (C : calm (fun s : hstate => Ret (tt, mkH (hbuf s) (hmem s) (S (hconf s)) (hpeak s)))) by (intros st r st' [= <- <-]; cbn; split; [reflexivity|split; [auto|split; [lia|reflexivity]]]).
  unfold count_confusion. calm.
Qed.
Hint Resolve calm_detect calm_confusion : calm.
Lemma calm_workaround w v l : calm (h_apply_workaround w v l).
Proof. unfold h_apply_workaround. calm. Qed.
Hint Resolve calm_workaround : calm.
Lemma c_list_entry w : cost (-24) 40 (h_list_entry_parse w).
Proof. unfold h_list_entry_parse. steps. Qed.
Hint Resolve c_list_entry : cost.
Lemma c_list_loop fuel : forall n w head last, cost 0 40 (h_list_loop fuel n w head last).
Proof.
  induction fuel as [|fuel IH]; intros n w head last; cbn [h_list_loop]; (destruct (_ <=? _); [steps|]); [steps|].
  eapply cost_checked; [apply c_list_entry|intros; destruct last; calm|calm|lia|]. intros x y. apply cost_pre; [calm|]. intros _. eapply cost_weaken; [apply IH|lia|lia].
Qed.
Hint Resolve c_list_loop : cost.
Lemma c_list : cost (-96) 40 h_list_parse.
Proof. unfold h_list_parse. steps. Qed.
Lemma c_tree_path_loop fuel : forall n p, cost 0 0 (h_tree_path_loop fuel n p).
Proof.
  induction fuel as [|fuel IH]; intros n p; cbn [h_tree_path_loop]; (destruct (_ <=? _); [steps|]); [steps|].
  step. intros x. eapply cost_bind; [apply cost_if_append|]. intros _. eapply cost_weaken; [apply IH|lia|lia].
Qed.
Lemma c_tree_path : cost (-64) 32 h_tree_path_parse.
Proof. unfold h_tree_path_parse, on_error_set. steps. eapply cost_weaken; [apply c_tree_path_loop|num|num]. Qed.
Lemma c_tupel : cost (-64) 200 h_tupel_entry_parse.
Proof. unfold h_tupel_entry_parse. steps. Qed.
Lemma c_period : cost (-64) 56 h_period_entry_parse.
Proof. unfold h_period_entry_parse. steps. Qed.
Hint Resolve c_list c_tree_path c_tupel c_period : cost.
Lemma c_ppv : cost (-64) 136 h_proc_par_value_parse.
Proof. unfold h_proc_par_value_parse. steps. Qed.
Hint Resolve c_ppv : cost.
Lemma c_children fuel parse : cost (-24) 200 parse -> forall n p, cost 0 200 (h_children_loop fuel n p parse).
Proof.
  intros C. induction fuel as [|fuel IH]; intros n p; cbn [h_children_loop]; (destruct (_ <=? _); [steps|]); [steps|].
  eapply cost_checked0; [exact C|calm|lia|]. intros x. eapply cost_bind; [apply cost_if_append|]. intros _. eapply cost_weaken; [apply IH|lia|lia].
Qed.
Lemma c_tree_rec depth : cost (-24) 200 (h_tree_parse_rec depth).
Proof.
  induction depth as [|depth IH]; cbn [h_tree_parse_rec]; steps. eapply cost_weaken; [apply c_children, IH|num|num].
Qed.
Lemma c_tree : cost (-24) 200 h_tree_parse.
Proof. apply cost_fuel, c_tree_rec. Qed.
Hint Resolve c_tree : cost.

(** *** The message bodies and the file *)
Lemma c_open_request : cost (-24) 72 h_open_request_parse.
Proof. unfold h_open_request_parse. steps. Qed.
Lemma c_open_response : cost (-24) 64 h_open_response_parse.
Proof. unfold h_open_response_parse. steps. Qed.
Lemma c_close_request : cost (-24) 24 h_close_request_parse.
Proof. unfold h_close_request_parse. steps. Qed.
Lemma c_close_response : cost (-24) 24 h_close_response_parse.
Proof. unfold h_close_response_parse. steps. Qed.
Lemma c_object_list fuel k D E : cost D E k -> 32 <= E -> forall i p last, cost D E (h_object_list_loop fuel i p last k).
Proof.
  intros C L. induction fuel as [|fuel IH]; intros i p last; cbn [h_object_list_loop]; (destruct (_ <=? _); [exact C|]); [steps|].
  step. intros n. eapply cost_checked; [apply c_str|calm|calm|lia|]. intros x y. step. step. step. step. eapply cost_weaken; [apply IH|lia|lia].
Qed.
Lemma moves_skipped : moves sml_buf_optional_is_skipped.
Proof. intros s r s' E. destruct (skipped_inv _ _ _ E) as (S1 & [[_ ->]|[[_ E1]|(_ & E1 & _)]]); split; auto; lia. Qed.
Lemma moves_length : moves sml_buf_get_next_length.
Proof. intros s r s' X. destruct (length_moves _ _ _ X) as (L1 & L2 & _). auto. Qed.
Lemma c_profile_pack_request : cost (-24) 200 h_get_profile_pack_request_parse.
Proof.
  unfold h_get_profile_pack_request_parse. do 10 step. cbv zeta. eapply cost_bind; [apply cost_moves, moves_skipped|]. intros sk.
  destruct (negb _); [steps|]. apply cost_type; [|calm|num]. eapply cost_bind; [apply cost_moves, moves_length|]. intros len.
  apply cost_fuel. intros fuel. apply c_object_list; [steps|num].
Qed.
Lemma c_header : cost (-24) 40 h_prof_obj_header_entry_parse.
Proof. unfold h_prof_obj_header_entry_parse. steps. Qed.
Lemma c_value_entry : cost (-24) 32 h_value_entry_parse.
Proof. unfold h_value_entry_parse. steps. Qed.
Hint Extern 1 (cost _ _ (h_sequence_parse h_value_entry_parse _)) => eapply c_seq; [apply c_value_entry|lia|solve [calm]] : cost.
Lemma c_prof_period : cost (-24) 64 h_prof_obj_period_entry_parse.
Proof. unfold h_prof_obj_period_entry_parse. steps. Qed.
Hint Extern 1 (cost _ _ (h_sequence_parse h_prof_obj_header_entry_parse _)) => eapply c_seq; [apply c_header|lia|solve [calm]] : cost.
Hint Extern 1 (cost _ _ (h_sequence_parse h_prof_obj_period_entry_parse _)) => eapply c_seq; [apply c_prof_period|lia|solve [calm]] : cost.
Hint Extern 1 (cost _ _ (h_sequence_parse h_period_entry_parse _)) =>
  eapply c_seq; [eapply cost_weaken; [apply c_period|lia|reflexivity]|lia|solve [calm]] : cost.
Lemma c_profile_pack_response : cost (-24) 96 h_get_profile_pack_response_parse.
Proof. unfold h_get_profile_pack_response_parse. steps. Qed.
Lemma c_profile_list_response : cost (-24) 96 h_get_profile_list_response_parse.
Proof. unfold h_get_profile_list_response_parse. steps. Qed.
Lemma c_proc_request : cost (-24) 96 h_get_proc_parameter_request_parse.
Proof. unfold h_get_proc_parameter_request_parse. steps. Qed.
Lemma c_proc_response : cost (-24) 200 h_get_proc_parameter_response_parse.
Proof. unfold h_get_proc_parameter_response_parse. steps. Qed.
Lemma c_set_proc : cost (-24) 200 h_set_proc_parameter_request_parse.
Proof. unfold h_set_proc_parameter_request_parse. steps. Qed.
Lemma c_list_request : cost (-24) 96 h_get_list_request_parse.
Proof. unfold h_get_list_request_parse. steps. Qed.
Lemma c_list_response : cost (-24) 96 h_get_list_response_parse.
Proof. unfold h_get_list_response_parse. steps. Qed.
Lemma c_attention : cost (-24) 200 h_attention_response_parse.
Proof. unfold h_attention_response_parse. steps. Qed.
Hint Resolve c_open_request c_open_response c_close_request c_close_response c_profile_pack_request c_profile_pack_response c_profile_list_response
  c_proc_request c_proc_response c_set_proc c_list_request c_list_response c_attention : cost.
Lemma c_body_data t : cost 0 200 (h_body_data_parse t).
Proof. unfold h_body_data_parse. steps. Qed.
Hint Resolve c_body_data : cost.
Lemma c_body : cost (-96) 136 h_message_body_parse.
Proof. unfold h_message_body_parse. steps. Qed.
Hint Resolve c_body : cost.
Lemma still_cursor_int z : still (cursor_int z).
Proof. intros s r s' [= <- <-]. auto. Qed.
Lemma still_slice a b : still (buffer_slice a b).
Proof. intros s r s' E. unfold buffer_slice in E. destruct (_ <? _); [discriminate|]. destruct (_ <? _); [discriminate|]. destruct (_ <=? _)%nat; [|discriminate]. injection E as <- <-. auto. Qed.
Hint Resolve still_cursor_int still_slice : calm.
Lemma c_end b : cost 0 0 (lift (if b =? SML_MESSAGE_END then sml_buf_update_bytes_read 1 else ret tt)).
Proof. apply cost_moves. destruct (_ =? _); [apply moves_update|apply moves_still, still_ret]. Qed.
Hint Resolve c_end : cost.
Lemma c_message : cost (-24) 136 h_message_parse.
Proof. unfold h_message_parse. steps. Qed.
Lemma c_file_loop fuel file : cost 0 136 (h_file_loop fuel file).
Proof.
  induction fuel as [|fuel IH]; cbn [h_file_loop]; (step; intros []; [steps|]); [steps|]. step. intros b. destruct (_ =? _).
  - eapply cost_bind; [apply cost_moves, moves_update|]. intros _. eapply cost_weaken; [apply IH|lia|lia].
  - eapply cost_checked0; [apply c_message|calm|lia|]. intros x. eapply cost_bind with (d1 := 24) (e1 := 24).
    + assert (C : cost 24 24 (h_file_add_message file x)) by (unfold h_file_add_message; step; intros n; destruct (_ <=? _); steps).
      destruct x; cbn [if_ptr]; [steps|exact C..].
    + intros _. eapply cost_weaken; [apply IH|lia|lia].
Qed.
Lemma c_file bytes : cost (80 + Z.of_nat (length bytes)) (216 + Z.of_nat (length bytes)) (h_file_parse_run bytes).
Proof.
  unfold h_file_parse_run, h_buffer_init. step. intros file. eapply cost_bind with (d1 := 40 + Z.of_nat (length bytes)) (e1 := 40 + Z.of_nat (length bytes)).
  - step. intros p. apply cost_malloc. intros d. unfold weight. steps.
  - intros p. step. intros _. eapply cost_bind; [apply c_file_loop|]. steps.
Qed.
End Cost.
