(** Structures, sequences, trees and the bodies of messages. *)
From Verif Require Import Base Buf Crc16 Number OctetString Boolean Value Time SList Tree Bodies
  Message File Lib Wf Safe Safe2 Safe3 Ctx Ctx2 Ctx3 Scan Spec TL Inv Reads NumFacts Dzg Exact Grammar Accept Accept2 Accept3.

Ltac acc_prim := lazymatch goal with
  | |- acc sml_octet_string_parse _ => exact acc_octets
  | |- acc sml_boolean_parse _ => exact acc_boolean
  | |- acc (@sml_u8_parse _) _ => exact acc_u8
  | |- acc (@sml_u16_parse _) _ => exact acc_u16
  | |- acc (@sml_u32_parse _) _ => exact acc_u32
  | |- acc (@sml_u64_parse _) _ => exact acc_u64
  | |- acc (@sml_i8_parse _) _ => exact acc_i8
  | |- acc (@sml_i16_parse _) _ => exact acc_i16
  | |- acc (@sml_i64_parse _) _ => exact acc_i64
  | |- acc (@sml_value_parse _) _ => exact acc_value
  | |- acc (@sml_status_parse _) _ => exact acc_status
  | |- acc (@sml_time_parse _) _ => exact acc_time
  end.
Ltac acc_last := apply acc_done; intros m; split;
  [intros HC; destruct m; cbn in HC; repeat match type of HC with _ /\ _ => destruct HC as [HC ?] end; subst; reflexivity|intros ->; cbn; repeat split].
Ltac acc_fields := repeat (lazymatch goal with |- acc (field _ _) _ => refine (acc_fld _ _ _ _ _ _ _ _ _); [mon|acc_prim|intro] end).
Ltac acc_struct := apply (acc_structure _ _ _); [mon| |lia|reflexivity]; acc_fields; try acc_last.


Lemma acc_eq {A} (p q : P A) W : (forall s, p s = q s) -> acc p W -> acc q W.
Proof. intros E Hp s G v s1. rewrite <- E. now apply Hp. Qed.
Lemma label_bind {A B} (p : P A) (k : A -> P (option B)) s : error_label (bind p k) s = bind p (fun a => error_label (k a)) s.
Proof. unfold error_label, bind. destruct (p s) as [[a s1]| |]; auto. Qed.
Lemma acc_label_header {A} ty (k : Z -> P (option A)) W2 : (forall l, mon (k l)) -> (forall l, acc (k l) (W2 l)) ->
  acc (error_label (t <- sml_buf_get_next_type ;; if negb (t =? ty) then ret None else l <- sml_buf_get_next_length ;; k l))
    (fun r bs t => r <> None /\ exists tl b l, bs = tl ++ b /\ header ty l tl /\ tl_nibbles tl < 2147483648 /\ W2 l r b t).
Proof.
  intros Mk Hk. eapply acc_ext.
  - apply (acc_eq (t <- sml_buf_get_next_type ;; if negb (t =? ty) then err_null else l <- sml_buf_get_next_length ;; error_label (k l))).
    + intros s. rewrite label_bind. unfold bind at 1 3. destruct (sml_buf_get_next_type s) as [[t s1]| |]; auto.
      destruct (negb (t =? ty)); [reflexivity|]. now rewrite label_bind.
    + apply (acc_header ty _ (fun l r bs t => r <> None /\ W2 l r bs t)); [intros l; apply mon_label, Mk|intros l; apply acc_label, Hk|mon|apply acc_null].
  - intros r bs t _ _. split.
    + intros (tl & b & l & -> & Hh & TN & N & X). split; [exact N|]. exists tl, b, l. auto.
    + intros (N & tl & b & l & -> & Hh & TN & X). exists tl, b, l. auto 6.
Qed.
Definition nonempty {A} (W : lang A) : Prop := forall v bs t, W v bs t -> bs <> [].
Lemma acc_sequence {A} (p : P (option A)) W : mon p -> acc p W -> nonempty W -> acc (sml_sequence_parse p) (required (sequence_of W)).
Proof.
  intros Mp Hp HN. unfold sml_sequence_parse. eapply acc_ext.
  - apply (acc_label_header 112 _ (fun n r b t => exists l, r = Some l /\ length l = Z.to_nat n /\ fields (map W l) b t)); [mon|].
    intros n. apply (acc_eq (with_fuel (fun fuel => elems_loop fuel n p))).
    + intros s. unfold with_fuel. apply elems_sequence.
    + now apply acc_items.
  - intros r bs t _ HL. split.
    + intros (_ & tl & b & n & -> & Hh & TN & l & -> & HX & X). cbn. apply items_structure; auto. exists tl, b, n. auto.
    + intros X. destruct r as [l|]; [|destruct X]. split; [discriminate|]. apply items_structure in X; auto.
      destruct X as (tl & b & n & -> & Hh & TN & HX & X). exists tl, b, n. split; [auto|]. split; [auto|]. split; [auto|]. eauto.
Qed.
Lemma somes_present {A} (l : list (option A)) : somes l = present l.
Proof. induction l as [|[x|] l IH]; cbn; congruence. Qed.
Lemma structure_ne ws bs t : structure ws bs t -> bs <> [].
Proof. intros (tl & b & -> & Hh & _). destruct (header_type _ _ _ b Hh) as (c & u & _ & -> & _). discriminate. Qed.
Lemma optional_ne {A} (W : lang A) : nonempty W -> nonempty (optional W).
Proof. intros HN [v|] bs t X; [exact (HN v bs t X)|cbn in X; subst; discriminate]. Qed.
Lemma octets_ne : nonempty octets.
Proof. intros v bs t (tl & -> & Hh & _). destruct (header_type _ _ _ v Hh) as (c & u & _ & -> & _). discriminate. Qed.
Lemma acc_path : acc sml_tree_path_parse tree_path.
Proof.
  unfold sml_tree_path_parse. eapply acc_ext.
  - apply acc_unless; [mon| |].
    + apply (acc_label_header 112 _ (fun n r b t => exists v, (exists l, v = Some l /\ length l = Z.to_nat n /\ fields (map (optional octets) l) b t) /\
         r = match v with None => None | Some l => Some (somes l) end)); [mon|].
      intros n. apply acc_map, acc_items; [mon|exact acc_octets|apply optional_ne, octets_ne].
    + intros v bs t (_ & tl & b & n & -> & Hh & _). destruct (header_type _ _ _ (b ++ t) Hh) as (b0 & u & _ & E & Hty). rewrite <- app_assoc, E.
      exists b0, (u ++ b ++ t). split; [auto|]. intros ->. discriminate.
  - intros r bs t _ HL. unfold tree_path. split; (intros [X|X]; [now left|right]).
    + destruct X as (_ & tl & b & n & -> & Hh & TN & v & (l & -> & HX & X) & ->). exists l. rewrite somes_present. split; [|reflexivity].
      apply items_structure; [exact (optional_ne _ octets_ne)|exact HL|]. exists tl, b, n. auto.
    + destruct X as (l & X & ->). split; [discriminate|]. apply items_structure in X; [|exact (optional_ne _ octets_ne)|exact HL].
      destruct X as (tl & b & n & -> & Hh & TN & HX & X). exists tl, b, n. rewrite <- somes_present. split; [auto|]. split; [auto|]. split; [auto|]. exists (Some l). split; [eauto|reflexivity].
Qed.

Section WithHost.
Context {H : Host}.
Lemma acc_period : acc sml_period_entry_parse (optional (period true)).
Proof. apply acc_optional; [mon| |intros v; apply starts_structure]. acc_struct. Qed.
Lemma acc_tupel : acc sml_tupel_entry_parse (optional (tupel true)).
Proof. apply acc_optional; [mon| |intros v; apply starts_structure]. acc_struct. Qed.
End WithHost.
