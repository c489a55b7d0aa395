(** What the writers leave in memory that is not zero: each byte is either stored, or
    OR-ed to what was there (the second and later bytes of a type-length field,
    sml_shared.c:166-217). *)
From Verif Require Import Base Buf Crc16 Number OctetString Boolean Value Time SList Tree Bodies Message File
  Lib Wf Spec TL Inv Reads Write TLWrite TLRound NumFacts PropsString Item Enc.

(** a byte that is stored ([false]) or OR-ed ([true]) *)
Definition cellb : Type := bool * Z.
Definition free_bytes (bs : list Z) : list cellb := map (pair false) bs.
(** what is there afterwards *)
Fixpoint over (old : list Z) (cs : list cellb) : list Z :=
  match old, cs with
  | x :: old', c :: cs' => (if fst c then Z.lor x (snd c) else snd c) :: over old' cs'
  | _, _ => []
  end.
(** the type-length field: only its first byte is stored *)
Definition ctl (type l : Z) : list cellb :=
  match tl_vals (count type l) with
  | [] => []
  | v :: t => (false, type + v) :: map (pair true) t
  end.
Fixpoint cenc (i : item) : list cellb :=
  match i with
  | IOmitted => free_bytes [1]
  | IVoid => []
  | IWrong bs => free_bytes bs
  | IOctets bs => ctl 0 (Z.of_nat (length bs)) ++ free_bytes bs
  | IBool b => free_bytes [66; if b then 255 else 0]
  | INum type bs => free_bytes ([type + 1 + Z.of_nat (length bs)] ++ bs)
  | IList n l => ctl 112 n ++ flat_map cenc l
  end.

Lemma over_length old : forall cs, length old = length cs -> length (over old cs) = length cs.
Proof. induction old as [|x old IH]; intros [|c cs] HL; try discriminate; [reflexivity|]. cbn [over length] in *. now rewrite IH by lia. Qed.
Lemma over_app x y : forall c d, length x = length c -> over (x ++ y) (c ++ d) = over x c ++ over y d.
Proof. induction x as [|a x IH]; intros [|b c] d HL; try discriminate; [reflexivity|]. cbn [over app length] in *. now rewrite IH by lia. Qed.
Lemma over_free old : forall bs, length old = length bs -> over old (free_bytes bs) = bs.
Proof. induction old as [|x old IH]; intros [|b bs] HL; try discriminate; [reflexivity|]. cbn [over free_bytes map fst snd length] in *. fold (free_bytes bs). now rewrite IH by lia. Qed.
Lemma over_or old : forall bs, over old (map (pair true) bs) = zipor old bs.
Proof. induction old as [|x old IH]; intros [|b bs]; try reflexivity. cbn [over map fst snd zipor]. now rewrite IH. Qed.
Lemma free_length bs : length (free_bytes bs) = length bs. Proof. apply map_length. Qed.

(** [lays w cs]: [w] puts these bytes at the cursor and moves it behind them *)
Definition lays (w : P unit) (cs : list cellb) : Prop := forall pre old post e o,
  bytes_ok (pre ++ old ++ post) -> length old = length cs -> bytes_ok (over old cs) /\ exists o',
  w (mkBuf (pre ++ old ++ post) (length pre) e o) = Ret (tt, mkBuf (pre ++ over old cs ++ post) (length pre + length cs) e o').
Lemma lays_ret : lays (ret tt) [].
Proof. intros pre [|x old] post e o HB HL; [|discriminate]. split; [constructor|]. exists o. cbn [over app length]. now rewrite Nat.add_0_r. Qed.
Lemma lays_seq w1 w2 c1 c2 : lays w1 c1 -> lays w2 c2 -> lays (w1 ;;; w2) (c1 ++ c2).
Proof.
  intros H1 H2 pre old post e o Hb Hl. rewrite app_length in *. destruct (split_at old (length c1) (length c2) Hl) as (x & y & -> & Lx & Ly).
  rewrite <- app_assoc in *. destruct (H1 pre x (y ++ post) e o Hb Lx) as (B1 & v1 & E1). unfold bind. rewrite E1.
  assert (Hb2 : bytes_ok ((pre ++ over x c1) ++ y ++ post)) by (unfold bytes_ok in *; rewrite !Forall_app in *; tauto).
  destruct (H2 (pre ++ over x c1) y post e v1 Hb2 Ly) as (B2 & v2 & E2).
  rewrite <- app_assoc in E2. rewrite app_length, over_length in E2 by auto. rewrite E2.
  rewrite over_app by auto. split; [now apply Forall_app|]. exists v2. now rewrite <- !app_assoc, Nat.add_assoc.
Qed.
Lemma lays_ext w w' cs : (forall s, w s = w' s) -> lays w cs -> lays w' cs.
Proof. intros E Hw pre old post e o Hb. rewrite <- E. now apply Hw. Qed.
Lemma lays_bind_ret {A} (p : P A) (k : A -> P unit) v cs : (forall s, p s = Ret (v, s)) -> lays (k v) cs -> lays (bind p k) cs.
Proof. intros E. apply lays_ext. intros s. unfold bind. now rewrite E. Qed.
(** writers that do not read what was there *)
Lemma writes_bytes w bs : writes true w bs -> bytes_ok bs.
Proof.
  intros HW. assert (HZ : bytes_ok ([] ++ repeat 0 (length bs) ++ [])).
  { rewrite app_nil_r. cbn [app]. apply Forall_forall. intros x Hx. apply repeat_spec in Hx. unfold byte_ok. lia. }
  destruct (proj1 (HW [] (repeat 0 (length bs)) [] false false HZ) (repeat_length _ _)) as (out & o' & _ & _ & HB & HE).
  rewrite HE in HB by now left. exact HB.
Qed.
Lemma lays_free w bs : writes true w bs -> lays w (free_bytes bs).
Proof.
  intros HW pre old post e o Hb Hl. rewrite free_length in *. rewrite over_free by auto. split; [now apply (writes_bytes w)|].
  destruct (proj1 (HW pre old post e o Hb) Hl) as (out & o' & E & _ & _ & Z). rewrite Z in E by now left. now exists o'.
Qed.
Lemma lays_skipped : lays sml_buf_optional_write (free_bytes [1]).
Proof. apply lays_free, writes_skipped. Qed.
Lemma lays_tl type l : In type tl_types -> 0 <= l -> 0 <= count type l < 16 ^ 7 -> lays (sml_buf_set_type_and_length type l) (ctl type l).
Proof.
  intros Ht H0 Hl pre old post e o Hb HL. change (16 ^ 7) with 268435456 in Hl.
  pose proof (type_byte _ Ht) as HtB.
  assert (EC : (if negb (type =? SML_TYPE_LIST) then to_u32 (l + 1) else l) = count type l).
  { unfold count in *. change SML_TYPE_LIST with 112. destruct (Z.eqb_spec type 112); cbn [negb]; auto.
    unfold to_u32. apply Z.mod_small. lia. }
  assert (EQ : forall s, sml_buf_set_type_and_length type l s = (store_current type ;;; tl_rest (count type l)) s).
  { intros s. unfold sml_buf_set_type_and_length. rewrite EC. reflexivity. }
  rewrite EQ. clear EQ EC.
  unfold ctl in *. pose proof (tl_vals_ok (count type l)) as HV. pose proof (tl_vals_nib (count type l)) as HN.
  pose proof (rest_ok (count type l)) as HR. change (16 ^ 7) with 268435456 in HR. specialize (HR Hl).
  destruct (tl_vals_cons (count type l)) as (v & t & EV). rewrite EV in *. inv HV. inv HN.
  unfold bind, store_current, buffer_len. cbn [buffer cursor].
  destruct old as [|x old]; [discriminate|]. cbn [app length] in *. rewrite map_length in *.
  replace (length pre <? length (pre ++ x :: old ++ post))%nat with true by (symmetry; apply Nat.ltb_lt; rewrite app_length; cbn [length]; lia).
  unfold set_buffer. cbn [buffer cursor error ovf]. rewrite upd_at, byte_u8 by auto.
  assert (Hb2 : bytes_ok (pre ++ (type :: old) ++ post)).
  { unfold bytes_ok in *. cbn [app] in *. rewrite !Forall_app in *. destruct Hb as [Hb1 Hb2]. inv Hb2. split; auto. }
  destruct (proj1 (HR pre (type :: old) post e o Hb2)) as (o' & E). { cbn [length]. lia. }
  cbn [app length zipor] in E. rewrite E. cbn [over fst snd]. rewrite over_or, lor_type by auto. split; [|now exists o'].
  constructor; [rewrite <- lor_type by auto; now apply lor_byte|]. apply zipor_ok; auto.
  unfold bytes_ok in *. cbn [app] in *. apply Forall_app in Hb2. destruct Hb2 as [_ Hb2].
  apply Forall_cons_iff in Hb2. destruct Hb2 as [_ Hb2]. now apply Forall_app in Hb2.
Qed.

(** the bytes, and when they are what is there afterwards *)
Lemma ctl_text type l : map snd (ctl type l) = tl_text type l.
Proof. unfold ctl, tl_text. destruct (tl_vals _) as [|v t]; [reflexivity|]. cbn [map snd]. f_equal. rewrite map_map. apply map_id. Qed.
Lemma free_snd bs : map snd (free_bytes bs) = bs.
Proof. unfold free_bytes. rewrite map_map. apply map_id. Qed.
Lemma item_ind2 (Q : item -> Prop) : (forall i, (forall n l, i <> IList n l) -> Q i) -> (forall n l, Forall Q l -> Q (IList n l)) -> forall i, Q i.
Proof.
  intros HB HL. fix IH 1. intros [| |bs|bs|b|t bs|n l]; try (apply HB; discriminate).
  apply HL. induction l as [|x l IHl]; constructor; [apply IH|exact IHl].
Qed.
Lemma map_flat {A B C} (f : B -> C) (g : A -> list B) l : map f (flat_map g l) = flat_map (fun x => map f (g x)) l.
Proof. induction l as [|x l IH]; [reflexivity|]. cbn [flat_map]. now rewrite map_app, IH. Qed.
Lemma flat_eq {A B} (f g : A -> list B) l : Forall (fun x => f x = g x) l -> flat_map f l = flat_map g l.
Proof. induction 1 as [|x l Hx _ IH]; [reflexivity|]. cbn [flat_map]. now rewrite Hx, IH. Qed.
Lemma cenc_enc i : map snd (cenc i) = enc i.
Proof.
  induction i as [i HN|n l IH] using item_ind2.
  - destruct i as [| |bs|bs|b|t bs|n l]; cbn [cenc enc]; try reflexivity; try apply free_snd.
    + now rewrite map_app, ctl_text, free_snd.
    + exfalso. now apply (HN n l).
  - cbn [cenc enc]. rewrite map_app, ctl_text, map_flat. f_equal. now apply flat_eq.
Qed.
