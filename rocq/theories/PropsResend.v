(** C84: sending again from a buffer that has been used. *)
From Verif Require Import Base Buf Crc16 Number OctetString Boolean Value Time SList Tree Bodies Message File Transport
  Lib Wf Spec TL Write TLWrite NumFacts PropsString Item Enc CrcProof Round3 PropsRound TransportWrite PropsSend PropsMain Cells EncCells OverFrame.

(** *** Specification *)

(** The outline of a message: its structure and the lengths of everything in it, without
    what is in it. *)
Fixpoint outline (i : item) : item :=
  match i with
  | IOmitted => IOmitted
  | IVoid => IVoid
  | IWrong bs => IWrong (map (fun _ => 0) bs)
  | IOctets bs => IOctets (map (fun _ => 0) bs)
  | IBool _ => IBool false
  | INum type bs => INum type (map (fun _ => 0) bs)
  | IList n l => IList n (map outline l)
  end.
Definition outlines {H : Host} (l : list sml_message) : list (list item) := map (fun m => map outline (message_items m)) l.
(** A program sends the files [ls] one after the other, always from the same buffer. *)
Fixpoint send_each {H : Host} (wr : nat -> Z) (s : sbuf) (ls : list (list sml_message)) : outcome (list (Z * list Z)) :=
  match ls with
  | [] => Ret []
  | l :: ls' =>
      match sml_transport_write wr (mkFile l s) with
      | Ret (r, sent, f) => match send_each wr (f_buf f) ls' with Ret t => Ret ((r, sent) :: t) | Fault x => Fault x | NoFuel => NoFuel end
      | Fault x => Fault x
      | NoFuel => NoFuel
      end
  end.

(** *** equal outlines, equal length fields *)
Definition marks (cs : list cellb) : list (option Z) := map (fun c : cellb => if fst c then Some (snd c) else None) cs.
Lemma marks_app a b : marks (a ++ b) = marks a ++ marks b. Proof. apply map_app. Qed.
Lemma marks_free bs : marks (free_bytes bs) = map (fun _ : Z => @None Z) bs.
Proof. unfold marks, free_bytes. now rewrite map_map. Qed.
Lemma marks_ctl type l : marks (ctl type l) = match tl_vals (count type l) with [] => [] | _ :: t => None :: map Some t end.
Proof. unfold ctl, marks. destruct (tl_vals _) as [|v t]; [reflexivity|]. cbn [map fst snd]. now rewrite map_map. Qed.
Lemma map_const {A B C} (c : C) (d : B) (l : list A) : map (fun _ : B => c) (map (fun _ => d) l) = map (fun _ => c) l.
Proof. now rewrite map_map. Qed.
Lemma marks_outline i : marks (cenc (outline i)) = marks (cenc i).
Proof.
  induction i as [i HN|n l IH] using item_ind2.
  - destruct i as [| |bs|bs|b|t bs|n l]; cbn [cenc outline]; try reflexivity.
    + now rewrite !marks_free, map_const.
    + now rewrite !marks_app, !marks_free, map_const, map_length.
    + now rewrite !marks_free, !map_app, map_const.
    + exfalso. now apply (HN n l).
  - cbn [cenc outline]. rewrite !marks_app. f_equal. unfold marks. rewrite !map_flat. rewrite flat_map_concat_map, map_map, <- flat_map_concat_map.
    apply flat_eq. exact IH.
Qed.
Section WithHost.
Context {H : Host}.
Lemma marks_items a b : map outline a = map outline b -> marks (flat_map cenc a) = marks (flat_map cenc b).
Proof.
  intros E. assert (HE : forall l, marks (flat_map cenc l) = flat_map (fun i => marks (cenc i)) (map outline l)).
  { intros l. unfold marks. rewrite map_flat, (flat_map_concat_map _ (map outline l)), map_map, <- flat_map_concat_map.
    apply flat_eq, Forall_forall. intros x _. symmetry. apply marks_outline. }
  now rewrite !HE, E.
Qed.
Lemma marks_message m1 m2 : map outline (message_items m1) = map outline (message_items m2) -> marks (message_cells m1) = marks (message_cells m2).
Proof.
  intros E. unfold message_cells, checked_cells. rewrite !marks_app, (marks_items _ _ E). reflexivity.
Qed.
Lemma marks_messages l1 : forall l2, outlines l1 = outlines l2 -> marks (flat_map message_cells l1) = marks (flat_map message_cells l2).
Proof.
  induction l1 as [|m1 l1 IH]; intros [|m2 l2] E; try discriminate; [reflexivity|]. 
  pose proof (f_equal (hd []) E) as E1. pose proof (f_equal (@tl _) E) as E2. change (map outline (message_items m1) = map outline (message_items m2)) in E1. change (outlines l1 = outlines l2) in E2.
  cbn [flat_map]. rewrite !marks_app, (IH l2 E2). f_equal. now apply marks_message.
Qed.
Lemma marks_length cs : length (marks cs) = length cs. Proof. apply map_length. Qed.
Lemma same_marks_fit c1 : forall c2, marks c1 = marks c2 -> fits_over (map snd c1) c2.
Proof.
  induction c1 as [|a c1 IH]; intros [|b c2] E; try discriminate; [constructor|]. unfold marks in E. cbn [map] in E. injection E as E1 E2.
  cbn [map]. constructor; [|now apply IH]. intros Hb. rewrite Hb in E1. destruct (fst a); [|discriminate]. injection E1 as ->. apply Z.lor_diag.
Qed.
Lemma zeros_fit n cs : n = length cs -> fits_over (repeat 0 n) cs.
Proof. intros ->. induction cs as [|c cs IH]; constructor; [intros _; apply Z.lor_0_l|exact IH]. Qed.
Lemma messages_cells_bytes l : map snd (flat_map message_cells l) = flat_map message_bytes l.
Proof. rewrite map_flat. apply flat_eq, Forall_forall. intros m _. apply message_cells_bytes. Qed.
Lemma messages_cells_length l : length (flat_map message_cells l) = length (flat_map message_bytes l).
Proof. now rewrite <- messages_cells_bytes, map_length. Qed.

(** *** one transmission *)
Lemma frame_injective p q : length p = length q -> frame_of p = frame_of q -> p = q.
Proof.
  intros HL E. unfold frame_of, frame_head in E. rewrite <- !app_assoc in E. apply app_inv_head in E. now apply app_eq_len in E.
Qed.
Lemma send_over l b c e o wr : sized H false l -> bytes_ok b -> Z.of_nat (length b) < 2147483648 ->
  let n := length (flat_map message_bytes l) in (frame_size n <= length b)%nat -> let old := firstn n (skipn 8 b) in exists r f,
  sml_transport_write wr (mkFile l (mkBuf b c e o)) = Ret (r, frame_of (messages_over old l), f) /\
  r = (if to_size (wr (frame_size n)) =? Z.of_nat (frame_size n) then wrap32 (wr (frame_size n)) else 0) /\
  length (messages_over old l) = n /\ length old = n /\ bytes_ok (buffer (f_buf f)) /\
  buffer (f_buf f) = frame_of (messages_over old l) ++ skipn (frame_size n) b /\ f_messages f = sealed_all_over old l.
Proof.
  intros [HW HS] HB HL n HR old. destruct (frame_over l b HW HS HB HL HR c e o) as (o' & E). fold n in E. fold old in E.
  assert (LO : length old = n) by (unfold old; rewrite firstn_length, skipn_length; unfold frame_size in HR; lia).
  assert (SB : forall k, bytes_ok (skipn k b)) by (intros k; apply Forall_forall; intros x Hx; unfold bytes_ok in HB; rewrite Forall_forall in HB; apply HB; rewrite <- (firstn_skipn k b); apply in_app_iff; now right).
  assert (E8 : b = firstn 8 b ++ old ++ skipn (8 + n) b).
  { unfold old. rewrite <- (firstn_skipn 8 b) at 1. f_equal. rewrite <- (firstn_skipn n (skipn 8 b)) at 1. f_equal. now rewrite skipn_skipn_add. }
  assert (HB' : bytes_ok (firstn 8 b ++ old ++ skipn (8 + n) b)) by now rewrite <- E8.
  destruct (messages_are_over l (firstn 8 b) old (skipn (8 + n) b) e o HW HS HB' ltac:(rewrite <- E8; lia) LO) as (BO & LM & _). fold n in LM.
  pose proof (frame_of_length (messages_over old l)) as LF. rewrite LM in LF.
  eexists _, _. split.
  { unfold sml_transport_write. cbn [f_messages f_buf]. rewrite E. cbn [cursor buffer]. rewrite firstn_app, LF, Nat.sub_diag, firstn_O, app_nil_r.
    rewrite (firstn_all2 (frame_of _)) by lia. reflexivity. }
  split; [reflexivity|]. split; [exact LM|]. split; [exact LO|]. cbn [f_buf buffer f_messages]. split; [|split; reflexivity].
  apply Forall_app. split; [|apply SB]. unfold frame_of. apply Forall_app. split; [|apply (writes_bytes _ _ (writes_crc _))].
  unfold frame_head. apply Forall_app. split; [apply start_bytes|]. apply Forall_app. split; [exact BO|].
  rewrite LM. apply (writes_bytes _ _ (writes_tail (pad_of n) (pad_bound n))).
Qed.
Lemma zeros_inside n k m : (m + k <= n)%nat -> firstn m (skipn k (repeat 0 n)) = repeat 0 m.
Proof.
  intros HL. replace n with (k + (m + (n - k - m)))%nat by lia. rewrite repeat_app, skipn_app, skipn_all2 by (rewrite repeat_length; lia).
  rewrite repeat_length, Nat.sub_diag. cbn [app skipn]. rewrite repeat_app, firstn_app, repeat_length, Nat.sub_diag, firstn_O, app_nil_r. apply firstn_all2. rewrite repeat_length. lia.
Qed.
(** from a zeroed buffer *)
Lemma send_fresh l n c e o wr : sized H false l -> Z.of_nat n < 2147483648 ->
  (frame_size (length (flat_map message_bytes l)) <= n)%nat -> exists f,
  sml_transport_write wr (mkFile l (mkBuf (repeat 0 n) c e o)) =
    Ret (let k := frame_size (length (flat_map message_bytes l)) in if to_size (wr k) =? Z.of_nat k then wrap32 (wr k) else 0, frame_of (flat_map message_bytes l), f) /\
  f_messages f = map sealed l.
Proof.
  intros HS HN HR. destruct (send_over l (repeat 0 n) c e o wr HS (zero_bytes n) ltac:(rewrite repeat_length; lia) ltac:(rewrite repeat_length; exact HR)) as (r & f & E & -> & LM & LO & _ & _ & EM).
  set (m := length (flat_map message_bytes l)) in *. rewrite zeros_inside in * by (unfold frame_size in HR; lia).
  assert (EO : messages_over (repeat 0 m) l = flat_map message_bytes l).
  { apply messages_fit; [exact LO|]. apply zeros_fit. symmetry. apply messages_cells_length. }
  rewrite EO in *. exists f. split; [exact E|]. rewrite EM. now apply sealed_fits.
Qed.
End WithHost.

(** *** C84 *)

(** Whatever the buffer holds: the bytes sent are those that would be sent from a zeroed
    buffer exactly if the old byte under every second or later byte of a length field has
    no bit that the new byte does not have. *)
Theorem C84_exactly (H : Host) l b c e o wr : sized H false l -> bytes_ok b -> Z.of_nat (length b) < 2147483648 ->
  (length (flat_map message_bytes l) + 19 <= length b)%nat ->
  exists r sent f r0 sent0 f0,
    sml_transport_write wr (mkFile l (mkBuf b c e o)) = Ret (r, sent, f) /\
    sml_transport_write wr (mkFile l (mkBuf (repeat 0 (length b)) c e o)) = Ret (r0, sent0, f0) /\
    r = r0 /\ length sent = length sent0 /\
    (sent = sent0 <-> forall k v, nth_error (flat_map message_cells l) k = Some (true, v) -> Z.lor (nth (8 + k) b 0) v = v) /\
    (sent = sent0 -> f_messages f = f_messages f0).
Proof.
  intros HS HB HL HR. set (bs := flat_map message_bytes l) in *.
  assert (HR' : (frame_size (length bs) <= length b)%nat) by (unfold frame_size; pose proof (pad_bound (length bs)); lia).
  destruct (send_over l b c e o wr HS HB HL HR') as (r & f & E & Er & LM & LO & _ & _ & EM). fold bs in E, Er, LM, LO, EM.
  destruct (send_fresh l (length b) c e o wr HS HL HR') as (f0 & E0 & EM0). fold bs in E0.
  set (old := firstn (length bs) (skipn 8 b)) in *.
  eexists _, _, _, _, _, _. split; [exact E|]. split; [exact E0|]. split; [exact Er|].
  assert (EE : frame_of (messages_over old l) = frame_of bs <-> fits_over old (flat_map message_cells l)).
  { rewrite <- messages_fit by exact LO. fold bs. split; [|intros ->; reflexivity]. apply frame_injective. exact LM. }
  split; [rewrite !frame_of_length; now rewrite LM|]. split.
  - rewrite EE. assert (LC : length old = length (flat_map message_cells l)) by (rewrite messages_cells_length; exact LO).
    assert (EN : forall k, (k < length bs)%nat -> nth (8 + k) b 0 = nth k old 0).
    { intros k Hk. unfold old. rewrite <- (firstn_skipn 8 b) at 1. rewrite app_nth2 by (rewrite firstn_length; lia). rewrite firstn_length, Nat.min_l by lia.
      replace (8 + k - 8)%nat with k by lia. rewrite <- (firstn_skipn (length bs) (skipn 8 b)) at 1. rewrite app_nth1; [reflexivity|]. rewrite firstn_length, skipn_length. lia. }
    assert (EI : (forall k v, nth_error (flat_map message_cells l) k = Some (true, v) -> Z.lor (nth (8 + k) b 0) v = v) <->
                 (forall k v, nth_error (flat_map message_cells l) k = Some (true, v) -> Z.lor (nth k old 0) v = v)).
    { split; intros HA k v Hk; specialize (HA k v Hk); assert (HX : (k < length bs)%nat) by (rewrite <- LO, LC; apply nth_error_Some; now rewrite Hk); now rewrite (EN k HX) in *. }
    rewrite EI. clear -LC. revert LC. generalize (flat_map message_cells l) as cs. generalize old as ol. clear. induction ol as [|x ol IH]; intros [|[g y] cs] LC; try discriminate.
    + split; [intros _ [|k] v Hk; discriminate|constructor].
    + cbn [length] in LC. specialize (IH cs ltac:(lia)). split.
      * intros HF. inversion HF as [|a b' l1 l2 H1 H2]; subst. intros [|k] v Hk; cbn [nth_error nth] in *; [|now apply (proj1 IH H2)]. injection Hk as -> ->. now apply H1.
      * intros HA. constructor; [|apply IH; intros k v Hk; now apply (HA (S k) v)]. cbn [fst snd]. intros ->. now apply (HA 0%nat y).
  - intros E2. rewrite EM, EM0. apply sealed_fits; [exact LO|]. fold bs. apply messages_fit; [exact LO|]. now apply EE.
Qed.
Print Assumptions C84_exactly.

(** Values may be changed between two transmissions, as long as the structure and the
    lengths stay the same: every transmission is what it would be from a zeroed buffer. *)
Theorem C84_new_values (H : Host) l0 ls n c e o wr :
  Forall (fun l => sized H false l /\ outlines l = outlines l0) ls ->
  (length (flat_map message_bytes l0) + 19 <= n)%nat -> Z.of_nat n < 2147483648 ->
  exists rs, send_each wr (mkBuf (repeat 0 n) c e o) ls = Ret rs /\
    Forall2 (fun l x => exists f, sml_transport_write wr (mkFile l (mkBuf (repeat 0 n) c e o)) = Ret (fst x, snd x, f)) ls rs.
Proof.
  intros HA HR HN.
  assert (LO : forall l, outlines l = outlines l0 -> length (flat_map message_bytes l) = length (flat_map message_bytes l0)).
  { intros l E. apply marks_messages in E. rewrite <- !messages_cells_length, <- !marks_length. now rewrite E. }
  set (m := length (flat_map message_bytes l0)) in *.
  assert (HR' : (frame_size m <= n)%nat) by (unfold frame_size; pose proof (pad_bound m); lia).
  assert (G : forall ls, Forall (fun l => sized H false l /\ outlines l = outlines l0) ls -> forall b c1 e1 o1,
    bytes_ok b -> length b = n -> (forall l, outlines l = outlines l0 -> fits_over (firstn m (skipn 8 b)) (flat_map message_cells l)) ->
    exists rs, send_each wr (mkBuf b c1 e1 o1) ls = Ret rs /\
      Forall2 (fun l x => exists f, sml_transport_write wr (mkFile l (mkBuf (repeat 0 n) c e o)) = Ret (fst x, snd x, f)) ls rs).
  { clear HA ls. induction ls as [|l ls IH]; intros HA b c1 e1 o1 HB LB HF; [exists []; split; [reflexivity|constructor]|].
    apply Forall_cons_iff in HA. destruct HA as [(HS & HO) HA].
    destruct (send_over l b c1 e1 o1 wr HS HB ltac:(lia) ltac:(rewrite (LO l HO); lia)) as (r & f & E & Er & LM & LOl & BF & EBf & _).
    rewrite (LO l HO) in *. destruct (send_fresh l n c e o wr HS HN ltac:(rewrite (LO l HO); exact HR')) as (f0 & E0 & _). rewrite (LO l HO) in E0. cbv zeta in E0.
    assert (EM : messages_over (firstn m (skipn 8 b)) l = flat_map message_bytes l) by (apply messages_fit; [rewrite (LO l HO); exact LOl|now apply HF]).
    rewrite EM in *. cbn [send_each]. rewrite E. destruct (f_buf f) as [bf cf ef of_] eqn:Ebf. cbn [buffer] in BF, EBf.
    assert (LBf : length bf = n) by (rewrite EBf, app_length, frame_of_length, skipn_length, LM; lia).
    destruct (IH HA bf cf ef of_ BF LBf) as (rs & ES & HRs).
    - intros l' HO'. assert (EX : firstn m (skipn 8 bf) = flat_map message_bytes l).
      { rewrite EBf. unfold frame_of, frame_head. rewrite <- !app_assoc. change start_seq with [27; 27; 27; 27; 1; 1; 1; 1]. cbn [app skipn].
        rewrite firstn_app, LM, Nat.sub_diag, firstn_O, app_nil_r. apply firstn_all2. lia. }
      rewrite EX, <- messages_cells_bytes. apply same_marks_fit, marks_messages. now rewrite HO, HO'.
    - rewrite ES. eexists. split; [reflexivity|]. constructor; [|exact HRs]. cbn [fst snd]. exists f0. now rewrite Er. }
  apply (G ls HA); [apply zero_bytes|apply repeat_length|]. intros l HO. rewrite zeros_inside by (unfold frame_size in HR'; lia). apply zeros_fit. rewrite messages_cells_length. symmetry. now apply LO.
Qed.
Print Assumptions C84_new_values.

(** The same file sent twice: twice the same bytes, and the messages as they were. *)
Theorem C84_twice (H : Host) l n c e o wr : sized H false l -> (length (flat_map message_bytes l) + 19 <= n)%nat -> Z.of_nat n < 2147483648 ->
  exists r sent f1 f2, sml_transport_write wr (mkFile l (mkBuf (repeat 0 n) c e o)) = Ret (r, sent, f1) /\
    sml_transport_write wr f1 = Ret (r, sent, f2) /\ f_messages f2 = f_messages f1.
Proof.
  intros HS HR HN. set (m := length (flat_map message_bytes l)) in *.
  assert (HR' : (frame_size m <= n)%nat) by (unfold frame_size; pose proof (pad_bound m); lia).
  destruct (send_over l (repeat 0 n) c e o wr HS (zero_bytes n) ltac:(rewrite repeat_length; lia) ltac:(rewrite repeat_length; exact HR')) as (r & f & E & Er & LM & LO & BF & EBf & EM).
  fold m in E, Er, LM, LO, BF, EBf, EM. rewrite zeros_inside in * by (unfold frame_size in HR'; lia).
  assert (EO : messages_over (repeat 0 m) l = flat_map message_bytes l).
  { apply messages_fit; [exact LO|]. apply zeros_fit. symmetry. apply messages_cells_length. }
  assert (EM' : f_messages f = map sealed l) by (rewrite EM; now apply sealed_fits). clear EM. rewrite EO in *.
  assert (HI : forall x, message_items (sealed x) = message_items x) by reflexivity.
  assert (EB2 : flat_map message_bytes (map sealed l) = flat_map message_bytes l).
  { rewrite flat_map_concat_map, map_map, <- flat_map_concat_map. reflexivity. }
  assert (HS2 : sized H false (map sealed l)).
  { destruct HS as [HW HS]. split; rewrite Forall_map.
    - eapply Forall_impl; [|exact HW]. intros x [W1 W2 W3 W4]. constructor; [exact W1|exact W2|exact W3|exact W4].
    - exact HS. }
  assert (LB : length (buffer (f_buf f)) = n) by (rewrite EBf, app_length, frame_of_length, skipn_length, repeat_length; fold m; lia).
  destruct f as [ms [b2 c2 e2 o2]]. cbn [f_messages f_buf buffer] in *. subst ms.
  destruct (send_over (map sealed l) b2 c2 e2 o2 wr HS2 BF ltac:(lia) ltac:(rewrite EB2; fold m; lia)) as (r2 & f2 & E2 & Er2 & LM2 & LO2 & _ & _ & EM2).
  rewrite EB2 in *. fold m in E2, Er2, LM2, LO2, EM2.
  assert (EX : firstn m (skipn 8 b2) = flat_map message_bytes l).
  { rewrite EBf. unfold frame_of, frame_head. rewrite <- !app_assoc. change start_seq with [27; 27; 27; 27; 1; 1; 1; 1]. cbn [app skipn].
    rewrite firstn_app. fold m. rewrite Nat.sub_diag, firstn_O, app_nil_r. apply firstn_all2. unfold m. lia. }
  rewrite EX in *.
  assert (EO2 : messages_over (flat_map message_bytes l) (map sealed l) = flat_map message_bytes (map sealed l)).
  { apply messages_fit; [rewrite EB2; reflexivity|]. rewrite <- EB2, <- messages_cells_bytes. now apply same_marks_fit. }
  exists r, (frame_of (flat_map message_bytes l)), (mkFile (map sealed l) (mkBuf b2 c2 e2 o2)), f2. split; [exact E|]. split.
  - rewrite E2, Er2, Er, EO2, EB2. reflexivity.
  - cbn [f_messages]. rewrite EM2. rewrite sealed_fits; [|rewrite EB2; reflexivity|exact EO2]. rewrite map_map. reflexivity.
Qed.
Print Assumptions C84_twice.

(** Everything proved about what arrives from a zeroed buffer holds for every transmission. *)
Theorem C84_received (H : Host) l0 ls n c e o wr :
  Forall (fun l => sized H false l /\ outlines l = outlines l0) ls ->
  (length (flat_map message_bytes l0) + 19 <= n)%nat -> Z.of_nat n < 2147483648 ->
  exists rs, send_each wr (mkBuf (repeat 0 n) c e o) ls = Ret rs /\ Forall2 (fun l x => sent_as H l (snd x)) ls rs.
Proof.
  intros HA HR HN. destruct (C84_new_values H l0 ls n c e o wr HA HR HN) as (rs & E & HF). exists rs. split; [exact E|].
  clear -HF HN. induction HF as [|l x ls rs (f & Ef) _ IH]; constructor; [|exact IH]. exists n, c, e, o, wr, (fst x), f. now split.
Qed.
Print Assumptions C84_received.

(** *** a meter that sends a new reading, with a signature of 20 bytes, from the same buffer *)
Definition reading (H : Host) (v : Z) : sml_message :=
  mkMsg (Some [0; 56]) (Some (u8 0)) (Some (u8 0))
   (Some (mkBody (Some (sml_u32_init 1793)) (BListRes (mkListRes None (Some [10; 1; 69; 77; 72]) None
      (Some (mkTime (Some (u8 1)) (Some (sml_u32_init (1000 + v)))))
      [ mkEntry (Some [1; 0; 1; 8; 0; 255]) None None (Some (u8 30)) (Some (u8 255)) (Some (mkValue 88 (VNum (sml_number_init v 8)))) None ]
      (Some (repeat (v mod 256) 20)) None)))) None.
Definition closing (H : Host) (n : nat) : sml_message := mkMsg (Some [1]) None None (Some (mkBody (Some (sml_u32_init 512)) (BCloseReq (mkCloseReq (Some (repeat 7 n)))))) None.
Example C84_example : let H : Host := LittleEndian in
  outlines [reading H 5] = outlines [reading H 70000] /\ reading H 5 <> reading H 70000 /\
  match send_each (fun n => Z.of_nat n) (sml_buffer_init 512) [[reading H 5]; [reading H 70000]; [reading H 5]] with
  | Ret [(r1, s1); (r2, s2); (r3, s3)] => s1 <> s2 /\ s1 = s3 /\ r1 = 100 /\
      match sml_file_parse (firstn (length s2 - 16) (skipn 8 s2)) with Ret g => map m_message_body (f_messages g) = [m_message_body (reading H 70000)] | _ => False end
  | _ => False
  end.
Proof. cbv zeta. split; [reflexivity|]. split; [vm_compute; discriminate|]. vm_compute. split; [discriminate|]. split; [reflexivity|]. split; reflexivity. Qed.
Example C84_example_hypotheses : let H : Host := LittleEndian in
  Forall (fun l => sized H false l /\ outlines l = outlines [reading H 5]) [[reading H 5]; [reading H 70000]; [reading H 5]] /\
  exists k v, nth_error (flat_map message_cells [reading H 5]) k = Some (true, v) /\ v <> 0.
Proof.
  cbv zeta. assert (R5 : round_trippable (H := LittleEndian) (reading LittleEndian 5)) by (unfold reading; sample; apply unaffected_stable; reflexivity).
  assert (R7 : round_trippable (H := LittleEndian) (reading LittleEndian 70000)) by (unfold reading; sample; apply unaffected_stable; reflexivity).
  assert (G : forall m, round_trippable (H := LittleEndian) m -> sized LittleEndian false [m]).
  { intros m Hm. split; constructor; [apply Hm|constructor|apply readable_sizes, Hm|constructor]. }
  split.
  - repeat (apply Forall_cons; [split; [now apply G|reflexivity]|]). apply Forall_nil.
  - exists 57%nat, 6. split; [vm_compute; reflexivity|discriminate].
Qed.
(** If a length changes, what is sent may be wrong, and the receiver gets nothing: the
    signature is first 27 and then 18 bytes long (13 and 4 are in its second length byte). *)
Theorem C84_other_lengths_refuted : let H : Host := LittleEndian in exists l1 l2, Forall round_trippable l1 /\ Forall round_trippable l2 /\
  match send_each (fun n => Z.of_nat n) (sml_buffer_init 512) [l1; l2], send_each (fun n => Z.of_nat n) (sml_buffer_init 512) [l2] with
  | Ret [_; (r, s)], Ret [(r', s')] => r = r' /\ s <> s' /\
      match sml_file_parse (firstn (length s - 16) (skipn 8 s)) with Ret g => f_messages g = [] | _ => False end
  | _, _ => False
  end.
Proof.
  cbv zeta. exists [closing LittleEndian 27], [closing LittleEndian 18]. split; [|split].
  - constructor; [|constructor]. unfold closing. sample. exact I.
  - constructor; [|constructor]. unfold closing. sample. exact I.
  - vm_compute. split; [reflexivity|]. split; [discriminate|]. reflexivity.
Qed.
Print Assumptions C84_other_lengths_refuted.
