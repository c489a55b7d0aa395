(** Property C80: a sender that stops inside a frame and starts again, and bytes that get
    lost on the way. *)
From Verif Require Import Base Buf Crc16 Number OctetString Boolean Value Time SList Tree Bodies Message File Transport
  Lib Spec PropsString TransportFacts PropsTransport TransportReport PropsEnding.

(** *** Specification *)
(** A frame (PropsTransport.v) without the byte 0x1b except in its start and its end. *)
Definition plain (f : list Z) : Prop := exists payload a b c,
  f = [27; 27; 27; 27; 1; 1; 1; 1] ++ payload ++ [27; 27; 27; 27; 26; a; b; c] /\ (length payload mod 4 = 0)%nat /\ ~ In 27 (payload ++ [a; b; c]).
(** Frames that are sent without a pause. *)
Definition stream (fs : list (list Z)) : Prop := Forall (fun f => plain f /\ (length f < Z.to_nat 8096)%nat) fs.

(** What is received after the sender has sent [k] bytes of [f] and then [g :: gs]: nothing
    is lost but [f] if nothing of it was sent; if it stopped in the start sequence, [g] is
    lost, too; if it stopped before the last three bytes, everything is lost; otherwise [f]
    comes with the first bytes of [g] as its last, and [g] is lost. *)
Definition received (f : list Z) (k : nat) (g : list Z) (gs : list (list Z)) : list (list Z) :=
  if (k =? 0)%nat then g :: gs
  else if (k <? 8)%nat then gs
  else if (k <? length f - 3)%nat then []
  else (firstn k f ++ firstn (length f - k) g) :: gs.

(** *** What listening hears *)
Fixpoint heard (fuel : nat) (w : list (option Z)) : list (list Z) :=
  match fuel with
  | O => []
  | S n => match frame_read MC_SML_BUFFER_LEN w with (Some f, r) => f :: heard n r | (None, _) => [] end
  end.
Lemma frame_read_shrinks w f r : frame_read MC_SML_BUFFER_LEN w = (Some f, r) -> (length r < length w)%nat.
Proof.
  unfold frame_read. destruct (_ <? _)%nat; [discriminate|]. destruct (scan 0 w) as [[|] w1] eqn:ES; [|discriminate].
  destruct (frame_words _ _ _ w1) as [[bs|] w2] eqn:EF; [|discriminate]. intros E. injection E as _ <-.
  apply scan_sound in ES; [|lia]. destruct ES as (noise & b1 & -> & EB). apply words_sound in EF. destruct EF as (p & a & b & c & -> & _ & _ & -> & _).
  rewrite !app_length, !map_length, !app_length. cbn [length]. lia.
Qed.
Lemma heard_fuel n1 : forall n2 w, (length w < n1)%nat -> (length w < n2)%nat -> heard n1 w = heard n2 w.
Proof.
  induction n1 as [|n1 IH]; intros n2 w H1 H2; [lia|]. destruct n2 as [|n2]; [lia|]. cbn [heard].
  destruct (frame_read _ w) as [[f|] r] eqn:E; [|reflexivity]. apply frame_read_shrinks in E. f_equal. apply IH; lia.
Qed.
Definition hears (w : list (option Z)) : list (list Z) := heard (S (length w)) w.
Lemma hears_none w r : frame_read MC_SML_BUFFER_LEN w = (None, r) -> hears w = [].
Proof. intros E. unfold hears. cbn [heard]. now rewrite E. Qed.
Lemma hears_some w f r : frame_read MC_SML_BUFFER_LEN w = (Some f, r) -> hears w = f :: hears r.
Proof. intros E. unfold hears at 1. cbn [heard]. rewrite E. f_equal. apply heard_fuel; [apply frame_read_shrinks in E|]; lia. Qed.
Lemma listen_heard fuel : forall d, (length (delivered d) < fuel)%nat -> exists d', listen_loop fuel d = Ret (hears (delivered d), d').
Proof.
  induction fuel as [|fuel IH]; intros d HF; [lia|]. cbn [listen_loop]. destruct (transport_read_pure MC_SML_BUFFER_LEN d) as (d1 & E & ED). rewrite E.
  destruct (frame_read MC_SML_BUFFER_LEN (delivered d)) as [[f|] r] eqn:EF; cbn [fst snd] in *.
  - pose proof (frame_read_shrinks _ _ _ EF) as HS. destruct (IH d1) as (d2 & E2); [rewrite ED; lia|].
    assert (HZ : length f <> 0%nat).
    { clear - EF. unfold frame_read in EF. destruct (_ <? _)%nat; [discriminate|]. destruct (scan 0 _) as [[|] w1]; [|discriminate]. destruct (frame_words _ _ _ w1) as [[bs|] w2]; [|discriminate].
      injection EF as <- _. cbn. lia. }
    apply Nat.eqb_neq in HZ. rewrite HZ, E2, ED. exists d2. now rewrite (hears_some _ _ _ EF).
  - cbn [Nat.eqb]. exists d1. now rewrite (hears_none _ _ EF).
Qed.

Lemma hears_clean ps : forall w, clean ps -> hears (map Some (flat_map (fun x => fst x ++ snd x) ps) ++ w) = map snd ps ++ hears w.
Proof.
  induction ps as [|[noise f] ps IH]; intros w HC; [reflexivity|]. apply Forall_cons_iff in HC. destruct HC as [(HN & HF & HL) HC]. cbn [flat_map map fst snd app] in *.
  rewrite map_app, <- app_assoc. rewrite (hears_some _ f (map Some (flat_map (fun x => fst x ++ snd x) ps) ++ w)); [now rewrite IH|]. now apply pure_noise_frame.
Qed.
Lemma no_escape p : ~ In 27 p -> unescaped p.
Proof.
  intros HN i E. apply HN. rewrite <- (firstn_skipn (4 * i) p). apply in_app_iff. right. rewrite <- (firstn_skipn 4 (skipn (4 * i) p)), E. now left.
Qed.
Lemma plain_frame f : plain f -> frame f.
Proof.
  intros (p & a & b & c & -> & H4 & HN). exists p, a, b, c. split; [reflexivity|]. split; [exact H4|]. apply no_escape. intros HI. apply HN. apply in_app_iff. now left.
Qed.
Lemma hears_stream fs : stream fs -> hears (map Some (concat fs)) = fs.
Proof.
  intros HS. assert (HC : clean (map (fun f => ([], f)) fs)).
  { unfold clean. apply Forall_map. eapply Forall_impl; [|exact HS]. intros f [HP HL]. cbn [fst snd]. split; [intros []|]. split; [now apply plain_frame|exact HL]. }
  pose proof (hears_clean _ [] HC) as HH. rewrite app_nil_r in HH. replace (flat_map _ _) with (concat fs) in HH.
  2:{ clear. induction fs as [|f fs IH]; [reflexivity|]. cbn [map flat_map concat fst snd app]. now rewrite IH. }
  rewrite HH, map_map. cbn [snd]. rewrite map_id. change (hears []) with (@nil (list Z)). apply app_nil_r.
Qed.

(** *** The scanner behind a start that it has missed *)
Lemma scan_rest p a b c w : ~ In 27 (p ++ [a; b; c]) -> scan 0 (map Some (p ++ [27; 27; 27; 27; 26; a; b; c]) ++ w) = scan 0 w.
Proof.
  intros HN. rewrite map_app, <- app_assoc, scan_noise by (intros HI; apply HN; apply in_app_iff; now left).
  change (map Some [27; 27; 27; 27; 26; a; b; c] ++ w) with (map (@Some Z) [27; 27; 27; 27; 26] ++ map Some [a; b; c] ++ w).
  cbn [map app]. do 5 (rewrite scan_step by lia; unfold start_ok at 1; cbn [Z.eqb Pos.eqb Nat.ltb Nat.leb andb orb]).
  change (Some a :: Some b :: Some c :: w) with (map Some [a; b; c] ++ w). apply scan_noise. intros HI. apply HN. apply in_app_iff. now right.
Qed.
Lemma frame_read_scan w w' : scan 0 w = scan 0 w' -> frame_read MC_SML_BUFFER_LEN w = frame_read MC_SML_BUFFER_LEN w'.
Proof. intros E. unfold frame_read. destruct (Nat.ltb_spec MC_SML_BUFFER_LEN 8) as [HX|_]; [unfold MC_SML_BUFFER_LEN in HX; lia|]. now rewrite E. Qed.
Lemma hears_scan w w' : scan 0 w = scan 0 w' -> hears w = hears w'.
Proof.
  intros E. apply frame_read_scan in E. destruct (frame_read _ w') as [[f|] r] eqn:E'; [now rewrite (hears_some _ _ _ E), (hears_some _ _ _ E')|now rewrite (hears_none _ _ E), (hears_none _ _ E')].
Qed.
(** from some state within the start sequence on, a start sequence is missed *)
Lemma scan_cut k w : (1 <= k <= 7)%nat -> scan k (map Some [27; 27; 27; 27; 1; 1; 1; 1] ++ w) = scan 0 w.
Proof.
  intros HK. cbn [map app]. do 7 (destruct k as [|k]; [try lia; do 8 (rewrite scan_step by lia; unfold start_ok at 1; cbn [Z.eqb Pos.eqb Nat.ltb Nat.leb andb orb]); reflexivity|]).
  destruct k; [|lia]. do 8 (rewrite scan_step by lia; unfold start_ok at 1; cbn [Z.eqb Pos.eqb Nat.ltb Nat.leb andb orb]); reflexivity.
Qed.
Lemma scan_part k w : (k <= 7)%nat -> scan 0 (map Some (firstn k [27; 27; 27; 27; 1; 1; 1; 1]) ++ w) = scan k w.
Proof.
  intros HK. do 8 (destruct k as [|k]; [cbn [firstn map app]; repeat (rewrite scan_step by lia; unfold start_ok at 1; cbn [Z.eqb Pos.eqb Nat.ltb Nat.leb andb orb]); reflexivity|]). lia.
Qed.

(** *** Words that are not aligned *)
Lemma words_unescaped fuel : forall len max_len q, unescaped q -> fst (frame_words fuel len max_len (map Some q)) = None.
Proof.
  induction fuel as [|fuel IH]; intros len max_len q HU; cbn [frame_words]; destruct (_ <? _)%nat; try reflexivity.
  destruct q as [|a [|b [|c [|e r]]]]; try reflexivity. change (a :: b :: c :: e :: r) with ([a; b; c; e] ++ r) in *. rewrite map_app, take_some by reflexivity.
  apply unescaped_cons in HU; [|reflexivity]. destruct HU as [HN HU]. rewrite list_eqb_no by exact HN.
  specialize (IH (len + 4)%nat max_len r HU). destruct (frame_words fuel _ _ _) as [[y|] w2]; [discriminate IH|reflexivity].
Qed.
(** four-byte words that are an escape sequence or have no escape byte, the former never
    twice in a row *)
Fixpoint spaced (bs : list (list Z)) : Prop :=
  match bs with
  | [] => True
  | b :: t => length b = 4%nat /\ (b = esc_seq \/ ~ In 27 b) /\ (b = esc_seq -> match t with c :: _ => ~ In 27 c | [] => True end) /\ spaced t
  end.
Lemma spaced_app A x B : spaced (A ++ [x]) -> ~ In 27 x -> spaced B -> spaced (A ++ [x] ++ B).
Proof.
  induction A as [|a A IH]; cbn [app spaced]; intros HA HX HB.
  - destruct HA as (HL & HO & _ & _). split; [exact HL|]. split; [exact HO|]. split; [|exact HB]. intros ->. exfalso. apply HX. now left.
  - destruct HA as (HL & HO & HN & HA). split; [exact HL|]. split; [exact HO|]. split; [|now apply IH]. intros E. specialize (HN E). destruct A; cbn [app] in *; exact HN.
Qed.
Lemma spaced_shift bs : spaced bs -> forall i e, (1 <= e <= 3)%nat -> firstn 4 (skipn (4 * i + e) (concat bs)) <> esc_seq.
Proof.
  induction bs as [|b t IH]; intros HS i e HE; [cbn [concat]; rewrite skipn_nil; discriminate|]. destruct HS as (HL & HO & HN & HS). cbn [concat]. destruct i as [|i].
  - destruct b as [|b0 [|b1 [|b2 [|b3 [|]]]]]; try discriminate HL. intros E. assert (HI : In 27 [b0; b1; b2; b3]).
    { destruct e as [|[|[|[|e]]]]; try lia; cbn [Nat.mul Nat.add skipn app firstn] in E; injection E as ->; cbn [In]; tauto. }
    destruct HO as [HO|HO]; [|contradiction]. specialize (HN HO). destruct t as [|c t].
    + cbn [concat] in E. rewrite app_nil_r in E. apply (f_equal (@length _)) in E. rewrite firstn_length, skipn_length in E. cbn [length esc_seq] in E. lia.
    + destruct HS as (HL2 & _). destruct c as [|c0 [|c1 [|c2 [|c3 [|]]]]]; try discriminate HL2. apply HN. left. cbn [concat app] in E.
      destruct e as [|[|[|[|e]]]]; try lia; cbn [Nat.mul Nat.add skipn app firstn] in E; injection E; intros; assumption.
  - rewrite skipn_app, skipn_all2 by lia. cbn [app]. rewrite HL. replace (4 * S i + e - 4)%nat with (4 * i + e)%nat by lia. now apply IH.
Qed.
Lemma shifted q bs : ~ In 27 q -> (length q mod 4 <> 0)%nat -> spaced bs -> unescaped (q ++ concat bs).
Proof.
  intros HQ HM HS i E. destruct (Nat.le_gt_cases (length q) (4 * i)) as [HL|HL].
  - rewrite skipn_app, skipn_all2 in E by lia. cbn [app] in E. pose proof (Nat.div_mod (length q) 4 ltac:(lia)) as HD. pose proof (Nat.mod_upper_bound (length q) 4 ltac:(lia)).
    apply (spaced_shift bs HS (i - length q / 4 - 1) (4 - length q mod 4)); [lia|]. replace (4 * (i - length q / 4 - 1) + (4 - length q mod 4))%nat with (4 * i - length q)%nat by lia. exact E.
  - apply HQ. rewrite skipn_app in E. destruct (skipn (4 * i) q) as [|x r] eqn:EK.
    + apply (f_equal (@length _)) in EK. rewrite skipn_length in EK. cbn [length] in EK. lia.
    + cbn [app firstn] in E. injection E as -> _. rewrite <- (firstn_skipn (4 * i) q), EK. apply in_app_iff. right. now left.
Qed.
Lemma quarters p : (length p mod 4 = 0)%nat -> ~ In 27 p -> exists bs, p = concat bs /\ Forall (fun b => length b = 4%nat /\ ~ In 27 b) bs.
Proof.
  intros HM. destruct (mul4 _ HM) as [k HK]. clear HM. revert p HK. induction k as [|k IH]; intros p HK HN.
  - exists []. destruct p; [|discriminate]. auto.
  - destruct (split4 k p HK) as (q & r & -> & HQ & HR). destruct (IH r HR) as (bs & -> & HB); [intros HI; apply HN; apply in_app_iff; now right|].
    exists (q :: bs). split; [reflexivity|]. constructor; [|exact HB]. split; [exact HQ|]. intros HI. apply HN. apply in_app_iff. now left.
Qed.
Lemma spaced_free A B : Forall (fun b => length b = 4%nat /\ ~ In 27 b) A -> spaced B -> spaced (A ++ B).
Proof.
  intros HA HB. induction HA as [|a A [HL HN] _ IH]; [exact HB|]. cbn [app spaced]. split; [exact HL|]. split; [now right|]. split; [|exact IH]. intros ->. exfalso. apply HN. now left.
Qed.
Lemma end_spaced a b c B : ~ In 27 [a; b; c] -> spaced B -> spaced (esc_seq :: [26; a; b; c] :: B).
Proof.
  intros HN HB. assert (H26 : ~ In 27 [26; a; b; c]) by (intros [HI|HI]; [discriminate|contradiction]). cbn [spaced].
  split; [reflexivity|]. split; [now left|]. split; [auto|]. split; [reflexivity|]. split; [now right|]. split; [|exact HB]. intros E. exfalso. apply H26. rewrite E. now left.
Qed.
Lemma stream_spaced fs : stream fs -> exists bs, concat fs = concat bs /\ spaced bs.
Proof.
  intros HS. induction HS as [|f fs [(p & a & b & c & -> & H4 & HN) _] _ (bs & EB & HB)]; [exists []; split; [reflexivity|exact I]|].
  destruct (quarters p H4) as (ps & -> & HP); [intros HI; apply HN; apply in_app_iff; now left|].
  exists (esc_seq :: [1; 1; 1; 1] :: ps ++ esc_seq :: [26; a; b; c] :: bs). split.
  - cbn [concat app esc_seq]. rewrite concat_app. cbn [concat app esc_seq]. rewrite EB, <- !app_assoc. reflexivity.
  - cbn [spaced]. assert (H1 : ~ In 27 [1; 1; 1; 1]) by (cbn [In]; lia). split; [reflexivity|]. split; [now left|]. split; [auto|]. split; [reflexivity|]. split; [now right|].
    split; [discriminate|]. apply spaced_free; [exact HP|]. apply end_spaced; [|exact HB]. intros HI. apply HN. apply in_app_iff. now right.
Qed.
Lemma hears_unescaped noise q : ~ In 27 noise -> unescaped q -> hears (map Some (noise ++ [27; 27; 27; 27; 1; 1; 1; 1] ++ q)) = [].
Proof.
  intros HN HU. pose proof (words_unescaped (S MC_SML_BUFFER_LEN) 8 MC_SML_BUFFER_LEN q HU) as HW.
  apply (hears_none _ (snd (frame_words (S MC_SML_BUFFER_LEN) 8 MC_SML_BUFFER_LEN (map Some q)))). rewrite (pure_start MC_SML_BUFFER_LEN _ (map Some q)).
  - rewrite HW. reflexivity.
  - unfold MC_SML_BUFFER_LEN; lia.
  - rewrite !map_app, scan_noise by exact HN. apply scan_start.
Qed.

(** *** C80 *)
(** The sender stops after [k] bytes of the frame [f] and then sends the frames [g :: gs].
    Before that, frames [ps] with noise between them were heard. *)
Section Restart.
Variables (d : fd) (ps : list (list Z * list Z)) (noise f : list Z) (k : nat) (g : list Z) (gs : list (list Z)).
Hypothesis (HC : clean ps) (HN : ~ In 27 noise) (HF : plain f) (HL : (length f < Z.to_nat 8096)%nat) (HS : stream (g :: gs)).
Hypothesis HD : delivered d = map Some (flat_map (fun x => fst x ++ snd x) ps ++ noise ++ firstn k f ++ concat (g :: gs)).
Lemma restart_hears : exists d', sml_transport_listen d = Ret (map snd ps ++ hears (map Some (noise ++ firstn k f ++ concat (g :: gs))), d').
Proof.
  pose proof (delivered_size d). destruct (listen_heard (S (fd_size d)) d ltac:(lia)) as (d' & E). exists d'. unfold sml_transport_listen. rewrite E, HD, map_app, hears_clean by exact HC. reflexivity.
Qed.
(** Stopped within the first bytes: the next frame is lost. *)
Lemma restart_start : (1 <= k <= 7)%nat -> exists d', sml_transport_listen d = Ret (map snd ps ++ gs, d').
Proof.
  intros HK. destruct restart_hears as (d' & E). exists d'. rewrite E. do 3 f_equal. apply Forall_cons_iff in HS. destruct HS as [[(pg & a & b & c & -> & _ & HG) _] HS'].
  destruct HF as (p & a' & b' & c' & -> & _). rewrite <- (hears_stream gs HS') at 2. apply hears_scan. rewrite map_app, scan_noise by exact HN.
  rewrite firstn_app. replace (k - length [27; 27; 27; 27; 1; 1; 1; 1]%Z)%nat with 0%nat by (cbn [length]; lia). cbn [concat]. rewrite firstn_O, app_nil_r.
  rewrite map_app, scan_part by lia. rewrite <- !app_assoc, map_app, scan_cut by exact HK. rewrite app_assoc, map_app. now apply scan_rest.
Qed.
(** Stopped within the payload or the end: everything that follows is lost. *)
Lemma restart_inside : (8 <= k <= length f - 4)%nat -> exists d', sml_transport_listen d = Ret (map snd ps, d').
Proof.
  intros HK. destruct HF as (p & a & b & c & EF & H4 & HP). assert (HPp : ~ In 27 p) by (intros HI; apply HP; apply in_app_iff; now left).
  assert (LF : length f = (length p + 16)%nat) by (rewrite EF, !app_length; cbn [length]; lia).
  assert (G : exists g', g = [27; 27; 27; 27; 1; 1; 1; 1] ++ g').
  { apply Forall_cons_iff in HS. destruct HS as [[(pg & a' & b' & c' & -> & _) _] _]. eexists. reflexivity. }
  assert (FK : firstn k f = [27; 27; 27; 27; 1; 1; 1; 1] ++ firstn (k - 8) (p ++ [27; 27; 27; 27; 26; a; b; c])).
  { rewrite EF, firstn_app, firstn_all2 by (cbn [length]; lia). reflexivity. }
  destruct (Nat.le_gt_cases (k - 8) (length p)) as [HI|HI].
  - assert (FP : firstn (k - 8) (p ++ [27; 27; 27; 27; 26; a; b; c]) = firstn (k - 8) p).
    { rewrite firstn_app. replace (k - 8 - length p)%nat with 0%nat by lia. cbn [firstn]. apply app_nil_r. }
    rewrite FP in FK. set (q := firstn (k - 8) p) in *. assert (LQ : length q = (k - 8)%nat) by (unfold q; rewrite firstn_length; lia).
    assert (HQ : ~ In 27 q) by (intros HX; apply HPp; rewrite <- (firstn_skipn (k - 8) p); apply in_app_iff; now left).
    destruct (Nat.eq_dec (length q mod 4) 0) as [HM|HM].
    + destruct G as (g' & EG). destruct (C76_other_escape d ps noise q 1 1 1 1 (map Some (g' ++ concat gs))) as (d' & E & _); auto using no_escape; [| |lia|].
      * rewrite HD, FK, EG. cbn [concat]. rewrite <- map_app. f_equal. rewrite <- !app_assoc. reflexivity.
      * unfold Z.to_nat in *. lia.
      * exists d'. pose proof (proj2 (C76_same 0 d)) as ES. rewrite E in ES. symmetry. exact ES.
    + destruct (stream_spaced _ HS) as (bs & EB & HB). destruct restart_hears as (d' & E). exists d'. rewrite E, FK, EB, <- app_assoc, hears_unescaped; [now rewrite app_nil_r|exact HN|].
      now apply shifted.
  - set (j := (k - 8 - length p)%nat) in *. assert (HJ : (1 <= j <= 4)%nat) by lia.
    assert (FP : firstn (k - 8) (p ++ [27; 27; 27; 27; 26; a; b; c]) = p ++ repeat 27 j).
    { rewrite firstn_app, firstn_all2 by lia. fold j. f_equal. destruct j as [|[|[|[|[|j]]]]]; try lia; reflexivity. }
    rewrite FP in FK. destruct G as (g' & EG).
    assert (X : exists x y z, repeat 27 j ++ [27; 27; 27; 27; 1; 1; 1; 1] = [27; 27; 27; 27; 27; x; y; z] ++ repeat 1 j).
    { destruct j as [|[|[|[|[|j]]]]]; try lia; do 3 eexists; reflexivity. }
    destruct X as (x & y & z & X).
    destruct (C76_other_escape d ps noise p 27 x y z (map Some (repeat 1 j ++ g' ++ concat gs))) as (d' & E & _); auto using no_escape; [|lia|lia|].
    + rewrite HD, FK, EG. cbn [concat]. rewrite <- map_app. f_equal. rewrite <- !app_assoc. do 4 f_equal. rewrite (app_assoc [27; 27; 27; 27; 27; x; y; z]), <- X, <- app_assoc. reflexivity.
    + exists d'. pose proof (proj2 (C76_same 0 d)) as ES. rewrite E in ES. symmetry. exact ES.
Qed.
(** Stopped within the last three bytes: the frame is delivered with the first bytes of the
    next frame at its end, and the next frame is lost. *)
Lemma restart_end : (length f - 3 <= k < length f)%nat -> exists d', sml_transport_listen d = Ret (map snd ps ++ (firstn k f ++ firstn (length f - k) g) :: gs, d').
Proof.
  intros HK. destruct restart_hears as (d' & E). exists d'. rewrite E. do 3 f_equal. clear E HD.
  destruct HF as (p & a & b & c & EF & H4 & HP). assert (HPp : ~ In 27 p) by (intros HI; apply HP; apply in_app_iff; now left).
  assert (LF : length f = (length p + 16)%nat) by (rewrite EF, !app_length; cbn [length]; lia).
  apply Forall_cons_iff in HS. destruct HS as [[(pg & a' & b' & c' & -> & _ & HG) _] HS'].
  set (j := (length f - k)%nat) in *. assert (HJ : (1 <= j <= 3)%nat) by lia.
  assert (X : exists x y z, firstn k f ++ repeat 27 j = [27; 27; 27; 27; 1; 1; 1; 1] ++ p ++ [27; 27; 27; 27; 26; x; y; z]).
  { rewrite EF, !app_assoc. rewrite firstn_app, firstn_all2 by (rewrite app_length; cbn [length]; lia). replace (k - length (_ ++ p))%nat with (8 - j)%nat by (rewrite app_length; cbn [length]; lia).
    destruct j as [|[|[|[|j]]]]; try lia; do 3 eexists; rewrite <- !app_assoc; reflexivity. }
  destruct X as (x & y & z & X).
  assert (G : firstn j ([27; 27; 27; 27; 1; 1; 1; 1] ++ pg ++ [27; 27; 27; 27; 26; a'; b'; c']) = repeat 27 j) by (destruct j as [|[|[|[|j]]]]; try lia; reflexivity).
  rewrite G. set (g := [27; 27; 27; 27; 1; 1; 1; 1] ++ pg ++ [27; 27; 27; 27; 26; a'; b'; c']) in *.
  assert (EG : g = repeat 27 j ++ skipn j g) by (rewrite <- G; symmetry; apply firstn_skipn).
  rewrite (hears_some _ (firstn k f ++ repeat 27 j) (map Some (skipn j g ++ concat gs))).
  - f_equal. rewrite <- (hears_stream gs HS') at 2. apply hears_scan. unfold g.
    assert (EK : skipn j ([27; 27; 27; 27; 1; 1; 1; 1] ++ pg ++ [27; 27; 27; 27; 26; a'; b'; c']) = repeat 27 (4 - j) ++ [1; 1; 1; 1] ++ pg ++ [27; 27; 27; 27; 26; a'; b'; c']) by (destruct j as [|[|[|[|j]]]]; try lia; reflexivity).
    rewrite EK, <- !app_assoc, map_app, <- repeat_some, scan_escapes by lia. rewrite Nat.mod_small by lia. rewrite map_app, start_lost by lia. rewrite app_assoc, map_app. now apply scan_rest.
  - cbn [concat]. rewrite EG at 1. rewrite <- (app_assoc (repeat 27 j)), (app_assoc (firstn k f)), (app_assoc noise), map_app. apply pure_noise_frame; [exact HN| |].
    + rewrite X. exists p, x, y, z. split; [reflexivity|]. split; [exact H4|]. now apply no_escape.
    + rewrite X, !app_length. cbn [length]. unfold MC_SML_BUFFER_LEN. lia.
Qed.
End Restart.

Lemma unescaped_first n p : unescaped p -> unescaped (firstn n p).
Proof.
  intros HU i E. apply (HU i). rewrite skipn_firstn_comm in E. rewrite firstn_firstn in E. destruct (Nat.le_gt_cases 4 (n - 4 * i)) as [HX|HX].
  - now rewrite Nat.min_l in E by exact HX.
  - apply (f_equal (@length _)) in E. rewrite firstn_length in E. cbn [length] in E. lia.
Qed.
Lemma hears_cut noise f k : ~ In 27 noise -> frame f -> (length f < Z.to_nat 8096)%nat -> (k < length f)%nat -> hears (map Some (noise ++ firstn k f)) = [].
Proof.
  intros HN (p & a & b & c & -> & H4 & HU) HL HK. rewrite !app_length in *. cbn [length] in *. destruct (Nat.le_gt_cases 8 k) as [H8|H8].
  - assert (FK : firstn k ([27; 27; 27; 27; 1; 1; 1; 1] ++ p ++ [27; 27; 27; 27; 26; a; b; c]) = [27; 27; 27; 27; 1; 1; 1; 1] ++ firstn (k - 8) (p ++ [27; 27; 27; 27; 26; a; b; c])).
    { rewrite firstn_app, firstn_all2 by (cbn [length]; lia). reflexivity. }
    rewrite FK. destruct (Nat.le_gt_cases (length p + 4) (k - 8)) as [HI|HI].
    + rewrite firstn_app, firstn_all2 by lia. set (j := (k - 8 - length p)%nat). assert (HJ : (4 <= j <= 7)%nat) by lia. destruct (mul4 _ H4) as [n Hn].
      apply (hears_none _ []). rewrite (pure_start MC_SML_BUFFER_LEN _ (map Some p ++ map Some (firstn j [27; 27; 27; 27; 26; a; b; c]))).
      * rewrite (words_payload n) by (assumption || unfold MC_SML_BUFFER_LEN; lia). destruct (S MC_SML_BUFFER_LEN - n)%nat as [|fuel] eqn:EF; [unfold MC_SML_BUFFER_LEN in EF; lia|].
        cbn [frame_words]. destruct (Nat.ltb_spec (8 + length p + 8) MC_SML_BUFFER_LEN) as [_|HX]; [|unfold MC_SML_BUFFER_LEN in HX; lia].
        destruct j as [|[|[|[|[|[|[|[|j]]]]]]]]; try lia; reflexivity.
      * unfold MC_SML_BUFFER_LEN; lia.
      * rewrite !map_app, scan_noise by exact HN. apply scan_start.
    + apply hears_unescaped; [exact HN|]. rewrite firstn_app. set (j := (k - 8 - length p)%nat). assert (HJ : (j <= 3)%nat) by lia.
      destruct (Nat.eq_dec j 0) as [->|HZ]; [cbn [firstn]; rewrite app_nil_r; now apply unescaped_first|]. rewrite firstn_all2 by lia.
      intros i E. destruct (mul4 _ H4) as [n Hn]. destruct (Nat.le_gt_cases n i) as [HX|HX].
      * rewrite skipn_app, skipn_all2 in E by lia. apply (f_equal (@length _)) in E. cbn [app] in E. rewrite firstn_length, skipn_length, firstn_length in E. cbn [length] in E. lia.
      * apply (HU i). rewrite skipn_app, firstn_app in E. rewrite skipn_length in E. replace (4 - (length p - 4 * i))%nat with 0%nat in E by lia. cbn [firstn] in E. now rewrite app_nil_r in E.
  - apply (hears_none _ []). unfold frame_read. destruct (Nat.ltb_spec MC_SML_BUFFER_LEN 8) as [HX|_]; [unfold MC_SML_BUFFER_LEN in HX; lia|].
    rewrite map_app, scan_noise by exact HN. rewrite firstn_app. replace (k - length [27; 27; 27; 27; 1; 1; 1; 1]%Z)%nat with 0%nat by (cbn [length]; lia). rewrite firstn_O, app_nil_r.
    rewrite <- (app_nil_r (map Some _)), scan_part by lia. do 8 (destruct k as [|k]; [reflexivity|]). lia.
Qed.

(** The sender stops for good inside a frame: what came before was delivered, the part of a
    frame is not. *)
Theorem C80_cut d ps noise f k : clean ps -> ~ In 27 noise -> frame f -> (length f < Z.to_nat 8096)%nat -> (k < length f)%nat ->
  delivered d = map Some (flat_map (fun x => fst x ++ snd x) ps ++ noise ++ firstn k f) ->
  exists d', sml_transport_listen d = Ret (map snd ps, d').
Proof.
  intros HC HN HF HL HK HD. pose proof (delivered_size d). destruct (listen_heard (S (fd_size d)) d ltac:(lia)) as (d' & E). exists d'.
  unfold sml_transport_listen. rewrite E, HD, map_app, hears_clean, hears_cut, app_nil_r by assumption. reflexivity.
Qed.
Print Assumptions C80_cut.
(** The sender stops inside a frame, at any byte, and starts again with other frames. *)
Theorem C80_restart d ps noise f k g gs : clean ps -> ~ In 27 noise -> plain f -> (length f < Z.to_nat 8096)%nat -> stream (g :: gs) -> (k < length f)%nat ->
  delivered d = map Some (flat_map (fun x => fst x ++ snd x) ps ++ noise ++ firstn k f ++ concat (g :: gs)) ->
  exists d', sml_transport_listen d = Ret (map snd ps ++ received f k g gs, d').
Proof.
  intros HC HN HF HL HS HK HD. unfold received. destruct (Nat.eqb_spec k 0) as [->|H0].
  - destruct (restart_hears d ps noise f 0 g gs) as (d' & E); [assumption..|]. exists d'. rewrite E. do 3 f_equal. cbn [firstn app concat]. rewrite app_assoc, map_app.
    apply Forall_cons_iff in HS. destruct HS as [[HG LG] HS]. rewrite (hears_some _ g (map Some (concat gs))); [now rewrite hears_stream|]. apply pure_noise_frame; [exact HN|now apply plain_frame|exact LG].
  - destruct (Nat.ltb_spec k 8); [eapply restart_start; eauto; lia|].
    destruct (Nat.ltb_spec k (length f - 3)); [rewrite app_nil_r; eapply restart_inside; eauto; lia|eapply restart_end; eauto; lia].
Qed.
Print Assumptions C80_restart.
(** Bytes of the payload get lost (or come twice), so that their number is no longer a
    multiple of four: neither this frame nor any that follows is received … *)
Theorem C80_lost_bytes d ps noise q a b c gs : clean ps -> ~ In 27 noise -> ~ In 27 (q ++ [a; b; c]) -> (length q mod 4 <> 0)%nat -> stream gs ->
  delivered d = map Some (flat_map (fun x => fst x ++ snd x) ps ++ noise ++ [27; 27; 27; 27; 1; 1; 1; 1] ++ q ++ [27; 27; 27; 27; 26; a; b; c] ++ concat gs) ->
  exists d', sml_transport_listen d = Ret (map snd ps, d').
Proof.
  intros HC HN HQ HM HS HD. pose proof (delivered_size d). destruct (listen_heard (S (fd_size d)) d ltac:(lia)) as (d' & E). exists d'.
  unfold sml_transport_listen. rewrite E, HD, map_app, hears_clean by assumption. rewrite hears_unescaped; [now rewrite app_nil_r|exact HN|].
  destruct (stream_spaced gs HS) as (bs & -> & HB). change ([27; 27; 27; 27; 26; a; b; c] ++ concat bs) with (concat (esc_seq :: [26; a; b; c] :: bs)).
  apply shifted; [intros HI; apply HQ; apply in_app_iff; now left|exact HM|]. apply end_spaced; [|exact HB]. intros HI. apply HQ. apply in_app_iff. now right.
Qed.
Print Assumptions C80_lost_bytes.
(** … and once 8080 bytes have come after the start of the damaged frame, listening is over:
    without a line on stderr, with the rest of the bytes unread. *)
Theorem C80_silent_end d ps noise q a b c gs : clean ps -> ~ In 27 noise -> ~ In 27 (q ++ [a; b; c]) -> (length q mod 4 <> 0)%nat -> stream gs ->
  let bytes := q ++ [27; 27; 27; 27; 26; a; b; c] ++ concat gs in (Z.to_nat 8080 <= length bytes)%nat ->
  delivered d = map Some (flat_map (fun x => fst x ++ snd x) ps ++ noise ++ [27; 27; 27; 27; 1; 1; 1; 1] ++ bytes) ->
  exists d', n_transport_listen d = ([], Ret (map snd ps, d')) /\ delivered d' = map Some (skipn (Z.to_nat 8080) bytes).
Proof.
  intros HC HN HQ HM HS bytes HB HD. assert (HU : unescaped bytes).
  { unfold bytes. destruct (stream_spaced gs HS) as (bs & -> & HP). change ([27; 27; 27; 27; 26; a; b; c] ++ concat bs) with (concat (esc_seq :: [26; a; b; c] :: bs)).
    apply shifted; [intros HI; apply HQ; apply in_app_iff; now left|exact HM|]. apply end_spaced; [|exact HP]. intros HI. apply HQ. apply in_app_iff. now right. }
  apply (C76_long_frame d ps noise (firstn (Z.to_nat 8080) bytes) _ HC); [|exact HN| |now apply unescaped_first].
  - rewrite HD, <- map_app. f_equal. rewrite <- !app_assoc. now rewrite firstn_skipn.
  - rewrite firstn_length. lia.
Qed.
Print Assumptions C80_silent_end.

(** *** Examples *)
Lemma frame1_plain : plain frame1.
Proof. exists [118; 5; 0; 1], 0, 200, 100. split; [reflexivity|]. split; [reflexivity|]. cbn [app In]. lia. Qed.
Lemma frame1_stream n : stream (repeat frame1 n).
Proof. apply Forall_forall. intros f HI. apply repeat_spec in HI as ->. split; [exact frame1_plain|]. change (length frame1) with 20%nat. lia. Qed.
(** all crash points of a frame of 20 bytes, with one frame before and three behind it *)
Definition after_crash (k : nat) : list (list Z) := match sml_transport_listen [Chunk (frame1 ++ [7] ++ firstn k frame1 ++ frame1 ++ frame1 ++ frame1)] with Ret (l, _) => l | _ => [] end.
Definition mixed (k : nat) : list Z := firstn k frame1 ++ repeat 27 (20 - k).
Example C80_example : map after_crash (seq 0 20) =
  [repeat frame1 4] ++ repeat (repeat frame1 3) 7 ++ repeat [frame1] 9 ++ map (fun k => [frame1; mixed k; frame1; frame1]) [17; 18; 19]%nat /\
  stream (repeat frame1 3) /\ plain frame1.
Proof. split; [vm_compute; reflexivity|]. split; [apply frame1_stream|exact frame1_plain]. Qed.
(** One byte lost, then 500 frames: silence after the first 8080 bytes. *)
Definition damaged : list Z := [118; 5; 0].
Example C80_example_lost : exists d', n_transport_listen [Chunk (frame1 ++ [27; 27; 27; 27; 1; 1; 1; 1] ++ damaged ++ [27; 27; 27; 27; 26; 0; 200; 100] ++ concat (repeat frame1 500))] = ([], Ret ([frame1], d')) /\
  (length (delivered d') > 1900)%nat.
Proof.
  assert (HL : length (concat (repeat frame1 500)) = (500 * 20)%nat).
  { generalize 500%nat. intros n. induction n as [|n IH]; [reflexivity|]. cbn [repeat concat]. rewrite app_length, IH. change (length frame1) with 20%nat. lia. }
  destruct (C80_silent_end [Chunk (frame1 ++ [27; 27; 27; 27; 1; 1; 1; 1] ++ damaged ++ [27; 27; 27; 27; 26; 0; 200; 100] ++ concat (repeat frame1 500))] [([], frame1)] [] damaged 0 200 100 (repeat frame1 500)) as (d' & E & ED).
  - constructor; [|constructor]. cbn [fst snd]. split; [intros []|]. split; [exact frame1_ok|]. change (length frame1) with 20%nat. lia.
  - intros [].
  - cbn [app damaged In]. lia.
  - discriminate.
  - apply frame1_stream.
  - rewrite !app_length, HL. cbn [length damaged]. lia.
  - cbn [delivered flat_map fst snd app]. rewrite !app_nil_r. reflexivity.
  - exists d'. split; [exact E|]. rewrite ED, map_length, skipn_length, !app_length, HL. cbn [length damaged]. lia.
Qed.
