(** The transport reader as a function of the delivered bytes alone. *)
From Verif Require Import Base Buf Crc16 Number OctetString Boolean Value Time SList Tree Bodies Message File Transport
  Lib Spec PropsString.

(** What a device delivers: bytes, and [None] where a read fails for good.  How
    the bytes are split and interrupted does not show. *)
Definition delivered (d : fd) : list (option Z) :=
  flat_map (fun e => match e with Chunk c => map Some c | Intr => [] | Err => [None] end) d.

(** The next [n] bytes and what is left. *)
Fixpoint take_bytes (n : nat) (w : list (option Z)) : option (list Z) * list (option Z) :=
  match n with
  | O => (Some [], w)
  | S n' =>
      match w with
      | [] => (None, [])
      | None :: t => (None, t)
      | Some b :: t => let (r, w') := take_bytes n' t in (omap (cons b) r, w')
      end
  end.
Lemma take_length n : forall w bs w', take_bytes n w = (Some bs, w') -> length bs = n /\ w = map Some bs ++ w'.
Proof.
  induction n as [|n IH]; intros w bs w' E; cbn in E; [injection E as <- <-; now split|].
  destruct w as [|[b|] t]; try discriminate. destruct (take_bytes n t) as [[r|] w2] eqn:E2; [|discriminate].
  injection E as <- <-. destruct (IH _ _ _ E2) as [<- ->]. now split.
Qed.
Lemma take_some n : forall bs w, length bs = n -> take_bytes n (map Some bs ++ w) = (Some bs, w).
Proof. induction n as [|n IH]; intros [|b bs] w HL; try discriminate; cbn; [reflexivity|]. rewrite IH by (injection HL; auto). reflexivity. Qed.
Lemma take_split n m : forall bs w, length bs = n -> take_bytes (n + m) (map Some bs ++ w) = (omap (app bs) (fst (take_bytes m w)), snd (take_bytes m w)).
Proof.
  induction n as [|n IH]; intros [|b bs] w HL; try discriminate; cbn [plus map app take_bytes].
  - destruct (take_bytes m w) as [[r|] w2]; reflexivity.
  - rewrite (IH bs w) by (injection HL; auto). destruct (take_bytes m w) as [[r|] w2]; reflexivity.
Qed.
Lemma upds_app a : forall l i b, upds l i (a ++ b) = upds (upds l i a) (i + length a) b.
Proof. induction a as [|x a IH]; intros l i b; cbn [app upds length]; [now rewrite Nat.add_0_r|]. rewrite IH. f_equal. lia. Qed.
Lemma nth_upd_same l : forall i b, (i < length l)%nat -> nth_error (upd l i b) i = Some b.
Proof. induction l as [|x l IH]; intros [|i] b HL; cbn in *; try lia; [reflexivity|]. apply IH. lia. Qed.
Lemma firstn_upds l i bs : (i + length bs <= length l)%nat -> firstn (i + length bs) (upds l i bs) = firstn i l ++ bs.
Proof.
  intros HL. rewrite <- (firstn_skipn i l) at 1. rewrite <- (firstn_skipn (length bs) (skipn i l)).
  assert (LI : length (firstn i l) = i) by (rewrite firstn_length; lia).
  pose proof (upds_at (firstn i l) (firstn (length bs) (skipn i l)) (skipn (length bs) (skipn i l)) bs) as HM.
  rewrite LI in HM. rewrite HM by (rewrite firstn_length, skipn_length; lia).
  rewrite app_assoc. rewrite firstn_app. replace (i + length bs - length (firstn i l ++ bs))%nat with 0%nat by (rewrite app_length; lia).
  cbn [firstn]. rewrite app_nil_r. apply firstn_all2. rewrite app_length. lia.
Qed.

Lemma read_loop_spec fuel : forall pos tr len buf d, (fd_size d < fuel)%nat -> (tr <= len)%nat -> (pos + len <= length buf)%nat ->
  exists buf' d', sml_read_loop fuel pos tr len (buf, d) =
      Ret (match fst (take_bytes (len - tr) (delivered d)) with Some _ => len | None => O end, (buf', d')) /\
    delivered d' = snd (take_bytes (len - tr) (delivered d)) /\ length buf' = length buf /\ (fd_size d' <= fd_size d)%nat /\
    (forall bs, fst (take_bytes (len - tr) (delivered d)) = Some bs -> buf' = upds buf (pos + tr) bs /\ (fd_size d' + (len - tr) <= fd_size d)%nat).
Proof.
  induction fuel as [|fuel IH]; intros pos tr len buf d HF HT HP; [lia|]. cbn [sml_read_loop].
  destruct (Nat.ltb_spec tr len) as [HL|HL].
  2:{ assert (tr = len) as -> by lia. rewrite Nat.sub_diag. cbn [take_bytes fst snd]. exists buf, d.
      split; [reflexivity|]. split; [reflexivity|]. split; [reflexivity|]. split; [lia|]. intros bs E. injection E as <-. cbn [upds]. split; [reflexivity|lia]. }
  destruct d as [|[[|b c]| |] t]; cbn [sys_read].
  - destruct (len - tr)%nat eqn:EN; [lia|]. exists buf, []. cbn. repeat split; auto; discriminate.
  - cbn [fd_size] in HF. destruct (IH pos tr len buf t ltac:(cbn in HF; lia) HT HP) as (buf' & d' & E & ED & EL & ES & EB).
    exists buf', d'. cbn [delivered flat_map map app]. change (flat_map _ t) with (delivered t). split; [exact E|]. split; [exact ED|]. split; [exact EL|].
    cbn [fd_size length]. split; [lia|]. intros bs HB. destruct (EB bs HB). split; [assumption|lia].
  - set (w := b :: c) in *. set (k := (len - tr)%nat).
    assert (HK : length (firstn k w) = Nat.min k (length w)) by apply firstn_length. 
    destruct (Nat.leb_spec (pos + tr + length (firstn k w)) (length buf)) as [HB|HB]; [|lia].
    set (d1 := match skipn k w with [] => t | r => Chunk r :: t end).
    assert (HD : delivered (Chunk w :: t) = map Some (firstn k w) ++ delivered d1).
    { unfold delivered. cbn [flat_map]. rewrite <- (firstn_skipn k w) at 1. rewrite map_app, <- app_assoc. f_equal.
      unfold d1. destruct (skipn k w); reflexivity. }
    assert (HS : (fd_size d1 + length (firstn k w) <= fd_size (Chunk w :: t))%nat).
    { cbn [fd_size]. pose proof (firstn_skipn k w) as FS. apply (f_equal (@length Z)) in FS. rewrite app_length in FS.
      unfold d1. destruct (skipn k w); cbn [fd_size length] in *; lia. }
    assert (H1 : (1 <= length (firstn k w))%nat) by (rewrite HK; unfold w, k; cbn [length]; lia).
    assert (HF1 : (fd_size d1 < fuel)%nat) by lia.
    destruct (IH pos (tr + length (firstn k w))%nat len (upds buf (pos + tr) (firstn k w)) d1 HF1 ltac:(lia) ltac:(rewrite upds_length; lia))
      as (buf' & d' & E & ED & EL & ES & EB).
    assert (HT2 : take_bytes k (delivered (Chunk w :: t)) =
                  (omap (app (firstn k w)) (fst (take_bytes (len - (tr + length (firstn k w))) (delivered d1))), snd (take_bytes (len - (tr + length (firstn k w))) (delivered d1)))).
    { rewrite HD. replace k with (length (firstn k w) + (len - (tr + length (firstn k w))))%nat at 1 by lia. now apply take_split. }
    exists buf', d'. rewrite HT2. cbn [fst snd]. split.
    + rewrite E. destruct (fst (take_bytes _ _)); reflexivity.
    + split; [exact ED|]. split; [rewrite EL; apply upds_length|]. split; [lia|]. intros bs HB2.
      destruct (fst (take_bytes _ _)) as [r|] eqn:EF; [|discriminate]. injection HB2 as <-. destruct (EB r eq_refl) as [-> ?].
      split; [|lia]. rewrite upds_app. f_equal. lia.
  - cbn [fd_size] in HF. destruct (IH pos tr len buf t ltac:(lia) HT HP) as (buf' & d' & E & ED & EL & ES & EB).
    exists buf', d'. cbn [delivered flat_map map app]. change (flat_map _ t) with (delivered t). split; [exact E|]. split; [exact ED|]. split; [exact EL|].
    cbn [fd_size length]. split; [lia|]. intros bs HB. destruct (EB bs HB). split; [assumption|lia].
  - destruct (len - tr)%nat eqn:EN; [lia|]. exists buf, t. cbn [delivered flat_map map app take_bytes fst snd fd_size]. repeat split; auto; discriminate.
Qed.

(** *** The start sequence *)
Definition start_ok (len : nat) (b : Z) : bool := ((b =? 27) && (len <? 4)%nat) || ((b =? 1) && (4 <=? len)%nat).
Fixpoint scan (len : nat) (w : list (option Z)) : bool * list (option Z) :=
  if (len <? 8)%nat then
    match w with
    | [] => (false, [])
    | None :: t => (false, t)
    | Some b :: t => scan (if start_ok len b then S len else O) t
    end
  else (true, w).
Lemma start_nth len b : (len < 8)%nat -> start_ok len b = true -> firstn (S len) start_seq = firstn len start_seq ++ [b].
Proof.
  intros HL HS. unfold start_ok in HS.
  do 8 (destruct len as [|len]; [apply orb_prop in HS; cbn in HS; rewrite ?andb_true_r, ?andb_false_r in HS;
    destruct HS as [HS|HS]; try discriminate; apply Z.eqb_eq in HS; subst; reflexivity|]). lia.
Qed.
Lemma find_start_spec fuel : forall len buf d, (fd_size d < fuel)%nat -> (len <= 8)%nat -> (8 <= length buf)%nat -> firstn len buf = firstn len start_seq ->
  exists buf' d', find_start fuel len (buf, d) = Ret (fst (scan len (delivered d)), (buf', d')) /\ delivered d' = snd (scan len (delivered d)) /\
    length buf' = length buf /\ (fst (scan len (delivered d)) = true -> firstn 8 buf' = start_seq).
Proof.
  induction fuel as [|fuel IH]; intros len buf d HF HL HB HE; [lia|]. cbn [find_start].
  destruct (Nat.ltb_spec len 8) as [H8|H8].
  2:{ assert (len = 8)%nat as -> by lia. exists buf, d. replace (scan 8 (delivered d)) with (true, delivered d) by (destruct (delivered d); reflexivity).
      cbn [fst snd]. repeat split; auto. }
  unfold bind. unfold sml_read at 1. cbn [snd].
  destruct (read_loop_spec (S (fd_size d)) len 0 1 buf d ltac:(lia) ltac:(lia) ltac:(lia)) as (b1 & d1 & E & ED & EL & ES & EB). rewrite E.
  rewrite Nat.sub_0_r in *.
  assert (HS : scan len (delivered d) = match delivered d with [] => (false, []) | None :: t => (false, t) | Some b :: t => scan (if start_ok len b then S len else O) t end).
  { apply Nat.ltb_lt in H8. destruct (delivered d); cbn [scan]; rewrite H8; reflexivity. }
  rewrite HS. destruct (delivered d) as [|[b|] t] eqn:DD; cbn [take_bytes fst snd omap] in *.
  - exists b1, d1. cbn. repeat split; auto; discriminate.
  - destruct (EB [b] eq_refl) as [-> Hs]. cbn [Nat.eqb]. unfold get_buf. cbn [fst].
    replace (nth_error (upds buf (len + 0) [b]) len) with (Some b).
    2:{ rewrite Nat.add_0_r. cbn [upds]. symmetry. apply nth_upd_same. lia. }
    change (((b =? 27) && (len <? 4)%nat) || ((b =? 1) && (4 <=? len)%nat)) with (start_ok len b).
    assert (LU : length (upds buf (len + 0) [b]) = length buf) by apply upds_length.
    destruct (start_ok len b) eqn:SO.
    + destruct (IH (S len) (upds buf (len + 0) [b]) d1 ltac:(lia) ltac:(lia) ltac:(lia)) as (b2 & d2 & E2 & ED2 & EL2 & ET2).
      { rewrite Nat.add_0_r. replace (S len) with (len + length [b])%nat by (cbn; lia). rewrite firstn_upds by (cbn [length]; lia).
        rewrite HE. cbn [length]. rewrite Nat.add_1_r. symmetry. now apply start_nth. }
      exists b2, d2. rewrite ED in *. repeat split; auto. lia.
    + destruct (IH 0%nat (upds buf (len + 0) [b]) d1 ltac:(lia) ltac:(lia) ltac:(lia) eq_refl) as (b2 & d2 & E2 & ED2 & EL2 & ET2).
      exists b2, d2. rewrite ED in *. repeat split; auto. lia.
  - exists b1, d1. cbn. repeat split; auto; discriminate.
Qed.

(** *** The frame *)
Fixpoint frame_words (fuel len max_len : nat) (w : list (option Z)) : option (list Z) * list (option Z) :=
  if (len + 8 <? max_len)%nat then
    match fuel with
    | O => (None, w)
    | S fuel' =>
        match take_bytes 4 w with
        | (None, w') => (None, w')
        | (Some q, w') =>
            if list_eqb q esc_seq then
              match take_bytes 4 w' with
              | (None, w2) => (None, w2)
              | (Some e, w2) => (if hd 0 e =? 26 then Some (q ++ e) else None, w2)
              end
            else let (r, w2) := frame_words fuel' (len + 4) max_len w' in (omap (app q) r, w2)
        end
    end
  else (None, w).
Lemma read_frame_spec fuel : forall len max_len buf d, length buf = max_len -> (max_len < fuel + len)%nat ->
  exists buf' d', read_frame fuel len max_len (buf, d) =
      Ret (match fst (frame_words fuel len max_len (delivered d)) with Some bs => len + length bs | None => O end%nat, (buf', d')) /\
    delivered d' = snd (frame_words fuel len max_len (delivered d)) /\ length buf' = length buf /\
    (forall bs, fst (frame_words fuel len max_len (delivered d)) = Some bs ->
       (len + length bs < max_len)%nat /\ firstn (len + length bs) buf' = firstn len buf ++ bs).
Proof.
  induction fuel as [|fuel IH]; intros len max_len buf d HB HF; cbn [read_frame frame_words];
    destruct (Nat.ltb_spec (len + 8) max_len) as [HL|HL]; try lia.
  1,3: exists buf, d; cbn; repeat split; auto; discriminate.
  unfold bind at 1. unfold sml_read at 1. cbn [snd].
  destruct (read_loop_spec (S (fd_size d)) len 0 4 buf d ltac:(lia) ltac:(lia) ltac:(lia)) as (b1 & d1 & E & ED & EL & _ & EB). rewrite E.
  rewrite Nat.sub_0_r in *. destruct (take_bytes 4 (delivered d)) as [[q|] w1] eqn:T1; cbn [fst snd] in *.
  2:{ exists b1, d1. cbn. repeat split; auto; discriminate. }
  destruct (EB q eq_refl) as [-> _]. destruct (take_length _ _ _ _ T1) as [LQ _]. rewrite Nat.add_0_r in *.
  cbn [Nat.eqb]. unfold bind at 1. unfold get_buf4 at 1. cbn [fst]. rewrite upds_length.
  destruct (Nat.leb_spec (len + 4) (length buf)); [|lia].
  assert (F1 : firstn (len + 4) (upds buf len q) = firstn len buf ++ q) by (rewrite <- LQ; apply firstn_upds; lia).
  assert (W : firstn 4 (skipn len (upds buf len q)) = q).
  { rewrite firstn_skipn_comm, F1, skipn_app. assert (LF : length (firstn len buf) = len) by (rewrite firstn_length; lia).
    rewrite skipn_all2 by lia. rewrite LF, Nat.sub_diag. reflexivity. }
  rewrite W. unfold list_eqb. destruct (list_eq_dec Z.eq_dec q esc_seq) as [->|HQ].
  - change (memcmp esc_seq esc_seq =? 0) with true. cbv iota. unfold bind at 1. unfold sml_read at 1. cbn [snd].
    destruct (read_loop_spec (S (fd_size d1)) (len + 4) 0 4 (upds buf len esc_seq) d1 ltac:(lia) ltac:(lia) ltac:(rewrite upds_length; lia)) as (b2 & d2 & E2 & ED2 & EL2 & _ & EB2). rewrite E2.
    rewrite Nat.sub_0_r, ED, Nat.add_0_r in *. destruct (take_bytes 4 w1) as [[e|] w2] eqn:T2; cbn [fst snd] in *.
    2:{ exists b2, d2. cbn. rewrite EL2, upds_length. repeat split; auto; discriminate. }
    destruct (EB2 e eq_refl) as [-> _]. destruct (take_length _ _ _ _ T2) as [LE _].
    destruct e as [|x e]; [discriminate|]. cbn [Nat.eqb hd]. unfold bind at 1. unfold get_buf at 1. cbn [fst].
    replace (nth_error (upds (upds buf len esc_seq) (len + 4) (x :: e)) (len + 4)) with (Some x).
    2:{ symmetry. rewrite <- (firstn_skipn (len + 4 + length (x :: e)) (upds _ (len + 4) _)). rewrite firstn_upds by (rewrite upds_length; lia).
        assert (L4 : length (firstn (len + 4) (upds buf len esc_seq)) = (len + 4)%nat) by (rewrite firstn_length, upds_length; lia).
        rewrite nth_error_app1, nth_error_app2, L4, Nat.sub_diag by (rewrite ?app_length; cbn [length]; lia). reflexivity. }
    destruct (Z.eqb_spec x 26) as [->|HX].
    + eexists _, d2. split; [unfold ret; rewrite app_length, LE; cbn [length]; do 2 f_equal; cbn [esc_seq length]; lia|]. split; [exact ED2|]. split; [rewrite !upds_length; reflexivity|].
      intros bs E3. assert (bs = esc_seq ++ 26 :: e) as -> by congruence. rewrite app_length, LE. change (length esc_seq) with 4%nat in *. split; [lia|].
      replace (len + (4 + 4))%nat with (len + 4 + length (26%Z :: e))%nat by lia. rewrite firstn_upds by (rewrite upds_length; lia). rewrite F1, <- app_assoc. reflexivity.
    + eexists _, d2. split; [reflexivity|]. split; [exact ED2|]. split; [rewrite !upds_length; reflexivity|]. discriminate.
  - destruct (Z.eqb_spec (memcmp q esc_seq) 0) as [HM|HM]; [apply memcmp_zero in HM; [contradiction|exact LQ]|].
    destruct (IH (len + 4)%nat max_len (upds buf len q) d1 ltac:(rewrite upds_length; lia) ltac:(lia)) as (b2 & d2 & E2 & ED2 & EL2 & EB2).
    rewrite ED in *. destruct (frame_words fuel (len + 4) max_len w1) as [[r|] w2]; cbn [fst snd omap] in *.
    + exists b2, d2. split; [rewrite E2; rewrite app_length; do 2 f_equal; lia|]. split; [exact ED2|]. split; [rewrite EL2; apply upds_length|].
      intros bs E3. injection E3 as <-. destruct (EB2 r eq_refl) as [HA HC]. rewrite app_length, LQ. split; [lia|].
      rewrite Nat.add_assoc, HC, F1, app_assoc. reflexivity.
    + exists b2, d2. split; [exact E2|]. split; [exact ED2|]. split; [rewrite EL2; apply upds_length|]. discriminate.
Qed.

Definition frame_read (max_len : nat) (w : list (option Z)) : option (list Z) * list (option Z) :=
  if (max_len <? 8)%nat then (None, w) else
  let (ok, w1) := scan O w in
  if ok then let (r, w2) := frame_words (S max_len) 8 max_len w1 in (omap (app start_seq) r, w2) else (None, w1).
Theorem transport_read_pure max_len d : exists d', sml_transport_read max_len d =
    Ret (match fst (frame_read max_len (delivered d)) with Some bs => (length bs, bs) | None => (O, []) end, d') /\
  delivered d' = snd (frame_read max_len (delivered d)).
Proof.
  unfold sml_transport_read, frame_read. destruct (Nat.ltb_spec max_len 8) as [H8|H8]; [exists d; cbn; auto|].
  destruct (find_start_spec (S (fd_size d)) 0 (repeat 0 max_len) d ltac:(lia) ltac:(lia) ltac:(rewrite repeat_length; lia) eq_refl) as (b1 & d1 & E & ED & EL & ET).
  rewrite repeat_length in EL. unfold bind. rewrite E. destruct (scan 0 (delivered d)) as [[|] w1]; cbn [fst snd] in *.
  - destruct (read_frame_spec (S max_len) 8 max_len b1 d1 EL ltac:(lia)) as (b2 & d2 & E2 & ED2 & EL2 & EB2). rewrite E2. rewrite ED in *.
    destruct (frame_words (S max_len) 8 max_len w1) as [[r|] w2]; cbn [fst snd omap] in *; exists d2.
    + destruct (EB2 r eq_refl) as [HA HC]. cbn [Nat.eqb plus]. change (S (S (S (S (S (S (S (S (length r))))))))) with (8 + length r)%nat.
      destruct (Nat.leb_spec (8 + length r) max_len); [|lia]. rewrite HC, (ET eq_refl). split; [|exact ED2]. rewrite app_length. reflexivity.
    + cbn. auto.
  - exists d1. cbn. auto.
Qed.
