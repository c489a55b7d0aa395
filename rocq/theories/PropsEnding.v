(** Property C76: why listening ends, and what is said about it. *)
From Verif Require Import Base Buf Crc16 Number OctetString Boolean Value Time SList Tree Bodies Message File Transport
  Lib Spec PropsString TransportFacts PropsTransport TransportReport.

(** *** The lines change nothing else *)
Definition alike {A} (r : N A) (p : T A) : Prop := forall s, snd (r s) = p s.
Lemma alike_still {A} (p : T A) : alike (still p) p.
Proof. intros s. reflexivity. Qed.
Lemma alike_bind {A B} (r : N A) (p : T A) (k : A -> N B) (k' : A -> T B) : alike r p -> (forall x, alike (k x) (k' x)) -> alike (nbind r k) (bind p k').
Proof.
  intros H1 H2 s. unfold nbind, bind. rewrite <- (H1 s). destruct (r s) as [l [[x s1]|f|]]; cbn [snd]; try reflexivity. rewrite <- (H2 x s1). destruct (k x s1); reflexivity.
Qed.
Lemma alike_notify {B} l (k : unit -> N B) p : alike (k tt) p -> alike (nbind (notify l) k) p.
Proof. intros H1 s. unfold nbind, notify. rewrite <- (H1 s). destruct (k tt s); reflexivity. Qed.
Lemma alike_loop fuel : forall pos tr len, alike (n_read_loop fuel pos tr len) (sml_read_loop fuel pos tr len).
Proof.
  induction fuel as [|fuel IH]; intros pos tr len [buf d]; cbn [n_read_loop sml_read_loop]; destruct (tr <? len)%nat; try reflexivity.
  destruct (sys_read d (len - tr)) as [[bs| | |] d']; try reflexivity; [|apply IH]. destruct (_ <=? _)%nat; [apply IH|reflexivity].
Qed.
Lemma alike_read pos len : alike (n_read pos len) (sml_read pos len).
Proof. intros s. unfold n_read, sml_read. apply alike_loop. Qed.
Lemma alike_start fuel : forall len, alike (n_find_start fuel len) (find_start fuel len).
Proof.
  induction fuel as [|fuel IH]; intros len; cbn [n_find_start find_start]; destruct (len <? 8)%nat; try apply alike_still.
  apply alike_bind; [apply alike_read|]. intros r. destruct (r =? 0)%nat; [apply alike_still|]. apply alike_bind; [apply alike_still|]. intros b. destruct (_ || _); apply IH.
Qed.
Lemma alike_frame fuel : forall len max_len, alike (n_read_frame fuel len max_len) (read_frame fuel len max_len).
Proof.
  induction fuel as [|fuel IH]; intros len max_len; cbn [n_read_frame read_frame]; destruct (_ <? _)%nat; try apply alike_still.
  apply alike_bind; [apply alike_read|]. intros r. destruct (r =? 0)%nat; [apply alike_still|]. apply alike_bind; [apply alike_still|]. intros w. destruct (_ =? 0); [|apply IH].
  apply alike_bind; [apply alike_read|]. intros r2. destruct (r2 =? 0)%nat; [apply alike_still|]. apply alike_bind; [apply alike_still|]. intros b.
  destruct (b =? 26); [apply alike_still|]. apply alike_notify, alike_still.
Qed.
Lemma alike_transport max_len d : snd (n_transport_read max_len d) = sml_transport_read max_len d.
Proof.
  unfold n_transport_read, sml_transport_read. destruct (max_len <? 8)%nat; [reflexivity|]. cbv zeta.
  match goal with |- context [nbind ?a ?k ?s] => assert (E : snd (nbind a k s) = (ok <- find_start (S (fd_size d)) O ;; if (ok : bool) then read_frame (S max_len) 8 max_len else ret O) s) end.
  { apply alike_bind; [apply alike_start|]. intros [|]; [apply alike_frame|apply alike_still]. }
  rewrite <- E. destruct (nbind _ _ _) as [l [[n [b d']]|f|]]; cbn [snd]; try reflexivity. destruct (n =? 0)%nat; [reflexivity|]. destruct (n <=? max_len)%nat; reflexivity.
Qed.
Lemma alike_listen fuel : forall d, snd (n_listen_loop fuel d) = listen_loop fuel d.
Proof.
  induction fuel as [|fuel IH]; intros d; cbn [n_listen_loop listen_loop]; [reflexivity|]. rewrite <- alike_transport.
  destruct (n_transport_read _ d) as [l [[[n bs] d']|f|]]; cbn [snd]; try reflexivity. destruct (n =? 0)%nat; [reflexivity|]. rewrite <- IH.
  destruct (n_listen_loop fuel d') as [l' [[fs d'']|f|]]; reflexivity.
Qed.

(** *** Which lines, as a function of what is delivered *)
Fixpoint failed (n : nat) (w : list (option Z)) : list notice :=
  match n, w with
  | S n', Some _ :: t => failed n' t
  | S _, None :: _ => [ReadError]
  | _, _ => []
  end.
Lemma failed_split bs : forall n w, failed (length bs + n) (map Some bs ++ w) = failed n w.
Proof. induction bs as [|b bs IH]; intros n w; cbn [length plus map app failed]; auto. Qed.
Lemma loop_lines fuel : forall pos tr len buf d, (fd_size d < fuel)%nat -> (tr <= len)%nat -> (pos + len <= length buf)%nat ->
  fst (n_read_loop fuel pos tr len (buf, d)) = failed (len - tr) (delivered d).
Proof.
  induction fuel as [|fuel IH]; intros pos tr len buf d HF HT HP; [lia|]. cbn [n_read_loop].
  destruct (Nat.ltb_spec tr len) as [HL|HL]. 2: { assert (tr = len) as -> by lia. rewrite Nat.sub_diag. reflexivity. }
  destruct d as [|[[|b c]| |] t]; cbn [sys_read].
  - destruct (len - tr)%nat; reflexivity.
  - rewrite IH by (cbn [fd_size length] in HF; lia). reflexivity.
  - set (w := b :: c) in *. set (k := (len - tr)%nat).
    assert (HK : length (firstn k w) = Nat.min k (length w)) by apply firstn_length.
    destruct (Nat.leb_spec (pos + tr + length (firstn k w)) (length buf)) as [HB|HB]; [|lia].
    set (d1 := match skipn k w with [] => t | r => Chunk r :: t end).
    assert (HD : delivered (Chunk w :: t) = map Some (firstn k w) ++ delivered d1).
    { unfold delivered. cbn [flat_map]. rewrite <- (firstn_skipn k w) at 1. rewrite map_app, <- app_assoc. f_equal. unfold d1. destruct (skipn k w); reflexivity. }
    assert (HS : (fd_size d1 + length (firstn k w) <= fd_size (Chunk w :: t))%nat).
    { cbn [fd_size]. pose proof (firstn_skipn k w) as FS. apply (f_equal (@length Z)) in FS. rewrite app_length in FS. unfold d1. destruct (skipn k w); cbn [fd_size length] in *; lia. }
    assert (H1 : (1 <= length (firstn k w))%nat) by (rewrite HK; unfold w, k; cbn [length]; lia).
    rewrite IH by (rewrite ?upds_length; lia). rewrite HD. rewrite <- (failed_split (firstn k w)). f_equal. lia.
  - rewrite IH by (cbn [fd_size] in HF; lia). reflexivity.
  - destruct (len - tr)%nat eqn:EN; [lia|]. reflexivity.
Qed.

Lemma nbind_ret A B (p : N A) (k : A -> N B) s l x s' : p s = (l, Ret (x, s')) -> nbind p k s = (l ++ fst (k x s'), snd (k x s')).
Proof. intros E. unfold nbind. rewrite E. destruct (k x s'). reflexivity. Qed.
Lemma nbind_still A B (p : T A) (k : A -> N B) s x s' : p s = Ret (x, s') -> nbind (still p) k s = k x s'.
Proof. intros E. unfold nbind, still. rewrite E. destruct (k x s'). reflexivity. Qed.
Lemma n_read_eq pos len buf d : (pos + len <= length buf)%nat ->
  exists buf' d', n_read pos len (buf, d) = (failed len (delivered d), Ret (match fst (take_bytes len (delivered d)) with Some _ => len | None => O end, (buf', d'))) /\
    delivered d' = snd (take_bytes len (delivered d)) /\ length buf' = length buf /\ (fd_size d' <= fd_size d)%nat /\
    (forall bs, fst (take_bytes len (delivered d)) = Some bs -> buf' = upds buf pos bs /\ (fd_size d' + len <= fd_size d)%nat).
Proof.
  intros HP. pose proof (loop_lines (S (fd_size d)) pos 0 len buf d ltac:(lia) ltac:(lia) HP) as HL.
  destruct (read_loop_spec (S (fd_size d)) pos 0 len buf d ltac:(lia) ltac:(lia) HP) as (b1 & d1 & E & ED & EL & ES & EB). rewrite Nat.sub_0_r, ?Nat.add_0_r in *.
  exists b1, d1. split; [|auto]. unfold n_read. cbn [snd]. pose proof (alike_loop (S (fd_size d)) pos 0 len (buf, d)) as EA. rewrite E in EA.
  destruct (n_read_loop _ _ _ _ _) as [l o]. cbn [fst snd] in *. now subst.
Qed.
Lemma failed_some n : forall w bs, fst (take_bytes n w) = Some bs -> failed n w = [].
Proof.
  induction n as [|n IH]; intros w bs E; [destruct w; reflexivity|]. cbn [take_bytes] in E. destruct w as [|[b|] t]; try discriminate. cbn [failed].
  destruct (take_bytes n t) as [[r|] w2] eqn:E2; [|discriminate]. apply (IH t r). now rewrite E2.
Qed.
(** A read that gets less than it wants: the device has no more bytes, or it fails. *)
Lemma failed_none n : forall w, fst (take_bytes n w) = None -> exists bs, (length bs < n)%nat /\
  ((w = map Some bs /\ snd (take_bytes n w) = [] /\ failed n w = []) \/ (w = map Some bs ++ None :: snd (take_bytes n w) /\ failed n w = [ReadError])).
Proof.
  induction n as [|n IH]; intros w E; [discriminate|]. cbn [take_bytes failed] in *. destruct w as [|[b|] t].
  - exists []. split; [cbn; lia|]. left. auto.
  - destruct (take_bytes n t) as [[r|] w2] eqn:E2; [discriminate|]. destruct (IH t) as (bs & HL & HC); [now rewrite E2|]. rewrite E2 in HC. cbn [snd] in *.
    exists (b :: bs). split; [cbn [length]; lia|]. destruct HC as [(-> & -> & ->)|(-> & ->)]; [left|right]; auto.
  - exists []. split; [cbn; lia|]. right. auto.
Qed.
(** how a search that finds no frame ends *)
Definition stopped (w : list (option Z)) (l : list notice) (rest : list (option Z)) : Prop := exists bs,
  (w = map Some bs /\ rest = [] /\ l = []) \/ (w = map Some bs ++ None :: rest /\ l = [ReadError]).
Lemma stopped_app bs w l rest : stopped w l rest -> stopped (map Some bs ++ w) l rest.
Proof.
  intros (x & [(-> & -> & ->)|(-> & ->)]); exists (bs ++ x); rewrite map_app; [left|right]; rewrite <- ?app_assoc; auto.
Qed.
Lemma start_lines fuel : forall len buf d, (fd_size d < fuel)%nat -> (len <= 8)%nat -> (8 <= length buf)%nat ->
  if fst (scan len (delivered d)) then fst (n_find_start fuel len (buf, d)) = []
  else stopped (delivered d) (fst (n_find_start fuel len (buf, d))) (snd (scan len (delivered d))).
Proof.
  induction fuel as [|fuel IH]; intros len buf d HF HL HB; [lia|]. cbn [n_find_start].
  destruct (Nat.ltb_spec len 8) as [H8|H8].
  2:{ assert (len = 8)%nat as -> by lia. replace (scan 8 (delivered d)) with (true, delivered d) by (destruct (delivered d); reflexivity). reflexivity. }
  destruct (n_read_eq len 1 buf d ltac:(lia)) as (b1 & d1 & E & ED & EL & ES & EB). rewrite !(nbind_ret _ _ _ _ _ _ _ _ E).
  assert (HS : scan len (delivered d) = match delivered d with [] => (false, []) | None :: t => (false, t) | Some b :: t => scan (if start_ok len b then S len else O) t end).
  { apply Nat.ltb_lt in H8. destruct (delivered d); cbn [scan]; rewrite H8; reflexivity. }
  rewrite HS. destruct (delivered d) as [|[b|] t] eqn:DD; cbn [take_bytes fst snd omap failed] in *.
  - exists []. left. repeat split.
  - destruct (EB [b] eq_refl) as [-> Hs]. cbn [Nat.eqb upds fst snd app]. rewrite !(nbind_still _ _ (get_buf len) _ _ b (upd buf len b, d1)) by (unfold get_buf; cbn [fst]; now rewrite nth_upd_same by lia).
    change (((b =? 27) && (len <? 4)%nat) || ((b =? 1) && (4 <=? len)%nat)) with (start_ok len b).
    assert (HI : let len' := if start_ok len b then S len else O in if fst (scan len' t) then fst (n_find_start fuel len' (upd buf len b, d1)) = []
      else stopped t (fst (n_find_start fuel len' (upd buf len b, d1))) (snd (scan len' t))).
    { cbv zeta. rewrite <- ED. apply IH; [lia|destruct (start_ok len b); lia|]. cbn [upds] in EL. lia. }
    cbv zeta in HI. destruct (start_ok len b).
    + destruct (fst (scan _ t)); [exact HI|]. exact (stopped_app [b] _ _ _ HI).
    + destruct (fst (scan _ t)); [exact HI|]. exact (stopped_app [b] _ _ _ HI).
  - exists []. right. split; reflexivity.
Qed.
(** after the start sequence *)
Definition refused (room : nat) (w : list (option Z)) (l : list notice) (rest : list (option Z)) : Prop :=
  stopped w l rest \/
  (exists p x a b c, w = map Some (p ++ [27; 27; 27; 27; x; a; b; c]) ++ rest /\ (length p mod 4 = 0)%nat /\ unescaped p /\ (length p < room)%nat /\ x <> 26 /\ l = [Unrecognized]) \/
  (exists p, w = map Some p ++ rest /\ (length p mod 4 = 0)%nat /\ unescaped p /\ (room <= length p < room + 4)%nat /\ l = []).
Lemma refused_app room q w l rest : length q = 4%nat -> q <> esc_seq -> refused (room - 4) w l rest -> (1 <= room)%nat -> refused room (map Some q ++ w) l rest.
Proof.
  intros HQ HN [X|[(p & x & a & b & c & -> & H4 & HU & HL & HX & ->)|(p & -> & H4 & HU & HL & ->)]] HR.
  - left. now apply stopped_app.
  - right. left. exists (q ++ p), x, a, b, c. rewrite <- app_assoc, (map_app Some q), <- app_assoc. split; [reflexivity|]. apply mul4 in H4. destruct H4 as [k Hk].
    split; [rewrite app_length, HQ, Hk; replace (4 + 4 * k)%nat with (4 * S k)%nat by lia; apply mod4|]. split; [apply unescaped_cons; auto|]. rewrite app_length. repeat split; auto. lia.
  - right. right. exists (q ++ p). rewrite map_app, <- app_assoc. split; [reflexivity|]. apply mul4 in H4. destruct H4 as [k Hk].
    split; [rewrite app_length, HQ, Hk; replace (4 + 4 * k)%nat with (4 * S k)%nat by lia; apply mod4|]. split; [apply unescaped_cons; auto|]. rewrite app_length. split; [lia|reflexivity].
Qed.
Lemma frame_lines fuel : forall len max_len buf d, length buf = max_len -> (max_len < fuel + len)%nat ->
  match fst (frame_words fuel len max_len (delivered d)) with
  | Some _ => fst (n_read_frame fuel len max_len (buf, d)) = []
  | None => refused (max_len - (len + 8)) (delivered d) (fst (n_read_frame fuel len max_len (buf, d))) (snd (frame_words fuel len max_len (delivered d)))
  end.
Proof.
  induction fuel as [|fuel IH]; intros len max_len buf d HB HF; cbn [n_read_frame frame_words]; destruct (Nat.ltb_spec (len + 8) max_len) as [HL|HL]; try lia.
  1, 3: right; right; exists []; cbn; (split; [reflexivity|]); (split; [reflexivity|]); (split; [apply unescaped_nil|]); split; [lia|reflexivity].
  destruct (n_read_eq len 4 buf d ltac:(lia)) as (b1 & d1 & E & ED & EL & ES & EB). rewrite !(nbind_ret _ _ _ _ _ _ _ _ E).
  destruct (take_bytes 4 (delivered d)) as [[q|] w1] eqn:T1; cbn [fst snd] in *.
  2:{ destruct (failed_none 4 (delivered d)) as (bs & _ & HC); [now rewrite T1|]. rewrite T1 in HC. cbn [snd] in HC. left. cbn [Nat.eqb]. unfold still. rewrite app_nil_r. cbn [fst].
      exists bs. destruct HC as [(-> & -> & ->)|(-> & ->)]; auto. }
  destruct (EB q eq_refl) as [-> _]. destruct (take_length _ _ _ _ T1) as [LQ EW]. rewrite (failed_some 4 _ q) by (now rewrite T1). cbn [Nat.eqb app].
  assert (F1 : firstn (len + 4) (upds buf len q) = firstn len buf ++ q) by (rewrite <- LQ; apply firstn_upds; lia).
  assert (W : firstn 4 (skipn len (upds buf len q)) = q).
  { rewrite firstn_skipn_comm, F1, skipn_app. assert (LF : length (firstn len buf) = len) by (rewrite firstn_length; lia).
    rewrite skipn_all2 by lia. rewrite LF, Nat.sub_diag. reflexivity. }
  rewrite !(nbind_still _ _ (get_buf4 len) _ _ q (upds buf len q, d1)) by (unfold get_buf4; cbn [fst]; rewrite upds_length; destruct (Nat.leb_spec (len + 4) (length buf)); [now rewrite W|lia]).
  unfold list_eqb. destruct (list_eq_dec Z.eq_dec q esc_seq) as [->|HQ].
  - change (memcmp esc_seq esc_seq =? 0) with true. cbv iota zeta.
    destruct (n_read_eq (len + 4) 4 (upds buf len esc_seq) d1 ltac:(rewrite upds_length; lia)) as (b2 & d2 & E2 & ED2 & EL2 & _ & EB2). rewrite !(nbind_ret _ _ _ _ _ _ _ _ E2). rewrite ED in *.
    destruct (take_bytes 4 w1) as [[e|] w2] eqn:T2; cbn [fst snd] in *.
    2:{ destruct (failed_none 4 w1) as (bs & _ & HC); [now rewrite T2|]. rewrite T2 in HC. cbn [snd] in HC. left. cbn [Nat.eqb]. unfold still. cbn [fst]. rewrite app_nil_r.
        rewrite EW. apply stopped_app. exists bs. destruct HC as [(-> & -> & ->)|(-> & ->)]; auto. }
    destruct (EB2 e eq_refl) as [-> _]. destruct (take_length _ _ _ _ T2) as [LE EW2]. rewrite (failed_some 4 _ e) by (now rewrite T2). cbn [Nat.eqb app].
    destruct e as [|x [|a [|b [|c [|]]]]]; try discriminate. cbn [hd].
    assert (HX : nth_error (upds (upds buf len esc_seq) (len + 4) [x; a; b; c]) (len + 4) = Some x).
    { rewrite <- (firstn_skipn (len + 4 + length [x; a; b; c]) (upds _ (len + 4) _)). rewrite firstn_upds by (rewrite upds_length; cbn [length]; lia).
        assert (L4 : length (firstn (len + 4) (upds buf len esc_seq)) = (len + 4)%nat) by (rewrite firstn_length, upds_length; lia).
        rewrite nth_error_app1, nth_error_app2, L4, Nat.sub_diag by (rewrite ?app_length; cbn [length]; lia). reflexivity. }
    rewrite !(nbind_still _ _ (get_buf (len + 4)) _ _ x (upds (upds buf len esc_seq) (len + 4) [x; a; b; c], d2)) by (unfold get_buf; cbn [fst]; now rewrite HX).
    clear HX. destruct (Z.eqb_spec x 26) as [->|HX]; cbn [fst].
    + reflexivity.
    + right. left. exists [], x, a, b, c. rewrite EW, EW2. cbn. split; [reflexivity|]. split; [reflexivity|]. split; [apply unescaped_nil|]. split; [lia|]. auto.
  - destruct (Z.eqb_spec (memcmp q esc_seq) 0) as [HM|HM]; [apply memcmp_zero in HM; [contradiction|exact LQ]|].
    pose proof (IH (len + 4)%nat max_len (upds buf len q) d1 ltac:(rewrite upds_length; lia) ltac:(lia)) as HI. rewrite ED in HI.
    destruct (frame_words fuel (len + 4) max_len w1) as [[r|] w2]; cbn [fst snd omap] in *; destruct (n_read_frame fuel (len + 4) max_len _) as [l o]; cbn [fst] in *; [exact HI|].
    rewrite EW. apply refused_app; auto; [|lia]. replace (max_len - (len + 8) - 4)%nat with (max_len - (len + 4 + 8))%nat by lia. exact HI.
Qed.

(** *** Specification: one search for a frame *)
(** [w] is what the device delivers from now on and [rest] what is left of it; the
    search finds no frame, and [l] is what it says. *)
Definition no_frame (max_len : nat) (w : list (option Z)) (l : list notice) (rest : list (option Z)) : Prop :=
  (* the device has nothing more *)
  (exists bs, w = map Some bs /\ rest = [] /\ l = []) \/
  (* the device fails *)
  (exists bs, w = map Some bs ++ None :: rest /\ l = [ReadError]) \/
  (* an escape sequence that is not the end *)
  (exists noise p x a b c, w = map Some (noise ++ [27; 27; 27; 27; 1; 1; 1; 1] ++ p ++ [27; 27; 27; 27; x; a; b; c]) ++ rest /\
     (length p mod 4 = 0)%nat /\ unescaped p /\ (length p + 16 < max_len)%nat /\ x <> 26 /\ l = [Unrecognized]) \/
  (* a payload that does not fit *)
  (exists noise p, w = map Some (noise ++ [27; 27; 27; 27; 1; 1; 1; 1] ++ p) ++ rest /\
     (length p mod 4 = 0)%nat /\ unescaped p /\ (max_len <= length p + 16 < max_len + 4)%nat /\ l = []).
Lemma transport_lines max_len d n bs d' : (16 <= max_len)%nat -> sml_transport_read max_len d = Ret (n, bs, d') ->
  (n = 0%nat -> no_frame max_len (delivered d) (fst (n_transport_read max_len d)) (delivered d')) /\ (n <> 0%nat -> fst (n_transport_read max_len d) = []).
Proof.
  intros H16 E0. destruct (transport_read_pure max_len d) as (d0 & E1 & ED). rewrite E1 in E0. revert E0 ED. unfold frame_read.
  unfold n_transport_read. destruct (Nat.ltb_spec max_len 8) as [H8|H8]; [lia|]. cbv zeta. intros E0 ED.
  pose proof (start_lines (S (fd_size d)) 0 (repeat 0 max_len) d ltac:(lia) ltac:(lia) ltac:(rewrite repeat_length; lia)) as HS.
  destruct (find_start_spec (S (fd_size d)) 0 (repeat 0 max_len) d ltac:(lia) ltac:(lia) ltac:(rewrite repeat_length; lia) eq_refl) as (b1 & d1 & E & ED1 & EL & ET).
  rewrite repeat_length in EL. pose proof (alike_start (S (fd_size d)) 0 (repeat 0 max_len, d)) as EA. rewrite E in EA.
  unfold nbind at 1 2. destruct (n_find_start _ _ _) as [l o]. cbn [fst snd] in *. subst o. destruct (scan 0 (delivered d)) as [[|] w1] eqn:SC; cbn [fst snd] in *.
  - subst l. destruct (scan_sound _ 0%nat _ ltac:(lia) SC) as (noise & bs1 & EW & EB). cbn [firstn app] in EB. subst bs1.
    pose proof (frame_lines (S max_len) 8 max_len b1 d1 EL ltac:(lia)) as HFr.
    destruct (read_frame_spec (S max_len) 8 max_len b1 d1 EL ltac:(lia)) as (b2 & d2 & E2 & ED2 & EL2 & EB2). pose proof (alike_frame (S max_len) 8 max_len (b1, d1)) as EA2. rewrite E2 in EA2.
    destruct (n_read_frame _ _ _ _) as [l2 o2]. cbn [fst snd] in *. subst o2. rewrite ED1 in *.
    destruct (frame_words (S max_len) 8 max_len w1) as [[r|] w2]; cbn [fst snd omap app] in *.
    + injection E0 as <- <- <-. split; [discriminate|]. intros _. subst l2. destruct (_ =? 0)%nat; [reflexivity|]. destruct (_ <=? _)%nat; reflexivity.
    + injection E0 as <- <- <-. split; [|congruence]. intros _. cbn [Nat.eqb fst]. rewrite ED. rewrite EW.
      destruct HFr as [(x & [(-> & -> & ->)|(-> & ->)])|[(p & x & a & b & c & -> & H4 & HU & HL & HX & ->)|(p & -> & H4 & HU & HL & ->)]].
      * left. exists ((noise ++ start_seq) ++ x). rewrite <- map_app. auto.
      * right. left. exists ((noise ++ start_seq) ++ x). rewrite (map_app Some (noise ++ start_seq)), <- app_assoc. auto.
      * right. right. left. exists noise, p, x, a, b, c. split; [rewrite app_assoc, <- map_app; do 2 f_equal; now rewrite <- app_assoc|]. repeat split; auto. lia.
      * right. right. right. exists noise, p. split; [rewrite app_assoc, <- map_app; do 2 f_equal; now rewrite <- app_assoc|]. repeat split; auto; lia.
  - injection E0 as <- <- <-. split; [|congruence]. intros _. unfold still, ret. cbn [Nat.eqb fst]. rewrite app_nil_r. rewrite ED. destruct HS as (x & [(-> & -> & ->)|(-> & ->)]).
    + left. exists x. auto.
    + right. left. exists x. auto.
Qed.

(** *** C76 *)
Lemma n_loop_ends fuel : forall d, (length (delivered d) < fuel)%nat -> exists l parts d' w, n_listen_loop fuel d = (l, Ret (map snd parts, d')) /\ Forall frame (map snd parts) /\
  delivered d = map Some (flat_map (fun np => fst np ++ snd np) parts) ++ w /\ no_frame MC_SML_BUFFER_LEN w l (delivered d').
Proof.
  induction fuel as [|fuel IH]; intros d HF; [lia|]. cbn [n_listen_loop].
  destruct (C37_reads_only_frames MC_SML_BUFFER_LEN d) as (n & bs & d1 & E & HL & HC). pose proof (alike_transport MC_SML_BUFFER_LEN d) as EA. rewrite E in EA.
  destruct (transport_lines MC_SML_BUFFER_LEN d n bs d1 ltac:(unfold MC_SML_BUFFER_LEN; lia) E) as [T1 T2].
  destruct (n_transport_read MC_SML_BUFFER_LEN d) as [l o]. cbn [fst snd] in *. subst o. destruct (Nat.eqb_spec n 0) as [HN|HN].
  - exists l, [], d1, (delivered d). cbn. repeat split; auto.
  - destruct HC as [HC|((HFr & HR & _) & noise & HW)]; [contradiction|].
    destruct (IH d1) as (l2 & parts & d2 & w & E2 & HP & HD & HE).
    { apply (f_equal (@length _)) in HW. rewrite app_length, map_length, app_length in HW. lia. }
    rewrite E2, (T2 HN). exists l2, ((noise, bs) :: parts), d2, w. cbn [map snd fst flat_map app]. split; [reflexivity|]. split; [now constructor|]. split; [|exact HE].
    rewrite HW, HD. rewrite (map_app Some (noise ++ bs)), <- app_assoc. reflexivity.
Qed.

(** Reading and listening do what Transport.v says: the lines change nothing. *)
Theorem C76_same max_len d : snd (n_transport_read max_len d) = sml_transport_read max_len d /\ snd (n_transport_listen d) = sml_transport_listen d.
Proof. split; [apply alike_transport|]. unfold n_transport_listen, sml_transport_listen. apply alike_listen. Qed.
Print Assumptions C76_same.
(** One read: a frame comes without a line; without a frame, [no_frame] says what was
    consumed, why there is none and which line was printed. *)
Theorem C76_read max_len d : (16 <= max_len)%nat -> exists l n bs d', n_transport_read max_len d = (l, Ret (n, bs, d')) /\
  ((frame bs /\ length bs = n /\ (n <> 0)%nat /\ l = [] /\ exists noise, delivered d = map Some (noise ++ bs) ++ delivered d') \/
   (n = 0%nat /\ bs = [] /\ no_frame max_len (delivered d) l (delivered d'))).
Proof.
  intros H16. destruct (C37_reads_only_frames max_len d) as (n & bs & d1 & E & HL & HC). pose proof (alike_transport max_len d) as EA. rewrite E in EA.
  destruct (transport_lines max_len d n bs d1 H16 E) as [T1 T2]. destruct (n_transport_read max_len d) as [l o]. cbn [fst snd] in *. subst o. exists l, n, bs, d1. split; [reflexivity|].
  destruct (Nat.eq_dec n 0) as [->|HN].
  - right. split; [reflexivity|]. split; [now apply length_zero_iff_nil|auto].
  - left. destruct HC as [HC|((HF & _) & HW)]; [contradiction|]. repeat split; auto.
Qed.
Print Assumptions C76_read.
(** A buffer under 8 bytes: one line, and nothing is read.  (For 0 bytes the code first
    declares an array of that size, which C does not define: sml_transport.c:65.) *)
Theorem C76_small_buffer max_len d : (0 < max_len < 8)%nat -> n_transport_read max_len d = ([TooSmall], Ret (0%nat, [], d)).
Proof. intros [_ H8]. unfold n_transport_read. apply Nat.ltb_lt in H8. now rewrite H8. Qed.
Print Assumptions C76_small_buffer.
(** Listening: it returns, and at the end there is at most one line.  [parts] are the
    noise and the frame of each call of the receiver. *)
Theorem C76_ending d : exists l parts d' w, n_transport_listen d = (l, Ret (map snd parts, d')) /\ Forall frame (map snd parts) /\
  delivered d = map Some (flat_map (fun np => fst np ++ snd np) parts) ++ w /\ no_frame (Z.to_nat 8096) w l (delivered d').
Proof. unfold n_transport_listen. apply n_loop_ends. pose proof (delivered_size d). lia. Qed.
Print Assumptions C76_ending.
(** If bytes of the device are left and no line was printed, a frame was too long. *)
Theorem C76_early_end d fs d' : n_transport_listen d = ([], Ret (fs, d')) -> delivered d' <> [] ->
  exists before p, delivered d = map Some (before ++ [27; 27; 27; 27; 1; 1; 1; 1] ++ p) ++ delivered d' /\ length p = Z.to_nat 8080 /\ unescaped p.
Proof.
  intros E HD. destruct (C76_ending d) as (l & parts & d2 & w & E2 & _ & HW & HN). rewrite E in E2. injection E2 as <- _ <-.
  destruct HN as [(bs & _ & HR & _)|[(bs & _ & HL)|[(noise & p & x & a & b & c & _ & _ & _ & _ & _ & HL)|(noise & p & HP & H4 & HU & HL & _)]]]; try discriminate; try contradiction.
  exists (flat_map (fun np => fst np ++ snd np) parts ++ noise), p. split; [rewrite HW, HP, app_assoc, <- map_app; do 2 f_equal; now rewrite <- app_assoc|]. split; [|exact HU].
  apply mul4 in H4. destruct H4 as [k Hk]. lia.
Qed.
Print Assumptions C76_early_end.
(** A device that fails: whatever was heard before, there is a line, unless an earlier
    frame was too long. *)
Theorem C76_failure_reported d fs d' : n_transport_listen d = ([], Ret (fs, d')) -> In None (delivered d) -> delivered d' <> [] /\
  exists before p, delivered d = map Some (before ++ [27; 27; 27; 27; 1; 1; 1; 1] ++ p) ++ delivered d' /\ length p = Z.to_nat 8080 /\ unescaped p.
Proof.
  intros E HI. assert (HD : delivered d' <> []); [|split; [exact HD|now apply (C76_early_end d fs)]].
  intros HD. destruct (C76_ending d) as (l & parts & d2 & w & E2 & _ & HW & HN). rewrite E in E2. injection E2 as <- _ <-.
  assert (HM : forall bs : list Z, ~ In None (map Some bs)) by (intros bs HX; apply in_map_iff in HX as (y & HY & _); discriminate).
  rewrite HW, HD in *. apply in_app_iff in HI as [HI|HI]; [exact (HM _ HI)|].
  destruct HN as [(bs & -> & _ & _)|[(bs & _ & HL)|[(noise & p & x & a & b & c & _ & _ & _ & _ & _ & HL)|(noise & p & -> & _)]]]; try discriminate.
  - exact (HM _ HI).
  - rewrite app_nil_r in HI. exact (HM _ HI).
Qed.
Print Assumptions C76_failure_reported.
(** *** The other direction: what is on the line gives the lines *)
Lemma take_app n bs w : length bs = n -> take_bytes n (map Some bs ++ w) = (Some bs, w).
Proof.
  revert n. induction bs as [|b bs IH]; intros n <-; [reflexivity|]. cbn [length map app take_bytes]. now rewrite (IH _ eq_refl).
Qed.
Lemma n_payload k : forall fuel len max_len p w buf d, length p = (4 * k)%nat -> unescaped p -> length buf = max_len -> (len + 4 * k + 4 < max_len)%nat ->
  delivered d = map Some p ++ w ->
  exists buf' d', fst (n_read_frame (k + fuel) len max_len (buf, d)) = fst (n_read_frame fuel (len + 4 * k) max_len (buf', d')) /\ delivered d' = w /\ length buf' = length buf.
Proof.
  induction k as [|k IH]; intros fuel len max_len p w buf d HP HU HB HL HD.
  - destruct p; [|discriminate]. exists buf, d. rewrite Nat.mul_0_r, Nat.add_0_r. auto.
  - destruct (split4 k p HP) as (q & r & -> & HQ & HR). apply unescaped_cons in HU; [|exact HQ]. destruct HU as [HN HU].
    rewrite map_app, <- app_assoc in HD. cbn [plus n_read_frame]. destruct (Nat.ltb_spec (len + 8) max_len); [|lia].
    destruct (n_read_eq len 4 buf d ltac:(lia)) as (b1 & d1 & E & ED & EL & _ & EB). rewrite !(nbind_ret _ _ _ _ _ _ _ _ E). rewrite HD, take_app in * by exact HQ. cbn [fst snd] in *.
    destruct (EB q eq_refl) as [-> _]. rewrite (failed_some 4 _ q) by (now rewrite take_app). cbn [Nat.eqb app].
    rewrite !(nbind_still _ _ (get_buf4 len) _ _ q (upds buf len q, d1)).
    2:{ unfold get_buf4. cbn [fst]. rewrite upds_length. destruct (Nat.leb_spec (len + 4) (length buf)); [|lia]. do 2 f_equal.
        rewrite firstn_skipn_comm. rewrite <- HQ at 1. rewrite firstn_upds by lia. rewrite skipn_app, skipn_all2 by (rewrite firstn_length; lia).
        rewrite firstn_length. replace (len - Nat.min len (length buf))%nat with 0%nat by lia. reflexivity. }
    destruct (Z.eqb_spec (memcmp q esc_seq) 0) as [HM|HM]; [apply memcmp_zero in HM; [contradiction|exact HQ]|].
    destruct (IH fuel (len + 4)%nat max_len r w (upds buf len q) d1) as (b2 & d2 & E2 & ED2 & EL2); auto; [rewrite upds_length; lia|lia|].
    exists b2, d2. rewrite E2. replace (len + 4 + 4 * k)%nat with (len + 4 * S k)%nat by lia. rewrite EL2, upds_length. auto.
Qed.
Lemma n_escape fuel len max_len x a b c w buf d : length buf = max_len -> (len + 8 < max_len)%nat -> delivered d = map Some [27; 27; 27; 27; x; a; b; c] ++ w -> x <> 26 ->
  fst (n_read_frame (S fuel) len max_len (buf, d)) = [Unrecognized].
Proof.
  intros HB HL HD HX. change [27; 27; 27; 27; x; a; b; c] with (esc_seq ++ [x; a; b; c]) in HD. rewrite map_app, <- app_assoc in HD. cbn [n_read_frame]. destruct (Nat.ltb_spec (len + 8) max_len); [|lia].
  destruct (n_read_eq len 4 buf d ltac:(lia)) as (b1 & d1 & E & ED & EL & _ & EB). rewrite !(nbind_ret _ _ _ _ _ _ _ _ E). rewrite HD, take_app in * by reflexivity. cbn [fst snd] in *.
  destruct (EB _ eq_refl) as [-> _]. rewrite (failed_some 4 _ esc_seq) by (now rewrite take_app). cbn [Nat.eqb app].
  assert (F1 : firstn (len + 4) (upds buf len esc_seq) = firstn len buf ++ esc_seq) by (apply (firstn_upds buf len esc_seq); cbn [length esc_seq]; lia).
  rewrite !(nbind_still _ _ (get_buf4 len) _ _ esc_seq (upds buf len esc_seq, d1)).
  2:{ unfold get_buf4. cbn [fst]. rewrite upds_length. destruct (Nat.leb_spec (len + 4) (length buf)); [|lia]. do 2 f_equal.
      rewrite firstn_skipn_comm, F1, skipn_app, skipn_all2 by (rewrite firstn_length; lia).
      rewrite firstn_length. replace (len - Nat.min len (length buf))%nat with 0%nat by lia. reflexivity. }
  change (memcmp esc_seq esc_seq =? 0) with true. cbv iota zeta.
  destruct (n_read_eq (len + 4) 4 (upds buf len esc_seq) d1 ltac:(rewrite upds_length; lia)) as (b2 & d2 & E2 & ED2 & EL2 & _ & EB2). rewrite !(nbind_ret _ _ _ _ _ _ _ _ E2).
  rewrite ED in *. rewrite take_app in * by reflexivity. cbn [fst snd] in *. destruct (EB2 _ eq_refl) as [-> _]. rewrite (failed_some 4 _ [x; a; b; c]) by (now rewrite take_app). cbn [Nat.eqb app].
  rewrite !(nbind_still _ _ (get_buf (len + 4)) _ _ x (upds (upds buf len esc_seq) (len + 4) [x; a; b; c], d2)).
  2:{ unfold get_buf. cbn [fst]. rewrite <- (firstn_skipn (len + 4 + length [x; a; b; c]) (upds (upds _ _ _) _ _)). rewrite firstn_upds by (rewrite upds_length; cbn [length]; lia).
      assert (L4 : length (firstn (len + 4) (upds buf len esc_seq)) = (len + 4)%nat) by (rewrite firstn_length, upds_length; lia).
      rewrite nth_error_app1, nth_error_app2, L4, Nat.sub_diag by (rewrite ?app_length; cbn [length]; lia). reflexivity. }
  apply Z.eqb_neq in HX. rewrite HX. reflexivity.
Qed.
Lemma n_after_start max_len d w : (8 <= max_len)%nat -> scan 0 (delivered d) = (true, w) -> exists buf d1, length buf = max_len /\ delivered d1 = w /\
  (forall l o, n_read_frame (S max_len) 8 max_len (buf, d1) = (l, o) -> fst (n_transport_read max_len d) = l).
Proof.
  intros H8 HS. pose proof (start_lines (S (fd_size d)) 0 (repeat 0 max_len) d ltac:(lia) ltac:(lia) ltac:(rewrite repeat_length; lia)) as HN.
  destruct (find_start_spec (S (fd_size d)) 0 (repeat 0 max_len) d ltac:(lia) ltac:(lia) ltac:(rewrite repeat_length; lia) eq_refl) as (b1 & d1 & E & ED1 & EL & _).
  rewrite HS in *. cbn [fst snd] in *. rewrite repeat_length in EL. pose proof (alike_start (S (fd_size d)) 0 (repeat 0 max_len, d)) as EA. rewrite E in EA.
  exists b1, d1. split; [exact EL|]. split; [exact ED1|]. intros l o EF. unfold n_transport_read. destruct (Nat.ltb_spec max_len 8); [lia|]. cbv zeta.
  unfold nbind at 1. destruct (n_find_start _ _ _) as [l1 o1]. cbn [fst snd] in *. subst l1 o1. rewrite EF. cbn [app]. destruct o as [[n [b2 d2]]| |]; [|reflexivity..].
  destruct (n =? 0)%nat; [reflexivity|]. destruct (n <=? max_len)%nat; reflexivity.
Qed.
(** the frames that come first do not matter *)
Lemma n_listen_clean ps : forall fuel d w, clean ps -> (length ps < fuel)%nat -> delivered d = map Some (flat_map (fun x => fst x ++ snd x) ps) ++ w ->
  exists d1 fuel', delivered d1 = w /\ forall l d2, n_listen_loop (S fuel') d1 = (l, Ret ([], d2)) -> n_listen_loop fuel d = (l, Ret (map snd ps, d2)).
Proof.
  induction ps as [|[noise f] ps IH]; intros fuel d w HC HF HD; (destruct fuel as [|fuel]; [cbn in HF; lia|]).
  - exists d, fuel. split; [exact HD|]. auto.
  - apply Forall_cons_iff in HC. destruct HC as [(HN & HFr & HL) HC]. cbn [fst snd flat_map length] in *. rewrite map_app, <- app_assoc in HD.
    destruct (C39_frame_found_after_noise MC_SML_BUFFER_LEN d noise f (map Some (flat_map (fun x => fst x ++ snd x) ps) ++ w)) as (d1 & E1 & ED1); auto.
    assert (HZ : length f <> 0%nat) by (destruct HFr as (p & a & b & c & -> & _); rewrite !app_length; cbn; lia).
    pose proof (proj2 (transport_lines MC_SML_BUFFER_LEN d _ _ _ ltac:(unfold MC_SML_BUFFER_LEN; lia) E1) HZ) as HT. pose proof (alike_transport MC_SML_BUFFER_LEN d) as EA. rewrite E1 in EA.
    destruct (IH fuel d1 w HC ltac:(lia) ED1) as (d2 & fuel' & ED2 & HI). exists d2, fuel'. split; [exact ED2|]. intros l d3 E3. cbn [n_listen_loop].
    destruct (n_transport_read MC_SML_BUFFER_LEN d) as [l0 o0]. cbn [fst snd] in *. subst l0 o0. apply Nat.eqb_neq in HZ. rewrite HZ, (HI _ _ E3). reflexivity.
Qed.
Lemma n_listen_after ps d w l rest : clean ps -> delivered d = map Some (flat_map (fun x => fst x ++ snd x) ps) ++ w ->
  (forall d1, delivered d1 = w -> fst (n_transport_read MC_SML_BUFFER_LEN d1) = l /\ frame_read MC_SML_BUFFER_LEN w = (None, rest)) ->
  exists d', n_transport_listen d = (l, Ret (map snd ps, d')) /\ delivered d' = rest.
Proof.
  intros HC HD HR. assert (HS : (length ps < S (fd_size d))%nat).
  { pose proof (delivered_size d) as HS. rewrite HD, app_length, map_length in HS.
    assert (length ps <= length (flat_map (fun x => fst x ++ snd x) ps))%nat; [|lia]. clear - HC.
    induction ps as [|[n f] ps IH]; [cbn; lia|]. apply Forall_cons_iff in HC. destruct HC as [(_ & (p & a & b & c & HF & _) & _) HC]. specialize (IH HC).
    cbn [fst snd] in HF. cbn [flat_map fst snd length]. rewrite HF, !app_length. cbn [length]. lia. }
  destruct (n_listen_clean ps _ d w HC HS HD) as (d1 & fuel' & ED & HI). destruct (HR d1 ED) as [EL EF].
  destruct (read_of MC_SML_BUFFER_LEN d1 (None, rest)) as (d2 & E2 & ED2); [now rewrite ED|]. exists d2. split; [|exact ED2]. apply HI. cbn [n_listen_loop].
  pose proof (alike_transport MC_SML_BUFFER_LEN d1) as EA. rewrite E2 in EA. destruct (n_transport_read MC_SML_BUFFER_LEN d1) as [l0 o0]. cbn [fst snd] in *. subst. reflexivity.
Qed.
Lemma n_no_start max_len d rest : (8 <= max_len)%nat -> scan 0 (delivered d) = (false, rest) -> stopped (delivered d) (fst (n_transport_read max_len d)) rest /\ frame_read max_len (delivered d) = (None, rest).
Proof.
  intros H8 HS. split; [|unfold frame_read; destruct (Nat.ltb_spec max_len 8); [lia|]; rewrite HS; reflexivity].
  pose proof (start_lines (S (fd_size d)) 0 (repeat 0 max_len) d ltac:(lia) ltac:(lia) ltac:(rewrite repeat_length; lia)) as HN.
  destruct (find_start_spec (S (fd_size d)) 0 (repeat 0 max_len) d ltac:(lia) ltac:(lia) ltac:(rewrite repeat_length; lia) eq_refl) as (b1 & d1 & E & _).
  rewrite HS in *. cbn [fst snd] in *. pose proof (alike_start (S (fd_size d)) 0 (repeat 0 max_len, d)) as EA. rewrite E in EA.
  unfold n_transport_read. destruct (Nat.ltb_spec max_len 8); [lia|]. cbv zeta.
  unfold nbind at 1. destruct (n_find_start _ _ _) as [l1 o1]. cbn [fst snd] in *. subst o1. unfold still, ret. cbn [Nat.eqb fst]. rewrite app_nil_r. exact HN.
Qed.
Lemma no_none (bs : list Z) : ~ In None (map Some bs).
Proof. intros HX. apply in_map_iff in HX as (y & HY & _). discriminate. Qed.
Lemma big_enough : (8 <= MC_SML_BUFFER_LEN)%nat.
Proof. unfold MC_SML_BUFFER_LEN. lia. Qed.
(** After frames with noise between them ([clean], Property C41), listening ends without
    a line when the device has nothing more, … *)
Theorem C76_end_of_device d ps tail : clean ps -> ~ In 27 tail -> delivered d = map Some (flat_map (fun x => fst x ++ snd x) ps ++ tail) ->
  exists d', n_transport_listen d = ([], Ret (map snd ps, d')) /\ delivered d' = [].
Proof.
  intros HC HT HD. rewrite map_app in HD. apply (n_listen_after ps d _ _ _ HC HD). intros d1 ED. rewrite <- ED.
  destruct (n_no_start MC_SML_BUFFER_LEN d1 [] big_enough) as [HS HF].
  { rewrite ED, <- (app_nil_r (map Some tail)), scan_noise by assumption. reflexivity. }
  split; [|exact HF]. destruct HS as (bs & [(_ & _ & HS)|(HS & _)]); [exact HS|]. exfalso. apply (no_none tail). rewrite <- ED, HS. apply in_app_iff. right. now left.
Qed.
Print Assumptions C76_end_of_device.
(** … with a line when it fails, … *)
Theorem C76_read_error d ps tail rest : clean ps -> ~ In 27 tail -> delivered d = map Some (flat_map (fun x => fst x ++ snd x) ps ++ tail) ++ None :: rest ->
  exists d', n_transport_listen d = ([ReadError], Ret (map snd ps, d')) /\ delivered d' = rest.
Proof.
  intros HC HT HD. rewrite map_app, <- app_assoc in HD. apply (n_listen_after ps d _ _ _ HC HD). intros d1 ED. rewrite <- ED.
  destruct (n_no_start MC_SML_BUFFER_LEN d1 rest big_enough) as [HS HF].
  { rewrite ED, scan_noise by assumption. reflexivity. }
  split; [|exact HF]. destruct HS as (bs & [(HS & _ & _)|(_ & HS)]); [|exact HS]. exfalso. apply (no_none bs). rewrite <- HS, ED. apply in_app_iff. right. now left.
Qed.
Print Assumptions C76_read_error.
(** … with a line when a frame has an escape sequence that is not its end, … *)
Theorem C76_other_escape d ps noise p x a b c rest : clean ps ->
  delivered d = map Some (flat_map (fun x => fst x ++ snd x) ps ++ noise ++ [27; 27; 27; 27; 1; 1; 1; 1] ++ p ++ [27; 27; 27; 27; x; a; b; c]) ++ rest ->
  ~ In 27 noise -> (length p mod 4 = 0)%nat -> (length p < Z.to_nat 8080)%nat -> unescaped p -> x <> 26 ->
  exists d', n_transport_listen d = ([Unrecognized], Ret (map snd ps, d')) /\ delivered d' = rest.
Proof.
  intros HC HD HN H4 HL HU HX. destruct (mul4 _ H4) as [k HK]. rewrite map_app, <- app_assoc in HD. apply (n_listen_after ps d _ _ _ HC HD). intros d1 ED.
  assert (HS : scan 0 (delivered d1) = (true, map Some p ++ map Some [27; 27; 27; 27; x; a; b; c] ++ rest)).
  { rewrite ED, !map_app, <- !app_assoc, scan_noise by assumption. apply scan_start. }
  split.
  - destruct (n_after_start MC_SML_BUFFER_LEN d1 _ big_enough HS) as (buf & d2 & HB & ED2 & HR).
    destruct (n_read_frame _ _ _ (buf, d2)) as [l o] eqn:E. rewrite (HR _ _ eq_refl). clear HR.
    replace (S MC_SML_BUFFER_LEN) with (k + S (MC_SML_BUFFER_LEN - k))%nat in E by (unfold MC_SML_BUFFER_LEN; lia).
    destruct (n_payload k (S (MC_SML_BUFFER_LEN - k)) 8 MC_SML_BUFFER_LEN p _ buf d2 HK HU HB ltac:(unfold MC_SML_BUFFER_LEN; lia) ED2) as (b3 & d3 & E3 & ED3 & HB3).
    rewrite E in E3. cbn [fst] in E3. rewrite E3. apply (n_escape _ _ _ x a b c rest); auto; [congruence|unfold MC_SML_BUFFER_LEN; lia].
  - rewrite <- ED, (pure_start _ _ _ big_enough HS). rewrite (words_payload k) by (assumption || unfold MC_SML_BUFFER_LEN; lia).
    rewrite words_end by (unfold MC_SML_BUFFER_LEN; lia). apply Z.eqb_neq in HX. rewrite HX. reflexivity.
Qed.
Print Assumptions C76_other_escape.
(** … and without a line when a frame is too long. *)
Theorem C76_long_frame d ps noise p rest : clean ps ->
  delivered d = map Some (flat_map (fun x => fst x ++ snd x) ps ++ noise ++ [27; 27; 27; 27; 1; 1; 1; 1] ++ p) ++ rest ->
  ~ In 27 noise -> length p = Z.to_nat 8080 -> unescaped p ->
  exists d', n_transport_listen d = ([], Ret (map snd ps, d')) /\ delivered d' = rest.
Proof.
  intros HC HD HN HL HU. assert (HK : length p = (4 * Z.to_nat 2020)%nat) by lia. rewrite map_app, <- app_assoc in HD. apply (n_listen_after ps d _ _ _ HC HD). intros d1 ED.
  assert (HS : scan 0 (delivered d1) = (true, map Some p ++ rest)).
  { rewrite ED, !map_app, <- !app_assoc, scan_noise by assumption. apply scan_start. }
  split.
  - destruct (n_after_start MC_SML_BUFFER_LEN d1 _ big_enough HS) as (buf & d2 & HB & ED2 & HR).
    destruct (n_read_frame _ _ _ (buf, d2)) as [l o] eqn:E. rewrite (HR _ _ eq_refl). clear HR.
    replace (S MC_SML_BUFFER_LEN) with (Z.to_nat 2020 + (S MC_SML_BUFFER_LEN - Z.to_nat 2020))%nat in E by (unfold MC_SML_BUFFER_LEN; lia).
    destruct (n_payload (Z.to_nat 2020) (S MC_SML_BUFFER_LEN - Z.to_nat 2020) 8 MC_SML_BUFFER_LEN p _ buf d2 HK HU HB ltac:(unfold MC_SML_BUFFER_LEN; lia) ED2) as (b3 & d3 & E3 & ED3 & HB3).
    rewrite E in E3. cbn [fst] in E3. rewrite E3.
    assert (HX : forall fuel len max_len s, (max_len <= len + 8)%nat -> fst (n_read_frame fuel len max_len s) = []).
    { intros fuel len max_len s HX. destruct fuel; cbn [n_read_frame]; destruct (Nat.ltb_spec (len + 8) max_len); (lia || reflexivity). }
    apply HX. unfold MC_SML_BUFFER_LEN. lia.
  - rewrite <- ED, (pure_start _ _ _ big_enough HS). rewrite (words_payload (Z.to_nat 2020)) by (assumption || unfold MC_SML_BUFFER_LEN; lia).
    rewrite words_full by (unfold MC_SML_BUFFER_LEN; lia). reflexivity.
Qed.
Print Assumptions C76_long_frame.
(** So a frame that is too long ends listening in silence, although frames follow it. *)
Theorem C76_silent_end_refuted : exists d d' rest, n_transport_listen d = ([], Ret ([], d')) /\ frame frame1 /\ delivered d' = map Some (rest ++ frame1) /\ ~ In 27 rest.
Proof.
  set (p := repeat 7 (Z.to_nat 8080)).
  destruct (C76_long_frame [Chunk ([27; 27; 27; 27; 1; 1; 1; 1] ++ p ++ [1; 2; 3] ++ frame1)] [] [] p (map Some ([1; 2; 3] ++ frame1))) as (d' & E & ED).
  - constructor.
  - unfold delivered. cbn [flat_map]. rewrite app_nil_r. cbn [app fst snd]. rewrite <- map_app. reflexivity.
  - intros [].
  - apply repeat_length.
  - apply C42_example.
  - exists [Chunk ([27; 27; 27; 27; 1; 1; 1; 1] ++ p ++ [1; 2; 3] ++ frame1)], d', [1; 2; 3]. split; [exact E|]. split; [exact frame1_ok|]. split; [exact ED|].
    cbn. intros [X|[X|[X|[]]]]; discriminate.
Qed.
Print Assumptions C76_silent_end_refuted.
(** *** Examples *)
(** a frame, then a failing device; a frame, then another escape; both with bytes left *)
Example C76_example_error : exists d', n_transport_listen [Chunk [5]; Chunk frame1; Err; Chunk frame1] = ([ReadError], Ret ([frame1], d')) /\ delivered d' = map Some frame1.
Proof. eexists. split; [vm_compute; reflexivity|]. vm_compute. reflexivity. Qed.
Example C76_example_escape : exists d', n_transport_listen [Chunk frame1; Chunk [27; 27; 27; 27; 1; 1; 1; 1; 9; 9; 9; 9; 27; 27; 27; 27; 27; 0; 0; 0]; Chunk frame1] = ([Unrecognized], Ret ([frame1], d')) /\
  delivered d' = map Some frame1.
Proof. eexists. split; [vm_compute; reflexivity|]. vm_compute. reflexivity. Qed.
Example C76_example_silent : exists d', n_transport_listen [Chunk (frame1 ++ [1]); Chunk frame1; Chunk [27; 27]] = ([], Ret ([frame1; frame1], d')) /\ delivered d' = [].
Proof. eexists. split; [vm_compute; reflexivity|]. vm_compute. reflexivity. Qed.
(** the hypotheses of the theorems on what follows frames *)
Example C76_example_clean : clean [([1; 2], frame1); ([], frame2); ([255], frame1)] /\ unescaped (repeat 7 (Z.to_nat 8080)).
Proof. split; [exact C41_example|apply C42_example]. Qed.
