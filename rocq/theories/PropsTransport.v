(** Properties of the transport reader (C37-C42, C44). *)
From Verif Require Import Base Buf Crc16 Number OctetString Boolean Value Time SList Tree Bodies Message File Transport
  Lib Spec PropsString TransportFacts.

(** *** Specification *)
(** No escape sequence at a multiple of four. *)
Definition unescaped (p : list Z) : Prop := forall i, firstn 4 (skipn (4 * i) p) <> [27; 27; 27; 27].
(** A transport frame: start sequence, payload, end sequence, three bytes (number
    of padding bytes and checksum). *)
Definition frame (f : list Z) : Prop := exists payload a b c,
  f = [27; 27; 27; 27; 1; 1; 1; 1] ++ payload ++ [27; 27; 27; 27; 26; a; b; c] /\
  (length payload mod 4 = 0)%nat /\ unescaped payload.

(** *** Auxiliary facts *)
Lemma mul4 n : (n mod 4 = 0)%nat -> exists k, n = (4 * k)%nat.
Proof. intros E. exists (n / 4)%nat. pose proof (Nat.div_mod n 4 ltac:(lia)). lia. Qed.
Lemma mod4 k : (4 * k mod 4 = 0)%nat.
Proof. rewrite Nat.mul_comm. apply Nat.mod_mul. lia. Qed.
Lemma split4 k (p : list Z) : length p = (4 * S k)%nat -> exists q r, p = q ++ r /\ length q = 4%nat /\ length r = (4 * k)%nat.
Proof.
  intros HL. exists (firstn 4 p), (skipn 4 p). split; [symmetry; apply firstn_skipn|]. rewrite firstn_length, skipn_length. lia.
Qed.
Lemma unescaped_cons q r : length q = 4%nat -> unescaped (q ++ r) <-> q <> esc_seq /\ unescaped r.
Proof.
  intros HL. split.
  - intros HU. split.
    + intros ->. apply (HU 0%nat). reflexivity.
    + intros i. specialize (HU (S i)). replace (4 * S i)%nat with (length q + 4 * i)%nat in HU by lia.
      rewrite skipn_app in HU. rewrite skipn_all2 in HU by lia. replace (length q + 4 * i - length q)%nat with (4 * i)%nat in HU by lia. exact HU.
  - intros [HQ HR] [|i].
    + change (skipn (4 * 0) (q ++ r)) with (q ++ r). rewrite firstn_app, HL, firstn_all2 by lia. cbn. rewrite app_nil_r. exact HQ.
    + replace (4 * S i)%nat with (length q + 4 * i)%nat by lia. rewrite skipn_app, skipn_all2 by lia.
      replace (length q + 4 * i - length q)%nat with (4 * i)%nat by lia. apply HR.
Qed.
Lemma unescaped_nil : unescaped [].
Proof. intros i. now rewrite skipn_nil. Qed.
Lemma list_eqb_iff a b : list_eqb a b = true <-> a = b.
Proof. unfold list_eqb. destruct (list_eq_dec Z.eq_dec a b); split; congruence. Qed.
Lemma list_eqb_no a b : a <> b -> list_eqb a b = false.
Proof. intros HN. destruct (list_eqb a b) eqn:E; [apply list_eqb_iff in E; contradiction|reflexivity]. Qed.

Lemma words_step fuel len max_len q w : (len + 8 < max_len)%nat -> length q = 4%nat -> q <> esc_seq ->
  frame_words (S fuel) len max_len (map Some q ++ w) =
    (omap (app q) (fst (frame_words fuel (len + 4) max_len w)), snd (frame_words fuel (len + 4) max_len w)).
Proof.
  intros HL HQ HN. cbn [frame_words]. destruct (Nat.ltb_spec (len + 8) max_len); [|lia].
  rewrite take_some by assumption. rewrite list_eqb_no by assumption. destruct (frame_words _ _ _ _) as [r w2]. reflexivity.
Qed.
(** what is read after the start sequence *)
Lemma words_payload k : forall fuel len max_len p w, length p = (4 * k)%nat -> unescaped p -> (len + length p < max_len)%nat -> (max_len < fuel + len)%nat ->
  (len + length p + 4 < max_len)%nat ->
  frame_words fuel len max_len (map Some p ++ w) =
    (omap (app p) (fst (frame_words (fuel - k) (len + length p) max_len w)), snd (frame_words (fuel - k) (len + length p) max_len w)).
Proof.
  induction k as [|k IH]; intros fuel len max_len p w HP HU HL HF HM.
  - destruct p; [|discriminate]. cbn [map app length]. rewrite Nat.add_0_r, Nat.sub_0_r. destruct (frame_words fuel len max_len w) as [[r|] w2]; reflexivity.
  - destruct (split4 k p HP) as (q & r & -> & HQ & HR). apply unescaped_cons in HU; [|exact HQ]. destruct HU as [HN HU].
    rewrite app_length in *. destruct fuel as [|fuel]; [lia|].
    rewrite map_app, <- app_assoc, words_step by (assumption || lia).
    rewrite (IH fuel (len + 4)%nat max_len r w) by (assumption || lia).
    replace (S fuel - S k)%nat with (fuel - k)%nat by lia. replace (len + (length q + length r))%nat with (len + 4 + length r)%nat by lia.
    cbn [fst snd]. destruct (fst (frame_words (fuel - k) _ _ _)); cbn [omap]; rewrite ?app_assoc; reflexivity.
Qed.
Lemma words_end fuel len max_len x a b c w : (len + 8 < max_len)%nat -> (max_len < fuel + len)%nat ->
  frame_words fuel len max_len (map Some [27; 27; 27; 27; x; a; b; c] ++ w) = (if x =? 26 then Some [27; 27; 27; 27; 26; a; b; c] else None, w).
Proof.
  intros HL HF. destruct fuel as [|fuel]; [lia|]. cbn [frame_words]. destruct (Nat.ltb_spec (len + 8) max_len); [|lia].
  cbn [map app take_bytes omap]. change (list_eqb [27; 27; 27; 27] esc_seq) with true. cbv iota. cbn [hd].
  destruct (Z.eqb_spec x 26) as [->|]; reflexivity.
Qed.
Lemma words_full fuel len max_len w : (max_len <= len + 8)%nat -> frame_words fuel len max_len w = (None, w).
Proof. intros HL. destruct fuel; cbn [frame_words]; destruct (Nat.ltb_spec (len + 8) max_len); lia || reflexivity. Qed.
Lemma words_sound fuel : forall len max_len w bs w', frame_words fuel len max_len w = (Some bs, w') ->
  exists p a b c, bs = p ++ [27; 27; 27; 27; 26; a; b; c] /\ (length p mod 4 = 0)%nat /\ unescaped p /\ w = map Some bs ++ w' /\ (len + length bs < max_len)%nat.
Proof.
  induction fuel as [|fuel IH]; intros len max_len w bs w' E; cbn [frame_words] in E; destruct (Nat.ltb_spec (len + 8) max_len); try discriminate.
  destruct (take_bytes 4 w) as [[q|] w1] eqn:T1; [|discriminate]. destruct (take_length _ _ _ _ T1) as [HQ ->].
  destruct (list_eqb q esc_seq) eqn:EQ.
  - apply list_eqb_iff in EQ as ->. destruct (take_bytes 4 w1) as [[e|] w2] eqn:T2; [|discriminate]. destruct (take_length _ _ _ _ T2) as [HE ->].
    destruct e as [|x [|a [|b [|c [|]]]]]; try discriminate. cbn [hd] in E. destruct (Z.eqb_spec x 26) as [->|]; [|discriminate].
    injection E as <- <-. exists [], a, b, c. split; [reflexivity|]. split; [reflexivity|]. split; [apply unescaped_nil|].
    split; [reflexivity|]. cbn [length]. lia.
  - destruct (frame_words fuel (len + 4) max_len w1) as [[r|] w2] eqn:E2; [|discriminate]. injection E as <- <-.
    destruct (IH _ _ _ _ _ E2) as (p & a & b & c & -> & HP & HU & -> & HL).
    exists (q ++ p), a, b, c. rewrite <- app_assoc. split; [reflexivity|]. split.
    + apply mul4 in HP. destruct HP as [k HP]. rewrite app_length, HQ, HP. replace (4 + 4 * k)%nat with (4 * S k)%nat by lia. apply mod4.
    + split; [|split; [|rewrite app_length; lia]].
      * apply unescaped_cons; [exact HQ|]. split; [|exact HU]. intros EE. apply list_eqb_iff in EE. congruence.
      * rewrite !map_app, <- !app_assoc. reflexivity.
Qed.

Lemma scan_step len b w : (len < 8)%nat -> scan len (Some b :: w) = scan (if start_ok len b then S len else O) w.
Proof. intros HL. cbn [scan]. destruct (Nat.ltb_spec len 8); [reflexivity|lia]. Qed.
Lemma scan_done w : scan 8 w = (true, w).
Proof. destruct w; reflexivity. Qed.
Lemma scan_noise noise w : ~ In 27 noise -> scan 0 (map Some noise ++ w) = scan 0 w.
Proof.
  induction noise as [|b noise IH]; intros HN; [reflexivity|]. cbn [map app]. rewrite scan_step by lia.
  assert (HB : b <> 27) by (intros ->; apply HN; now left). unfold start_ok. apply Z.eqb_neq in HB. rewrite HB. cbn [andb orb].
  rewrite andb_false_r. apply IH. intros HI. apply HN. now right.
Qed.
Lemma scan_start w : scan 0 (map Some [27; 27; 27; 27; 1; 1; 1; 1] ++ w) = (true, w).
Proof. cbn [map app]. do 8 (rewrite scan_step by lia; unfold start_ok at 1; cbn [Z.eqb Pos.eqb Nat.ltb Nat.leb andb orb]). apply scan_done. Qed.
Lemma scan_sound w : forall len w', (len <= 8)%nat -> scan len w = (true, w') -> exists noise bs, w = map Some bs ++ w' /\ firstn len start_seq ++ bs = noise ++ start_seq.
Proof.
  induction w as [|[b|] w IH]; intros len w' HL E; cbn [scan] in E; destruct (Nat.ltb_spec len 8); try discriminate;
    try (injection E as <-; assert (len = 8)%nat as -> by lia; exists [], []; now split).
  destruct (start_ok len b) eqn:SO.
  - destruct (IH (S len) w' ltac:(lia) E) as (n & bs & -> & EB). exists n, (b :: bs). split; [reflexivity|]. rewrite <- EB, (start_nth len b) by assumption.
    rewrite <- app_assoc. reflexivity.
  - destruct (IH 0%nat w' ltac:(lia) E) as (n & bs & -> & EB). cbn [firstn app] in EB. exists (firstn len start_seq ++ b :: n), (b :: bs). split; [reflexivity|].
    rewrite EB. now rewrite <- app_assoc.
Qed.
(** the scanner counts escape bytes modulo five *)
Lemma scan_escapes j : forall k w, (k <= 4)%nat -> scan k (repeat (Some 27) j ++ w) = scan ((k + j) mod 5) w.
Proof.
  induction j as [|j IH]; intros k w HK.
  - cbn [repeat app]. rewrite Nat.add_0_r, Nat.mod_small by lia. reflexivity.
  - cbn [repeat app]. rewrite scan_step by lia. destruct (Nat.eq_dec k 4) as [->|HN].
    + change (start_ok 4 27) with false. cbv iota. rewrite (IH 0%nat) by lia. f_equal. replace (4 + S j)%nat with (j + 1 * 5)%nat by lia.
      rewrite Nat.mod_add by lia. reflexivity.
    + replace (start_ok k 27) with true by (do 4 (destruct k as [|k]; [reflexivity|]); lia). rewrite IH by lia. f_equal. f_equal. lia.
Qed.

Lemma read_of max_len d r : frame_read max_len (delivered d) = r -> exists d', sml_transport_read max_len d =
  Ret (match fst r with Some bs => (length bs, bs) | None => (O, []) end, d') /\ delivered d' = snd r.
Proof. intros <-. apply transport_read_pure. Qed.
(** reading from inside the start sequence on *)
Lemma pure_frame max_len f rest : frame f -> (length f < max_len)%nat ->
  exists w, map Some f ++ rest = map Some [27; 27; 27; 27; 1; 1; 1; 1] ++ w /\ frame_words (S max_len) 8 max_len w = (Some (skipn 8 f), rest) /\ start_seq ++ skipn 8 f = f.
Proof.
  intros (p & a & b & c & -> & H4 & HU) HL. rewrite !app_length in HL. cbn [length] in HL. destruct (mul4 _ H4) as [k HK].
  exists (map Some p ++ map Some [27; 27; 27; 27; 26; a; b; c] ++ rest). split; [rewrite !map_app, <- !app_assoc; reflexivity|]. split; [|reflexivity].
  rewrite (words_payload k) by (assumption || lia). rewrite words_end by lia. cbn [Z.eqb Pos.eqb fst snd omap]. reflexivity.
Qed.
Lemma pure_start max_len w0 w : (8 <= max_len)%nat -> scan 0 w0 = (true, w) ->
  frame_read max_len w0 = (omap (app start_seq) (fst (frame_words (S max_len) 8 max_len w)), snd (frame_words (S max_len) 8 max_len w)).
Proof.
  intros H8 HS. unfold frame_read. destruct (Nat.ltb_spec max_len 8); [lia|]. rewrite HS. destruct (frame_words _ _ _ _) as [[r|] w2]; reflexivity.
Qed.
Lemma pure_noise_frame max_len noise f rest : ~ In 27 noise -> frame f -> (length f < max_len)%nat ->
  frame_read max_len (map Some (noise ++ f) ++ rest) = (Some f, rest).
Proof.
  intros HN HF HL. destruct (pure_frame max_len f rest HF HL) as (w & EW & EF & ES).
  assert (8 <= max_len)%nat. { destruct HF as (p & a & b & c & -> & _). rewrite !app_length in HL. cbn in HL. lia. }
  rewrite (pure_start max_len _ w); [rewrite EF; cbn [fst snd omap]; now rewrite ES|assumption|].
  rewrite map_app, <- app_assoc, scan_noise, EW by assumption. apply scan_start.
Qed.

(** *** C37 *)
Theorem C37_reads_only_frames max_len d : exists n bs d', sml_transport_read max_len d = Ret (n, bs, d') /\ length bs = n /\
  (n = 0%nat \/ (frame bs /\ 16 <= n < max_len /\ n mod 4 = 0)%nat /\ exists noise, delivered d = map Some (noise ++ bs) ++ delivered d').
Proof.
  destruct (transport_read_pure max_len d) as (d' & E & ED). unfold frame_read in *.
  destruct (Nat.ltb_spec max_len 8) as [H8|H8]; [exists 0%nat, [], d'; cbn in *; auto|].
  destruct (scan 0 (delivered d)) as [[|] w1] eqn:ES; [|exists 0%nat, [], d'; cbn in *; auto].
  destruct (frame_words (S max_len) 8 max_len w1) as [[r|] w2] eqn:EF; cbn [fst snd omap] in *; [|exists 0%nat, [], d'; cbn in *; auto].
  exists (length (start_seq ++ r)), (start_seq ++ r), d'. split; [exact E|]. split; [reflexivity|]. right.
  destruct (words_sound _ _ _ _ _ _ EF) as (p & a & b & c & -> & HP & HU & -> & HL). destruct (scan_sound _ 0%nat _ ltac:(lia) ES) as (noise & bs & EW & EB).
  cbn [firstn app] in EB. subst bs. split; [split; [|split]|].
  - exists p, a, b, c. auto.
  - rewrite !app_length in *. cbn [length start_seq] in *. lia.
  - rewrite !app_length. cbn [length start_seq]. apply mul4 in HP. destruct HP as [k ->]. replace (8 + (4 * k + 8))%nat with (4 * (4 + k))%nat by lia. apply mod4.
  - exists noise. rewrite EW, ED. rewrite !map_app, <- !app_assoc. reflexivity.
Qed.
Print Assumptions C37_reads_only_frames.
(** a frame in four chunks with interruptions, behind noise *)
Example C37_example : let f := [27; 27; 27; 27; 1; 1; 1; 1; 118; 5; 0; 1; 27; 27; 27; 27; 26; 0; 200; 100] in
  frame f /\ exists d', sml_transport_read 100 [Chunk [7; 8; 9; 27; 27]; Intr; Chunk [27]; Chunk []; Chunk [27; 1; 1; 1; 1; 118; 5]; Intr; Intr; Chunk (skipn 10 f ++ [3])] = Ret (20%nat, f, d').
Proof.
  split; [|eexists; vm_compute; reflexivity]. exists [118; 5; 0; 1], 0, 200, 100. split; [reflexivity|]. split; [reflexivity|].
  apply (unescaped_cons [118; 5; 0; 1] []); [reflexivity|]. split; [discriminate|apply unescaped_nil].
Qed.

(** *** C38 *)
Theorem C38_read_schedule_independent max_len d1 d2 : delivered d1 = delivered d2 -> exists n bs d1' d2',
  sml_transport_read max_len d1 = Ret (n, bs, d1') /\ sml_transport_read max_len d2 = Ret (n, bs, d2') /\ delivered d1' = delivered d2'.
Proof.
  intros HE. destruct (transport_read_pure max_len d1) as (d1' & E1 & ED1). destruct (transport_read_pure max_len d2) as (d2' & E2 & ED2).
  rewrite HE in *. destruct (match fst _ with Some bs => _ | None => _ end) as [n bs]. exists n, bs, d1', d2'. split; [exact E1|]. split; [exact E2|]. congruence.
Qed.
Print Assumptions C38_read_schedule_independent.
Lemma delivered_size d : (length (delivered d) <= fd_size d)%nat.
Proof. unfold delivered. induction d as [|[c| |] d IH]; cbn; rewrite ?app_length, ?map_length; lia. Qed.
Lemma listen_pure fuel1 : forall fuel2 d1 d2, delivered d1 = delivered d2 -> (length (delivered d1) < fuel1)%nat -> (length (delivered d2) < fuel2)%nat ->
  exists l d1' d2', listen_loop fuel1 d1 = Ret (l, d1') /\ listen_loop fuel2 d2 = Ret (l, d2') /\ delivered d1' = delivered d2'.
Proof.
  induction fuel1 as [|fuel1 IH]; intros fuel2 d1 d2 HE H1 H2; [lia|]. destruct fuel2 as [|fuel2]; [lia|]. cbn [listen_loop].
  destruct (C38_read_schedule_independent MC_SML_BUFFER_LEN d1 d2 HE) as (n & bs & d1' & d2' & E1 & E2 & ED). rewrite E1, E2.
  destruct (C37_reads_only_frames MC_SML_BUFFER_LEN d1) as (n' & bs' & d' & E & HL & HC). rewrite E1 in E. injection E as <- <- <-.
  destruct (Nat.eqb_spec n 0) as [HZ|HZ]; [exists [], d1', d2'; auto|]. destruct HC as [HC|[(_ & HN & _) (noise & HD)]]; [contradiction|].
  assert (HS : (length (delivered d1') < length (delivered d1))%nat) by (rewrite HD, app_length, map_length, app_length; lia).
  destruct (IH fuel2 d1' d2' ED ltac:(lia) ltac:(rewrite <- ED, <- HE in *; lia)) as (l & d3 & d4 & E3 & E4 & ED4). rewrite E3, E4.
  exists (bs :: l), d3, d4. auto.
Qed.
Theorem C38_listen_schedule_independent d1 d2 : delivered d1 = delivered d2 -> exists frames d1' d2',
  sml_transport_listen d1 = Ret (frames, d1') /\ sml_transport_listen d2 = Ret (frames, d2') /\ delivered d1' = delivered d2'.
Proof. intros HE. pose proof (delivered_size d1). pose proof (delivered_size d2). apply listen_pure; [exact HE|lia|lia]. Qed.
Print Assumptions C38_listen_schedule_independent.
Example C38_example : delivered [Chunk [1; 2; 3]; Err; Chunk [4]] = delivered [Intr; Chunk [1]; Chunk []; Chunk [2; 3]; Intr; Err; Chunk [4]; Intr].
Proof. reflexivity. Qed.

(** *** C39 *)
Theorem C39_frame_found_after_noise max_len d noise f rest : delivered d = map Some (noise ++ f) ++ rest ->
  ~ In 27 noise -> frame f -> (length f < max_len)%nat ->
  exists d', sml_transport_read max_len d = Ret (length f, f, d') /\ delivered d' = rest.
Proof. intros HD HN HF HL. apply (read_of max_len d (Some f, rest)). rewrite HD. now apply pure_noise_frame. Qed.
Print Assumptions C39_frame_found_after_noise.

(** *** C40: with [j] additional escape bytes in front, the frame is found if and
    only if [j] is a multiple of five; otherwise reading goes on as if its start
    sequence had not been there *)
Lemma start_lost k w : (k < 4)%nat -> scan k (map Some [1; 1; 1; 1] ++ w) = scan 0 w.
Proof.
  intros HK. cbn [map app]. rewrite scan_step by lia. replace (start_ok k 1) with false by (do 4 (destruct k as [|k]; [reflexivity|]); lia).
  do 3 (rewrite scan_step by lia; change (start_ok 0 1) with false; cbv iota). reflexivity.
Qed.
Lemma repeat_some j : repeat (Some 27) j = map Some (repeat 27 j).
Proof. induction j; cbn; congruence. Qed.
Theorem C40_escape_bytes_before_frame max_len d noise j f rest : delivered d = map Some (noise ++ repeat 27 j ++ f) ++ rest ->
  ~ In 27 noise -> frame f -> (length f < max_len)%nat ->
  ((j mod 5 = 0)%nat -> exists d', sml_transport_read max_len d = Ret (length f, f, d') /\ delivered d' = rest) /\
  ((j mod 5 <> 0)%nat -> forall d2, delivered d2 = map Some (skipn 8 f) ++ rest ->
     exists n bs d' d2', sml_transport_read max_len d = Ret (n, bs, d') /\ sml_transport_read max_len d2 = Ret (n, bs, d2') /\ delivered d' = delivered d2').
Proof.
  intros HD HN HF HL. destruct (pure_frame max_len f rest HF HL) as (w & EW & EF & ES).
  assert (H8 : (8 <= max_len)%nat). { destruct HF as (p & a & b & c & -> & _). rewrite !app_length in HL. cbn in HL. lia. }
  assert (SC : scan 0 (delivered d) = scan ((j + 4) mod 5) (map Some [1; 1; 1; 1] ++ w)).
  { rewrite HD, !map_app, <- !app_assoc, scan_noise, EW by assumption.
    change (map Some [27; 27; 27; 27; 1; 1; 1; 1]) with (repeat (Some 27) 4 ++ map Some [1; 1; 1; 1]).
    rewrite <- app_assoc, <- repeat_some, app_assoc, <- repeat_app. rewrite scan_escapes by lia. reflexivity. }
  assert (HM : ((j + 4) mod 5 = (j mod 5 + 4) mod 5)%nat) by (rewrite Nat.add_mod_idemp_l; lia).
  pose proof (Nat.mod_upper_bound j 5 ltac:(lia)) as HJ. split.
  - intros H0. rewrite HM, H0 in SC. apply (read_of max_len d (Some f, rest)).
    rewrite (pure_start max_len _ w); [rewrite EF; cbn [fst snd omap]; now rewrite ES|assumption|]. rewrite SC.
    change ((0 + 4) mod 5)%nat with 4%nat. cbn [map app]. do 4 (rewrite scan_step by lia; unfold start_ok at 1; cbn [Z.eqb Pos.eqb Nat.ltb Nat.leb andb orb]). apply scan_done.
  - intros H0 d2 HD2.
    assert (HK : ((j + 4) mod 5 < 4)%nat).
    { rewrite HM. destruct (j mod 5)%nat as [|[|[|[|[|]]]]]; cbn; lia. }
    rewrite start_lost in SC by exact HK.
    assert (EW2 : w = map Some (skipn 8 f) ++ rest).
    { destruct HF as (p & a & b & c & -> & _). cbn [app skipn] in *. cbn [map app] in EW. now injection EW. }
    assert (EP : frame_read max_len (delivered d) = frame_read max_len (delivered d2)).
    { unfold frame_read. rewrite SC, HD2, <- EW2. destruct (Nat.ltb_spec max_len 8); [lia|]. reflexivity. }
    destruct (transport_read_pure max_len d) as (d1' & E1 & ED1). destruct (transport_read_pure max_len d2) as (d2' & E2 & ED2).
    rewrite EP in *. destruct (match fst _ with Some bs => _ | None => _ end) as [n bs]. exists n, bs, d1', d2'. split; [exact E1|]. split; [exact E2|]. congruence.
Qed.
Print Assumptions C40_escape_bytes_before_frame.
(** a complete frame that is not returned *)
Theorem C40_frame_missed_refuted : exists f d, frame f /\ delivered d = map Some ([27] ++ f) /\
  sml_transport_read MC_SML_BUFFER_LEN d = Ret (0%nat, [], []).
Proof.
  exists [27; 27; 27; 27; 1; 1; 1; 1; 118; 5; 0; 1; 27; 27; 27; 27; 26; 0; 200; 100],
    [Chunk [27; 27; 27; 27; 27; 1; 1; 1; 1; 118; 5; 0; 1; 27; 27; 27; 27; 26; 0; 200; 100]]. split; [exact (proj1 C37_example)|].
  split; [reflexivity|]. vm_compute. reflexivity.
Qed.
Print Assumptions C40_frame_missed_refuted.

(** *** C41 *)
Definition clean (w : list (list Z * list Z)) : Prop := Forall (fun x => ~ In 27 (fst x) /\ frame (snd x) /\ (length (snd x) < Z.to_nat 8096)%nat) w.
Lemma listen_frames fs : forall fuel d tail, clean fs -> ~ In 27 tail -> (length fs < fuel)%nat ->
  delivered d = map Some (flat_map (fun x => fst x ++ snd x) fs ++ tail) ->
  exists d', listen_loop fuel d = Ret (map snd fs, d') /\ delivered d' = [].
Proof.
  induction fs as [|[noise f] fs IH]; intros fuel d tail HC HT HF HD; (destruct fuel as [|fuel]; [cbn in HF; lia|]); cbn [listen_loop].
  - destruct (read_of MC_SML_BUFFER_LEN d (None, [])) as (d' & E & ED).
    { rewrite HD. cbn [flat_map app]. unfold frame_read. destruct (Nat.ltb_spec MC_SML_BUFFER_LEN 8) as [HX|_]; [unfold MC_SML_BUFFER_LEN in HX; lia|].
      rewrite <- (app_nil_r (map Some tail)), scan_noise by assumption. reflexivity. }
    rewrite E. exists d'. cbn. auto.
  - apply Forall_cons_iff in HC. destruct HC as [(HN & HFr & HL) HC]. cbn [fst snd flat_map] in *.
    destruct (C39_frame_found_after_noise MC_SML_BUFFER_LEN d noise f (map Some (flat_map (fun x => fst x ++ snd x) fs ++ tail))) as (d1 & E1 & ED1); auto.
    { rewrite HD, <- map_app, <- !app_assoc. reflexivity. }
    rewrite E1. destruct (Nat.eqb_spec (length f) 0) as [HZ|_].
    { destruct HFr as (p & a & b & c & -> & _). rewrite !app_length in HZ. cbn in HZ. lia. }
    destruct (IH fuel d1 tail HC HT ltac:(cbn in HF; lia) ED1) as (d2 & E2 & ED2). rewrite E2. exists d2. auto.
Qed.
Theorem C41_listen_delivers_every_frame d fs tail : clean fs -> ~ In 27 tail ->
  delivered d = map Some (flat_map (fun x => fst x ++ snd x) fs ++ tail) ->
  exists d', sml_transport_listen d = Ret (map snd fs, d') /\ delivered d' = [].
Proof.
  intros HC HT HD. apply (listen_frames fs _ d tail); auto. pose proof (delivered_size d) as HS. rewrite HD, map_length, app_length in HS.
  assert (length fs <= length (flat_map (fun x => fst x ++ snd x) fs))%nat; [|lia]. clear - HC.
  induction fs as [|[n f] fs IH]; [cbn; lia|]. apply Forall_cons_iff in HC. destruct HC as [(_ & (p & a & b & c & HF & _) & _) HC]. specialize (IH HC).
  cbn [fst snd] in HF. cbn [flat_map fst snd length]. rewrite HF, !app_length. cbn [length]. lia.
Qed.
Print Assumptions C41_listen_delivers_every_frame.
Definition frame1 : list Z := [27; 27; 27; 27; 1; 1; 1; 1; 118; 5; 0; 1; 27; 27; 27; 27; 26; 0; 200; 100].
Definition frame2 : list Z := [27; 27; 27; 27; 1; 1; 1; 1; 27; 27; 27; 26; 1; 27; 27; 27; 27; 27; 27; 27; 26; 0; 0; 0].
Lemma frame1_ok : frame frame1. Proof. exact (proj1 C37_example). Qed.
Lemma frame2_ok : frame frame2.
Proof.
  exists [27; 27; 27; 26; 1; 27; 27; 27], 0, 0, 0. split; [reflexivity|]. split; [reflexivity|].
  apply (unescaped_cons [27; 27; 27; 26]); [reflexivity|]. split; [discriminate|].
  apply (unescaped_cons [1; 27; 27; 27] []); [reflexivity|]. split; [discriminate|apply unescaped_nil].
Qed.
Example C41_example : clean [([1; 2], frame1); ([], frame2); ([255], frame1)].
Proof.
  assert (L1 : (length frame1 < Z.to_nat 8096)%nat) by (change (length frame1) with 20%nat; lia).
  assert (L2 : (length frame2 < Z.to_nat 8096)%nat) by (change (length frame2) with 24%nat; lia).
  apply Forall_cons; [|apply Forall_cons; [|apply Forall_cons; [|apply Forall_nil]]]; cbn [fst snd];
    (split; [cbn [In]; lia|]); split; (exact frame1_ok || exact frame2_ok || assumption).
Qed.

(** *** C42 *)
(** a frame that does not fit ends listening, and so does any other escape *)
Theorem C42_long_frame_ends_listening d noise p rest : delivered d = map Some (noise ++ [27; 27; 27; 27; 1; 1; 1; 1] ++ p) ++ rest ->
  ~ In 27 noise -> length p = Z.to_nat 8080 -> unescaped p ->
  exists d', sml_transport_listen d = Ret ([], d') /\ delivered d' = rest.
Proof.
  intros HD HN HL HU.
  assert (H4 : length p = (4 * Z.to_nat 2020)%nat) by lia.
  destruct (read_of MC_SML_BUFFER_LEN d (None, rest)) as (d' & E & ED).
  { rewrite HD. rewrite (pure_start MC_SML_BUFFER_LEN _ (map Some p ++ rest)).
    - rewrite (words_payload (Z.to_nat 2020)) by (assumption || unfold MC_SML_BUFFER_LEN; lia).
      rewrite words_full by (unfold MC_SML_BUFFER_LEN; lia). reflexivity.
    - unfold MC_SML_BUFFER_LEN; lia.
    - rewrite !map_app, <- !app_assoc, scan_noise by assumption. apply scan_start. }
  exists d'. unfold sml_transport_listen. cbn [listen_loop]. rewrite E. cbn. auto.
Qed.
Print Assumptions C42_long_frame_ends_listening.
Theorem C42_other_escape_ends_listening d noise p x a b c rest :
  delivered d = map Some (noise ++ [27; 27; 27; 27; 1; 1; 1; 1] ++ p ++ [27; 27; 27; 27; x; a; b; c]) ++ rest ->
  ~ In 27 noise -> (length p mod 4 = 0)%nat -> (length p < Z.to_nat 8080)%nat -> unescaped p -> x <> 26 ->
  exists d', sml_transport_listen d = Ret ([], d') /\ delivered d' = rest.
Proof.
  intros HD HN H4 HL HU HX. destruct (mul4 _ H4) as [k HK].
  destruct (read_of MC_SML_BUFFER_LEN d (None, rest)) as (d' & E & ED).
  { rewrite HD. rewrite (pure_start MC_SML_BUFFER_LEN _ (map Some p ++ map Some [27; 27; 27; 27; x; a; b; c] ++ rest)).
    - rewrite (words_payload k) by (assumption || unfold MC_SML_BUFFER_LEN; lia).
      rewrite words_end by (unfold MC_SML_BUFFER_LEN; lia). apply Z.eqb_neq in HX. rewrite HX. reflexivity.
    - unfold MC_SML_BUFFER_LEN; lia.
    - rewrite !map_app, <- !app_assoc, scan_noise by assumption. apply scan_start. }
  exists d'. unfold sml_transport_listen. cbn [listen_loop]. rewrite E. cbn. auto.
Qed.
Print Assumptions C42_other_escape_ends_listening.
(** so a good frame that follows is not delivered: a payload word 1b1b1b1b sent
    escaped, as the protocol asks, then a good frame *)
Theorem C42_following_frame_lost_refuted : exists d, delivered d = map Some ([27; 27; 27; 27; 1; 1; 1; 1; 27; 27; 27; 27; 27; 27; 27; 27; 27; 27; 27; 27; 26; 0; 0; 0] ++ frame1) /\
  frame frame1 /\ exists d', sml_transport_listen d = Ret ([], d').
Proof.
  exists [Chunk ([27; 27; 27; 27; 1; 1; 1; 1; 27; 27; 27; 27; 27; 27; 27; 27; 27; 27; 27; 27; 26; 0; 0; 0] ++ frame1)]. split; [reflexivity|].
  split; [exact frame1_ok|]. eexists. vm_compute. reflexivity.
Qed.
Print Assumptions C42_following_frame_lost_refuted.
Example C42_example : unescaped (repeat 7 (Z.to_nat 8080)) /\ length (repeat 7 (Z.to_nat 8080)) = Z.to_nat 8080.
Proof.
  split; [|apply repeat_length]. intros i E. assert (HI : In 27 (repeat 7 (Z.to_nat 8080))).
  { rewrite <- (firstn_skipn (4 * i)). apply in_app_iff. right. rewrite <- (firstn_skipn 4 (skipn _ _)), E. cbn. now left. }
  apply repeat_spec in HI. discriminate.
Qed.

(** *** C44 *)
Theorem C44_transport_checksum_ignored max_len noise payload pad c1 c2 rest : ~ In 27 noise ->
  (length payload mod 4 = 0)%nat -> unescaped payload -> (length payload + 16 < max_len)%nat ->
  let f c1 c2 := [27; 27; 27; 27; 1; 1; 1; 1] ++ payload ++ [27; 27; 27; 27; 26; pad; c1; c2] in
  forall d, delivered d = map Some (noise ++ f c1 c2) ++ rest ->
  exists d', sml_transport_read max_len d = Ret (length (f c1 c2), f c1 c2, d') /\ delivered d' = rest.
Proof.
  intros HN H4 HU HL f d HD. apply (C39_frame_found_after_noise max_len d noise); auto.
  - exists payload, pad, c1, c2. auto.
  - unfold f. rewrite !app_length. cbn [length]. lia.
Qed.
Print Assumptions C44_transport_checksum_ignored.
