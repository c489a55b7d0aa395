(** Properties C64 and C65: which inputs are accepted, and as what.

    The language of SML messages and files is in Grammar.v; it says nothing about
    buffers, cursors and parsers.  [message false] and [file false] are the standard,
    [message true] and [file true] also have the productions marked [quirk]. *)
From Verif Require Import Base Buf Crc16 Number OctetString Boolean Value Time SList Tree Bodies
  Message File Lib Wf Safe Safe2 Safe3 Ctx Ctx2 Ctx3 Scan Spec TL Inv Reads NumFacts Dzg Exact FileFacts PropsParse Grammar
  Accept Accept2 Accept3 Accept4 Accept5 Accept6 Accept7 Accept8 Accept9.

(** ** C64: exactly the language is accepted *)

Lemma app_cut (a a' b b' : list Z) : a ++ b = a' ++ b' -> length a = length a' -> a = a' /\ b = b'.
Proof. revert a'. induction a as [|x a IH]; intros [|x' a'] E HL; try discriminate; [auto|]. injection E as -> E. injection HL as HL. destruct (IH _ E HL) as [-> ->]. auto. Qed.
Lemma here pre input : rest (mkBuf (pre ++ input) (length pre) false false) = input.
Proof. unfold rest. cbn. rewrite skipn_app, skipn_all, Nat.sub_diag. reflexivity. Qed.
Lemma good_here pre input : bytes_ok (pre ++ input) -> Z.of_nat (length (pre ++ input)) < 2147483648 -> good (mkBuf (pre ++ input) (length pre) false false).
Proof. intros HB HL. split; [split; [unfold buffer_len; cbn; rewrite app_length; lia|exact HB]|]. split; [exact HL|auto]. Qed.

(** A message is returned from anywhere in a buffer exactly if the bytes there say
    that message, and reading stops behind them.  (Without [ovf]: the arithmetic of
    the parser did not overflow; inputs without length fields of more than 7 bytes
    never make it, C04.) *)
Theorem C64_message_exact (H : Host) pre input m s : bytes_ok (pre ++ input) -> Z.of_nat (length (pre ++ input)) < 2147483648 ->
  (sml_message_parse (mkBuf (pre ++ input) (length pre) false false) = Ret (Some m, s) /\ error s = false /\ ovf s = false) <->
  (exists bs t, input = bs ++ t /\ message true m bs t /\ s = mkBuf (pre ++ input) (length pre + length bs) false false).
Proof.
  intros HB HL. rewrite (acc_message _ (good_here pre input HB HL)), here. split; intros (bs & t & E & X & ->); exists bs, t; (split; [exact E|]); (split; [now apply message_iff|reflexivity]).
Qed.
Print Assumptions C64_message_exact.
(** Nothing is returned, and no error raised, exactly if the bytes say a message with
    a wrong checksum. *)
Theorem C64_damaged_exact (H : Host) pre input s : bytes_ok (pre ++ input) -> Z.of_nat (length (pre ++ input)) < 2147483648 ->
  (sml_message_parse (mkBuf (pre ++ input) (length pre) false false) = Ret (None, s) /\ error s = false /\ ovf s = false) <->
  (exists bs t, input = bs ++ t /\ damaged true bs t /\ s = mkBuf (pre ++ input) (length pre + length bs) false false).
Proof.
  intros HB HL. rewrite (acc_message _ (good_here pre input HB HL)), here. split; intros (bs & t & E & X & ->); exists bs, t; (split; [exact E|]); (split; [now apply damaged_iff|reflexivity]).
Qed.
Print Assumptions C64_damaged_exact.
(** A file is read to the messages [ms] without an error exactly if its bytes say
    these messages; there can be 32767 of them. *)
Theorem C64_file_exact (H : Host) bytes ms : bytes_ok bytes -> Z.of_nat (length bytes) < 2147483648 ->
  (exists f, sml_file_parse bytes = Ret f /\ f_messages f = ms /\ error (f_buf f) = false /\ ovf (f_buf f) = false) <->
  (file true ms bytes [] /\ Z.of_nat (length ms) <= 32767).
Proof.
  intros HB HL. pose proof (good_start bytes HB HL) as G. split.
  - intros (f & E & <- & He & Ho). pose proof (file_parse_inv _ _ HB HL E) as HS. pose proof (file_parse_scan _ _ _ HB HL HS) as HP. rewrite E in HP. destruct HP as (_ & _ & HN). split; [|exact HN].
    unfold sml_file_parse in E. fold (start bytes) in E. destruct (file_loop _ _ _) as [[r s]| |] eqn:EL; [|discriminate|discriminate]. injection E as <-. cbn [f_buf f_messages] in *.
    destruct (file_loop_lang _ _ _ _ _ G EL Ho) as (ms & bs & t & -> & R & X & Y). rewrite He in Y. destruct Y as (-> & _). rewrite start_rest, app_nil_r in R. now subst.
  - intros (X & HN). destruct (file_lang_loop _ _ _ X [] (start bytes) (S (length bytes)) G) as (f' & _ & E).
    { now rewrite app_nil_r. } { rewrite app_nil_r. lia. } { exact HN. }
    cbn [app] in E. assert (R : rest (at_ (start bytes) (length bytes) false) = []).
    { unfold rest. cbn. apply skipn_all. }
    unfold sml_file_parse. fold (start bytes). rewrite E. destruct f'; cbn [file_loop]; unfold bind at 1; rewrite (at_end_nil _ R); eexists; repeat split; reflexivity.
Qed.
Print Assumptions C64_file_exact.
(** With an error, the messages returned are those in front of the first place where
    no message starts, damaged or not. *)
Theorem C64_file_error (H : Host) bytes f : bytes_ok bytes -> Z.of_nat (length bytes) < 2147483648 ->
  sml_file_parse bytes = Ret f -> error (f_buf f) = true -> ovf (f_buf f) = false ->
  exists bs t, bytes = bs ++ t /\ file true (f_messages f) bs t /\ t <> [] /\ hd 0 t <> 0 /\
    forall b u, t = b ++ u -> (forall m, ~ message true m b u) /\ ~ damaged true b u.
Proof.
  intros HB HL E He Ho. pose proof (good_start bytes HB HL) as G. unfold sml_file_parse in E. fold (start bytes) in E.
  destruct (file_loop _ _ _) as [[r s]| |] eqn:EL; [|discriminate|discriminate]. injection E as <-. cbn [f_buf f_messages] in *.
  destruct (file_loop_lang _ _ _ _ _ G EL Ho) as (ms & bs & t & -> & R & X & Y). rewrite He in Y. rewrite start_rest in R. exists bs, t. auto.
Qed.
Print Assumptions C64_file_error.
(** And the other way round. *)
Theorem C64_file_error_back (H : Host) ms bs t : bytes_ok (bs ++ t) -> Z.of_nat (length (bs ++ t)) < 2147483648 ->
  file true ms bs t -> Z.of_nat (length ms) <= 32767 -> short_chains (bs ++ t) -> t <> [] -> hd 0 t <> 0 ->
  (forall b u, t = b ++ u -> (forall m, ~ message true m b u) /\ ~ damaged true b u) ->
  exists f, sml_file_parse (bs ++ t) = Ret f /\ f_messages f = ms /\ error (f_buf f) = true.
Proof.
  intros HB HL X HN HC Ht Hz HS. pose proof (good_start (bs ++ t) HB HL) as G.
  destruct (file_lang_loop _ _ _ X [] (start (bs ++ t)) (S (length (bs ++ t))) G) as (f' & HF & E); [reflexivity|lia|exact HN|].
  cbn [app] in E. assert (R : rest (start (bs ++ t)) = bs ++ t) by reflexivity. set (s1 := at_ (start (bs ++ t)) (length bs) false) in *.
  assert (G1 : good s1) by exact (good_at _ _ _ G R). assert (R1 : rest s1 = t) by (unfold s1; now rewrite (at_app _ _ _ _ R)).
  destruct t as [|b u]; [contradiction|]. cbn [hd] in Hz. destruct f' as [|f']; [cbn in HF; lia|].
  pose proof (message_safe s1 (proj1 G1)) as HM. unfold wpq in HM. destruct (sml_message_parse s1) as [[r s2]|x|] eqn:EM; [|destruct G1 as (_ & Sm & _); unfold small in Sm; tauto|contradiction].
  destruct HM as [St _]. destruct (error s2) eqn:He.
  - unfold sml_file_parse. fold (start (bs ++ b :: u)). rewrite E. cbn [file_loop]. unfold bind at 1. rewrite (at_end_cons _ _ _ R1). unfold bind at 1. rewrite (current_cons _ _ _ R1).
    change SML_MESSAGE_END with 0. rewrite (proj2 (Z.eqb_neq b 0) Hz). unfold bind at 1. rewrite EM. unfold bind, sml_buf_has_errors. rewrite He. eexists. split; [reflexivity|]. cbn. auto.
  - exfalso. assert (Ho : ovf s2 = false) by (rewrite (st_ovf2 _ _ St); [reflexivity|exact HC]).
    destruct (proj1 (acc_message s1 G1 r s2)) as (b1 & t1 & R2 & X2 & _); [auto|]. rewrite R1 in R2. destruct (HS b1 t1 R2) as [H1 H2].
    destruct r as [m|]; [apply (H1 m); now apply message_iff|apply H2; now apply damaged_iff].
Qed.
Print Assumptions C64_file_error_back.

(** *** Examples *)
Ltac hdr := split; [eexists [], _; split; [reflexivity|split; [constructor|split; [discriminate|reflexivity]]]|split; reflexivity].
(** The first sample message, spelled out: an empty close response. *)
Definition message1 (H : Host) : sml_message :=
  mkMsg (Some [0; 0; 0; 1]) (Some [0]) (Some [0]) (Some (mkBody (Some (sml_u32_init 513)) (BCloseRes (mkCloseRes None)))) (Some (sml_u16_init 35405)).
Example C64_example_by_hand (H : Host) t : message false (message1 H) text1 t.
Proof.
  exists [118], (skipn 1 body1), [99; 138; 77], [0], (sml_u16_init 35405). split; [reflexivity|]. split; [hdr|]. split.
  - exists [5; 0; 0; 0; 1], (skipn 6 body1). split; [reflexivity|]. split; [exists [5]; split; [reflexivity|]; split; [hdr|]; split; [discriminate|]; split; [bytes|discriminate]|].
    exists [98; 0], (skipn 8 body1). split; [reflexivity|]. split.
    { exists [98], [0]. split; [reflexivity|]. split; [hdr|]. split; [bytes|]. split; [cbn; lia|]. split; [reflexivity|]. split; [bytes|]. split; [destruct H; reflexivity|discriminate]. }
    exists [98; 0], (skipn 10 body1). split; [reflexivity|]. split.
    { exists [98], [0]. split; [reflexivity|]. split; [hdr|]. split; [bytes|]. split; [cbn; lia|]. split; [reflexivity|]. split; [bytes|]. split; [destruct H; reflexivity|discriminate]. }
    exists (skipn 10 body1), []. split; [reflexivity|]. split; [|reflexivity].
    left. exists (sml_u32_init 513), (BCloseRes (mkCloseRes None)). split; [|reflexivity]. exists [114], [99; 2; 1; 113; 1]. split; [reflexivity|]. split; [hdr|].
    exists [99; 2; 1], [113; 1]. split; [reflexivity|]. split.
    { exists [99], [2; 1]. split; [reflexivity|]. split; [hdr|]. split; [bytes|]. split; [cbn; lia|]. split; [destruct H; reflexivity|]. split; [destruct H; vm_compute; bytes|]. split; [destruct H; reflexivity|discriminate]. }
    exists [113; 1], []. split; [reflexivity|]. split; [|reflexivity]. do 3 right. left. split; [destruct H; reflexivity|]. exists (mkCloseRes None). split; [|reflexivity].
    exists [113], [1]. split; [reflexivity|]. split; [hdr|]. exists [1], []. repeat split; reflexivity.
  - split; [reflexivity|]. split; [|split; [cbn; lia|split; [left; destruct H; vm_compute; reflexivity|left; reflexivity]]].
    exists [99], [138; 77]. split; [reflexivity|]. split; [hdr|]. split; [bytes|]. split; [cbn; lia|]. split; [destruct H; reflexivity|]. split; [destruct H; vm_compute; bytes|]. split; [destruct H; reflexivity|discriminate].
Qed.
(** so it is read from behind any other bytes *)
Example C64_example (H : Host) : exists s, sml_message_parse (mkBuf (text2 ++ text1 ++ [7]) (length text2) false false) = Ret (Some (message1 H), s) /\ cursor s = (length text2 + length text1)%nat.
Proof.
  assert (HB : bytes_ok (text2 ++ text1 ++ [7])) by (unfold text1, text2; bytes).
  destruct (proj2 (C64_message_exact H text2 (text1 ++ [7]) (message1 H) (mkBuf (text2 ++ text1 ++ [7]) (length text2 + length text1) false false) HB ltac:(cbn; lia))) as (E & _).
  - exists text1, [7]. split; [reflexivity|]. split; [apply sub_message, C64_example_by_hand|reflexivity].
  - eexists. split; [exact E|reflexivity].
Qed.
(** the other way: the second sample message, between fill bytes, damaged copies and
    the first one, is in the language, as the parser says so *)
Definition messy : list Z := [0] ++ text1 ++ body1 ++ [99; 138; 78; 0; 0] ++ text2 ++ [0; 0; 0].
Example C64_example_file (H : Host) : bytes_ok messy /\ Z.of_nat (length messy) < 2147483648 /\
  exists m2, file true [message1 H; m2] messy [].
Proof.
  assert (HB : bytes_ok messy) by (unfold messy, text1, text2; bytes). split; [exact HB|]. split; [cbn; lia|].
  assert (X : match sml_file_parse messy with Ret f => match f_messages f with [m1; m2] => m1 = message1 H /\ error (f_buf f) = false /\ ovf (f_buf f) = false | _ => False end | _ => False end).
  { destruct H; vm_compute; auto. }
  destruct (sml_file_parse messy) as [f| |] eqn:E; try contradiction. destruct (f_messages f) as [|m1 [|m2 [|]]] eqn:EM; try contradiction. destruct X as (-> & He & Ho).
  exists m2. apply (C64_file_exact H); [exact HB|cbn; lia|]. exists f. auto.
Qed.
Example C64_example_damaged (H : Host) : damaged true (body1 ++ [99; 138; 78]) [0].
Proof.
  assert (HB : bytes_ok ([] ++ (body1 ++ [99; 138; 78]) ++ [0])) by (unfold body1; bytes).
  destruct (proj1 (C64_damaged_exact H [] ((body1 ++ [99; 138; 78]) ++ [0]) (mkBuf ((body1 ++ [99; 138; 78]) ++ [0]) 19 false false) HB ltac:(cbn; lia))) as (bs & t & E & X & Y).
  - destruct H; vm_compute; auto.
  - injection Y as EL. apply app_cut in E; [|exact EL]. destruct E as [-> ->]. exact X.
Qed.
Example C64_example_error (H : Host) : exists f, sml_file_parse (text1 ++ [0] ++ firstn 40 text2) = Ret f /\
  length (f_messages f) = 1%nat /\ error (f_buf f) = true /\ ovf (f_buf f) = false.
Proof. destruct H; eexists; (split; [vm_compute; reflexivity|]); vm_compute; auto. Qed.

(** ** C65: standard SML is read as what it says, and says one thing *)

Theorem C65_standard_message (H : Host) pre m bs t : bytes_ok (pre ++ bs ++ t) -> Z.of_nat (length (pre ++ bs ++ t)) < 2147483648 ->
  message false m bs t ->
  sml_message_parse (mkBuf (pre ++ bs ++ t) (length pre) false false) = Ret (Some m, mkBuf (pre ++ bs ++ t) (length pre + length bs) false false).
Proof.
  intros HB HL X. eapply (proj2 (C64_message_exact H pre (bs ++ t) m _ HB HL)). exists bs, t. split; [reflexivity|]. split; [now apply sub_message|reflexivity].
Qed.
Print Assumptions C65_standard_message.
Theorem C65_standard_file (H : Host) bytes ms : bytes_ok bytes -> Z.of_nat (length bytes) < 2147483648 -> Z.of_nat (length ms) <= 32767 ->
  file false ms bytes [] ->
  exists f, sml_file_parse bytes = Ret f /\ f_messages f = ms /\ error (f_buf f) = false /\ ovf (f_buf f) = false /\ cursor (f_buf f) = length bytes.
Proof.
  intros HB HL HN X. apply sub_file in X. destruct (proj2 (C64_file_exact H bytes ms HB HL) (conj X HN)) as (f & E & EM & He & Ho). exists f. repeat (split; [assumption|]).
  pose proof (file_parse_safe 7 bytes min_size_7 HB) as HP. rewrite E in HP. now apply HP.
Qed.
Print Assumptions C65_standard_file.
(** The bytes determine what they say, and where it ends: also with the quirks. *)
Theorem C65_unambiguous (H : Host) m m' bs bs' t t' : bytes_ok (bs ++ t) -> Z.of_nat (length (bs ++ t)) < 2147483648 ->
  message true m bs t -> message true m' bs' t' -> bs ++ t = bs' ++ t' -> m = m' /\ bs = bs' /\ t = t'.
Proof.
  intros HB HL X X' E.
  destruct (proj2 (C64_message_exact H [] (bs ++ t) m (mkBuf (bs ++ t) (length bs) false false) HB HL)) as (E1 & _); [exists bs, t; auto|].
  destruct (proj2 (C64_message_exact H [] (bs ++ t) m' (mkBuf (bs ++ t) (length bs') false false) HB HL)) as (E2 & _); [exists bs', t'; auto|].
  rewrite E1 in E2. injection E2 as -> EL. split; [reflexivity|]. now apply app_cut.
Qed.
Print Assumptions C65_unambiguous.
Theorem C65_unambiguous_file (H : Host) ms ms' bytes : bytes_ok bytes -> Z.of_nat (length bytes) < 2147483648 ->
  file true ms bytes [] -> file true ms' bytes [] -> Z.of_nat (length ms) <= 32767 -> Z.of_nat (length ms') <= 32767 -> ms = ms'.
Proof.
  intros HB HL X X' HN HN'. destruct (proj2 (C64_file_exact H bytes ms HB HL) (conj X HN)) as (f & E & <- & _).
  destruct (proj2 (C64_file_exact H bytes ms' HB HL) (conj X' HN')) as (f' & E' & <- & _). rewrite E in E'. now injection E' as <-.
Qed.
Print Assumptions C65_unambiguous_file.
(** Not only standard SML is accepted: here the body is missing. *)
Theorem C65_only_standard_refuted (H : Host) : exists m, message true m (short9 ++ [0]) [] /\ forall m', ~ message false m' (short9 ++ [0]) [].
Proof.
  assert (HB : bytes_ok ([] ++ short9 ++ [0])) by bytes. assert (HL : Z.of_nat (length ([] ++ short9 ++ [0])) < 2147483648) by (cbn; lia).
  assert (X : match sml_message_parse (start (short9 ++ [0])) with Ret (Some m, s) => m_message_body m = None /\ s = mkBuf (short9 ++ [0]) 10 false false | _ => False end) by (destruct H; vm_compute; auto).
  destruct (sml_message_parse (start (short9 ++ [0]))) as [[[m|] s]| |] eqn:E; try contradiction. destruct X as (EB & ->).
  destruct (proj1 (C64_message_exact H [] (short9 ++ [0]) m (mkBuf (short9 ++ [0]) 10 false false) HB HL)) as (bs & t & E1 & X & E2).
  { split; [exact E|]. auto. }
  assert (bs = short9 ++ [0] /\ t = []) as [-> ->].
  { injection E2 as EL. rewrite <- (app_nil_r (short9 ++ [0])) in E1. apply app_cut in E1; [|exact EL]. destruct E1; auto. }
  exists m. split; [exact X|]. intros m' X'. destruct (C65_unambiguous H m m' (short9 ++ [0]) (short9 ++ [0]) [] [] HB HL X (sub_message _ _ _ X') eq_refl) as (<- & _).
  destruct X' as (tl & b & cb & e & c & _ & _ & (x1 & x2 & _ & _ & x3 & x4 & _ & _ & x5 & x6 & _ & _ & x7 & x8 & _ & B & _) & _). rewrite EB in B.
  destruct B as [(m' & d & _ & B)|[B _]]; discriminate.
Qed.
Print Assumptions C65_only_standard_refuted.
Example C65_example (H : Host) : file false [message1 H; message1 H] ([0; 0] ++ text1 ++ [0] ++ text1 ++ [0]) [] /\
  bytes_ok ([0; 0] ++ text1 ++ [0] ++ text1 ++ [0]).
Proof.
  split; [|unfold text1; bytes]. do 2 apply file_fill. apply file_message; [apply C64_example_by_hand|]. apply file_fill.
  apply file_message; [apply C64_example_by_hand|]. apply file_fill, file_end.
Qed.
