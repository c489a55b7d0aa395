(** Property C73: everything the example program writes to its standard output,
    with the options -v and -s or without. *)
From Coq Require Import String SpecFloat.
From Verif Require Import Base Buf Crc16 Number OctetString Boolean Value Time SList Tree Bodies Message File Transport Server ServerMain
  Lib Wf Safe Safe2 Safe3 Ctx MinSize Spec TL Inv Reads Write TLWrite TLRound NumFacts PropsNumber Double PropsDouble PropsString Item Enc Dzg Round Round2 Round3 PropsRound PropsServer
  TransportFacts TransportWrite PropsTransport PropsSend PropsMain Decimal Units Printf PrintFacts PropsPrint PropsTells Accept2.

(** ** What should be on the screen *)
(** A digit of the hexadecimal notation with capital letters. *)
Definition hex_digit (c : Z) : Prop := 48 <= c <= 57 \/ 65 <= c <= 70.
Definition hex_digit_value (c : Z) : Z := if c <=? 57 then c - 48 else c - 55.
Definition hex_value (l : list Z) : Z := fold_left (fun a c => 16 * a + hex_digit_value c) l 0.
(** [text] is n in hexadecimal without leading zeros (0 is no digit at all), filled
    up with blanks on the left to four characters. *)
Definition hex_spells (text : list Z) (n : Z) : Prop :=
  exists blanks digits, text = blanks ++ digits /\ Forall (fun c => c = 32) blanks /\ length blanks = (4 - length digits)%nat /\
    Forall hex_digit digits /\ hd 1 digits <> 48 /\ hex_value digits = n.
(** The line for a message: the number of its kind (0x0100 for an open request, ...,
    0x0701 for a list response). *)
Definition tag_line (H : Host) (m : sml_message) (text : list Z) : Prop :=
  exists tag data h, m_message_body m = Some (mkBody (Some tag) data) /\ hex_spells h (mem_u tag) /\ text = chars "SML message " ++ h ++ [10].
(** The messages whose list entries are printed: with -s only those up to the first
    list response, without it all. *)
Definition looked_at (s : bool) (l shown : list sml_message) : Prop :=
  if s then (Forall (fun m => ~ is_list_response m) l /\ shown = l) \/
            (exists l1 m l2, l = l1 ++ m :: l2 /\ Forall (fun m => ~ is_list_response m) l1 /\ is_list_response m /\ shown = l1 ++ [m])
  else shown = l.
(** The text for one frame with the messages [l], of which [bytes] bytes were read. *)
Definition screen_text (H : Host) (v s : bool) (l : list sml_message) (bytes : Z) (text : list Z) : Prop :=
  exists shown head entries, looked_at s l shown /\
    text = head ++ concat entries /\ Forall2 (displays H) (flat_map entries_of shown) entries /\
    if v then exists n b tags,
      head = chars "SML file (" ++ n ++ chars " SML messages, " ++ b ++ chars " bytes)" ++ [10] ++ concat tags ++ chars "OBIS data" ++ [10] /\
      spells n (Z.of_nat (length l)) 0 /\ spells b bytes 0 /\ Forall2 (tag_line H) l tags
    else head = [].
Definition frame_text (H : Host) (v s : bool) (fr text : list Z) : Prop :=
  exists f, sml_file_parse (payload_of fr) = Ret f /\ screen_text H v s (f_messages f) (Z.of_nat (cursor (f_buf f))) text.
(** The program ends with this frame: with -s, if there is a list response in it. *)
Definition ends_with (H : Host) (s : bool) (fr : list Z) : Prop :=
  s = true /\ exists f m, sml_file_parse (payload_of fr) = Ret f /\ In m (f_messages f) /\ is_list_response m.
(** The frame can be shown: the messages looked at have bodies and entries that can
    be shown, and with -v all messages have bodies. *)
Definition presentable (H : Host) (v s : bool) (fr : list Z) : Prop :=
  exists f shown, sml_file_parse (payload_of fr) = Ret f /\ looked_at s (f_messages f) shown /\
    (Forall (fun m => m_message_body m <> None) shown /\ Forall showable (flat_map entries_of shown)) /\
    (v = true -> Forall (fun m => m_message_body m <> None) (f_messages f)).
(** What is shown of some things with texts: all, or those up to the one that ends
    the program. *)
Inductive run_texts {A} (has_text : A -> list Z -> Prop) (ends : A -> Prop) : list A -> list (list Z) -> Prop :=
| run_nil : run_texts has_text ends [] []
| run_next x l t ts : has_text x t -> ~ ends x -> run_texts has_text ends l ts -> run_texts has_text ends (x :: l) (t :: ts)
| run_last x l t : has_text x t -> ends x -> run_texts has_text ends (x :: l) [t].
Definition shown_frame (H : Host) (v s : bool) (fr text : list Z) : Prop := presentable H v s fr /\ frame_text H v s fr text.

(** ** Proofs *)
Lemma hex_value_app l c : hex_value (l ++ [c]) = 16 * hex_value l + hex_digit_value c.
Proof. unfold hex_value. now rewrite fold_left_app. Qed.
Lemma digits_of_16 : forall fuel n acc, 0 < n < 2 ^ Z.of_nat fuel ->
  exists l, digits_of fuel 16 n acc = l ++ acc /\ Forall hex_digit l /\ hd 1 l <> 48 /\ l <> [] /\ hex_value l = n.
Proof.
  assert (D : forall r, 0 <= r < 16 -> hex_digit (digit_char r) /\ hex_digit_value (digit_char r) = r /\ (r <> 0 -> digit_char r <> 48)).
  { intros r Hr. unfold hex_digit, hex_digit_value, digit_char. destruct (Z.ltb_spec r 10).
    - destruct (Z.leb_spec (48 + r) 57); lia.
    - destruct (Z.leb_spec (55 + r) 57); lia. }
  induction fuel as [|fuel IH]; intros n acc Hn; [cbn in Hn; lia|]. cbn [digits_of]. destruct (Z.ltb_spec n 16).
  - destruct (D n ltac:(lia)) as (D1 & D2 & D3). exists [digit_char n]. split; [reflexivity|]. split; [constructor; [exact D1|constructor]|].
    split; [cbn [hd]; apply D3; lia|]. split; [discriminate|]. unfold hex_value. cbn [fold_left]. lia.
  - rewrite Nat2Z.inj_succ, Z.pow_succ_r in Hn by lia.
    assert (HD : n = 16 * (n / 16) + n mod 16) by (apply Z.div_mod; lia). pose proof (Z.mod_pos_bound n 16 ltac:(lia)) as HM.
    set (q := n / 16) in *. set (r := n mod 16) in *. destruct (D r HM) as (D1 & D2 & _).
    destruct (IH q (digit_char r :: acc)) as (l & E & F & N & NE & V); [lia|].
    exists (l ++ [digit_char r]). rewrite E, <- app_assoc. split; [reflexivity|]. split; [apply Forall_app; split; [exact F|constructor; [exact D1|constructor]]|].
    split; [destruct l; [congruence|exact N]|]. split; [intros X; apply app_eq_nil in X; destruct X; discriminate|]. rewrite hex_value_app, V, D2. lia.
Qed.
Lemma upper_hex_spells n : 0 <= n -> hex_spells (pad 32 4 (upper_hex n)) n.
Proof.
  intros Hn. unfold pad. exists (repeat 32 (4 - length (upper_hex n))), (upper_hex n). split; [reflexivity|].
  split; [apply Forall_forall; intros x Hx; now apply repeat_spec in Hx|]. split; [apply repeat_length|]. unfold upper_hex. destruct (Z.eqb_spec n 0) as [->|NZ].
  - split; [constructor|]. split; [cbn; lia|reflexivity].
  - destruct (digits_of_16 (S (Z.to_nat (Z.log2 n))) n []) as (l & E & F & N & _ & V).
    + rewrite Nat2Z.inj_succ, Z2Nat.id by apply Z.log2_nonneg. pose proof (Z.log2_spec n ltac:(lia)). lia.
    + rewrite E, app_nil_r. auto.
Qed.

Section Facts.
Context {H : Host}.
Definition is_list_responseb (m : sml_message) : bool := match m_message_body m with Some (mkBody _ (BListRes _)) => true | _ => false end.
Lemma list_response_iff m : is_list_responseb m = true <-> is_list_response m.
Proof.
  unfold is_list_responseb, is_list_response. destruct (m_message_body m) as [[t d]|].
  - destruct d; split; try discriminate; try (intros (? & ? & X); discriminate); [eauto|reflexivity].
  - split; [discriminate|intros (? & ? & X); discriminate].
Qed.
Lemma not_list_response m : is_list_responseb m = false -> ~ is_list_response m.
Proof. intros E X. apply list_response_iff in X. congruence. Qed.
(** The messages up to the first list response, computed. *)
Fixpoint upto (l : list sml_message) : list sml_message :=
  match l with [] => [] | m :: t => if is_list_responseb m then [m] else m :: upto t end.
Definition looked (s : bool) (l : list sml_message) : list sml_message := if s then upto l else l.
Lemma looked_ok s l : looked_at s l (looked s l).
Proof.
  destruct s; [|reflexivity]. cbn [looked looked_at]. induction l as [|m l IH]; [left; split; [constructor|reflexivity]|]. cbn [upto]. destruct (is_list_responseb m) eqn:E.
  - right. exists [], m, l. apply list_response_iff in E. auto.
  - apply not_list_response in E. destruct IH as [[F ->]|(l1 & x & l2 & -> & F & X & ->)].
    + left. split; [now constructor|reflexivity].
    + right. exists (m :: l1), x, l2. split; [reflexivity|]. split; [now constructor|]. auto.
Qed.
Lemma looked_only s l shown : looked_at s l shown -> shown = looked s l.
Proof.
  destruct s; [|auto]. cbn [looked_at looked]. intros [[F ->]|(l1 & m & l2 & -> & F & X & ->)].
  - induction F as [|m l N F IH]; [reflexivity|]. cbn [upto]. destruct (is_list_responseb m) eqn:E; [apply list_response_iff in E; contradiction|]. now rewrite <- IH.
  - induction F as [|y l N F IH]; cbn [app upto].
    + apply list_response_iff in X. now rewrite X.
    + destruct (is_list_responseb y) eqn:E; [apply list_response_iff in E; contradiction|]. now rewrite <- IH.
Qed.
Definition fine (l : list sml_message) : Prop := Forall (fun m => m_message_body m <> None) l /\ Forall showable (flat_map entries_of l).
Lemma first_total l : Forall wf_message l ->
  (fine (upto l) -> exists lss, receive_first l = Ret (concat lss, existsb is_list_responseb l) /\ Forall2 (shows H) (flat_map entries_of (upto l)) lss) /\
  (~ fine (upto l) -> exists x, receive_first l = Fault x).
Proof.
  induction l as [|m l IH]; intros HW.
  { split; [exists []; split; [reflexivity|constructor]|intros X; exfalso; apply X; split; constructor]. }
  inversion HW as [|? ? Wm Wl]; subst. destruct (IH Wl) as [I1 I2]. cbn [receive_first existsb upto].
  assert (HD : m_message_body m = None \/ m_message_body m <> None) by (destruct (m_message_body m); [right; discriminate|now left]).
  destruct HD as [HD|HD].
  { split; [intros [F _]; exfalso; destruct (is_list_responseb m); inversion F; congruence|]. intros _. unfold receive_message, print_tag. rewrite HD. eexists. reflexivity. }
  destruct (message_entries m Wm HD) as [-> We]. destruct (tag_list H m Wm HD) as (t & -> & HT). rewrite <- list_response_iff in HT.
  assert (TE : (t =? SML_MESSAGE_GET_LIST_RESPONSE) = is_list_responseb m) by (destruct (t =? _), (is_list_responseb m); intuition congruence).
  cbn [obind]. rewrite TE. destruct (is_list_responseb m) eqn:E.
  - cbn [obind orb flat_map]. rewrite app_nil_r. split.
    + intros [_ F]. cbn [flat_map] in F. rewrite app_nil_r in F. destruct (entries_shows _ We F) as (lss & -> & G). exists lss. auto.
    + intros N. destruct (entries_crash _ We) as (x & ->); [|eexists; reflexivity]. intros F. apply N. split; [now constructor|]. cbn [flat_map]. now rewrite app_nil_r.
  - assert (entries_of m = []) as E0. { unfold is_list_responseb in E. unfold entries_of. destruct (m_message_body m) as [[tg d]|]; [|reflexivity]. destruct d; try reflexivity. discriminate. }
    rewrite E0. cbn [receive_entries obind orb flat_map]. rewrite E0. cbn [app]. split.
    + intros [F1 F2]. inversion F1; subst. cbn [flat_map] in F2. rewrite E0 in F2. cbn [app] in F2. destruct I1 as (lss & -> & G); [split; assumption|]. exists lss. auto.
    + intros N. destruct I2 as (x & ->); [|eexists; reflexivity]. intros [F1 F2]. apply N. split; [now constructor|]. cbn [flat_map]. now rewrite E0.
Qed.
Lemma tags_total l : Forall wf_message l ->
  (Forall (fun m => m_message_body m <> None) l -> exists ts, print_tags l = Ret ts /\
     Forall2 (tag_line H) l (map (fun t => output_text (fun _ => S754_nan) (OTag t)) ts)) /\
  (~ Forall (fun m => m_message_body m <> None) l -> exists x, print_tags l = Fault x).
Proof.
  induction l as [|m l IH]; intros HW; [split; [exists []; split; [reflexivity|constructor]|intros X; exfalso; apply X; constructor]|].
  inversion HW as [|? ? Wm Wl]; subst. destruct (IH Wl) as [I1 I2]. cbn [print_tags]. destruct Wm as [_ _ _ Wb _].
  destruct (m_message_body m) as [[t d]|] eqn:EB; unfold print_tag; rewrite EB.
  - destruct Wb as (tm & Et & Ht & _). cbn [mb_tag] in *. subst t. split.
    + intros F. inversion F; subst. destruct I1 as (ts & -> & G); [assumption|]. eexists. split; [reflexivity|]. cbn [map]. constructor; [|exact G].
      exists tm, d, (pad 32 4 (upper_hex (mem_u tm))). split; [exact EB|]. split; [|reflexivity]. apply upper_hex_spells. destruct Ht as [_ Ht]. apply (mem_u_range tm Ht).
    + intros N. destruct I2 as (x & ->); [|eexists; reflexivity]. intros F. apply N. constructor; [rewrite EB; discriminate|exact F].
  - split; [|intros _; eexists; reflexivity]. intros F. inversion F; subst. congruence.
Qed.
Lemma looked_wf (Q : sml_message -> Prop) s l : Forall Q l -> Forall Q (looked s l).
Proof.
  intros F. destruct s; [|exact F]. cbn [looked]. induction F as [|m l X F IH]; [constructor|]. cbn [upto]. destruct (is_list_responseb m); constructor; auto.
Qed.
Lemma receiver_total pow10 v s fr : accurate pow10 -> bytes_ok fr -> (16 <= length fr)%nat -> Z.of_nat (length fr) < 8096 ->
  (presentable H v s fr -> exists os e, receiver v s fr = Ret (os, e) /\ frame_text H v s fr (screen pow10 os) /\ (e = true <-> ends_with H s fr)) /\
  (~ presentable H v s fr -> exists x, receiver v s fr = Fault x).
Proof.
  intros HA HB HL HU. assert (HP : bytes_ok (payload_of fr)) by (apply Forall_firstn, Forall_skipn, HB).
  assert (LP : (length (payload_of fr) <= length fr)%nat) by (unfold payload_of; rewrite firstn_length, skipn_length; lia).
  pose proof (file_parse_safe 7 (payload_of fr) min_size_7 HP) as HF. unfold receiver. destruct (Nat.ltb_spec (length fr) 16); [lia|]. fold (payload_of fr).
  destruct (sml_file_parse (payload_of fr)) as [f|x|] eqn:EP; [|exfalso; change (Z.of_nat 7 * 32768) with 229376 in HF; lia|contradiction].
  destruct HF as (_ & _ & _ & HF & _). cbn [obind].
  assert (HW : Forall wf_message (f_messages f)) by (eapply Forall_impl; [|exact HF]; intros m Hm; eapply parsed_in_wf; eauto). clear HF.
  assert (PI : presentable H v s fr <-> fine (looked s (f_messages f)) /\ (v = true -> Forall (fun m => m_message_body m <> None) (f_messages f))).
  { split.
    - intros (f' & shown & E & K & F & V). rewrite EP in E. injection E as <-. apply looked_only in K as ->. auto.
    - intros [F V]. exists f, (looked s (f_messages f)). split; [exact EP|]. split; [apply looked_ok|]. auto. }
  assert (EI : ends_with H s fr <-> s && existsb is_list_responseb (f_messages f) = true).
  { rewrite andb_true_iff, existsb_exists. split.
    - intros [-> (f' & m & E & I & X)]. rewrite EP in E. injection E as <-. split; [reflexivity|]. exists m. split; [exact I|]. now apply list_response_iff.
    - intros [-> (m & I & X)]. split; [reflexivity|]. exists f, m. split; [exact EP|]. split; [exact I|]. now apply list_response_iff. }
  rewrite PI. clear PI.
  assert (BODY : (fine (looked s (f_messages f)) -> exists lss e, (if s then receive_first (f_messages f) else obind (receive_messages (f_messages f)) (fun ls => Ret (ls, false))) = Ret (concat lss, e) /\
             e = s && existsb is_list_responseb (f_messages f) /\ Forall2 (shows H) (flat_map entries_of (looked s (f_messages f))) lss) /\
           (~ fine (looked s (f_messages f)) -> exists x, (if s then receive_first (f_messages f) else obind (receive_messages (f_messages f)) (fun ls => Ret (ls, false))) = Fault x)).
  { destruct s; cbn [looked andb].
    - destruct (first_total _ HW) as [K1 K2]. split; [|exact K2]. intros F. destruct (K1 F) as (lss & -> & G). eauto 10.
    - split.
      + intros [F1 F2]. destruct (messages_shows _ HW F1 F2) as (lss & -> & G). exists lss, false. auto.
      + intros F. destruct (messages_crash _ HW F) as (x & ->). exists x. reflexivity. }
  destruct BODY as [B1 B2]. destruct (tags_total _ HW) as [T1 T2].
  split.
  - intros [F V]. destruct (B1 F) as (lss & e & EB & Ee & G).
    assert (WE : Forall wf_entry (flat_map entries_of (looked s (f_messages f)))) by (apply messages_entries_wf; [now apply looked_wf|apply F]).
    destruct (shows_displays_all pow10 _ _ HA WE G) as [S1 S2].
    assert (HEAD : exists os head, (if v then print_file f else Ret []) = Ret os /\ screen pow10 (os ++ (if v then [OHeader] else [])) = head /\
       if v then exists n b tags,
         head = chars "SML file (" ++ n ++ chars " SML messages, " ++ b ++ chars " bytes)" ++ [10] ++ concat tags ++ chars "OBIS data" ++ [10] /\
         spells n (Z.of_nat (length (f_messages f))) 0 /\ spells b (Z.of_nat (cursor (f_buf f))) 0 /\ Forall2 (tag_line H) (f_messages f) tags
       else head = []).
    { destruct v; [|exists [], []; auto]. destruct (T1 (V eq_refl)) as (ts & ET & FT). unfold print_file. rewrite ET. cbn [obind]. eexists _, _. split; [reflexivity|]. split; [reflexivity|].
      exists (decimal (Z.of_nat (length (f_messages f)))), (decimal (Z.of_nat (cursor (f_buf f)))), (map (fun t => output_text (fun _ => S754_nan) (OTag t)) ts).
      split; [|split; [apply decimal_spells; lia|split; [apply decimal_spells; lia|exact FT]]].
      unfold screen. rewrite map_app, concat_app. cbn [map concat output_text]. rewrite map_map, !app_nil_r, <- !app_assoc. reflexivity. }
    destruct HEAD as (os & head & -> & EH & HH). cbn [obind]. rewrite EB. cbn [obind fst snd]. eexists _, _. split; [reflexivity|]. split; [|rewrite Ee; symmetry; exact EI].
    exists f. split; [exact EP|]. eexists _, head, _. split; [apply looked_ok|]. split; [|split; [exact S2|exact HH]].
    rewrite app_assoc. unfold screen in *. rewrite map_app, concat_app, EH. f_equal. exact S1.
  - intros N. destruct v.
    + destruct (fine_dec (f_messages f)) as [[DB _]|_].
      * destruct (T1 DB) as (ts & ET & _). unfold print_file. rewrite ET. cbn [obind]. destruct B2 as (x & ->); [|eexists; reflexivity]. intros F. apply N. auto.
      * assert (DB : Forall (fun m => m_message_body m <> None) (f_messages f) \/ ~ Forall (fun m => m_message_body m <> None) (f_messages f)).
        { clear. induction (f_messages f) as [|m l IH]; [left; constructor|]. destruct (m_message_body m) eqn:E; [destruct IH as [IH|IH]; [left; constructor; auto; congruence|]|]; right; intros HX; inversion HX; auto. }
        unfold print_file. destruct DB as [DB|DB].
        -- destruct (T1 DB) as (ts & -> & _). cbn [obind]. destruct B2 as (x & ->); [|eexists; reflexivity]. intros F. apply N. auto.
        -- destruct (T2 DB) as (x & ->). eexists. reflexivity.
    + cbn [obind]. destruct B2 as (x & ->); [|eexists; reflexivity]. intros F. apply N. split; [exact F|discriminate].
Qed.
Lemma presentable_dec v s fr : presentable H v s fr \/ ~ presentable H v s fr.
Proof.
  destruct (sml_file_parse (payload_of fr)) as [f| |] eqn:EP; [|right; intros (f' & sh & E & _); congruence..].
  assert (DB : forall l : list sml_message, Forall (fun m => m_message_body m <> None) l \/ ~ Forall (fun m => m_message_body m <> None) l).
  { clear. induction l as [|m l IH]; [left; constructor|]. destruct (m_message_body m) eqn:E; [destruct IH as [IH|IH]; [left; constructor; auto; congruence|]|]; right; intros HX; inversion HX; auto. }
  assert (R : presentable H v s fr <-> fine (looked s (f_messages f)) /\ (v = true -> Forall (fun m => m_message_body m <> None) (f_messages f))).
  { split.
    - intros (f' & shown & E & K & F & V). rewrite EP in E. injection E as <-. apply looked_only in K as ->. auto.
    - intros [F V]. exists f, (looked s (f_messages f)). split; [exact EP|]. split; [apply looked_ok|]. auto. }
  rewrite R. destruct (fine_dec (looked s (f_messages f))) as [F|F]; [|right; intros [X _]; exact (F X)].
  destruct (DB (f_messages f)) as [D|D]; [left; split; auto|]. destruct v; [right; intros [_ X]; auto|left; split; [exact F|discriminate]].
Qed.
Lemma server_total pow10 v s : accurate pow10 -> forall fuel d fs d1, listen_loop fuel d = Ret (fs, d1) ->
  Forall (fun f => bytes_ok f /\ (16 <= length f)%nat /\ Z.of_nat (length f) < 8096) fs ->
  (exists os d' texts, server_loop fuel v s d = Ret (os, d') /\ screen pow10 os = concat texts /\ run_texts (shown_frame H v s) (ends_with H s) fs texts /\ (length texts = length fs -> Forall (fun fr => ~ ends_with H s fr) fs -> d' = d1)) \/
  (exists pre fr post x, fs = pre ++ fr :: post /\ Forall (fun g => presentable H v s g /\ ~ ends_with H s g) pre /\ ~ presentable H v s fr /\ server_loop fuel v s d = Fault x).
Proof.
  intros HA. induction fuel as [|fuel IH]; intros d fs d1 E SH; [discriminate|]. cbn [listen_loop server_loop] in *.
  destruct (sml_transport_read MC_SML_BUFFER_LEN d) as [[[n bs] d2]| |]; try discriminate. cbn [obind]. destruct (Nat.eqb_spec n 0) as [->|HN].
  { inversion E; subst. left. exists [], d1, []. split; [reflexivity|]. split; [reflexivity|]. split; [constructor|auto]. }
  destruct (listen_loop fuel d2) as [[l d3]| |] eqn:EL; try discriminate. inversion E; subst.
  inversion SH as [|? ? (S1 & S2 & S3) SH2]; subst.
  destruct (receiver_total pow10 v s bs HA S1 S2 S3) as [R1 R2]. destruct (presentable_dec v s bs) as [P|P].
  - destruct (R1 P) as (os & e & -> & FT & EE). cbn [obind fst snd]. destruct e.
    + left. exists os, d2, [screen pow10 os]. split; [reflexivity|]. split; [cbn [concat]; now rewrite app_nil_r|]. split; [constructor; [split; [exact P|exact FT]|now apply EE]|].
      intros _ X. inversion X as [|? ? X1 _]; subst. exfalso. apply X1. now apply EE.
    + assert (NE : ~ ends_with H s bs) by (intros X; apply EE in X; discriminate). destruct (IH _ _ _ EL SH2) as [(os2 & d' & ts & -> & ES & RT & RD)|(pre & fr & post & x & -> & FP & NP & ->)].
      * left. cbn [obind fst snd]. exists (os ++ os2), d', (screen pow10 os :: ts). split; [reflexivity|]. split; [unfold screen in *; rewrite map_app, concat_app, ES; reflexivity|].
        split; [constructor; [split; [exact P|exact FT]|exact NE|exact RT]|]. cbn [length]. intros X Y. inversion Y; subst. apply RD; [lia|assumption].
      * right. exists (bs :: pre), fr, post, x. split; [reflexivity|]. split; [constructor; auto|]. auto.
  - right. destruct (R2 P) as (x & ->). exists [], bs, l, x. split; [reflexivity|]. split; [constructor|]. auto.
Qed.
End Facts.

(** ** C73 *)
(** For every device and all four settings of -v and -s: what is on the standard
    output is the text of the frames that sml_transport_listen finds, in their order,
    up to the first that ends the program; or the program crashes, and it does
    so at the first frame that cannot be shown. *)
Theorem C73_program (H : Host) pow10 v s d : accurate pow10 -> device_bytes d ->
  exists fs d1, sml_transport_listen d = Ret (fs, d1) /\
    ((exists os d' texts, sml_server v s d = Ret (os, d') /\ screen pow10 os = concat texts /\ run_texts (shown_frame H v s) (ends_with H s) fs texts /\
        (Forall (fun fr => ~ ends_with H s fr) fs -> d' = d1)) \/
     (exists pre fr post x, fs = pre ++ fr :: post /\ Forall (fun g => presentable H v s g /\ ~ ends_with H s g) pre /\ ~ presentable H v s fr /\
        sml_server v s d = Fault x)).
Proof.
  intros HA HB. destruct (C38_listen_schedule_independent d d eq_refl) as (fs & d1 & _ & E & _ & _). exists fs, d1. split; [exact E|].
  destruct (server_total pow10 v s HA _ _ _ _ E (listen_shape _ _ _ _ E HB)) as [(os & d' & ts & ES & ET & RT & RD)|X]; [left|right; exact X].
  exists os, d', ts. split; [exact ES|]. split; [exact ET|]. split; [exact RT|]. intros F. apply RD; [|exact F].
  clear - F RT. induction RT as [|fr fs t ts FT NE RT IH|fr fs t FT EW]; [reflexivity| |]; inversion F; subst; [cbn [length]; now rewrite IH|contradiction].
Qed.
Print Assumptions C73_program.

(** The number of bytes is that of the content of the frame, unless the parser met an error. *)
Theorem C73_bytes (H : Host) fr f : bytes_ok fr -> sml_file_parse (payload_of fr) = Ret f ->
  (cursor (f_buf f) <= length (payload_of fr))%nat /\ (error (f_buf f) = false -> cursor (f_buf f) = length (payload_of fr)).
Proof.
  intros HB E. assert (HP : bytes_ok (payload_of fr)) by (apply Forall_firstn, Forall_skipn, HB).
  pose proof (file_parse_safe 7 (payload_of fr) min_size_7 HP) as HF. rewrite E in HF. destruct HF as (_ & HC & _ & _ & HE & _). auto.
Qed.
Print Assumptions C73_bytes.

(** *** From the sender's messages *)
Lemma body_forall2 {B} (Q : sml_message -> B -> Prop) : (forall m m' b, m_message_body m = m_message_body m' -> Q m b -> Q m' b) ->
  forall l l' bs, map m_message_body l = map m_message_body l' -> Forall2 Q l bs -> Forall2 Q l' bs.
Proof.
  intros HQ. induction l as [|m l IH]; intros [|m' l'] bs E F; try discriminate; inversion F; subst; [constructor|]. injection E as E1 E2. constructor; eauto.
Qed.
Lemma list_response_body m m' : m_message_body m = m_message_body m' -> is_list_response m -> is_list_response m'.
Proof. unfold is_list_response. now intros ->. Qed.
Lemma upto_body : forall l l', map m_message_body l = map m_message_body l' -> map m_message_body (upto l) = map m_message_body (upto l').
Proof.
  induction l as [|m l IH]; intros [|m' l'] E; try discriminate; [reflexivity|]. injection E as E1 E2. cbn [upto].
  assert (is_list_responseb m = is_list_responseb m') as -> by (unfold is_list_responseb; now rewrite E1). destruct (is_list_responseb m'); cbn [map]; rewrite E1; [reflexivity|]. now rewrite (IH _ E2).
Qed.
Lemma screen_text_body (H : Host) v s l l' b t : map m_message_body l = map m_message_body l' -> screen_text H v s l b t -> screen_text H v s l' b t.
Proof.
  intros E (shown & head & entries & K & ET & FD & HV). exists (looked s l'), head, entries. split; [apply looked_ok|]. split; [exact ET|]. split.
  - apply looked_only in K as ->. rewrite <- (entries_of_body (looked s l)); [exact FD|]. destruct s; [now apply upto_body|exact E].
  - destruct v; [|exact HV]. destruct HV as (n & nb & tags & EH & S1 & S2 & FT). exists n, nb, tags. split; [exact EH|].
    assert (EL : length l = length l') by (apply (f_equal (@length _)) in E; now rewrite !map_length in E). rewrite <- EL. split; [exact S1|]. split; [exact S2|].
    eapply body_forall2; [|exact E|exact FT]. intros m m' x EB (tag & data & h & EM & HH). exists tag, data, h. split; [congruence|exact HH].
Qed.
Lemma transmission_parsed (H : Host) noise l sent : transmission H (noise, l, sent) ->
  exists g, sml_file_parse (payload_of sent) = Ret g /\ map m_message_body (f_messages g) = map m_message_body l /\ error (f_buf g) = false.
Proof.
  intros (HN & HR & HC & HS & (n & c & e & o & wr & r & f & Hn & E) & HU & HL).
  assert (HW : Forall writable l) by (eapply Forall_impl; [|exact HR]; intros m Hm; apply Hm).
  assert (HZ : Forall (fun m => Forall (every (size_ok false)) (message_items m)) l) by (eapply Forall_impl; [|exact HR]; intros m Hm; apply readable_sizes, Hm).
  assert (HF : (frame_size (length (flat_map message_bytes l)) <= n)%nat).
  { destruct (Nat.le_gt_cases (frame_size (length (flat_map message_bytes l))) n) as [HX|HX]; [exact HX|]. exfalso.
    pose proof (proj2 (frame_write false l (repeat 0 n) HW HZ (zero_bytes n) ltac:(rewrite repeat_length; lia) c e o)) as HO.
    unfold sml_transport_write in E. cbn [f_messages f_buf] in E. rewrite HO in E; [discriminate|]. rewrite repeat_length. exact HX. }
  destruct (round_trip_exact H l n c e o wr HR HC HF Hn) as (r' & sent' & f' & body & pad & c1 & c2 & E' & ES & BS & L4 & _ & _ & _ & _ & _ & EB & _ & _ & g & EG & EM & EE).
  rewrite E in E'. assert (sent' = sent) as -> by congruence. assert (f' = f) as -> by congruence. exists g. split; [exact EG|]. split; [now rewrite EM|exact EE].
Qed.
(** What was sent is shown: the messages of every transmission, with their number,
    the number of bytes between the start and the end sequence, and their kinds; with -s up to the
    first list response. *)
Theorem C73_meter_to_screen (H : Host) pow10 v s w tail d : accurate pow10 -> Forall (transmission H) w -> ~ In 27 tail ->
  delivered d = map Some (flat_map (fun x => fst (fst x) ++ snd x) w ++ tail) ->
  exists os d' texts, sml_server v s d = Ret (os, d') /\ screen pow10 os = concat texts /\
    run_texts (fun x => screen_text H v s (snd (fst x)) (Z.of_nat (length (snd x)) - 16))
              (fun x => s = true /\ exists m, In m (snd (fst x)) /\ is_list_response m) w texts.
Proof.
  intros HA HW HT HD. set (fs := map (fun x : list Z * list sml_message * list Z => (fst (fst x), snd x)) w).
  assert (HC : clean fs).
  { unfold fs, clean. rewrite Forall_map. eapply Forall_impl; [|exact HW]. intros [[noise l] sent] HX. cbn [fst snd]. destruct (transmission_frame _ _ _ _ HX) as (HF & _).
    destruct HX as (HN & _ & _ & _ & _ & _ & HL). auto. }
  destruct (C41_listen_delivers_every_frame d fs tail HC HT) as (d1 & E & ED).
  { rewrite HD. unfold fs. rewrite !flat_map_concat_map, map_map. reflexivity. }
  assert (EM : map snd fs = map snd w) by (unfold fs; rewrite map_map; reflexivity). rewrite EM in E.
  assert (SH : Forall (fun x => bytes_ok (snd x) /\ (16 <= length (snd x))%nat) w).
  { eapply Forall_impl; [|exact HW]. intros [[noise l] sent] HX. cbn [fst snd]. destruct (transmission_frame _ _ _ _ HX) as (HF & HB & _). split; [exact HB|].
    destruct HF as (p & a & b & c & -> & _). rewrite !app_length. cbn [length]. lia. }
  assert (FR : forall x, In x w -> presentable H v s (snd x) /\
     (forall t, frame_text H v s (snd x) t -> screen_text H v s (snd (fst x)) (Z.of_nat (length (snd x)) - 16) t) /\
     (ends_with H s (snd x) <-> s = true /\ exists m, In m (snd (fst x)) /\ is_list_response m)).
  { intros [[noise l] sent] HI. rewrite Forall_forall in HW, SH. specialize (HW _ HI). specialize (SH _ HI). cbn [fst snd] in *. destruct SH as [SB SL].
    destruct (transmission_parsed _ _ _ _ HW) as (g & EG & EB & EE). destruct (C73_bytes H sent g SB EG) as [_ HC2]. specialize (HC2 EE).
    assert (LP : length (payload_of sent) = (length sent - 16)%nat) by (unfold payload_of; rewrite firstn_length, skipn_length; lia). split; [|split].
    - destruct (transmission_frame _ _ _ _ HW) as (_ & _ & (f' & EF & HR1 & HR2) & _). assert (f' = g) as -> by congruence. exists g, (looked s (f_messages g)). split; [exact EG|]. split; [apply looked_ok|].
      assert (FB : Forall (fun m => m_message_body m <> None) (f_messages g)) by (apply Forall_forall; exact HR1).
      split; [|auto]. split; [now apply looked_wf|]. apply Forall_forall. intros e He. apply in_flat_map in He. destruct He as (m & Hm & He).
      assert (IM : In m (f_messages g)) by (assert (FI : Forall (fun m => In m (f_messages g)) (looked s (f_messages g))) by (apply looked_wf, Forall_forall; auto); rewrite Forall_forall in FI; exact (FI m Hm)).
      unfold entries_of in He. destruct (m_message_body m) as [[t dt]|] eqn:EMB; [|contradiction]. destruct dt; try contradiction. eauto.
    - intros t (f' & EF & HS). assert (f' = g) as -> by congruence. rewrite HC2, LP in HS. replace (Z.of_nat (length sent) - 16) with (Z.of_nat (length sent - 16)) by lia. eapply screen_text_body; eauto.
    - assert (TR : forall l1 l2, map m_message_body l1 = map m_message_body l2 -> (exists m, In m l1 /\ is_list_response m) -> exists m, In m l2 /\ is_list_response m).
      { intros l1 l2 X (m & Hm & L). apply (in_map m_message_body) in Hm. rewrite X in Hm. apply in_map_iff in Hm. destruct Hm as (m' & EMM & Hm'). exists m'. split; [exact Hm'|]. eapply list_response_body; [|exact L]. now symmetry. }
      split.
      + intros [-> (f' & m & EF & Hm & L)]. assert (f' = g) as -> by congruence. split; [reflexivity|]. apply (TR _ _ EB). eauto.
      + intros [-> X]. split; [reflexivity|]. destruct (TR _ _ (eq_sym EB) X) as (m & Hm & L). eauto. }
  assert (SH2 : Forall (fun f => bytes_ok f /\ (16 <= length f)%nat /\ Z.of_nat (length f) < 8096) (map snd w)).
  { rewrite Forall_map. apply Forall_forall. intros x Hx. rewrite Forall_forall in SH, HW. destruct (SH x Hx) as [S1 S2]. specialize (HW x Hx). destruct x as [[noise l] sent].
    destruct HW as (_ & _ & _ & _ & _ & _ & HL). cbn [snd] in *. split; [exact S1|]. split; [exact S2|lia]. }
  destruct (server_total pow10 v s HA _ _ _ _ E SH2) as [(os & d' & texts & ES & ET & RT & _)|(pre & fr & post & x & EF & _ & NP & _)].
  - exists os, d', texts. split; [exact ES|]. split; [exact ET|]. clear - RT FR. remember (map snd w) as frs eqn:Ef. revert w Ef FR.
    induction RT as [|fr frs t ts [_ FT] NE RT IH|fr frs t [_ FT] EW]; intros [|x w] Ef FR; try discriminate; [constructor|..]; injection Ef as -> ->; destruct (FR x (or_introl eq_refl)) as (_ & F1 & F2).
    + apply run_next; [now apply F1|now rewrite <- F2|]. apply IH; [reflexivity|]. intros y Hy. apply FR. now right.
    + apply run_last; [now apply F1|now apply F2].
  - exfalso. apply NP. assert (HI : In fr (map snd w)) by (rewrite EF; apply in_elt). apply in_map_iff in HI. destruct HI as (y & <- & Hy). apply (FR y Hy).
Qed.
Print Assumptions C73_meter_to_screen.

(** *** The text tells *)
Lemma hex_spells_value t n1 n2 : hex_spells t n1 -> hex_spells t n2 -> n1 = n2.
Proof.
  intros (b1 & d1 & -> & B1 & _ & F1 & _ & <-) (b2 & d2 & E & B2 & _ & F2 & _ & <-).
  assert (K : forall b1 b2 d1 d2, Forall (fun c => c = 32) b1 -> Forall (fun c => c = 32) b2 -> Forall hex_digit d1 -> Forall hex_digit d2 -> b1 ++ d1 = b2 ++ d2 -> d1 = d2); [|now rewrite (K _ _ _ _ B1 B2 F1 F2 E)].
  clear. induction b1 as [|x b1 IH]; intros [|y b2] d1 d2 B1 B2 F1 F2 E; cbn [app] in E.
  - exact E.
  - subst d1. inversion F1 as [|? ? X _]; subst. inversion B2; subst. unfold hex_digit in X. lia.
  - subst d2. inversion F2 as [|? ? X _]; subst. inversion B1; subst. unfold hex_digit in X. lia.
  - injection E as _ E. inversion B1; inversion B2; subst. eauto.
Qed.
Lemma hex_spells_chars t n : hex_spells t n -> ~ In 10 t.
Proof.
  intros (b & d & -> & B & _ & F & _) HI. apply in_app_or in HI. rewrite Forall_forall in B, F. destruct HI as [HI|HI]; [specialize (B _ HI); lia|specialize (F _ HI); unfold hex_digit in F; lia].
Qed.
(** A tag line starts with S, the header with O. *)
Lemma tag_lines_tell (H : Host) : forall l1 l2 t1 t2 r1 r2, Forall2 (tag_line H) l1 t1 -> Forall2 (tag_line H) l2 t2 ->
  concat t1 ++ chars "OBIS data" ++ r1 = concat t2 ++ chars "OBIS data" ++ r2 ->
  Forall2 (fun m1 m2 => forall t1 t2, print_tag m1 = Ret t1 -> print_tag m2 = Ret t2 -> t1 = t2) l1 l2 /\ r1 = r2.
Proof.
  induction l1 as [|m1 l1 IH]; intros [|m2 l2] t1 t2 r1 r2 F1 F2 E; inversion F1; inversion F2; subst; cbn [concat app] in E.
  - apply app_inv_head in E. split; [constructor|exact E].
  - exfalso. match goal with X : tag_line H m2 _ |- _ => destruct X as (? & ? & ? & _ & _ & ->) end. discriminate E.
  - exfalso. match goal with X : tag_line H m1 _ |- _ => destruct X as (? & ? & ? & _ & _ & ->) end. discriminate E.
  - match goal with X : tag_line H m1 _, Y : tag_line H m2 _ |- _ => destruct X as (g1 & d1 & h1 & B1 & S1 & ->), Y as (g2 & d2 & h2 & B2 & S2 & ->) end.
    rewrite <- !app_assoc in E. apply app_inv_head in E. apply first_sep in E as [Eh E]; [|eapply hex_spells_chars; eassumption..]. subst h2.
    destruct (IH _ _ _ _ _ ltac:(eassumption) ltac:(eassumption) E) as [K ->]. split; [|reflexivity]. constructor; [|exact K].
    intros x1 x2. unfold print_tag. rewrite B1, B2. cbn [mb_tag]. intros X1 X2. injection X1 as <-. injection X2 as <-. eapply hex_spells_value; eassumption.
Qed.
(** With -v, frames with the same text have the same number of messages, of the
    same kinds in the same order, and the same number of bytes read; and what follows
    the header is the same. *)
Theorem C73_text_tells (H : Host) s l1 l2 b1 b2 text : 0 <= b1 -> 0 <= b2 -> screen_text H true s l1 b1 text -> screen_text H true s l2 b2 text ->
  length l1 = length l2 /\ b1 = b2 /\
  Forall2 (fun m1 m2 => forall t1 t2, print_tag m1 = Ret t1 -> print_tag m2 = Ret t2 -> t1 = t2) l1 l2 /\
  exists rest, screen_text H false s l1 b1 rest /\ screen_text H false s l2 b2 rest.
Proof.
  intros P1 P2 (sh1 & hd1 & e1 & K1 & E1 & D1 & n1 & c1 & t1 & H1 & N1 & C1 & T1) (sh2 & hd2 & e2 & K2 & E2 & D2 & n2 & c2 & t2 & H2 & N2 & C2 & T2).
  assert (E : hd1 ++ concat e1 = hd2 ++ concat e2) by congruence. clear E1 E2 text. subst hd1 hd2. rewrite <- !app_assoc in E. apply app_inv_head in E.
  change (chars " SML messages, ") with ([32] ++ chars "SML messages, ") in E. change (chars " bytes)") with ([32] ++ chars "bytes)") in E. rewrite <- !app_assoc in E.
  pose proof (spells_digits _ _ (Nat2Z.is_nonneg _) N1) as G1. pose proof (spells_digits _ _ (Nat2Z.is_nonneg _) N2) as G2.
  apply sep_split in E as [-> E]; [|exact G1|exact G2|unfold digit; lia]. apply app_inv_head in E.
  apply sep_split in E as [-> E]; [|exact (spells_digits _ _ P1 C1)|exact (spells_digits _ _ P2 C2)|unfold digit; lia]. apply app_inv_head in E.
  apply app_inv_head in E. destruct (spells_value _ _ _ _ _ N1 N2) as [EN _]. destruct (spells_value _ _ _ _ _ C1 C2) as [EC _].
  apply (tag_lines_tell H _ _ _ _ _ _ T1 T2) in E as [K E]. apply app_inv_head in E.
  split; [lia|]. split; [exact EC|]. split; [exact K|]. exists (concat e1). split; [exists sh1, [], e1|exists sh2, [], e2]; auto.
Qed.
Print Assumptions C73_text_tells.

(** *** Example *)
(** Two copies of a frame with three messages, in pieces and with noise. *)
Definition screen_device : fd := [Chunk [1; 2]; Intr; Chunk (firstn 50 run_sent); Chunk (skipn 50 run_sent); Chunk run_sent].
Example C73_example_accurate : accurate sample_pow10.
Proof. exact C67_pow. Qed.
(** SML file (3 SML messages, 176 bytes) / SML message  200 / SML message  701 / SML message  200 / OBIS data / 1-0:96.50.1*1#EMH# ... *)
Example C73_example :
  match @sml_server LittleEndian true true screen_device with
  | Ret (os, d) => d = [Chunk run_sent] /\ firstn 112 (screen sample_pow10 os) =
      chars "SML file (3 SML messages, 176 bytes)" ++ [10] ++ chars "SML message  200" ++ [10] ++ chars "SML message  701" ++ [10] ++ chars "SML message  200" ++ [10] ++
      chars "OBIS data" ++ [10] ++ chars "1-0:96.50.1*1#"
  | _ => False
  end.
Proof. vm_compute. repeat split. Qed.
