(** Property C77: everything the example program writes to stderr. *)
From Coq Require Import String SpecFloat.
From Verif Require Import Base Buf Crc16 Number OctetString Boolean Value Time SList Tree Bodies Message File Transport Server ServerMain
  Lib Wf Safe Safe2 Safe3 Ctx MinSize Spec TL Inv Reads Write TLWrite TLRound NumFacts PropsNumber Double PropsDouble PropsString Item Enc Dzg Round Round2 Round3 PropsRound PropsServer
  TransportFacts TransportWrite PropsTransport PropsSend PropsMain Decimal Units Printf PrintFacts PropsPrint PropsTells PropsScreen
  FileFacts PropsParse Grammar PropsGrammar ReportModel ReportFacts PropsReport PropsLocal TransportReport PropsEnding ServerReport.

(** *** Specification *)
(** a message of a type the library does not implement *)
Definition unknown (H : Host) (m : sml_message) (t : Z) : Prop :=
  exists tag data, m_message_body m = Some (mkBody (Some tag) data) /\ mem_u tag = t /\
    ~ In t [256; 257; 512; 513; 768; 769; 1024; 1025; 1280; 1281; 1536; 1792; 1793; 65281].
(** one line for each such message, in their order *)
Inductive one_each (H : Host) (text : Z -> err_line) : list sml_message -> list err_line -> Prop :=
| each_nil : one_each H text [] []
| each_known m ms ls : (forall t, ~ unknown H m t) -> one_each H text ms ls -> one_each H text (m :: ms) ls
| each_unknown m t ms ls : unknown H m t -> one_each H text ms ls -> one_each H text (m :: ms) (text t :: ls).
(** A value that says that it is an integer, but not of 1, 2, 4 or 8 bytes: the parser
    returns such values for integers of 9 and more bytes (C14), and the workaround may
    make one of something else (C47).  It is shown as 0. *)
Definition no_number (v : sml_value) : Prop :=
  In (Z.land (v_type v) 112) [80; 96] /\ ~ In (v_type v) [81; 82; 84; 88; 97; 98; 100; 104].
(** Entries of lists that cannot be shown as they are, with one line for each: entries
    without a value, and these. *)
Inductive entries_said : list list_entry -> list err_line -> Prop :=
| said_none : entries_said [] []
| said_shown e v l ls : le_value e = Some v -> ~ no_number v -> entries_said l ls -> entries_said (e :: l) ls
| said_without e l ls : le_value e = None -> entries_said l ls -> entries_said (e :: l) (EEntry :: ls)
| said_type e v l ls : le_value e = Some v -> no_number v -> entries_said l ls -> entries_said (e :: l) (EType (v_type v) :: ls).
(** The lines for one frame: what the parser says about its content (C75), one line for
    each such entry among the messages looked at, and one for each message of
    an unknown type when the messages are freed; the program may end before that. *)
Definition frame_lines_are (H : Host) (s : bool) (fr : list Z) (ls : list err_line) : Prop :=
  exists pl f shown said freed, r_file_parse (payload_of fr) = (pl, Ret f) /\ looked_at s (f_messages f) shown /\
    entries_said (flat_map entries_of shown) said /\ ls = map EParse pl ++ said ++ freed /\
    (ends_with H s fr -> freed = []) /\ (~ ends_with H s fr -> one_each H (fun t => EParse (NotFreed t)) (f_messages f) freed).
(** The lines for all frames, and [last], the lines about the end of listening, if the
    program does not end before. *)
Inductive stderr_of_run {A} (lines_are : A -> list err_line -> Prop) (ends : A -> Prop) (last : list err_line) : list A -> list err_line -> Prop :=
| lines_nil : stderr_of_run lines_are ends last [] last
| lines_next x l ls rest : lines_are x ls -> ~ ends x -> stderr_of_run lines_are ends last l rest -> stderr_of_run lines_are ends last (x :: l) (ls ++ rest)
| lines_last x l ls : lines_are x ls -> ends x -> stderr_of_run lines_are ends last (x :: l) ls.

(** *** The lines change nothing else *)
Section Facts.
Context {H : Host}.
Lemma ebind_snd {A B} (p : E A) (k : A -> E B) : snd (ebind p k) = obind (snd p) (fun x => snd (k x)).
Proof. unfold ebind. destruct p as [l [x|f|]]; cbn [snd obind]; try reflexivity. destruct (k x); reflexivity. Qed.
Lemma obind_ext {A B} (o : outcome A) (k k' : A -> outcome B) : (forall x, k x = k' x) -> obind o k = obind o k'.
Proof. intros HK. destruct o; cbn [obind]; auto. Qed.
Lemma entry_same e : snd (e_receive_entry e) = receive_entry e.
Proof. unfold e_receive_entry, receive_entry. destruct (le_value e); reflexivity. Qed.
Lemma entries_same l : snd (e_receive_entries l) = receive_entries l.
Proof.
  induction l as [|e l IH]; [reflexivity|]. cbn [e_receive_entries receive_entries]. rewrite ebind_snd, entry_same. apply obind_ext. intros a. rewrite ebind_snd, IH. reflexivity.
Qed.
Lemma message_same m : snd (e_receive_message m) = receive_message m.
Proof.
  unfold e_receive_message, receive_message. rewrite ebind_snd. cbn [calm snd]. apply obind_ext. intros t. destruct (_ =? _); [|reflexivity].
  destruct (m_message_body m) as [[tg []]|]; try reflexivity. apply entries_same.
Qed.
Lemma messages_same l : snd (e_receive_messages l) = receive_messages l.
Proof.
  induction l as [|m l IH]; [reflexivity|]. cbn [e_receive_messages receive_messages]. rewrite ebind_snd, message_same. apply obind_ext. intros a. rewrite ebind_snd, IH. reflexivity.
Qed.
Lemma first_same l : snd (e_receive_first l) = receive_first l.
Proof.
  induction l as [|m l IH]; [reflexivity|]. cbn [e_receive_first receive_first]. rewrite ebind_snd, message_same. apply obind_ext. intros a. rewrite ebind_snd. cbn [calm snd]. apply obind_ext. intros t.
  destruct (_ =? _); [reflexivity|]. rewrite ebind_snd, IH. reflexivity.
Qed.
Lemma receiver_same v s b : snd (e_receiver v s b) = receiver v s b.
Proof.
  unfold e_receiver, receiver. destruct (_ <? _)%nat; [reflexivity|]. rewrite ebind_snd.
  pose proof (same_file (firstn (length b - 16) (skipn 8 b))) as EP. destruct (r_file_parse _) as [l o]. cbn [snd] in *. subst o. apply obind_ext. intros f.
  rewrite ebind_snd. cbn [calm snd]. apply obind_ext. intros hd. rewrite ebind_snd. cbn [snd].
  replace (snd (if s then e_receive_first (f_messages f) else ebind (e_receive_messages (f_messages f)) (fun ls => calm (Ret (ls, false)))))
    with (if s then receive_first (f_messages f) else obind (receive_messages (f_messages f)) (fun ls => Ret (ls, false))); [reflexivity|].
  destruct s; [now rewrite first_same|]. rewrite ebind_snd, messages_same. reflexivity.
Qed.
Lemma server_same fuel v s : forall d, snd (e_server_loop fuel v s d) = server_loop fuel v s d.
Proof.
  induction fuel as [|fuel IH]; intros d; [reflexivity|]. cbn [e_server_loop server_loop]. rewrite ebind_snd.
  pose proof (alike_transport MC_SML_BUFFER_LEN d) as EA. destruct (n_transport_read MC_SML_BUFFER_LEN d) as [l o]. cbn [snd] in *. subst o. apply obind_ext. intros [[n bs] d'].
  destruct (n =? 0)%nat; [reflexivity|]. rewrite ebind_snd, receiver_same. apply obind_ext. intros [os e]. cbn [fst snd]. destruct e; [reflexivity|]. rewrite ebind_snd, IH. reflexivity.
Qed.

(** *** Which lines *)
Lemma ebind_inv {A B} (p : E A) (k : A -> E B) l y : ebind p k = (l, Ret y) -> exists l1 l2 x, p = (l1, Ret x) /\ k x = (l2, Ret y) /\ l = l1 ++ l2.
Proof.
  unfold ebind. destruct p as [l1 [x|f|]]; [|discriminate..]. destruct (k x) as [l2 o] eqn:EK. intros X. injection X as <- ->. eauto 10.
Qed.
Lemma ebind_ret {A B} (p : E A) (k : A -> E B) l x : p = (l, Ret x) -> ebind p k = (l ++ fst (k x), snd (k x)).
Proof. intros ->. unfold ebind. destruct (k x). reflexivity. Qed.
Lemma calm_inv {A} (o : outcome A) l x : calm o = (l, Ret x) -> l = [] /\ o = Ret x.
Proof. unfold calm. intros X. injection X as <- ->. auto. Qed.
Definition no_numberb (v : sml_value) : bool :=
  existsb (Z.eqb (Z.land (v_type v) 112)) [80; 96] && negb (existsb (Z.eqb (v_type v)) [81; 82; 84; 88; 97; 98; 100; 104]).
Lemma existsb_In x l : existsb (Z.eqb x) l = true <-> In x l.
Proof. rewrite existsb_exists. split; [intros (y & HI & HE); apply Z.eqb_eq in HE; now subst|]. intros HI. exists x. split; [exact HI|apply Z.eqb_refl]. Qed.
Lemma no_number_iff v : no_numberb v = true <-> no_number v.
Proof. unfold no_numberb, no_number. rewrite andb_true_iff, negb_true_iff, existsb_In, <- not_true_iff_false, existsb_In. tauto. Qed.
Definition entry_said (e : list_entry) : list err_line :=
  match le_value e with None => [EEntry] | Some v => if no_numberb v then [EType (v_type v)] else [] end.
Definition said (l : list list_entry) : list err_line := flat_map entry_said l.
Lemma said_app a b : said (a ++ b) = said a ++ said b.
Proof. apply flat_map_app. Qed.
Lemma said_ok l : entries_said l (said l).
Proof.
  induction l as [|e l IH]; [constructor|]. unfold said. cbn [flat_map]. unfold entry_said at 1. destruct (le_value e) as [v|] eqn:EV; [|now apply said_without].
  destruct (no_numberb v) eqn:EN; [apply said_type; [exact EV|now apply no_number_iff|exact IH]|]. apply said_shown with v; [exact EV| |exact IH]. rewrite <- no_number_iff. congruence.
Qed.
Lemma said_only l ls : entries_said l ls -> ls = said l.
Proof.
  induction 1 as [|e v l ls EV HN _ IH|e l ls EV _ IH|e v l ls EV HN _ IH]; [reflexivity|..]; unfold said in *; cbn [flat_map]; rewrite <- IH; unfold entry_said; rewrite EV; try reflexivity.
  - rewrite <- no_number_iff in HN. apply not_true_is_false in HN. now rewrite HN.
  - apply no_number_iff in HN. now rewrite HN.
Qed.
Lemma entry_lines e ls a : e_receive_entry e = (ls, Ret a) -> ls = entry_said e.
Proof.
  unfold e_receive_entry, entry_said. destruct (le_value e) as [v|]; intros X; injection X as <- _; [|reflexivity]. unfold no_numberb, to_double_lines. cbn [existsb].
  destruct (Z.eqb_spec (v_type v) SML_TYPE_OCTET_STRING) as [->|_]; [reflexivity|]. destruct (Z.eqb_spec (v_type v) SML_TYPE_BOOLEAN) as [->|_]; [reflexivity|].
  change SML_TYPE_FIELD with 112. change SML_TYPE_INTEGER with 80. change SML_TYPE_UNSIGNED with 96. destruct (Z.land (v_type v) 112 =? 80), (Z.land (v_type v) 112 =? 96); cbn [orb andb]; try reflexivity;
  match goal with |- (if ?b then _ else _) = _ => destruct b; reflexivity end.
Qed.
Lemma entries_lines l : forall ls a, e_receive_entries l = (ls, Ret a) -> ls = said l.
Proof.
  induction l as [|e l IH]; intros ls a X; cbn [e_receive_entries] in X; [now apply calm_inv in X|].
  apply ebind_inv in X. destruct X as (l1 & l2 & x & X1 & X & ->). apply ebind_inv in X. destruct X as (l3 & l4 & y & X2 & X & ->). apply calm_inv in X. destruct X as [-> _].
  rewrite (IH _ _ X2), app_nil_r, (entry_lines _ _ _ X1). reflexivity.
Qed.
Lemma message_lines m ls a : wf_message m -> e_receive_message m = (ls, Ret a) -> ls = said (entries_of m).
Proof.
  intros [_ _ _ W _] X. unfold e_receive_message in X. apply ebind_inv in X. destruct X as (l1 & l2 & t & X1 & X & ->). apply calm_inv in X1. destruct X1 as [-> X1]. cbn [app].
  unfold print_tag in X1. unfold entries_of. destruct (m_message_body m) as [[tg d]|]; [|discriminate]. destruct W as (tm & Et & _ & W). cbn [mb_tag mb_data] in *. subst tg. injection X1 as <-.
  destruct (Z.eqb_spec (mem_u tm) SML_MESSAGE_GET_LIST_RESPONSE) as [HE|HE]; unfold SML_MESSAGE_GET_LIST_RESPONSE in HE.
  - destruct d; try discriminate. now apply entries_lines in X.
  - apply calm_inv in X. destruct X as [-> _]. destruct d; try reflexivity. cbn [wf_body_data] in W. lia.
Qed.
Lemma messages_lines l : forall ls a, Forall wf_message l -> e_receive_messages l = (ls, Ret a) -> ls = said (flat_map entries_of l).
Proof.
  induction l as [|m l IH]; intros ls a HW X; cbn [e_receive_messages flat_map] in *; [now apply calm_inv in X|]. inversion HW as [|? ? W1 W2]; subst.
  apply ebind_inv in X. destruct X as (l1 & l2 & x & X1 & X & ->). apply ebind_inv in X. destruct X as (l3 & l4 & y & X2 & X & ->). apply calm_inv in X. destruct X as [-> _].
  rewrite (message_lines _ _ _ W1 X1), (IH _ _ W2 X2), app_nil_r, said_app. reflexivity.
Qed.
Lemma first_lines l : forall ls a e, Forall wf_message l -> e_receive_first l = (ls, Ret (a, e)) ->
  ls = said (flat_map entries_of (upto l)) /\ e = existsb is_list_responseb l.
Proof.
  induction l as [|m l IH]; intros ls a e HW X; cbn [e_receive_first upto existsb] in *; [apply calm_inv in X; destruct X as [-> X]; injection X as <- <-; auto|]. inversion HW as [|? ? W1 W2]; subst.
  apply ebind_inv in X. destruct X as (l1 & l2 & x & X1 & X & ->). apply ebind_inv in X. destruct X as (l3 & l4 & t & X2 & X & ->). apply calm_inv in X2. destruct X2 as [-> X2].
  rewrite (message_lines _ _ _ W1 X1).
  assert (HD : m_message_body m <> None) by (intros HD; unfold print_tag in X2; rewrite HD in X2; discriminate).
  destruct (tag_list H m W1 HD) as (t' & ET & HT). rewrite X2 in ET. injection ET as <-. rewrite <- list_response_iff in HT.
  assert (TE : (t =? SML_MESSAGE_GET_LIST_RESPONSE) = is_list_responseb m) by (destruct (t =? _), (is_list_responseb m); intuition congruence). rewrite TE in X. cbn [app].
  destruct (is_list_responseb m).
  - apply calm_inv in X. destruct X as [-> X]. injection X as _ <-. cbn [flat_map]. now rewrite !app_nil_r.
  - apply ebind_inv in X. destruct X as (l5 & l6 & [y e'] & X3 & X & ->). apply calm_inv in X. destruct X as [-> X]. injection X as _ <-. destruct (IH _ _ _ W2 X3) as [-> ->].
    cbn [flat_map orb snd]. rewrite app_nil_r, said_app. split; reflexivity.
Qed.
Lemma each_lines text (g : option sml_message_body -> list err_line) l :
  (forall b, g b = match b with Some (mkBody (Some m) _) => if existsb (Z.eqb (mem_u m)) implemented then [] else [text (mem_u m)] | _ => [] end) ->
  one_each H text l (flat_map (fun m => g (m_message_body m)) l).
Proof.
  intros HG. induction l as [|m l IH]; [constructor|]. cbn [flat_map]. rewrite (HG (m_message_body m)).
  destruct (m_message_body m) as [[[tm|] d]|] eqn:EB.
  - destruct (existsb _ _) eqn:EX.
    + cbn [app]. constructor; [|exact IH]. intros t (tg & dt & E1 & E2 & E3). rewrite EB in E1. injection E1 as <- _. apply E3. apply existsb_exists in EX. destruct EX as (x & HI & HX). apply Z.eqb_eq in HX. rewrite <- E2, HX. exact HI.
    + cbn [app]. apply (each_unknown H text m (mem_u tm)); [|exact IH]. exists tm, d. split; [exact EB|]. split; [reflexivity|]. intros HI.
      assert (existsb (Z.eqb (mem_u tm)) implemented = true) as HT; [|congruence]. apply existsb_exists. eexists. split; [exact HI|apply Z.eqb_refl].
  - cbn [app]. constructor; [|exact IH]. intros t (tg & dt & E1 & _). congruence.
  - cbn [app]. constructor; [|exact IH]. intros t (tg & dt & E1 & _). congruence.
Qed.
Lemma map_flat_map {A B C} (f : B -> C) (g : A -> list B) l : map f (flat_map g l) = flat_map (fun x => map f (g x)) l.
Proof. induction l as [|x l IH]; [reflexivity|]. cbn [flat_map]. now rewrite map_app, IH. Qed.
Lemma freed_lines l : one_each H (fun t => EParse (NotFreed t)) l (map EParse (flat_map (fun m => body_free_lines (m_message_body m)) l)).
Proof.
  rewrite map_flat_map. apply (each_lines (fun t => EParse (NotFreed t)) (fun b => map EParse (body_free_lines b))).
  intros [[[m|] dt]|]; cbn [body_free_lines]; try reflexivity. destruct (existsb _ _); reflexivity.
Qed.
Lemma parsed_lines l : one_each H (fun t => EParse (NotImplemented t)) l (map EParse (flat_map (fun m => body_lines (m_message_body m)) l)).
Proof.
  rewrite map_flat_map. apply (each_lines (fun t => EParse (NotImplemented t)) (fun b => map EParse (body_lines b))).
  intros [[[m|] dt]|]; cbn [body_lines]; try reflexivity. destruct (existsb _ _); reflexivity.
Qed.
Lemma receiver_lines v s fr ls os e : bytes_ok fr -> e_receiver v s fr = (ls, Ret (os, e)) -> frame_lines_are H s fr ls /\ (e = true <-> ends_with H s fr).
Proof.
  intros HB X. unfold e_receiver in X. destruct (_ <? _)%nat; [discriminate|]. fold (payload_of fr) in X. apply ebind_inv in X. destruct X as (l1 & l2 & f & X1 & X & ->).
  destruct (r_file_parse (payload_of fr)) as [pl o] eqn:EP. injection X1 as <- ->.
  apply ebind_inv in X. destruct X as (l3 & l4 & hd & X2 & X & ->). apply calm_inv in X2. destruct X2 as [-> _].
  apply ebind_inv in X. destruct X as (l5 & l6 & [a e'] & X3 & X & ->). cbn [fst snd] in X. injection X as <- _ <-.
  assert (HP : bytes_ok (payload_of fr)) by (apply Forall_firstn, Forall_skipn, HB).
  pose proof (same_file (payload_of fr)) as ES. rewrite EP in ES. cbn [snd] in ES. symmetry in ES. pose proof (file_parse_safe 7 (payload_of fr) min_size_7 HP) as HF. rewrite ES in HF.
  destruct HF as (_ & _ & _ & HF & _). assert (HW : Forall wf_message (f_messages f)) by (eapply Forall_impl; [|exact HF]; intros m Hm; eapply parsed_in_wf; eauto). clear HF.
  assert (EI : ends_with H s fr <-> s && existsb is_list_responseb (f_messages f) = true).
  { rewrite andb_true_iff, existsb_exists. split.
    - intros [-> (f' & m & E0 & I & Y)]. rewrite ES in E0. injection E0 as <-. split; [reflexivity|]. exists m. split; [exact I|]. now apply list_response_iff.
    - intros [-> (m & I & Y)]. split; [reflexivity|]. exists f, m. split; [exact ES|]. split; [exact I|]. now apply list_response_iff. }
  assert (HL : l5 = said (flat_map entries_of (looked s (f_messages f))) /\ e' = s && existsb is_list_responseb (f_messages f)).
  { destruct s; cbn [looked andb]; [exact (first_lines _ _ _ _ HW X3)|]. apply ebind_inv in X3. destruct X3 as (l7 & l8 & y & X4 & X & ->). apply calm_inv in X. destruct X as [-> X]. injection X as _ <-.
    rewrite app_nil_r. split; [exact (messages_lines _ _ _ HW X4)|reflexivity]. }
  destruct HL as [-> ->]. split; [|symmetry; exact EI]. exists pl, f, (looked s (f_messages f)), (said (flat_map entries_of (looked s (f_messages f)))), (if s && existsb is_list_responseb (f_messages f) then [] else file_free_lines f).
  split; [exact EP|]. split; [apply looked_ok|]. split; [apply said_ok|]. split; [reflexivity|]. split; intros HE.
  - apply EI in HE. now rewrite HE.
  - rewrite EI in HE. apply not_true_is_false in HE. rewrite HE. apply freed_lines.
Qed.
Lemma server_lines v s : forall fuel d nl fs d1, n_listen_loop fuel d = (nl, Ret (fs, d1)) -> Forall bytes_ok fs ->
  forall l os d', e_server_loop fuel v s d = (l, Ret (os, d')) -> stderr_of_run (frame_lines_are H s) (ends_with H s) (map ENotice nl) fs l.
Proof.
  induction fuel as [|fuel IH]; intros d nl fs d1 EN HB l os d' X; [discriminate|]. cbn [n_listen_loop e_server_loop] in *.
  apply ebind_inv in X. destruct X as (l1 & l2 & [[n bs] d2] & X1 & X & ->). 
  pose proof (fun m b dd => transport_lines MC_SML_BUFFER_LEN d m b dd ltac:(unfold MC_SML_BUFFER_LEN; lia)) as TL. pose proof (alike_transport MC_SML_BUFFER_LEN d) as EA.
  destruct (n_transport_read MC_SML_BUFFER_LEN d) as [l0 o]. injection X1 as <- ->. cbn [fst snd] in *. destruct (Nat.eqb_spec n 0) as [HN|HN].
  - injection EN as <- <- <-. apply calm_inv in X. destruct X as [-> _]. rewrite app_nil_r. constructor.
  - destruct (TL n bs d2 (eq_sym EA)) as [_ T2]. rewrite (T2 HN) in *. cbn [map app].
    destruct (n_listen_loop fuel d2) as [nl2 [[fs2 d3]| |]] eqn:EN2; [|discriminate..]. injection EN as <- <- <-. cbn [app]. inversion HB as [|? ? HB1 HB2]; subst.
    apply ebind_inv in X. destruct X as (l3 & l4 & [o1 e] & X3 & X & ->). destruct (receiver_lines _ _ _ _ _ _ HB1 X3) as [HL HE]. cbn [fst snd] in X. destruct e.
    + apply calm_inv in X. destruct X as [-> _]. rewrite app_nil_r. apply lines_last; [exact HL|now apply HE].
    + apply ebind_inv in X. destruct X as (l5 & l6 & [o2 d4] & X5 & X & ->). apply calm_inv in X. destruct X as [-> _]. rewrite app_nil_r.
      apply lines_next; [exact HL|intros HX; apply HE in HX; discriminate|]. exact (IH _ _ _ _ EN2 HB2 _ _ _ X5).
Qed.
End Facts.

(** ** C77 *)
Theorem C77_same (H : Host) v s d : snd (e_server v s d) = sml_server v s d.
Proof. apply server_same. Qed.
Print Assumptions C77_same.
(** For every device and all settings of -v and -s: stderr has the lines of the frames
    that are looked at, in their order, and after them those about the end of listening
    (C76), unless -s ended the program before. *)
Theorem C77_program (H : Host) v s d l os d' : device_bytes d -> e_server v s d = (l, Ret (os, d')) ->
  exists nl fs d1, n_transport_listen d = (nl, Ret (fs, d1)) /\ stderr_of_run (frame_lines_are H s) (ends_with H s) (map ENotice nl) fs l.
Proof.
  intros HB X. destruct (C76_ending d) as (nl & parts & d1 & w & EN & _). exists nl, (map snd parts), d1. split; [exact EN|].
  assert (EL : sml_transport_listen d = Ret (map snd parts, d1)) by (rewrite <- (proj2 (C76_same 16 d)), EN; reflexivity).
  refine (server_lines v s _ _ _ _ _ EN _ _ _ _ X). eapply Forall_impl; [|exact (listen_shape _ _ _ _ EL HB)]. intros f Hf. apply Hf.
Qed.
Print Assumptions C77_program.
(** -v does not change what is written to stderr. *)
Theorem C77_verbose (H : Host) s d l os d' : e_server true s d = (l, Ret (os, d')) -> exists os', e_server false s d = (l, Ret (os', d')).
Proof.
  unfold e_server. generalize (S (fd_size d)) as fuel. intros fuel. revert d l os d'. induction fuel as [|fuel IH]; intros d l os d' X; [discriminate|].
  cbn [e_server_loop] in *. apply ebind_inv in X. destruct X as (l1 & l2 & [[n bs] d2] & X1 & X & ->). rewrite (ebind_ret _ _ _ _ X1). destruct (n =? 0)%nat.
  { apply calm_inv in X. destruct X as [-> X]. injection X as <- <-. exists []. reflexivity. }
  apply ebind_inv in X. destruct X as (l3 & l4 & [o1 e] & X3 & X & ->).
  assert (X4 : exists o1', e_receiver false s bs = (l3, Ret (o1', e))).
  { clear X. unfold e_receiver in *. destruct (_ <? _)%nat; [discriminate|]. apply ebind_inv in X3. destruct X3 as (a1 & a2 & f & A1 & X & ->). rewrite (ebind_ret _ _ _ _ A1).
    apply ebind_inv in X. destruct X as (a3 & a4 & hd & A2 & X & ->). apply calm_inv in A2. destruct A2 as [-> _]. rewrite (ebind_ret (calm (Ret [])) _ [] _ eq_refl).
    apply ebind_inv in X. destruct X as (a5 & a6 & r & A3 & X & ->). rewrite (ebind_ret _ _ _ _ A3). injection X as <- _ <-. cbn [fst snd app]. eexists. reflexivity. }
  destruct X4 as (o1' & X4). cbn [fst snd] in X. rewrite (ebind_ret _ _ _ _ X4). cbn [fst snd]. destruct e.
  - apply calm_inv in X. destruct X as [-> X]. injection X as <- <-. eexists. reflexivity.
  - apply ebind_inv in X. destruct X as (l5 & l6 & [o2 d4] & X5 & X & ->). apply calm_inv in X. destruct X as [-> X]. injection X as <- <-. cbn [fst snd] in *.
    destruct (IH _ _ _ _ X5) as (o2' & X6). rewrite (ebind_ret _ _ _ _ X6). cbn [fst snd calm]. eexists. reflexivity.
Qed.
Print Assumptions C77_verbose.

(** *** Nothing on stderr *)
Lemma each_silent (H : Host) text l : one_each H text l [] -> Forall (fun m => forall t, ~ unknown H m t) l.
Proof. remember [] as ls eqn:EL. induction 1; constructor; auto; discriminate. Qed.
Lemma entries_silent l : entries_said l [] -> Forall (fun e => exists v, le_value e = Some v /\ ~ no_number v) l.
Proof. remember [] as ls eqn:EL. induction 1; try discriminate; constructor; eauto. Qed.
(** If nothing is on stderr, no frame had anything in it but intact messages and fill
    bytes, all messages are of known types, all times and all entries of lists have
    values, numbers are numbers, and the device was read to its end, or to a frame that is too long. *)
Theorem C77_silence (H : Host) v d os d' : device_bytes d -> e_server v false d = ([], Ret (os, d')) ->
  exists fs d1, sml_transport_listen d = Ret (fs, d1) /\
    Forall (fun fr => exists f, sml_file_parse (payload_of fr) = Ret f /\
      (short_chains (payload_of fr) -> file_with (f_messages f) 0 (payload_of fr) []) /\
      Forall (fun m => forall t, ~ unknown H m t) (f_messages f) /\ Forall (fun m => message_lost m = 0%nat) (f_messages f) /\
      Forall (fun e => exists v, le_value e = Some v /\ ~ no_number v) (flat_map entries_of (f_messages f))) fs /\
    (delivered d1 = [] \/ exists before p, delivered d = map Some (before ++ [27; 27; 27; 27; 1; 1; 1; 1] ++ p) ++ delivered d1 /\ length p = Z.to_nat 8080 /\ unescaped p).
Proof.
  intros HB X. destruct (C77_program H v false d _ _ _ HB X) as (nl & fs & d1 & EN & RL). exists fs, d1.
  assert (EL : sml_transport_listen d = Ret (fs, d1)) by (rewrite <- (proj2 (C76_same 16 d)), EN; reflexivity). split; [exact EL|].
  pose proof (listen_shape _ _ _ _ EL HB) as SH. assert (HX : Forall (fun fr => frame_lines_are H false fr []) fs /\ nl = []).
  { clear - RL. remember [] as l eqn:EQ. induction RL as [|fr fs ls rest HF HN RL IH|fr fs ls HF HE].
    - split; [constructor|]. destruct nl; [reflexivity|discriminate].
    - apply app_eq_nil in EQ. destruct EQ as [-> ->]. destruct (IH eq_refl) as [IH1 IH2]. split; [constructor; assumption|exact IH2].
    - destruct HE as [HE _]. discriminate. }
  destruct HX as [HX ->]. split.
  - rewrite Forall_forall in *. intros fr HI. destruct (SH fr HI) as (B1 & B2 & B3). destruct (HX fr HI) as (pl & f & shown & sd & freed & EP & LA & ES & EQ & _ & HF).
    symmetry in EQ. apply app_eq_nil in EQ. destruct EQ as [Q1 Q2]. apply app_eq_nil in Q2. destruct Q2 as [Q2 Q3]. apply map_eq_nil in Q1. subst pl sd freed. cbn [looked_at] in LA. subst shown.
    assert (PB : bytes_ok (payload_of fr)) by (apply Forall_firstn, Forall_skipn, B1).
    exists f. split; [rewrite <- (C75_same H), EP; reflexivity|]. split; [intros HS|split; [|split]].
    + apply (C75_silence H _ _ _ PB) in EP; [now apply EP| |exact HS]. unfold payload_of. rewrite firstn_length, skipn_length. lia.
    + apply (each_silent H (fun t => EParse (NotFreed t))). apply HF. intros [HE _]. discriminate.
    + eapply Forall_impl; [|exact (C78_silence H _ _ EP)]. intros m HM. apply HM.
    + now apply entries_silent.
  - destruct (delivered d1) eqn:ED; [now left|]. right. destruct (C76_early_end _ _ _ EN) as (before & p & Y); [rewrite ED; discriminate|]. rewrite ED in Y. eauto.
Qed.
Print Assumptions C77_silence.

(** *** From the sender to stderr *)
(** What is on stderr for the messages [l] of one transmission: one line for each entry
    without a value.  (In messages that can be read again, numbers are numbers.) *)
Definition without_value (e : list_entry) : bool := match le_value e with None => true | Some _ => false end.
Definition meter_lines (H : Host) (s : bool) (l : list sml_message) (ls : list err_line) : Prop :=
  exists parsed shown freed, looked_at s l shown /\
    one_each H (fun t => EParse (NotImplemented t)) l parsed /\
    ls = parsed ++ repeat EEntry (length (filter without_value (flat_map entries_of shown))) ++ freed /\
    (s = true /\ Exists is_list_response l -> freed = []) /\
    (~ (s = true /\ Exists is_list_response l) -> one_each H (fun t => EParse (NotFreed t)) l freed).
Section Meter.
Context {H : Host}.
Lemma rbind_quiet {A B} (p : P A) (k : A -> R B) s x s1 : p s = Ret (x, s1) -> rbind (quiet p) k s = k x s1.
Proof. intros E. unfold rbind, quiet. rewrite E. destruct (k x s1). reflexivity. Qed.
Lemma rbind_ret {A B} (p : R A) (k : A -> R B) s l x s1 : p s = (l, Ret (x, s1)) -> rbind p k s = (l ++ fst (k x s1), snd (k x s1)).
Proof. intros E. unfold rbind. rewrite E. destruct (k x s1). reflexivity. Qed.
Lemma r_zeros k : forall fuel msgs s, (k < fuel)%nat -> rest s = repeat 0 k -> fst (r_file_loop fuel msgs s) = [].
Proof.
  induction k as [|k IH]; intros fuel msgs s Hf R; destruct fuel as [|fuel]; try lia; cbn [r_file_loop].
  - rewrite (rbind_quiet _ _ _ _ _ (at_end_nil _ R)). reflexivity.
  - cbn [repeat] in R. rewrite (rbind_quiet _ _ _ _ _ (at_end_cons _ _ _ R)). rewrite (rbind_quiet _ _ _ _ _ (current_cons _ _ _ R)).
    change (0 =? SML_MESSAGE_END) with true. cbv iota. rewrite (rbind_quiet _ _ _ _ _ (update_eq 1 _)).
    apply IH; [lia|]. rewrite rest_set_cursor, R. reflexivity.
Qed.
(** In what can be read again after it was written, every time has its value. *)
Ltac elems HR := apply every_list in HR; destruct HR as [_ HR]; repeat (apply Forall_cons_iff in HR; let HR1 := fresh "R" in destruct HR as [HR1 HR]); clear HR.
Lemma readable_time o : every readable (time_item o) -> time_lost o = 0%nat.
Proof.
  destruct o as [[tag [m|]]|]; intros HR; try reflexivity. cbn [time_item tm_data tm_tag] in HR. elems HR. apply every_here in R0. destruct R0.
Qed.
Lemma all_zero {A} (f : A -> nat) l : (forall x, In x l -> f x = 0%nat) -> of_all f l = 0%nat.
Proof. unfold of_all, list_sum. induction l as [|x l IH]; intros HL; [reflexivity|]. cbn [map fold_right]. rewrite (HL x (or_introl eq_refl)), IH; [reflexivity|]. intros y Hy. apply HL. now right. Qed.
Lemma readable_all {A} (g : A -> item) (f : A -> nat) l : (forall x, every readable (g x) -> f x = 0%nat) -> every readable (Item.list_of g l) -> of_all f l = 0%nat.
Proof.
  intros HG HR. unfold Item.list_of in HR. apply every_list in HR. destruct HR as [_ HR]. rewrite Forall_map, Forall_forall in HR. apply all_zero. auto.
Qed.
Lemma readable_entry e : every readable (entry_item e) -> entry_lost e = 0%nat.
Proof. intros HR. unfold entry_item in HR. elems HR. now apply readable_time. Qed.
Lemma readable_ppv o : every readable (ppv_item o) -> of_opt ppv_lost o = 0%nat.
Proof.
  destruct o as [[tag []]|]; intros HR; try reflexivity; cbn [ppv_item ppv_tag ppv_dat] in HR; elems HR; cbn [of_opt ppv_lost ppv_dat].
  - cbn [tupel_item] in R0. elems R0. now apply readable_time.
  - exact (readable_time (Some t) R0).
Qed.
Lemma readable_tree t : every readable (node_item t) -> tree_lost t = 0%nat.
Proof.
  induction t as [name value children IH] using tree_ind'. intros HR. cbn [node_item] in HR. elems HR. cbn [tree_lost]. rewrite (readable_ppv _ R0). cbn [Nat.add].
  destruct children as [|c cs]; [reflexivity|]. apply every_list in R1. destruct R1 as [_ R1]. rewrite Forall_map, Forall_forall in R1. rewrite Forall_forall in IH. apply all_zero. intros x Hx. apply IH; [exact Hx|]. apply R1, Hx.
Qed.
Lemma readable_tree_opt o : every readable (tree_item o) -> of_opt tree_lost o = 0%nat.
Proof. destruct o; [apply readable_tree|reflexivity]. Qed.
Lemma readable_lost m : Forall (every readable) (message_items m) -> message_lost m = 0%nat.
Proof.
  intros HR. unfold message_items in HR. do 3 apply Forall_inv_tail in HR. apply Forall_inv in HR. unfold message_lost. destruct (m_message_body m) as [[tag d]|]; [|reflexivity].
  cbn [body_item mb_tag mb_data] in HR. elems HR. cbn [body_lost of_opt mb_data]. destruct d; cbn [body_data_item data_lost] in *; try reflexivity; elems R0.
  - now apply readable_time.
  - rewrite !readable_time, readable_tree_opt by assumption. reflexivity.
  - rewrite readable_time by assumption. destruct (gr_period_list m0) as [l|]; [|reflexivity]. cbn [of_opt seq_item] in *. rewrite (readable_all per_entry_item (of_opt period_lost) l); [reflexivity| |assumption].
    intros [e|] HE; [|reflexivity]. cbn [per_entry_item] in HE. elems HE. now apply readable_time.
  - rewrite !readable_time by assumption. reflexivity.
  - now apply readable_tree_opt.
  - now apply readable_tree_opt.
  - rewrite !readable_time by assumption. rewrite Nat.add_0_r. cbn [Nat.add]. destruct (lr_val_list m0) as [|e l]; [reflexivity|]. apply (readable_all entry_item entry_lost (e :: l)); [apply readable_entry|assumption].
  - now apply readable_tree_opt.
Qed.
(** … and every number is a number. *)
Lemma readable_number v : wf_entry_value v -> every readable (value_item (Some v)) -> no_numberb v = false.
Proof.
  intros HV HR. unfold no_numberb. assert (HT : Z.land (v_type v) 15 = 0 -> In (Z.land (v_type v) 112) [80; 96] -> False).
  { intros HZ HI. cbn [value_item] in HR. rewrite HZ in HR. destruct HI as [HI|[HI|[]]]; rewrite <- HI in HR; cbn [Z.eqb Pos.eqb orb] in HR; destruct (v_data v); cbn [Z.to_nat firstn number_bytes] in HR; apply every_here in HR; exact HR. }
  destruct (existsb (Z.eqb (Z.land (v_type v) 112)) [80; 96]) eqn:EI; [|reflexivity]. cbn [andb]. apply negb_false_iff. apply existsb_In in EI.
  assert (HC : In (v_type v) [81; 82; 84; 88; 97; 98; 100; 104] \/ Z.land (v_type v) 15 = 0); [|destruct HC as [HC|HC]; [now apply existsb_In|destruct (HT HC EI)]].
  clear HT HR EI. destruct HV as [HV|(v0 & HV & ->)]; destruct HV as [| |w ? W|w ? W| |]; try destruct W as [->|[->|[->| ->]]];
  match goal with |- In ?a _ \/ _ => let b := eval vm_compute in a in change a with b end; try (right; reflexivity); left; cbn [In]; tauto.
Qed.
Lemma said_readable l : Forall round_trippable l -> said (flat_map entries_of l) = repeat EEntry (length (filter without_value (flat_map entries_of l))).
Proof.
  induction 1 as [|m l (W & Rd & _) _ IH]; [reflexivity|]. cbn [flat_map]. rewrite said_app, filter_app, app_length, repeat_app, IH. f_equal. clear IH.
  unfold message_items in Rd. do 3 apply Forall_inv_tail in Rd. apply Forall_inv in Rd. destruct W as [_ _ _ (b & EB & (t & ET & _ & WD))]. unfold entries_of. rewrite EB in *. destruct b as [tg d]. cbn [mb_tag mb_data] in *.
  destruct d as [| | | | | | | | | | | |r|]; try reflexivity. cbn [body_item mb_tag mb_data body_data_item] in Rd. elems Rd. elems R0. destruct WD as [_ WD]. destruct WD. clear - R5 wflr_5.
  assert (HE : forall e, In e (lr_val_list r) -> entry_said e = if without_value e then [EEntry] else []).
  { intros e HI. unfold entry_said, without_value. destruct (le_value e) as [v|] eqn:EV; [|reflexivity]. rewrite readable_number; [reflexivity|..].
    - rewrite Forall_forall in wflr_5. specialize (wflr_5 e HI). destruct wflr_5. rewrite EV in wfe_value. exact wfe_value.
    - assert (HX : every readable (entry_item e)).
      { destruct (lr_val_list r) as [|e0 l]; [destruct HI|]. cbn [entries_item] in R5. unfold Item.list_of in R5. apply every_list in R5. destruct R5 as [_ R5]. rewrite Forall_map, Forall_forall in R5. auto. }
      unfold entry_item in HX. elems HX. rewrite EV in *. assumption. }
  revert HE. clear. generalize (lr_val_list r) as l. induction l as [|e l IH]; intros HE; [reflexivity|]. unfold said. cbn [flat_map filter]. rewrite (HE e (or_introl eq_refl)). fold (said l). rewrite IH by (intros x Hx; apply HE; now right).
  destruct (without_value e); reflexivity.
Qed.
Lemma r_messages l : forall fuel msgs s k, Forall round_trippable l -> (length (flat_map message_bytes l) + k < fuel)%nat ->
  rest s = flat_map message_bytes l ++ repeat 0 k -> error s = false -> small s -> Z.of_nat (length msgs + length l) <= 32767 ->
  fst (r_file_loop fuel msgs s) = flat_map (fun m => body_lines (m_message_body m)) l.
Proof.
  induction l as [|m l IH]; intros fuel msgs s k HR Hf R He Sm HC.
  - cbn [flat_map app length map] in *. now apply r_zeros with (k := k).
  - apply Forall_cons_iff in HR. destruct HR as [(W & Rd & St) HR]. cbn [flat_map map] in *. rewrite app_length in *. rewrite <- app_assoc in R.
    destruct fuel as [|fuel]; [lia|]. cbn [r_file_loop]. destruct (message_hd m) as (t & EM).
    assert (R0 : rest s = 118 :: t ++ flat_map message_bytes l ++ repeat 0 k) by (rewrite R, EM; reflexivity).
    rewrite (rbind_quiet _ _ _ _ _ (at_end_cons _ _ _ R0)). rewrite (rbind_quiet _ _ _ _ _ (current_cons _ _ _ R0)). change (118 =? SML_MESSAGE_END) with false. cbv iota.
    pose proof (message_fwd m s _ W Rd R He Sm) as EF. rewrite sealed_stable in EF by exact St.
    pose proof (same_message s) as ES. rewrite EF in ES. destruct (r_message_parse s) as [l1 o1] eqn:EP. cbn [snd] in ES. subst o1.
    pose proof (message_exact _ _ _ _ EP) as EX. cbn iota beta in EX. destruct EX as (ig & EX & _ & LI). change (message_lost (sealed m)) with (message_lost m) in LI. rewrite (readable_lost m Rd) in LI. destruct ig; [|discriminate]. change (m_message_body (sealed m)) with (m_message_body m) in EX. cbn [app] in EX. subst l1.
    rewrite (rbind_ret _ _ _ _ _ _ EP). cbn [fst]. f_equal.
    assert (EH : sml_buf_has_errors (at_ s (length (message_bytes m)) false) = Ret (false, at_ s (length (message_bytes m)) false)) by (unfold sml_buf_has_errors; rewrite at_error, He; reflexivity).
    rewrite (rbind_quiet _ _ _ _ _ EH). cbv iota.
    assert (EA : sml_file_add_message msgs (sealed m) (at_ s (length (message_bytes m)) false) = Ret (msgs ++ [sealed m], at_ s (length (message_bytes m)) false)).
    { unfold sml_file_add_message. cbn [length] in HC. destruct (Z.leb_spec (Z.of_nat (length msgs) + 1) 32767); [reflexivity|lia]. }
    rewrite (rbind_quiet _ _ _ _ _ EA). assert (HL : (1 <= length (message_bytes m))%nat) by (rewrite EM; cbn [length]; lia).
    apply IH with (k := k); auto.
    + lia.
    + now apply at_app.
    + rewrite app_length. cbn [length] in *. lia.
Qed.
Lemma transmission_payload noise l sent : transmission H (noise, l, sent) -> exists k, payload_of sent = flat_map message_bytes l ++ repeat 0 k /\ (length sent = 16 + length (flat_map message_bytes l) + k)%nat.
Proof.
  intros (HN & HR & HC & HS & (n & c & e & o & wr & r & f & Hn & E) & HU & HL).
  assert (HW : Forall writable l) by (eapply Forall_impl; [|exact HR]; intros m Hm; apply Hm).
  assert (HZ : Forall (fun m => Forall (every (size_ok false)) (message_items m)) l) by (eapply Forall_impl; [|exact HR]; intros m Hm; apply readable_sizes, Hm).
  destruct (frame_write false l (repeat 0 n) HW HZ (zero_bytes n) ltac:(rewrite repeat_length; lia) c e o) as [F1 F2]. rewrite repeat_length in F1, F2.
  unfold sml_transport_write in E. cbn [f_messages f_buf] in E. set (bs := flat_map message_bytes l) in *.
  destruct (Nat.le_gt_cases (frame_size (length bs)) n) as [HX|HX]; [|rewrite (F2 HX) in E; discriminate].
  destruct (F1 HX) as (ms & payload & o' & EF & LP & _ & Z). destruct Z as [-> ->].
  { right. unfold frame_size in HX. replace n with (8 + (length bs + (n - 8 - length bs)))%nat by lia. rewrite repeat_app, skipn_app, skipn_all2 by (rewrite repeat_length; lia).
    rewrite repeat_length, Nat.sub_diag. cbn [app skipn]. rewrite repeat_app, firstn_app, repeat_length, Nat.sub_diag, firstn_O, app_nil_r. apply firstn_all2. rewrite repeat_length. lia. }
  rewrite EF in E. cbn [cursor buffer] in E. pose proof (frame_of_length bs) as LF.
  assert (FL : firstn (frame_size (length bs)) (frame_of bs ++ skipn (frame_size (length bs)) (repeat 0 n)) = frame_of bs).
  { rewrite firstn_app, LF, Nat.sub_diag, firstn_O, app_nil_r. apply firstn_all2. lia. }
  rewrite FL in E. assert (ES : sent = frame_of bs) by congruence. exists (pad_of (length bs)). rewrite ES. split; [|rewrite LF; reflexivity].
  unfold payload_of. rewrite LF. unfold frame_size. unfold frame_of, frame_head. change start_seq with [27; 27; 27; 27; 1; 1; 1; 1]. rewrite <- !app_assoc. cbn [app skipn].
  rewrite app_assoc, firstn_app. replace (_ - length (bs ++ _))%nat with 0%nat by (rewrite app_length, repeat_length; lia). rewrite firstn_O, app_nil_r. apply firstn_all2. rewrite app_length, repeat_length. lia.
Qed.
Lemma transmission_lines noise l sent : transmission H (noise, l, sent) ->
  exists g, r_file_parse (payload_of sent) = (flat_map (fun m => body_lines (m_message_body m)) l, Ret g) /\ map m_message_body (f_messages g) = map m_message_body l.
Proof.
  intros HT. destruct (transmission_parsed _ _ _ _ HT) as (g & EG & EB & _). exists g. split; [|exact EB]. destruct (transmission_payload _ _ _ HT) as (k & EP & LS).
  pose proof (same_file (payload_of sent)) as ES. rewrite EG in ES. destruct HT as (_ & HR & HC & _ & _ & _ & HL).
  pose proof (r_messages l (S (length (payload_of sent))) [] (mkBuf (payload_of sent) 0 false false) k HR) as HM.
  unfold r_file_parse in *. destruct (r_file_loop _ _ _) as [ls [[r s]| |]]; cbn [fst snd] in *; try discriminate. rewrite HM, <- ES; [reflexivity|..].
  - rewrite EP, app_length, repeat_length. lia.
  - exact EP.
  - reflexivity.
  - unfold small, buffer_len. cbn [buffer]. rewrite EP, app_length, repeat_length. lia.
  - cbn [length]. lia.
Qed.
Lemma looked_body s : forall l l', map m_message_body l = map m_message_body l' -> map m_message_body (looked s l) = map m_message_body (looked s l').
Proof.
  destruct s; [|auto]. cbn [looked]. induction l as [|m l IH]; intros [|m' l'] E; try discriminate; [reflexivity|]. cbn [map] in E. injection E as E1 E2. cbn [upto].
  replace (is_list_responseb m') with (is_list_responseb m) by (unfold is_list_responseb; now rewrite E1). destruct (is_list_responseb m); cbn [map]; [now rewrite E1|]. rewrite E1. f_equal. auto.
Qed.
Lemma each_body text l : forall l' ls, map m_message_body l = map m_message_body l' -> one_each H text l ls -> one_each H text l' ls.
Proof.
  induction l as [|m l IH]; intros [|m' l'] ls E X; try discriminate; [exact X|]. cbn [map] in E. injection E as E1 E2.
  inversion X as [|? ? ? HU X'|? t ? ? HU X']; subst.
  - constructor; [|eauto]. intros t. unfold unknown. rewrite <- E1. apply HU.
  - apply each_unknown; [|eauto]. unfold unknown in *. rewrite <- E1. exact HU.
Qed.
Lemma exists_body l l' : map m_message_body l = map m_message_body l' -> Exists is_list_response l -> Exists is_list_response l'.
Proof.
  intros E X. apply Exists_exists in X. destruct X as (m & Hm & L). apply (in_map m_message_body) in Hm. rewrite E in Hm. apply in_map_iff in Hm. destruct Hm as (m' & EM & Hm').
  apply Exists_exists. exists m'. split; [exact Hm'|]. eapply list_response_body; [|exact L]. now symmetry.
Qed.
Lemma run_map {A B} (g : A -> B) (P : B -> list err_line -> Prop) (P' : A -> list err_line -> Prop) (E : B -> Prop) (E' : A -> Prop) last w l :
  (forall x, In x w -> (forall ls, P (g x) ls -> P' x ls) /\ (E (g x) <-> E' x)) -> stderr_of_run P E last (map g w) l -> stderr_of_run P' E' last w l.
Proof.
  revert l. induction w as [|x w IH]; intros l HX RL; cbn [map] in RL.
  - inversion RL; subst. constructor.
  - destruct (HX x (or_introl eq_refl)) as [H1 H2]. inversion RL as [|? ? ls rest HP HE RL'|? ? ls HP HE]; subst.
    + apply lines_next; [auto|tauto|]. apply IH; [|exact RL']. intros y Hy. apply HX. now right.
    + apply lines_last; [auto|tauto].
Qed.
End Meter.
(** Any number of transmissions, with noise between them, up to the end of the device:
    the program runs through, and stderr has exactly the lines about messages of
    unknown types and entries without a value. *)
Theorem C77_meter (H : Host) v s w tail d : Forall (transmission H) w -> ~ In 27 tail ->
  delivered d = map Some (flat_map (fun x => fst (fst x) ++ snd x) w ++ tail) ->
  exists l os d', e_server v s d = (l, Ret (os, d')) /\
    stderr_of_run (fun x => meter_lines H s (snd (fst x))) (fun x => s = true /\ Exists is_list_response (snd (fst x))) [] w l.
Proof.
  intros HW HT HD. destruct (C73_meter_to_screen H sample_pow10 v s w tail d C67_pow HW HT HD) as (os & d' & _ & ES & _).
  set (fs := map (fun x : list Z * list sml_message * list Z => (fst (fst x), snd x)) w).
  assert (HC : clean fs).
  { unfold fs, clean. rewrite Forall_map. eapply Forall_impl; [|exact HW]. intros [[noise l] sent] HX. cbn [fst snd]. destruct (transmission_frame _ _ _ _ HX) as (HF & _).
    destruct HX as (HN & _ & _ & _ & _ & _ & HL). auto. }
  destruct (C76_end_of_device d fs tail HC HT) as (d1 & EN & _).
  { rewrite HD. unfold fs. rewrite !flat_map_concat_map, map_map. reflexivity. }
  assert (EM : map snd fs = map snd w) by (unfold fs; rewrite map_map; reflexivity). rewrite EM in EN. rewrite <- (C77_same H v s d) in ES.
  destruct (e_server v s d) as [l o] eqn:EE. cbn [snd] in ES. subst o. exists l, os, d'. split; [reflexivity|].
  assert (HB : Forall bytes_ok (map snd w)) by (rewrite Forall_map; eapply Forall_impl; [|exact HW]; intros [[noise ms] sent] HX; apply (transmission_frame _ _ _ _ HX)).
  pose proof (server_lines v s _ _ _ _ _ EN HB _ _ _ EE) as RL. cbn [map] in RL. refine (run_map snd _ _ _ _ _ _ _ _ RL).
  intros [[noise ms] sent] HI. rewrite Forall_forall in HW. specialize (HW _ HI). cbn [fst snd]. destruct (transmission_lines _ _ _ HW) as (g & EP & EB).
  pose proof (same_file (payload_of sent)) as EG. rewrite EP in EG. cbn [snd] in EG. symmetry in EG.
  assert (EE2 : ends_with H s sent <-> s = true /\ Exists is_list_response ms).
  { split.
    - intros [-> (f & m & EF & Hm & L)]. assert (f = g) as -> by congruence. split; [reflexivity|]. apply (exists_body _ _ EB). apply Exists_exists. eauto.
    - intros [-> X]. split; [reflexivity|]. apply (exists_body _ _ (eq_sym EB)) in X. apply Exists_exists in X. destruct X as (m & Hm & L). eauto. }
  split; [|exact EE2]. intros ls (pl & f & shown & sd & freed & EP2 & LA & HS & -> & F1 & F2). rewrite EP in EP2. injection EP2 as <- <-. apply looked_only in LA. subst shown. apply said_only in HS. subst sd.
  exists (map EParse (flat_map (fun m => body_lines (m_message_body m)) ms)), (looked s ms), freed. split; [apply looked_ok|]. split; [apply parsed_lines|].
  rewrite (entries_of_body _ _ (looked_body s _ _ EB)), said_readable by (apply looked_wf; destruct HW as (_ & HR & _); exact HR). split; [reflexivity|]. rewrite <- EE2. split; [exact F1|]. intros HX. exact (each_body _ _ _ _ EB (F2 HX)).
Qed.
Print Assumptions C77_meter.
(** … so nothing if all types are known and all entries have values. *)
Theorem C77_meter_silent (H : Host) v s w tail d : Forall (transmission H) w -> ~ In 27 tail ->
  delivered d = map Some (flat_map (fun x => fst (fst x) ++ snd x) w ++ tail) ->
  Forall (fun x => Forall (fun m => forall t, ~ unknown H m t) (snd (fst x)) /\ Forall (fun e => le_value e <> None) (flat_map entries_of (snd (fst x)))) w ->
  exists os d', e_server v s d = ([], Ret (os, d')).
Proof.
  intros HW HT HD HK. destruct (C77_meter H v s w tail d HW HT HD) as (l & os & d' & E & RL). exists os, d'. rewrite E. f_equal. clear E HW HD.
  assert (HE : forall text ms ls, Forall (fun m => forall t, ~ unknown H m t) ms -> one_each H text ms ls -> ls = []).
  { intros text ms ls HF X. induction X as [|m ms ls HU X IH|m t ms ls HU X IH]; [reflexivity|..]; apply Forall_cons_iff in HF; destruct HF as [HF1 HF2]; [auto|]. destruct (HF1 t HU). }
  assert (HM : forall ms ls, Forall (fun m => forall t, ~ unknown H m t) ms -> Forall (fun e => le_value e <> None) (flat_map entries_of ms) -> meter_lines H s ms ls -> ls = []).
  { intros ms ls K1 K2 (parsed & shown & freed & LA & X1 & -> & F1 & F2). rewrite (HE _ _ _ K1 X1). cbn [app].
    assert (HF : freed = []).
    { destruct (existsb is_list_responseb ms) eqn:EX; destruct s; [|apply (HE (fun t => EParse (NotFreed t)) _ _ K1), F2; intros [Y _]; discriminate| |apply (HE (fun t => EParse (NotFreed t)) _ _ K1), F2; intros [Y _]; discriminate].
      - apply F1. split; [reflexivity|]. apply existsb_exists in EX. destruct EX as (m & Hm & L). apply Exists_exists. exists m. split; [exact Hm|]. now apply list_response_iff.
      - apply (HE (fun t => EParse (NotFreed t)) _ _ K1), F2. intros [_ Y]. apply Exists_exists in Y. destruct Y as (m & Hm & L). apply list_response_iff in L. assert (existsb is_list_responseb ms = true); [|congruence]. apply existsb_exists. eauto. }
    subst freed. rewrite app_nil_r. apply looked_only in LA. subst shown.
    assert (HS : Forall (fun m => In m ms) (looked s ms)) by (apply looked_wf, Forall_forall; auto).
    replace (filter _ _) with (@nil list_entry); [reflexivity|]. symmetry. destruct (filter without_value (flat_map entries_of (looked s ms))) as [|e t] eqn:EF; [reflexivity|]. exfalso.
    assert (HI : In e (filter without_value (flat_map entries_of (looked s ms)))) by (rewrite EF; now left). apply filter_In in HI. destruct HI as [HI HV]. apply in_flat_map in HI. destruct HI as (m & Hm & He).
    rewrite Forall_forall in HS, K2. assert (le_value e <> None) as HN by (apply K2, in_flat_map; eauto). unfold without_value in HV. destruct (le_value e); [discriminate|contradiction]. }
  induction RL as [|x w ls rest HP HN RL IH|x w ls HP HX]; [reflexivity|..]; apply Forall_cons_iff in HK; destruct HK as [[K1 K2] HK].
  - rewrite (HM _ _ K1 K2 HP). auto.
  - exact (HM _ _ K1 K2 HP).
Qed.
Print Assumptions C77_meter_silent.

(** *** Examples *)
(** a message of a type the library does not know, and a list with an entry without a value *)
Definition sample_new (H : Host) : sml_message :=
  mkMsg (Some [1; 2]) (Some (u8 0)) None (Some (mkBody (Some (sml_u32_init 2305)) BNull)) None.
Example sample_new_ok : round_trippable (H := LittleEndian) (sample_new LittleEndian).
Proof.
  unfold sample_new. split; [|split; [apply all_readable; vm_compute; reflexivity|exact I]].
  constructor; [wfs..|]. eexists. split; [reflexivity|]. eexists. split; [reflexivity|]. split; [wfs|]. cbn [wf_body_data mb_data].
  change (mem_u (sml_u32_init 2305)) with 2305. cbn [In]. lia.
Qed.
Definition sample_empty (H : Host) : sml_message :=
  mkMsg (Some [1; 2]) (Some (u8 0)) (Some (u8 0))
   (Some (mkBody (Some (sml_u32_init 1793)) (BListRes (mkListRes None (Some [10; 1]) None None
      [ mkEntry (Some [1; 0; 96; 50; 1; 1]) None None None None None None;
        mkEntry (Some [1; 0; 16; 7; 0; 255]) None None (Some (u8 27)) (Some (u8 254)) (Some (mkValue 82 (VNum [255; 16]))) None ]
      None None)))) None.
Example sample_empty_ok : round_trippable (H := LittleEndian) (sample_empty LittleEndian).
Proof. unfold sample_empty. sample. apply unaffected_stable. reflexivity. Qed.
Definition mixed (H : Host) : list sml_message := [sample_new H; sample_empty H; sample_new H].
Definition mixed_sent : list Z :=
  match @sml_transport_write LittleEndian (fun n => Z.of_nat n) (mkFile (mixed LittleEndian) (sml_buffer_init 512)) with
  | Ret (_, sent, _) => sent | _ => [] end.
Example C77_example_transmission : transmission LittleEndian ([1; 2], mixed LittleEndian, mixed_sent).
Proof.
  split; [cbn [In]; lia|]. split; [apply Forall_cons; [exact sample_new_ok|]; apply Forall_cons; [exact sample_empty_ok|]; apply Forall_cons; [exact sample_new_ok|apply Forall_nil]|]. split; [cbn [length mixed]; lia|].
  split; [apply Forall_cons; [exact I|]; apply Forall_cons; [|apply Forall_nil]; right; split; [eexists; split; [reflexivity|cbn [length]; lia]|discriminate]|].
  split; [exists 512%nat, 0%nat, false, false, (fun n => Z.of_nat n); eexists _, _; split; [lia|vm_compute; reflexivity]|].
  split; [apply (unescapedb_ok 200); vm_compute; reflexivity|]. apply Nat.ltb_lt. vm_compute. reflexivity.
Qed.
(** Two such frames, with and without -s; a frame of which one message is damaged,
    followed by a read error; a frame without any of this. *)
Definition stderr (s : bool) (d : fd) : option (list err_line) := match @e_server LittleEndian true s d with (l, Ret _) => Some l | _ => None end.
Example C77_example :
  let once := [EParse (NotImplemented 2305); EParse (NotImplemented 2305); EEntry] in let free := [EParse (NotFreed 2305); EParse (NotFreed 2305)] in
  stderr false [Chunk [1; 2]; Chunk mixed_sent; Intr; Chunk mixed_sent] = Some (once ++ free ++ once ++ free) /\
  stderr true [Chunk [1; 2]; Chunk mixed_sent; Intr; Chunk mixed_sent] = Some once /\
  stderr false [Chunk (firstn 10 mixed_sent ++ [77] ++ skipn 11 mixed_sent); Err] =
    Some ([EParse (NotImplemented 2305); EParse Dropped; EParse (NotFreed 2305); EParse (NotImplemented 2305); EEntry; EParse (NotFreed 2305); ENotice ReadError]) /\
  stderr false [Chunk run_sent; Chunk run_sent] = Some [].
Proof. vm_compute. repeat split. Qed.
(** A power of nine bytes: it is shown as 0, and this is said. *)
Definition long_list : list Z := sealed_bytes [118; 5; 0; 0; 0; 2; 98; 0; 98; 0; 114; 99; 7; 1; 119; 1; 3; 10; 1; 1; 1;
  113; 119; 7; 1; 0; 16; 7; 0; 255; 1; 1; 98; 27; 82; 254; 90; 0; 0; 0; 0; 0; 0; 0; 8; 1; 1; 1; 1].
Definition framed_list (l : list Z) : list Z :=
  let p := Z.to_nat (- Z.of_nat (length l) mod 4) in [27; 27; 27; 27; 1; 1; 1; 1] ++ l ++ repeat 0 p ++ [27; 27; 27; 27; 26; Z.of_nat p; 0; 0].
Example C77_example_long :
  @e_server LittleEndian false false [Chunk (framed_list long_list)] = ([EType 80], Ret ([OLine (LNum [1; 0; 16; 7; 0; 255] (S754_zero false) (-2) (Some [87]))], [])).
Proof. vm_compute. reflexivity. Qed.
