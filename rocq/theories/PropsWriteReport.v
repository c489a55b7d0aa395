(** Property C79: what writing messages says on stderr, and what it does not say. *)
From Verif Require Import Base Buf Crc16 Number OctetString Boolean Value Time SList Tree Bodies Message File
  Lib Wf Safe Safe2 Safe3 Ctx Ctx2 Ctx3 Scan MinSize Spec TL Inv Reads Write TLWrite TLRound NumFacts PropsNumber Item Enc Dzg Round Round2 Round3 PropsRound Exact Exact2 Exact3 PropsLost
  FileFacts PropsParse Grammar Accept ReportModel ReportFacts PropsReport PropsLocal WriteReport.

(** *** Specification *)
Definition known_types : list Z := [256; 257; 512; 513; 768; 769; 1024; 1025; 1280; 1281; 1536; 1792; 1793; 65281].
Section Spec.
Context {H : Host}.
(** the nodes of a tree, each before its children, with their values *)
Fixpoint tree_values (t : sml_tree) : list (option sml_proc_par_value) :=
  match t with Tree _ v children => v :: flat_map tree_values children end.
(** the trees of a body *)
Definition trees (d : body_data) : list sml_tree :=
  match d with
  | BPackReq b => match gq_das_details b with Some t => [t] | None => [] end
  | BProcRes b => match pr_parameter_tree b with Some t => [t] | None => [] end
  | BSetProc b => match sq_parameter_tree b with Some t => [t] | None => [] end
  | BAttention b => match ar_attention_details b with Some t => [t] | None => [] end
  | _ => []
  end.
(** a value of a node with a tag other than the four of SML *)
Definition strange_tag (o : option sml_proc_par_value) : bool :=
  match o with
  | Some v => match ppv_tag v with Some t => negb (existsb (Z.eqb (mem_u t)) [1; 2; 3; 4]) | None => false end
  | None => false
  end.
(** One line for a message of an unknown type; for others one line for each node with a
    strange tag. *)
Definition written_lines (m : sml_message) : list wline :=
  match m_message_body m with
  | Some (mkBody (Some t) d) =>
      if existsb (Z.eqb (mem_u t)) known_types
      then repeat WUnknownTag (length (filter strange_tag (flat_map tree_values (trees d))))
      else [WNotImplemented (mem_u t)]
  | _ => []
  end.
(** the lines about types among those of the parser, as the writer says them *)
Definition type_lines (l : list line) : list wline := flat_map (fun y => match y with NotImplemented t => [WNotImplemented t] | _ => [] end) l.
End Spec.

Section Facts.
Context {H : Host}.
(** *** The lines change nothing else *)
Definition agree {A} (v : V A) (p : P A) : Prop := forall s, snd (v s) = p s.
Lemma agree_mute {A} (p : P A) : agree (mute p) p.
Proof. intros s. reflexivity. Qed.
Lemma agree_bind {A B} (v : V A) (p : P A) (k : A -> V B) k' : agree v p -> (forall x, agree (k x) (k' x)) -> agree (vbind v k) (bind p k').
Proof. intros H1 H2 s. unfold vbind, bind. rewrite <- (H1 s). destruct (v s) as [l [[x s1]|f|]]; cbn [snd]; try reflexivity. rewrite <- (H2 x s1). destruct (k x s1); reflexivity. Qed.
Lemma agree_tell l : agree (tell l) (ret tt).
Proof. intros s. reflexivity. Qed.
Lemma agree_deref {A} (m : option A) k k' : (forall x, agree (k x) (k' x)) -> agree (v_deref m k) (deref m k').
Proof. intros HK. destruct m; cbn [v_deref deref]; [apply HK|apply agree_mute]. Qed.
Ltac ag := repeat lazymatch goal with
  | |- agree (vbind (mute _) _) (bind _ _) => apply agree_bind; [apply agree_mute|intros ?]
  | |- agree (v_deref _ _) (deref _ _) => apply agree_deref; intros ?
  end.
Lemma agree_ppv o : agree (v_proc_par_value_write o) (sml_proc_par_value_write o).
Proof.
  destruct o as [v|]; cbn [v_proc_par_value_write sml_proc_par_value_write write_opt]; [|apply agree_mute]. ag. destruct (ppv_tag v) as [m|]; [|apply agree_mute]. cbv zeta.
  repeat match goal with |- agree (if ?b then _ else _) _ => destruct b; [apply agree_mute|] end. apply agree_tell.
Qed.
Lemma agree_node t : agree (v_tree_write_node t) (sml_tree_write_node t).
Proof.
  induction t as [name value children IH] using tree_ind'. cbn [v_tree_write_node sml_tree_write_node]. ag. apply agree_bind; [apply agree_ppv|]. intros _.
  destruct (_ >? _); [|apply agree_mute]. apply agree_bind; [apply agree_mute|]. intros _. induction IH as [|c l HC _ IHl]; [apply agree_mute|]. apply agree_bind; [exact HC|]. intros _. exact IHl.
Qed.
Lemma agree_tree o : agree (v_tree_write o) (sml_tree_write o).
Proof. destruct o; [apply agree_node|apply agree_mute]. Qed.
Lemma agree_data tag d : agree (v_body_data_write tag d) (body_data_write tag d).
Proof.
  unfold v_body_data_write, body_data_write.
  repeat match goal with |- agree (if ?b then _ else _) _ => destruct b; [first [apply agree_mute|apply agree_bind; [apply agree_mute|intros x]; 
    unfold v_get_profile_pack_request_write, sml_get_profile_pack_request_write, v_get_proc_parameter_response_write, sml_get_proc_parameter_response_write,
      v_set_proc_parameter_request_write, sml_set_proc_parameter_request_write, v_attention_response_write, sml_attention_response_write; ag; apply agree_tree]|] end. apply agree_tell.
Qed.
Lemma agree_message m : agree (v_message_write m) (sml_message_write m).
Proof.
  unfold v_message_write, sml_message_write. ag. apply agree_bind; [|intros _; apply agree_mute]. unfold v_message_body_write, sml_message_body_write. ag.
  destruct (m_message_body m) as [b|]; [|apply agree_mute]. ag. destruct (mb_tag b); [apply agree_data|apply agree_mute].
Qed.
Lemma agree_messages l : agree (v_write_messages l) (write_messages l).
Proof. induction l as [|m l IH]; [apply agree_mute|]. cbn [v_write_messages write_messages]. apply agree_bind; [apply agree_message|]. intros m'. apply agree_bind; [exact IH|]. intros t. apply agree_mute. Qed.

(** *** Which lines *)
Definition begins (a l : list wline) : Prop := exists b, l = a ++ b.
Definition tells {A} (v : V A) (l : list wline) : Prop := forall s, match v s with (a, Ret _) => a = l | (a, _) => begins a l end.
Lemma tells_mute {A} (p : P A) : tells (mute p) [].
Proof. intros s. unfold mute. destruct (p s); [reflexivity|now exists []..]. Qed.
Lemma tells_fail {A} f l : tells (mute (fail f) : V A) l.
Proof. intros s. now exists l. Qed.
Lemma tells_bind {A B} (v : V A) (k : A -> V B) a b : tells v a -> (forall x, tells (k x) b) -> tells (vbind v k) (a ++ b).
Proof.
  intros H1 H2 s. unfold vbind. specialize (H1 s). destruct (v s) as [l [[x s1]|f|]]; [|destruct H1 as (c & ->); exists (c ++ b); now rewrite app_assoc..]. subst l.
  specialize (H2 x s1). destruct (k x s1) as [l' [y|f|]]; [now rewrite H2|destruct H2 as (c & ->); exists c; now rewrite app_assoc..].
Qed.
Lemma tells_seq {A B} (p : P A) (k : V B) b : tells k b -> tells (vbind (mute p) (fun _ => k)) b.
Proof. intros HK. change b with ([] ++ b). apply tells_bind; [apply tells_mute|auto]. Qed.
Lemma tells_end {A B} (v : V A) (k : A -> P B) a : tells v a -> tells (vbind v (fun x => mute (k x))) a.
Proof. intros HV. rewrite <- (app_nil_r a). apply tells_bind; [exact HV|]. intros x. apply tells_mute. Qed.
Definition of_values (l : list (option sml_proc_par_value)) : list wline := repeat WUnknownTag (length (filter strange_tag l)).
Lemma of_values_app a b : of_values (a ++ b) = of_values a ++ of_values b.
Proof. unfold of_values. now rewrite filter_app, app_length, repeat_app. Qed.
Lemma tells_ppv o : tells (v_proc_par_value_write o) (of_values [o]).
Proof.
  unfold of_values. cbn [filter]. unfold strange_tag. destruct o as [v|]; cbn [v_proc_par_value_write]; [|apply tells_mute]. do 2 apply tells_seq. destruct (ppv_tag v) as [m|]; [|apply tells_fail]. cbv zeta. cbn [existsb].
  change SML_PROC_PAR_VALUE_TAG_VALUE with 1. change SML_PROC_PAR_VALUE_TAG_PERIOD_ENTRY with 2. change SML_PROC_PAR_VALUE_TAG_TUPEL_ENTRY with 3. change SML_PROC_PAR_VALUE_TAG_TIME with 4.
  destruct (mem_u m =? 1); [apply tells_mute|]. destruct (mem_u m =? 2); [apply tells_mute|]. destruct (mem_u m =? 3); [apply tells_mute|]. destruct (mem_u m =? 4); [apply tells_mute|]. intros s. reflexivity.
Qed.
Lemma tells_node t : tells (v_tree_write_node t) (of_values (tree_values t)).
Proof.
  induction t as [name value children IH] using tree_ind'. cbn [v_tree_write_node tree_values]. do 2 apply tells_seq. change (value :: flat_map tree_values children) with ([value] ++ flat_map tree_values children). rewrite of_values_app.
  apply tells_bind; [apply tells_ppv|]. intros _. destruct (Z.gtb_spec (Z.of_nat (length children)) 0) as [_|HX]; [|destruct children; [apply tells_mute|cbn [length] in HX; lia]].
  apply tells_seq. induction IH as [|c' l HC _ IHl]; [apply tells_mute|]. cbn [flat_map]. rewrite of_values_app. apply tells_bind; [exact HC|]. intros _. exact IHl.
Qed.
Lemma tells_tree o : tells (v_tree_write o) (of_values (flat_map tree_values (match o with Some t => [t] | None => [] end))).
Proof. destruct o; cbn [flat_map]; [rewrite app_nil_r; apply tells_node|apply tells_mute]. Qed.
Lemma tells_ret {A B} (x : A) (k : A -> V B) b : tells (k x) b -> tells (vbind (mute (ret x)) k) b.
Proof. intros HK s. specialize (HK s). unfold vbind, mute, ret. destruct (k x s). exact HK. Qed.
Lemma tells_stop {A B} f (k : A -> V B) b : tells (vbind (mute (fail f)) k) b.
Proof. intros s. now exists b. Qed.
Lemma tells_halt {A} f l (k : A -> P unit) : tells (mute (bind (fail f) k)) l.
Proof. intros s. now exists l. Qed.
Ltac td d := destruct d; first [exact (tells_mute _)|apply tells_halt|apply tells_stop|apply tells_ret; apply tells_seq; first [apply tells_fail|cbn [v_deref]; repeat apply tells_seq; apply tells_tree]].
Lemma tells_data tag d : tells (v_body_data_write tag d) (if existsb (Z.eqb tag) known_types then of_values (flat_map tree_values (trees d)) else [WNotImplemented tag]).
Proof.
  unfold v_body_data_write, known_types. cbn [existsb].
  change SML_MESSAGE_OPEN_REQUEST with 256. change SML_MESSAGE_OPEN_RESPONSE with 257. change SML_MESSAGE_CLOSE_REQUEST with 512. change SML_MESSAGE_CLOSE_RESPONSE with 513.
  change SML_MESSAGE_GET_PROFILE_PACK_REQUEST with 768. change SML_MESSAGE_GET_PROFILE_PACK_RESPONSE with 769. change SML_MESSAGE_GET_PROFILE_LIST_REQUEST with 1024. change SML_MESSAGE_GET_PROFILE_LIST_RESPONSE with 1025.
  change SML_MESSAGE_GET_PROC_PARAMETER_REQUEST with 1280. change SML_MESSAGE_GET_PROC_PARAMETER_RESPONSE with 1281. change SML_MESSAGE_SET_PROC_PARAMETER_REQUEST with 1536.
  change SML_MESSAGE_GET_LIST_REQUEST with 1792. change SML_MESSAGE_GET_LIST_RESPONSE with 1793. change SML_MESSAGE_ATTENTION_RESPONSE with 65281.
  do 14 (match goal with |- tells (if ?a =? ?b then _ else _) _ => destruct (a =? b) end; cbn [orb]; [td d|]). intros s. reflexivity.
Qed.
Lemma tells_message m : tells (v_message_write m) (written_lines m).
Proof.
  unfold v_message_write, written_lines.
  rewrite <- (app_nil_l (match m_message_body m with Some _ => _ | None => _ end)). apply tells_bind; [apply tells_mute|]. intros st. do 4 apply tells_seq. apply tells_end. unfold v_message_body_write. apply tells_seq.
  destruct (m_message_body m) as [[[t|] d]|]; [apply tells_seq; cbn [mb_tag mb_data]; apply tells_data|apply tells_seq; apply tells_fail|apply tells_fail].
Qed.
Lemma tells_messages l : tells (v_write_messages l) (flat_map written_lines l).
Proof. induction l as [|m l IH]; [apply tells_mute|]. cbn [v_write_messages flat_map]. apply tells_bind; [apply tells_message|]. intros m'. now apply tells_end. Qed.
Lemma no_strange_values t : wf_tree t -> filter strange_tag (tree_values t) = [].
Proof.
  induction t as [name value children IH] using tree_ind'. intros HW. inversion HW as [? ? ? _ HV HC]; subst. cbn [tree_values filter].
  assert (HS : strange_tag value = false).
  { destruct value as [v|]; [|reflexivity]. destruct HV as (t & ET & _ & HM). unfold strange_tag. rewrite ET. destruct (mem_u t) as [|[[p|p|]|[p|p|]|]|p]; try destruct HM; try reflexivity; destruct p; try destruct HM; reflexivity. }
  rewrite HS. clear HS HV HW. induction HC as [|c l HC1 _ IHl]; [reflexivity|]. inversion IH as [|? ? I1 I2]; subst. cbn [flat_map]. rewrite filter_app, (I1 HC1). cbn [app]. auto.
Qed.
Lemma no_strange tag d : wf_body_data tag d -> filter strange_tag (flat_map tree_values (trees d)) = [].
Proof.
  assert (HO : forall o, opt wf_tree o -> filter strange_tag (flat_map tree_values (match o with Some t => [t] | None => [] end)) = []).
  { intros [t|] HT; [|reflexivity]. cbn [flat_map]. rewrite app_nil_r. now apply no_strange_values. }
  destruct d; cbn [wf_body_data trees]; intros HD; try reflexivity; destruct HD as [_ HD]; destruct HD; apply HO; assumption.
Qed.
(** in messages as the library builds and reads them, no tag is strange *)
Lemma wf_lines b t : wf_body b -> mb_tag b = Some t -> filter strange_tag (flat_map tree_values (trees (mb_data b))) = [].
Proof. intros (t' & ET & _ & WD) _. now apply (no_strange (mem_u t')). Qed.
End Facts.

(** *** C79 *)
Theorem C79_same (H : Host) f : snd (v_file_write f) = sml_file_write f.
Proof.
  unfold v_file_write, sml_file_write. pose proof (agree_messages (f_messages f) (f_buf f)) as HA. destruct (v_write_messages _ _) as [l o]. cbn [snd] in HA. subst o. destruct (write_messages _ _) as [[ms s]| |]; reflexivity.
Qed.
Print Assumptions C79_same.
(** For all files, whatever is in them: if writing comes to its end, the lines are those
    of its messages in their order; if it crashes, the first of them. *)
Theorem C79_lines (H : Host) f l o : v_file_write f = (l, o) ->
  (forall f', o = Ret f' -> l = flat_map written_lines (f_messages f)) /\ exists more, l ++ more = flat_map written_lines (f_messages f).
Proof.
  unfold v_file_write. pose proof (tells_messages (f_messages f) (f_buf f)) as HT. destruct (v_write_messages _ _) as [a [[ms s]|x|]]; intros E; injection E as <- <-.
  - subst a. split; [auto|]. exists []. apply app_nil_r.
  - destruct HT as (b & HT). split; [discriminate|]. now exists b.
  - destruct HT as (b & HT). split; [discriminate|]. now exists b.
Qed.
Print Assumptions C79_lines.
(** Objects whose tags say what they are, as the parser returns them and as they have
    to be for writing: only messages of unknown types are reported. *)
Theorem C79_types_only (H : Host) m b t : m_message_body m = Some b -> wf_body b -> mb_tag b = Some t ->
  written_lines m = if existsb (Z.eqb (mem_u t)) known_types then [] else [WNotImplemented (mem_u t)].
Proof.
  intros EB HW ET. unfold written_lines. rewrite EB. pose proof (wf_lines b t HW ET) as HL. destruct b as [tg d]. cbn [mb_tag mb_data] in *. subst tg. now rewrite HL.
Qed.
Print Assumptions C79_types_only.
(** Reading and writing again: if no message was lost, the writer says about types what
    the reader said, and nothing else. *)
Theorem C79_read_and_written (H : Host) bytes l f : bytes_ok bytes -> r_file_parse bytes = (l, Ret f) -> losses l = [] ->
  flat_map written_lines (f_messages f) = type_lines l.
Proof.
  intros HB E HN. destruct (C78_lines H _ _ _ E) as [_ HS]. specialize (HS HN).
  pose proof (same_file bytes) as ES. rewrite E in ES. cbn [snd] in ES. symmetry in ES. pose proof (file_parse_safe 7 bytes min_size_7 HB) as HF. rewrite ES in HF.
  destruct HF as (_ & _ & _ & HF & _). assert (HW : Forall wf_message (f_messages f)) by (eapply Forall_impl; [|exact HF]; intros m Hm; eapply parsed_in_wf; eauto). clear HF ES E HN.
  induction HS as [|m ms times ty ls HT HL HY HS IH]; [reflexivity|]. inversion HW as [|? ? W1 W2]; subst. cbn [flat_map]. rewrite (IH W2). unfold type_lines. rewrite !flat_map_app.
  replace (flat_map _ times) with (@nil wline); [|symmetry; clear - HT; induction HT as [|y l Hy _ IH]; [reflexivity|]; cbn [flat_map]; rewrite IH; destruct y; try discriminate; reflexivity].
  cbn [app]. f_equal. destruct W1 as [_ _ _ WB _]. destruct HY as [(t & tag & d & EB & Et & HU & ->)|[HK ->]].
  - rewrite EB in WB. rewrite (C79_types_only H m _ tag EB WB eq_refl), Et. destruct (existsb (Z.eqb t) known_types) eqn:EX; [|reflexivity]. exfalso. apply HU. apply existsb_exists in EX. destruct EX as (x & HI & HX). apply Z.eqb_eq in HX. subst x. exact HI.
  - destruct (m_message_body m) as [b|] eqn:EB; [|unfold written_lines; now rewrite EB]. destruct WB as (t & ET & WB). rewrite (C79_types_only H m _ t EB (ex_intro _ t (conj ET WB)) ET).
    destruct b as [tg d]. cbn [mb_tag] in ET. subst tg. specialize (HK _ _ eq_refl). replace (existsb _ _) with true; [reflexivity|]. symmetry. apply existsb_exists. eexists. split; [exact HK|apply Z.eqb_refl].
Qed.
Print Assumptions C79_read_and_written.
(** Messages of known types that never survive being written and read back (C26 to C30)
    are written in silence. *)
Theorem C79_silent_loss (H : Host) m b t : sendable m -> never_survives m -> m_message_body m = Some b -> mb_tag b = Some t -> In (mem_u t) known_types ->
  forall pre n post o, n = length (message_bytes m) -> fits pre n post -> exists m' s, v_message_write m (zeros_at pre n post o) = ([], Ret (m', s)).
Proof.
  intros HS HV EB ET HK pre n post o En HF. destruct (HV pre n post o En HF) as (m' & s1 & E & _). exists m', s1.
  pose proof (agree_message m (zeros_at pre n post o)) as HA. pose proof (tells_message m (zeros_at pre n post o)) as HT. rewrite E in HA. destruct (v_message_write m _) as [l r]. cbn [snd] in HA. subst r. subst l.
  destruct HS as [[_ _ _ (b' & EB' & WB)] _]. rewrite EB in EB'. injection EB' as <-. rewrite (C79_types_only H m b t EB WB ET). replace (existsb _ _) with true; [reflexivity|]. symmetry. apply existsb_exists. eexists. split; [exact HK|apply Z.eqb_refl].
Qed.
Print Assumptions C79_silent_loss.
(** So that nothing is said does not mean that the message can be read again. *)
Definition objects_run : outcome (sml_message * sbuf) := snd (@v_message_write LittleEndian (with_objects LittleEndian) (sml_buffer_init 60)).
Definition again {A} (k : sml_message * sbuf -> A) (d : A) : A := match objects_run with Ret x => k x | _ => d end.
Theorem C79_silence_refuted : exists m m' s, sendable (H := LittleEndian) m /\ @v_message_write LittleEndian m (sml_buffer_init 60) = ([], Ret (m', s)) /\
  forall r s2, @sml_message_parse LittleEndian (set_cursor 0 s) <> Ret (Some r, s2).
Proof.
  exists (with_objects LittleEndian), (again fst (with_objects LittleEndian)), (again snd (sml_buffer_init 60)). split; [exact with_objects_sent|]. split; [vm_compute; reflexivity|].
  intros r s2. assert (HB : match @sml_message_parse LittleEndian (set_cursor 0 (again snd (sml_buffer_init 60))) with Ret (Some _, _) => false | _ => true end = true) by (vm_compute; reflexivity).
  intros E. rewrite E in HB. exact (diff_false_true HB).
Qed.
Print Assumptions C79_silence_refuted.

(** *** Examples *)
(** A file of a message of an unknown type, one with a tree of which two nodes have
    strange tags, and one with an object list, which is lost. *)
Definition odd_tree (H : Host) : sml_tree :=
  Tree (Some [1]) (Some (mkPpv (Some [9]) PNull)) [Tree (Some [2]) (Some (mkPpv (Some [1]) (PValue (mkValue 97 (VNum [5]))))) []; Tree (Some [3]) (Some (mkPpv (Some [0]) PNull)) []].
Definition odd_messages (H : Host) : list sml_message :=
  [ mkMsg (Some [1; 2]) (Some (sml_u8_init 0)) None (Some (mkBody (Some (sml_u32_init 2305)) BNull)) None;
    mkMsg (Some [1; 3]) (Some (sml_u8_init 0)) None (Some (mkBody (Some (sml_u32_init 65281)) (BAttention (mkAttention (Some [1]) (Some [2]) None (Some (odd_tree H)))))) None;
    with_objects H ].
Definition said_in (n : nat) : list wline * bool :=
  let '(l, o) := @v_file_write LittleEndian (mkFile (odd_messages LittleEndian) (sml_buffer_init n)) in (l, match o with Ret _ => true | _ => false end).
Example C79_example : said_in 512 = ([WNotImplemented 2305; WUnknownTag; WUnknownTag], true) /\ said_in 50 = ([WNotImplemented 2305; WUnknownTag], false) /\ said_in 10 = ([], false).
Proof. vm_compute. repeat split. Qed.
(** What was read with a line is written with one: an unknown type between two others. *)
Definition new_bytes : list Z := sealed_bytes [118; 5; 0; 0; 0; 2; 98; 0; 98; 0; 114; 99; 9; 1].
Example C79_example_read : exists f, @r_file_parse LittleEndian (text1 ++ new_bytes ++ text1) = ([NotImplemented 2305], Ret f) /\ length (f_messages f) = 3%nat /\
  flat_map (@written_lines LittleEndian) (f_messages f) = [WNotImplemented 2305].
Proof. eexists. split; [vm_compute; reflexivity|]. split; reflexivity. Qed.
