(** Property C78: what is said about times the library does not keep.

    A time that a meter sends as a local time (seconds, and two offsets in minutes) is
    returned without a value.  Each time this happens there is one line on stderr, with
    the three numbers that are dropped. *)
From Verif Require Import Base Buf Crc16 Number OctetString Boolean Value Time SList Tree Bodies
  Message File Lib Wf Safe Safe2 Safe3 Ctx Ctx2 Ctx3 Scan Spec TL Inv Reads NumFacts Dzg Exact FileFacts PropsParse Grammar
  Accept Accept2 Accept3 Accept4 Accept5 Accept6 Accept7 Accept8 Accept9 PropsGrammar ReportModel ReportFacts PropsReport.

(** *** Specification.  The number of times without a value in a message is
    [message_lost] (ReportFacts.v). *)
Definition is_ignored (y : line) : bool := match y with Ignored _ _ _ => true | _ => false end.
Section Spec.
Context {H : Host}.
(** The line about the type of a message: one if the library does not know it. *)
Definition type_line (m : sml_message) (ls : list line) : Prop :=
  (exists t tag data, m_message_body m = Some (mkBody (Some tag) data) /\ mem_u tag = t /\
     ~ In t [256; 257; 512; 513; 768; 769; 1024; 1025; 1280; 1281; 1536; 1792; 1793; 65281] /\ ls = [NotImplemented t]) \/
  ((forall tag data, m_message_body m = Some (mkBody (Some tag) data) ->
      In (mem_u tag) [256; 257; 512; 513; 768; 769; 1024; 1025; 1280; 1281; 1536; 1792; 1793; 65281]) /\ ls = []).
(** What is said while the messages of an intact file are read. *)
Inductive said_of : list sml_message -> list line -> Prop :=
| said_nil : said_of [] []
| said_message m ms times ty ls : Forall (fun y => is_ignored y = true) times -> length times = message_lost m ->
    type_line m ty -> said_of ms ls -> said_of (m :: ms) (times ++ ty ++ ls).
(** A number on the wire and the number that is printed; an omitted one is printed as 0. *)
Definition prints_u (a : Z) (bs t : list Z) : Prop := exists o, optional (unsigned true 4) o bs t /\ a = match o with Some m => mem_u m | None => 0 end.
Definition prints_i (a : Z) (bs t : list Z) : Prop := exists o, optional (signed true 2) o bs t /\ a = match o with Some m => mem_i m | None => 0 end.
(** A tag and a local time, which is a list of three numbers. *)
Definition local (tag : option mem) (a b c : Z) (bs t : list Z) : Prop :=
  structure [optional (unsigned true 1) tag; structure [prints_u a; prints_i b; prints_i c]] bs t.

(** *** Proofs *)
Lemma type_line_ok m : type_line m (body_lines (m_message_body m)).
Proof.
  unfold type_line. change [256; 257; 512; 513; 768; 769; 1024; 1025; 1280; 1281; 1536; 1792; 1793; 65281] with implemented.
  destruct (m_message_body m) as [[[tag|] d]|]; cbn [body_lines]; try (right; split; [intros; discriminate|reflexivity]).
  destruct (existsb _ _) eqn:EX.
  - right. split; [|reflexivity]. intros tag' data E. injection E as <- _. apply existsb_exists in EX. destruct EX as (x & HI & HX). apply Z.eqb_eq in HX. now rewrite HX.
  - left. exists (mem_u tag), tag, d. repeat split. intros HI. assert (existsb (Z.eqb (mem_u tag)) implemented = true); [|congruence]. apply existsb_exists. eexists. split; [exact HI|apply Z.eqb_refl].
Qed.
Definition ignored_count (l : list line) : nat := length (filter is_ignored l).
Lemma ignored_app a b : ignored_count (a ++ b) = (ignored_count a + ignored_count b)%nat.
Proof. unfold ignored_count. now rewrite filter_app, app_length. Qed.
Lemma ignored_all l : Forall ignored l -> ignored_count l = length l /\ Forall (fun y => is_ignored y = true) l.
Proof. induction 1 as [|y l (a & b & c & ->) _ [IH1 IH2]]; [split; [reflexivity|constructor]|]. split; [cbn; now rewrite <- IH1|]. constructor; auto. Qed.
Lemma of_all_cons {A} (f : A -> nat) x l : of_all f (x :: l) = (f x + of_all f l)%nat.
Proof. reflexivity. Qed.
Lemma loop_said fuel : forall msgs s l r s', r_file_loop fuel msgs s = (l, Ret (r, s')) ->
  exists ms, r = msgs ++ ms /\ (of_all message_lost ms <= ignored_count l)%nat /\ (losses l = [] -> said_of ms l).
Proof.
  induction fuel as [|fuel IH]; intros msgs s l r s' E; cbn [r_file_loop] in E; apply rquiet_inv in E; destruct E as (e & s1 & _ & E); destruct e.
  1, 3: unfold quiet, ret in E; injection E as <- <- <-; exists []; rewrite app_nil_r; split; [reflexivity|]; split; [cbn; lia|constructor].
  { discriminate. }
  apply rquiet_inv in E. destruct E as (b & s2 & _ & E). destruct (_ =? _). { apply rquiet_inv in E. destruct E as (u & s3 & _ & E). exact (IH _ _ _ _ _ E). }
  apply rbind_inv in E. destruct E as (lm & m & s3 & l2 & EM & E & ->). pose proof (message_exact _ _ _ _ EM) as HX. pose proof (message_losses _ _ _ _ EM) as [HL _].
  apply rquiet_inv in E. destruct E as (e & s4 & Ee & E). unfold sml_buf_has_errors in Ee. injection Ee as <- <-. destruct (error s3) eqn:He.
  { unfold rbind, say, quiet, ret in E. cbn [app] in E. injection E as <- <- <-. exists []. rewrite app_nil_r. split; [reflexivity|]. split; [cbn; lia|]. rewrite losses_app. intros HN. apply app_eq_nil in HN. destruct HN as [_ HN]. discriminate. }
  destruct m as [m|].
  - apply rquiet_inv in E. destruct E as (ms' & s4 & Ea & E). unfold sml_file_add_message in Ea. destruct (_ <=? _); [|discriminate]. unfold ret in Ea. injection Ea as <- <-.
    destruct (IH _ _ _ _ _ E) as (ms & -> & HC & HS). destruct HX as (ig & -> & HF & HI). exists (m :: ms). split; [now rewrite <- app_assoc|].
    destruct (ignored_all _ HF) as [HF1 HF2]. split; [rewrite of_all_cons, !ignored_app; lia|].
    rewrite losses_app, HL. intros HN. cbn [app] in HN. rewrite <- app_assoc. apply said_message; auto. apply type_line_ok.
  - destruct (IH _ _ _ _ _ E) as (ms & -> & HC & HS). exists ms. split; [reflexivity|]. split; [rewrite ignored_app; lia|]. rewrite losses_app, HL. intros HN. discriminate.
Qed.

(** the numbers *)
Definition q_local : P (option (option mem * option mem * option mem * option mem)) :=
  expect_list 2 (tag <-? sml_u8_parse ;;
  ty <- sml_buf_get_next_type ;;
  if ty =? 112 then (sml_buf_get_next_length ;;; t1 <-? sml_u32_parse ;; t2 <-? sml_i16_parse ;; t3 <-? sml_i16_parse ;; ret (Some (tag, t1, t2, t3)))
  else ret None).
Lemma acc_q : acc q_local (fun r bs t => exists tl b, bs = tl ++ b /\ header 112 2 tl /\
  then_ (optional (unsigned true 1)) (fun tag => then_ (fun ty bs t => bs = [] /\ exists b u, t = b :: u /\ ty = byte_type b)
   (fun ty => if ty =? 112 then then_ (fun n bs t => tl_field bs /\ tl_nibbles bs < 2147483648 /\ n = tl_length bs)
      (fun _ => then_ (optional (unsigned true 4)) (fun t1 => then_ (optional (signed true 2)) (fun t2 => then_ (optional (signed true 2)) (fun t3 r bs t => r = Some (tag, t1, t2, t3) /\ bs = []))))
      else fun r bs t => r = None /\ bs = [])) r b t).
Proof.
  unfold q_local. apply acc_expect; [mon| |lia]. apply acc_field; [mon|apply acc_u8|]. intros tag. apply acc_bind; [mon|apply acc_type|]. intros ty. destruct (ty =? 112); [|apply acc_ret].
  apply acc_bind; [mon|apply acc_length|]. intros n. apply acc_field; [mon|apply acc_u32|]. intros t1. apply acc_field; [mon|apply acc_i16|]. intros t2. apply acc_field; [mon|apply acc_i16|]. intros t3. apply acc_ret.
Qed.
Lemma quiet_step {A B} (p : P A) (k : A -> R B) s x s1 : p s = Ret (x, s1) -> rbind (quiet p) k s = k x s1.
Proof. intros E. unfold rbind, quiet. rewrite E. destruct (k x s1). reflexivity. Qed.
Lemma quiet_field {A B} (p : P A) (k : A -> R (option B)) s x s1 : p s = Ret (x, s1) -> error s1 = false -> rfield (quiet p) k s = k x s1.
Proof. intros E He. unfold rfield. rewrite (quiet_step _ _ _ _ _ E). rewrite (quiet_step _ _ s1 false s1); [reflexivity|]. unfold sml_buf_has_errors. now rewrite He. Qed.
Lemma field_inv {A B} (p : P A) (k : A -> P (option B)) s v s2 : field p k s = Ret (Some v, s2) -> exists x s1, p s = Ret (x, s1) /\ error s1 = false /\ k x s1 = Ret (Some v, s2).
Proof.
  unfold field. intros E. apply bind_inv in E. destruct E as (x & s1 & E1 & E). apply bind_inv in E. destruct E as (e & s3 & E3 & E). unfold sml_buf_has_errors in E3. injection E3 as <- <-.
  destruct (error s1) eqn:He; [discriminate|]. eauto.
Qed.
Lemma expect_inv {B} n (k : P (option B)) s v s2 : expect_list n k s = Ret (Some v, s2) -> exists s1, (forall C (k' : R (option C)), rexpect_list n k' s = k' s1) /\ k s1 = Ret (Some v, s2).
Proof.
  unfold expect_list. intros E. apply bind_inv in E. destruct E as (t & s3 & E1 & E). destruct (negb _) eqn:N1. { unfold err_null, bind, set_error, ret in E. discriminate. }
  apply bind_inv in E. destruct E as (l & s4 & E2 & E). destruct (negb (l =? n)) eqn:N2. { unfold err_null, bind, set_error, ret in E. discriminate. }
  exists s4. split; [|exact E]. intros C k'. unfold rexpect_list. rewrite (quiet_step _ _ _ _ _ E1), N1, (quiet_step _ _ _ _ _ E2), N2. reflexivity.
Qed.
Lemma q_line s tag t1 t2 t3 s1 b u : rest s = b :: u -> byte_type b = 112 -> q_local s = Ret (Some (tag, t1, t2, t3), s1) ->
  r_time_parse s = ([Ignored (shown_u t1) (shown_i t2) (shown_i t3)], Ret (Some (mkTime tag None), s1)).
Proof.
  intros Rs Hb E. unfold q_local in E. apply expect_inv in E. destruct E as (s2 & EX & E). apply field_inv in E. destruct E as (tg & s3 & E1 & H3 & E). apply bind_inv in E. destruct E as (ty & s4 & E2 & E).
  destruct (Z.eqb_spec ty 112) as [->|]; [|discriminate]. apply bind_inv in E. destruct E as (n & s5 & E3 & E). apply field_inv in E. destruct E as (x1 & s6 & E4 & H6 & E). apply field_inv in E. destruct E as (x2 & s7 & E5 & H7 & E).
  apply field_inv in E. destruct E as (x3 & s8 & E6 & H8 & E). injection E as <- <- <- <- <-.
  unfold r_time_parse, r_unless_skipped.
  assert (ES : sml_buf_optional_is_skipped s = Ret (0, s)).
  { unfold sml_buf_optional_is_skipped, bind. rewrite (at_end_cons _ _ _ Rs). cbv iota. rewrite (current_cons _ _ _ Rs). change SML_OPTIONAL_SKIPPED with 1. destruct (Z.eqb_spec b 1) as [->|]; [discriminate|reflexivity]. }
  rewrite (quiet_step _ _ _ _ _ ES). change (negb (0 =? 0)) with false. cbv iota. rewrite (quiet_step _ _ _ _ _ (current_cons _ _ _ Rs)). change (Z.lor SML_TYPE_UNSIGNED 5) with 101.
  destruct (Z.eqb_spec b 101) as [->|_]; [discriminate|]. rewrite EX, (quiet_field _ _ _ _ _ E1 H3). unfold r_time_value. rewrite (quiet_step _ _ _ _ _ E2).
  change (112 =? SML_TYPE_UNSIGNED) with false. change (112 =? SML_TYPE_LIST) with true. cbv iota.
  rewrite (quiet_step _ _ _ _ _ E3), (quiet_field _ _ _ _ _ E4 H6), (quiet_field _ _ _ _ _ E5 H7), (quiet_field _ _ _ _ _ E6 H8). reflexivity.
Qed.
Lemma local_line s tag a b c bs t : good s -> rest s = bs ++ t -> local tag a b c bs t ->
  r_time_parse s = ([Ignored a b c], Ret (Some (mkTime tag None), at_ s (length bs) false)).
Proof.
  intros G Rs (tl & bb & -> & Hd & b1 & b2 & -> & X1 & b3 & b4 & -> & (tl2 & b5 & -> & Hd2 & b6 & b7 & -> & (o1 & P1 & ->) & b8 & b9 & -> & (o2 & P2 & ->) & b10 & b11 & -> & (o3 & P3 & ->) & E11) & E4).
  cbn in E11, E4. subst b11 b4.
  destruct (header_type _ _ _ ((b1 ++ (tl2 ++ b6 ++ b8 ++ b10 ++ []) ++ []) ++ t) Hd) as (x & u & _ & EH & Hty). rewrite app_assoc in EH.
  rewrite EH in Rs.
  assert (Rs2 : rest s = (tl ++ b1 ++ (tl2 ++ b6 ++ b8 ++ b10 ++ []) ++ []) ++ t) by now rewrite Rs, EH.
  destruct (proj2 (acc_q s G (Some (tag, o1, o2, o3)) (at_ s (length (tl ++ b1 ++ (tl2 ++ b6 ++ b8 ++ b10 ++ []) ++ [])) false))) as (EQ & _).
  { exists (tl ++ b1 ++ (tl2 ++ b6 ++ b8 ++ b10 ++ []) ++ []), t. split; [exact Rs2|]. split; [|reflexivity].
    exists tl, (b1 ++ (tl2 ++ b6 ++ b8 ++ b10 ++ []) ++ []). split; [reflexivity|]. split; [exact Hd|].
    exists tag, b1, ((tl2 ++ b6 ++ b8 ++ b10 ++ []) ++ []). split; [reflexivity|]. split; [exact X1|].
    rewrite app_nil_r in *. destruct (header_type _ _ _ ((b6 ++ b8 ++ b10 ++ []) ++ t) Hd2) as (y & v & _ & EY & Hy).
    exists 112, [], (tl2 ++ b6 ++ b8 ++ b10 ++ []). split; [reflexivity|]. split; [split; [reflexivity|]; eexists y, _; split; [rewrite <- EY; now rewrite <- app_assoc|auto]|].
    change (112 =? 112) with true. cbv iota. pose proof (list_nibbles _ _ Hd2) as LN. destruct Hd2 as (TF & _ & HL).
    exists 3, tl2, (b6 ++ b8 ++ b10 ++ []). split; [reflexivity|]. split; [split; [exact TF|]; split; [cbn in LN; lia|cbn in HL; lia]|].
    exists o1, b6, (b8 ++ b10 ++ []). split; [reflexivity|]. split; [cbn [app] in P1 |- *; rewrite ?app_nil_r in *; exact P1|]. exists o2, b8, (b10 ++ []). split; [reflexivity|]. split; [cbn [app] in P2 |- *; rewrite ?app_nil_r in *; exact P2|]. exists o3, b10, []. split; [reflexivity|]. split; [cbn [app] in P3 |- *; rewrite ?app_nil_r in *; exact P3|]. auto. }
  rewrite (q_line _ _ _ _ _ _ _ _ Rs Hty EQ). reflexivity.
Qed.
End Spec.

(** *** C78 *)

(** For every input: there are at least as many such lines as times without a value in
    the messages that are returned (there may be more, from messages that are not).  If
    nothing was lost, the lines are exactly those: for each message in turn one for each
    time without a value, then one for its type if the library does not know it. *)
Theorem C78_lines (H : Host) bytes lines f : r_file_parse bytes = (lines, Ret f) ->
  (of_all message_lost (f_messages f) <= length (filter is_ignored lines))%nat /\ (losses lines = [] -> said_of (f_messages f) lines).
Proof.
  intros E. unfold r_file_parse in E. destruct (r_file_loop _ _ _) as [l [[r s]|x|]] eqn:EL; [|discriminate..]. injection E as <- <-. cbn [f_messages].
  destruct (loop_said _ _ _ _ _ _ EL) as (ms & -> & HC & HS). cbn [app]. auto.
Qed.
Print Assumptions C78_lines.
(** … so their number is right. *)
Theorem C78_count (H : Host) bytes lines f : r_file_parse bytes = (lines, Ret f) -> losses lines = [] ->
  length (filter is_ignored lines) = of_all message_lost (f_messages f).
Proof.
  intros E HN. destruct (C78_lines H _ _ _ E) as [_ HS]. specialize (HS HN). clear E HN. fold (ignored_count lines).
  induction HS as [|m ms times ty ls HT HL HY HS IH]; [reflexivity|]. rewrite !ignored_app, of_all_cons, IH, <- HL. f_equal.
  - unfold ignored_count. clear - HT. induction HT as [|y l Hy _ IH]; [reflexivity|]. cbn [filter]. rewrite Hy. cbn [length]. now rewrite IH.
  - destruct HY as [(t & tag & d & _ & _ & _ & ->)|[_ ->]]; reflexivity.
Qed.
Print Assumptions C78_count.
(** Silence means that every message was read, with the values of all its times, and
    that all types are known. *)
Theorem C78_silence (H : Host) bytes f : r_file_parse bytes = ([], Ret f) ->
  Forall (fun m => message_lost m = 0%nat /\ type_line m []) (f_messages f).
Proof.
  intros E. destruct (C78_lines H _ _ _ E) as [_ HS]. specialize (HS eq_refl). clear E. remember [] as l eqn:EL. induction HS as [|m ms times ty ls HT HL HY HS IH]; [constructor|].
  apply app_eq_nil in EL. destruct EL as [-> EL]. apply app_eq_nil in EL. destruct EL as [-> ->]. constructor; auto.
Qed.
Print Assumptions C78_silence.
(** The line has the numbers that were sent, wherever in a buffer the time is; reading
    goes on behind it, and the tag is kept. *)
Theorem C78_numbers (H : Host) before tag a b c bs t : bytes_ok (before ++ bs ++ t) -> Z.of_nat (length (before ++ bs ++ t)) < 2147483648 -> local tag a b c bs t ->
  r_time_parse (mkBuf (before ++ bs ++ t) (length before) false false) =
    ([Ignored a b c], Ret (Some (mkTime tag None), mkBuf (before ++ bs ++ t) (length before + length bs) false false)).
Proof.
  intros HB HL HX. refine (local_line (mkBuf (before ++ bs ++ t) (length before) false false) tag a b c bs t _ _ HX); [|unfold rest; cbn [buffer cursor]; rewrite skipn_app, Nat.sub_diag, skipn_all; reflexivity].
  split; [|split; [exact HL|split; reflexivity]]. split; [|exact HB]. unfold buffer_len. cbn [buffer cursor]. rewrite !app_length. lia.
Qed.
Print Assumptions C78_numbers.

(** *** Examples *)
(** 2017-11-03, one hour ahead, one hour back *)
Definition local_bytes : list Z := [114; 98; 3; 115; 101; 90; 0; 0; 0; 83; 0; 60; 83; 255; 196].
Example C78_example_numbers t : @local LittleEndian (Some [3]) 1509949440 60 (-60) local_bytes t.
Proof.
  exists [114], (skipn 1 local_bytes). split; [reflexivity|]. split; [hdr|]. exists [98; 3], (skipn 3 local_bytes). split; [reflexivity|]. split.
  { exists [98], [3]. split; [reflexivity|]. split; [hdr|]. split; [bytes|]. split; [cbn; lia|]. split; [reflexivity|]. split; [bytes|]. split; [reflexivity|discriminate]. }
  exists (skipn 3 local_bytes), []. split; [reflexivity|]. split; [|reflexivity]. exists [115], (skipn 4 local_bytes). split; [reflexivity|]. split; [hdr|].
  exists [101; 90; 0; 0; 0], (skipn 9 local_bytes). split; [reflexivity|]. split.
  { exists (Some [0; 0; 0; 90]). split; [|reflexivity]. exists [101], [90; 0; 0; 0]. split; [reflexivity|]. split; [hdr|]. split; [bytes|]. split; [cbn; lia|]. split; [reflexivity|]. split; [bytes|]. split; [reflexivity|discriminate]. }
  exists [83; 0; 60], [83; 255; 196]. split; [reflexivity|]. split.
  { exists (Some [60; 0]). split; [|reflexivity]. exists [83], [0; 60]. split; [reflexivity|]. split; [hdr|]. split; [bytes|]. split; [cbn; lia|]. split; [reflexivity|]. split; [bytes|]. reflexivity. }
  exists [83; 255; 196], []. split; [reflexivity|]. split; [|reflexivity].
  exists (Some [196; 255]). split; [|reflexivity]. exists [83], [255; 196]. split; [reflexivity|]. split; [hdr|]. split; [bytes|]. split; [cbn; lia|]. split; [reflexivity|]. split; [bytes|]. reflexivity.
Qed.
(** An open response with such a time, and a list of two entries of which one has one;
    between them the message of the other examples. *)
Definition sealed_bytes (body : list Z) : list Z := body ++ [99; sml_crc16_calculate body / 256; sml_crc16_calculate body mod 256; 0].
Definition open_local : list Z := sealed_bytes ([118; 5; 0; 0; 0; 1; 98; 0; 98; 0; 114; 99; 1; 1; 118; 1; 1; 3; 1; 2; 5; 10; 1; 2; 3] ++ local_bytes ++ [98; 1]).
Definition list_local : list Z := sealed_bytes ([118; 5; 0; 0; 0; 2; 98; 0; 98; 0; 114; 99; 7; 1; 119; 1; 3; 10; 1; 1; 1; 114; 119; 7; 1; 0; 96; 50; 1; 1; 1] ++ local_bytes ++ [1; 1; 82; 5; 1]
  ++ [119; 7; 1; 0; 16; 7; 0; 255; 1; 1; 98; 27; 82; 254; 82; 7; 1] ++ [1; 1]).
Definition local_run : list line * option (list nat) :=
  let '(l, o) := @r_file_parse LittleEndian (open_local ++ text1 ++ list_local) in (l, match o with Ret f => Some (map message_lost (f_messages f)) | _ => None end).
Example C78_example : local_run = ([Ignored 1509949440 60 (-60); Ignored 1509949440 60 (-60)], Some [1; 0; 1]%nat).
Proof. vm_compute. reflexivity. Qed.
