(** sml_transport_write with pointers, when malloc may refuse the memory for a checksum:
    what happens is what happens with plenty of memory, except that some messages are
    written without one (ShortWrite.v). *)
From stdpp Require Import gmap.
From iris.proofmode Require Import tactics.
From Verif Require Import Base Buf Crc16 Number OctetString Boolean Value Time SList Tree Bodies Message File Transport
  NumFacts HeapBase HeapModel HeapLogic HeapRep HeapFree HeapSim HeapWriteModel HeapWrite HeapBuildModel ShortWrite.
Local Existing Instance quiet.
Local Instance keeps_quiet {A} (c : Buf.P A) : Keeps c.
Proof. intros s a s' E. done. Qed.

Section WithHost.
Context {HO : Host} {AL : Allocator}.

(** [h_message_write], [for_each] on it, [h_file_write] and [h_transport_frame] where the
    flags say which checksums get memory *)
Definition h_message_as (g : bool) (msg : slot) : H unit :=
  msg_start <- lift (cursor_int 0) ;;
  lift (sml_buf_set_type_and_length SML_TYPE_LIST 6) ;;;
  hw msg 0 h_octet_string_write ;;;
  hw msg 1 h_u8_write ;;;
  hw msg 2 h_u8_write ;;;
  hw msg 3 h_message_body_write ;;;
  len <- lift (cursor_int msg_start) ;;
  bs <- lift (buffer_slice msg_start len) ;;
  crc <- (if g then h_number_init (ME := plenty) (sml_crc16_calculate bs) 2 else ret Nul) ;;
  store msg 4 crc ;;;
  hw msg 4 h_u16_write ;;;
  lift (store_current 0) ;;;
  lift inc_cursor.
Fixpoint for_each_as (gs : nat -> bool) (n i : nat) (arr : slot) : H unit :=
  match n with
  | O => ret tt
  | S n' => x <- load arr i ;; h_message_as (gs i) x ;;; for_each_as gs n' (S i) arr
  end.
Definition h_file_as (gs : nat -> bool) (file : slot) : H unit :=
  messages <- load file 0 ;;
  if_ptr messages (
    n <- load_int file 1 ;;
    if n >? 0 then for_each_as gs (Z.to_nat n) 0 messages else ret tt).
Definition h_frame_as (gs : nat -> bool) (file : slot) : H unit :=
  lift (fun s => Ret (tt, set_cursor 0 s)) ;;;
  lift (write_current start_seq) ;;;
  lift (sml_buf_update_bytes_read 8) ;;;
  h_file_as gs file ;;;
  padding <- lift (fun s => Ret (if (cursor s mod 4 =? 0)%nat then O else (4 - cursor s mod 4)%nat, s)) ;;
  lift (if (padding =? 0)%nat then ret tt
   else write_current (repeat 0 padding) ;;; sml_buf_update_bytes_read (Z.of_nat padding)) ;;;
  lift (write_current end_seq) ;;;
  lift (sml_buf_update_bytes_read 5) ;;;
  lift (store_current (Z.of_nat padding)) ;;; lift inc_cursor ;;;
  c <- lift (cursor_int 0) ;;
  bs <- lift (buffer_slice 0 c) ;;
  let crc := sml_crc16_calculate bs in
  lift (store_current (Z.shiftr (Z.land crc 65280) 8)) ;;; lift inc_cursor ;;;
  lift (store_current (Z.land crc 255)) ;;; lift inc_cursor.

(** *** Any memory is one of these *)
Section WithMemory.
Context {ME : Memory}.

(** an answer that malloc gives to a request for two bytes *)
Definition answer (g : bool) : Prop := exists st c, length c = 2%nat /\ grants st (Bytes c) = g.
Lemma some_answer st : answer (grants st (Bytes [0; 0])).
Proof. by exists st, [0; 0]. Qed.

Lemma choice_bind {A B} (c : H A) (k : A -> H B) (k' : bool -> A -> H B) st :
  (forall a st, exists g, answer g /\ k a st = k' g a st) -> exists g, answer g /\ bind c k st = bind c (k' g) st.
Proof.
  intros HK. unfold bind. destruct (c st) as [[a st1]|x|]; [apply HK| |]; exists (grants st (Bytes [0; 0])); (split; [apply some_answer|done]).
Qed.
Lemma message_choice p st : exists g, answer g /\ h_message_write (ME := ME) p st = h_message_as g p st.
Proof.
  unfold h_message_write, h_message_as.
  do 8 (apply (choice_bind _ _ (fun g a => _)); intros ? ?).
  match goal with |- context [sml_crc16_calculate ?b] => set (c := sml_crc16_calculate b) end.
  match goal with |- context [bind (h_number_init c 2) ?k ?st] => exists (grants st (Bytes (sml_number_init c 2))); set (kk := k); set (s0 := st) end.
  split.
  { exists s0, (sml_number_init c 2). split; [|done]. apply init_length. lia. }
  unfold bind, h_number_init, try_malloc. destruct (grants s0 (Bytes (sml_number_init c 2))); reflexivity.
Qed.
Lemma for_each_ext gs gs' arr : forall n i st, (forall j, (i <= j)%nat -> gs j = gs' j) -> for_each_as gs n i arr st = for_each_as gs' n i arr st.
Proof.
  induction n as [|n IH]; intros i st HE; [done|]. cbn [for_each_as]. unfold bind. destruct (load arr i st) as [[x s1]|y|]; [|done..].
  rewrite (HE i) //. destruct (h_message_as (gs' i) x s1) as [[u s2]|y|]; [|done..]. apply IH. intros j Hj. apply HE. lia.
Qed.
Lemma for_each_choice arr : forall n i st, exists gs, (forall j, answer (gs j)) /\
  for_each n i arr (h_message_write (ME := ME)) st = for_each_as gs n i arr st.
Proof.
  assert (N : forall st : hstate, exists gs : nat -> bool, forall j, answer (gs j)).
  { intros st. exists (fun _ => grants st (Bytes [0; 0])). intros j. apply some_answer. }
  induction n as [|n IH]; intros i st; cbn [for_each for_each_as].
  { destruct (N st) as [gs A]. by exists gs. }
  unfold bind. destruct (load arr i st) as [[x s1]|y|]; [|destruct (N st) as [gs A]; by exists gs..].
  destruct (message_choice x s1) as (g & Ag & Eg). rewrite Eg.
  destruct (h_message_as g x s1) as [[u s2]|y|] eqn:E.
  - destruct (IH (S i) s2) as (gs & A & EF). exists (fun j => if (j =? i)%nat then g else gs j). split.
    { intros j. by destruct (j =? i)%nat. }
    rewrite Nat.eqb_refl E EF. apply for_each_ext. intros j Hj. destruct (Nat.eqb_spec j i); [lia|done].
  - exists (fun _ => g). split; [done|]. by rewrite E.
  - exists (fun _ => g). split; [done|]. by rewrite E.
Qed.
Lemma choices_bind {A B} (c : H A) (k : A -> H B) (k' : (nat -> bool) -> A -> H B) st :
  (forall a st, exists gs, (forall j, answer (gs j)) /\ k a st = k' gs a st) -> exists gs, (forall j, answer (gs j)) /\ bind c k st = bind c (k' gs) st.
Proof.
  intros HK. unfold bind. destruct (c st) as [[a st1]|x|]; [apply HK| |]; exists (fun _ => grants st (Bytes [0; 0])); (split; [intros; apply some_answer|done]).
Qed.
Lemma file_choice file st : exists gs, (forall j, answer (gs j)) /\ h_file_write (ME := ME) file st = h_file_as gs file st.
Proof.
  unfold h_file_write, h_file_as. apply (choices_bind _ _ (fun gs a => _)). intros m s1.
  destruct m as [|l|z]; cbn [if_ptr].
  - exists (fun _ => grants st (Bytes [0; 0])). split; [intros; apply some_answer|done].
  - apply (choices_bind _ _ (fun gs a => _)). intros n s2. destruct (n >? 0); [apply for_each_choice|].
    exists (fun _ => grants st (Bytes [0; 0])). split; [intros; apply some_answer|done].
  - apply (choices_bind _ _ (fun gs a => _)). intros n s2. destruct (n >? 0); [apply for_each_choice|].
    exists (fun _ => grants st (Bytes [0; 0])). split; [intros; apply some_answer|done].
Qed.
Lemma frame_choice file st : exists gs, (forall j, answer (gs j)) /\ h_transport_frame (ME := ME) file st = h_frame_as gs file st.
Proof.
  unfold h_transport_frame, h_frame_as. do 3 (apply (choices_bind _ _ (fun gs a => _)); intros ? ?).
  match goal with |- context [bind (h_file_write file) ?k ?s] => destruct (file_choice file s) as (gs & A & E) end.
  exists gs. split; [exact A|]. unfold bind at 1. rewrite E. reflexivity.
Qed.
End WithMemory.

(** *** They do what the value level does *)
Lemma w_msg_short m q p s : sim (rep_msg_body m q p) s (message_unsealed m) (h_message_as false p)
  (PostR (fun m' _ => rep_msg m' p)%I).
Proof.
  unfold message_unsealed, h_message_as, rep_msg_body, msg_fields.
  apply sim_lift; [apply _|]. intros start s1 _. apply sim_lift_then. intros ?.
  eapply sim_hw; [reflexivity|apply w_str|intros ?].
  do 2 (eapply sim_hw; [reflexivity|apply w_num; done|intros ?]).
  eapply sim_hw; [reflexivity|apply w_body|intros ?].
  apply sim_lift; [apply _|]. intros len s6 _. apply sim_lift; [apply _|]. intros bs s7 _. cbv zeta.
  intros m' s' E. iIntros "C". iApply wp_bind. iApply wp_ret.
  iApply wp_bind. iApply (wp_cell_store_rest0 q Nul (msg_fields m) p).
  iFrame "C". iIntros "C".
  iAssert (cell [] (msg_fields m ++ [rep_opt rep_num None]) p) with "[C]" as "C".
  { iApply cell_snoc. iExists Nul. by iFrame. }
  apply bind_inv in E as ([] & t1 & F1 & E). apply bind_inv in E as ([] & t2 & F2 & E). apply bind_inv in E as ([] & t3 & F3 & E).
  injection E as <- <-.
  iApply wp_bind. iApply wp_wand. iSplitL "C".
  { iApply (sim_hw_last [] (msg_fields m ++ [rep_opt rep_num None]) p 4 _ _ _ s7 eq_refl
      (w_num SML_TYPE_UNSIGNED 2 _ ltac:(lia)) _ _ F1). iExact "C". }
  iIntros (? t4) "[-> C]". iApply wp_bind. iApply (wp_lift_run _ _ _ _ _ F2). iApply (wp_lift_run _ _ _ _ _ F3).
  iSplit; [done|]. iExact "C".
Qed.
Lemma w_msg_as g m p s : sim (rep_msg m p) s (message_as (g, m)) (h_message_as g p)
  (PostR (fun m' _ => rep_msg m' p ∗ old_crc m)%I).
Proof.
  destruct g; [apply w_msg|]. change (message_as (false, m)) with (message_unsealed m).
  intros m' s' E. rewrite {1}rep_msg_split. iIntros "(%q & C & O)". iApply wp_wand. iSplitL "C".
  - iApply (w_msg_short m q p s m' s' E). iExact "C".
  - iIntros (? s2) "[-> C]". iSplit; [done|]. iFrame "C". iExists q. iFrame.
Qed.

(** the flags and the messages from the [i]-th on *)
Fixpoint tagged (gs : nat -> bool) (i : nat) (l : list sml_message) : list (bool * sml_message) :=
  match l with [] => [] | m :: l' => (gs i, m) :: tagged gs (S i) l' end.
Lemma tagged_combine gs : forall l i, tagged gs i l = combine (map gs (seq i (length l))) l.
Proof. induction l as [|m l IH]; intros i; [done|]. cbn [tagged length seq map combine]. by rewrite IH. Qed.

Lemma w_msgs_as gs p : forall l pre ss s,
  sim (p ↦ Struct (pre ++ ss) ∗ fields (map rep_msg l) ss)%I s (write_as (tagged gs (length pre) l)) (for_each_as gs (length l) (length pre) p)
    (PostR (fun l' _ => p ↦ Struct (pre ++ ss) ∗ fields (map rep_msg l') ss ∗ [∗ list] m ∈ l, old_crc m)%I).
Proof.
  induction l as [|a l IH]; intros pre ss s; cbn [map tagged write_as length for_each_as].
  - apply sim_ret. iIntros "[P F]". iSplit; [done|]. iFrame. done.
  - intros b s' E. apply bind_inv in E as (a' & s1 & E1 & E). apply bind_inv in E as (l' & s2 & E2 & E).
    injection E as <- <-. iIntros "[P F]".
    iDestruct (fields_cons_inv with "F") as (x ss' ->) "[R F]".
    iApply wp_bind. iApply (wp_load p _ x (pre ++ x :: ss')).
    { rewrite lookup_app_r // Nat.sub_diag //. }
    iFrame "P". iIntros "P". iApply wp_bind. iApply wp_wand.
    iSplitL "R"; [iApply (w_msg_as (gs (length pre)) a x s _ _ E1); iExact "R"|].
    iIntros (? s3) "[-> [R O]]".
    specialize (IH (pre ++ [x]) ss' s1). rewrite app_length Nat.add_1_r in IH. specialize (IH l' s2 E2). rewrite -!(assoc_L (++)) in IH. cbn [app] in IH.
    iPoseProof IH as "W".
    iApply wp_wand. iSplitL "W P F"; [iApply "W"; iFrame|]. iIntros (? s3) "[-> (P & F & OO)]". iSplit; [done|].
    iFrame "P". cbn [List.map]. rewrite fields_cons. iFrame.
Qed.
Lemma write_as_length : forall l s l' s', write_as l s = Ret (l', s') -> length l' = length l.
Proof.
  induction l as [|a l IH]; intros s l' s' E; [by injection E as <- <-|].
  apply bind_inv in E as (a' & s1 & E1 & E). apply bind_inv in E as (l2 & s2 & E2 & E). injection E as <- <-.
  cbn [length]. f_equal. by eapply IH.
Qed.
Lemma tagged_length gs : forall l i, length (tagged gs i l) = length l.
Proof. induction l as [|m l IH]; intros i; [done|]. cbn [tagged length]. by rewrite IH. Qed.
Lemma w_file_as gs l bytes p s : sim (rep_file l bytes p) s (write_as (tagged gs 0 l)) (h_file_as gs p)
  (PostR (fun l' _ => rep_file l' bytes p ∗ [∗ list] m ∈ l, old_crc m)%I).
Proof.
  intros l' s' E. iIntros "(%arr & %bp & P & A & B)". unfold h_file_as. iApply wp_bind. hload "P".
  assert (L := write_as_length _ _ _ _ E). rewrite tagged_length in L.
  destruct l as [|m l].
  - iDestruct "A" as "->". injection E as <- <-. iApply wp_ret. iSplit; [done|]. iSplitL; [|done]. iExists Nul, bp. by iFrame.
  - iDestruct (cell_ptr with "A") as "[A (%r & ->)]". cbn [if_ptr]. iApply wp_bind. hload_int "P".
    destruct (Z.of_nat (length (m :: l)) >? 0) eqn:EG; [|rewrite Z.gtb_ltb in EG; apply Z.ltb_ge in EG; cbn in EG; lia].
    rewrite Nat2Z.id. iDestruct "A" as (ss) "[A F]". rewrite app_nil_r.
    iApply wp_wand. iSplitL "A F"; [iApply (w_msgs_as gs (Ptr r) (m :: l) [] ss s l' s' E); iFrame|].
    iIntros (? s2) "[-> (A & F & O)]". iSplit; [done|]. iFrame "O". iExists (Ptr r), bp. rewrite L. iFrame.
    destruct l'; [done|]. iExists ss. rewrite app_nil_r. iFrame.
Qed.
Lemma w_frame_as gs l bytes p s : sim (rep_file l bytes p) s (frame_as (tagged gs 0 l)) (h_frame_as gs p)
  (PostR (fun l' _ => rep_file l' bytes p ∗ [∗ list] m ∈ l, old_crc m)%I).
Proof.
  unfold frame_as, h_frame_as.
  do 3 (apply sim_lift; [apply _|]; intros ? ? _).
  eapply (sim_bind _ _ (write_as (tagged gs 0 l)) (h_file_as gs p)); [apply w_file_as|]. intros l' s9 _ x9.
  do 8 (apply sim_lift; [apply _|]; intros ? ? _). cbv zeta.
  do 3 (apply sim_lift; [apply _|]; intros ? ? _).
  intros b s' E. apply bind_inv in E as ([] & s77 & E1 & E). injection E as <- <-.
  iIntros "H". iApply (wp_lift_run _ _ _ _ _ E1). iSplit; [done|]. iExact "H".
Qed.
End WithHost.
