(** Property C71: undefined arithmetic while writing. *)
From Verif Require Import Base Buf Crc16 Number OctetString Boolean Value Time SList Tree Bodies Message File Transport
  Lib Wf Spec TL Inv Reads Write TLWrite TLRound NumFacts PropsString Item Enc Dzg Round Round2 Round3 PropsRound Shifts.

Section WithHost.
Context {H : Host}.
Lemma item_ind' (Q : item -> Prop) : Q IOmitted -> Q IVoid -> (forall bs, Q (IWrong bs)) -> (forall bs, Q (IOctets bs)) -> (forall b, Q (IBool b)) ->
  (forall t bs, Q (INum t bs)) -> (forall n l, Forall Q l -> Q (IList n l)) -> forall i, Q i.
Proof.
  intros H1 H2 H3 H4 H5 H6 H7. fix IH 1. intros [| |bs|bs|b|t bs|n l]; [exact H1|exact H2|apply H3|apply H4|apply H5|apply H6|]. apply H7. induction l as [|c l IHl]; constructor; [apply IH|exact IHl].
Qed.
Lemma short_iff i : every (size_ok false) i -> (longb i = false <-> every (size_ok true) i).
Proof.
  induction i as [| |bs|bs|b|t bs|n l IH] using item_ind'; intros HS; try (cbn; tauto).
  - destruct HS as [[HS _] _]. cbn [longb every size_ok]. rewrite Z.ltb_ge. split; [intros L; split; [|exact I]; split; [exact HS|intros _; lia]|intros [[_ L] _]; specialize (L eq_refl); lia].
  - apply every_list in HS as [[HS _] HE]. cbn [longb]. rewrite orb_false_iff, Z.ltb_ge, every_list.
    assert (EL : existsb longb l = false <-> Forall (every (size_ok true)) l).
    { clear HS. induction IH as [|i l Hi IH IHl]; [split; constructor|]. apply Forall_cons_iff in HE as [E1 E2]. cbn [existsb].
      rewrite orb_false_iff, Forall_cons_iff, (Hi E1), (IHl E2). reflexivity. }
    rewrite EL. cbn [size_ok]. split; [intros [L F]; split; [split; [exact HS|intros _; exact L]|exact F]|intros [[_ L] F]; split; [now apply L|exact F]].
Qed.
Lemma sh_message m : writable m -> Forall (every (size_ok false)) (message_items m) -> shifts (sml_message_write m) (existsb longb (message_items m)).
Proof.
  intros [W1 W2 W3 (b & Eb & W4)] HS s x s' E. rewrite message_write_eq in E. unfold message_items in *. rewrite Eb in *.
  repeat (apply Forall_cons_iff in HS; let HS1 := fresh "S" in destruct HS as [HS1 HS]). clear HS.
  match type of E with match ?w s with _ => _ end = _ => assert (HW : shifts w (existsb longb [oct_item (m_transaction_id m); num_item 96 (m_group_id m); num_item 96 (m_abort_on_error m); body_item (Some b)])) end.
  { apply sh_quiet; [apply (sh_tl 112 6); lia|]. intros _. cbn [existsb]. rewrite orb_false_r.
    apply sh_seq; [now apply sh_oct|]. apply sh_seq; [now apply sh_u8|]. apply sh_seq; [now apply sh_u8|]. now apply sh_body. }
  match type of E with match ?w s with _ => _ end = _ => destruct (w s) as [[[] s1]| |] eqn:E1; try discriminate end. cbv zeta in E.
  destruct (buffer_slice _ _ s1) as [[bs s2]| |] eqn:E2; try discriminate.
  match type of E with match ?w s2 with _ => _ end = _ => assert (HT : shifts w false) end.
  { apply sh_quiet; [apply (sh_number _ _ 2); lia|]. intros _. apply sh_byte. }
  match type of E with match ?w s2 with _ => _ end = _ => destruct (w s2) as [[[] s3]| |] eqn:E3; try discriminate end. injection E as <- <-.
  assert (ES : s2 = s1) by (clear -E2; unfold buffer_slice in E2; repeat match type of E2 with (if ?c then _ else _) = _ => destruct c; try discriminate E2 end; congruence).
  rewrite (HT _ _ _ E3), ES, (HW _ _ _ E1). now rewrite orb_false_r.
Qed.
Lemma sh_messages l : sized H false l -> shifts (write_messages l) (existsb (fun m => existsb longb (message_items m)) l).
Proof.
  induction l as [|m l IH]; intros [HW HS]; [apply sh_ret|]. apply Forall_cons_iff in HW as [W1 W2]. apply Forall_cons_iff in HS as [S1 S2].
  cbn [write_messages existsb]. apply sh_bind; [now apply sh_message|]. intros m'. rewrite <- orb_false_r. apply sh_bind; [apply IH; now split|]. intros t. apply sh_ret.
Qed.
Lemma messages_short l : sized H false l -> (existsb (fun m => existsb longb (message_items m)) l = false <-> sized H true l).
Proof.
  intros [HW HS]. transitivity (Forall (fun m => Forall (every (size_ok true)) (message_items m)) l); [|unfold sized; tauto]. clear HW.
  induction l as [|m l IH]; [split; constructor|]. apply Forall_cons_iff in HS as [S1 S2]. cbn [existsb]. rewrite orb_false_iff, Forall_cons_iff, (IH S2).
  enough (existsb longb (message_items m) = false <-> Forall (every (size_ok true)) (message_items m)) by tauto. clear IH S2.
  induction (message_items m) as [|i t IH]; [split; constructor|]. apply Forall_cons_iff in S1 as [E1 E2]. cbn [existsb]. now rewrite orb_false_iff, Forall_cons_iff, (IH E2), (short_iff i E1).
Qed.
End WithHost.

(** *** C71 *)
(** sml_file_write of messages whose sizes can be written at all ([sized H false],
    C34): [ovf] notes that an int shift overflowed.  It happens exactly if an
    octet string of a message has more than 14 bytes, or a list of it more than 15
    elements ([sized H true] says that there are none). *)
Theorem C71_undefined_shift_iff (H : Host) l s f : sized H false l -> ovf s = false -> sml_file_write (mkFile l s) = Ret f ->
  (ovf (f_buf f) = true <-> ~ sized H true l).
Proof.
  intros HS HO E. unfold sml_file_write in E. cbn [f_messages f_buf] in E. destruct (write_messages l s) as [[ms s']| |] eqn:EW; try discriminate.
  injection E as <-. cbn [f_buf]. rewrite (sh_messages l HS _ _ _ EW), HO. cbn [orb]. rewrite <- (messages_short l HS). now destruct (existsb _ l).
Qed.
Print Assumptions C71_undefined_shift_iff.
(** The same for a whole frame. *)
Theorem C71_undefined_shift_sent (H : Host) wr l s r sent f : sized H false l -> ovf s = false -> sml_transport_write wr (mkFile l s) = Ret (r, sent, f) ->
  (ovf (f_buf f) = true <-> ~ sized H true l).
Proof.
  intros HS HO E. unfold sml_transport_write in E. cbn [f_messages f_buf] in E. destruct (transport_frame l s) as [[ms s']| |] eqn:EW; try discriminate.
  injection E as _ _ <-. cbn [f_buf].
  assert (SF : shifts (transport_frame l) (existsb (fun m => existsb longb (message_items m)) l)).
  { unfold transport_frame. apply sh_quiet; [intros s0 x s1 E; injection E as <- <-; now rewrite orb_false_r|]. intros _. apply sh_quiet; [apply sh_write|]. intros _.
    apply sh_quiet; [apply sh_update|]. intros _. rewrite <- orb_false_r. apply sh_bind; [now apply sh_messages|]. intros ms0.
    change false with (false || false). apply sh_bind; [intros s0 x s1 E; injection E as <- <-; now rewrite orb_false_r|]. intros p.
    apply sh_quiet; [destruct (p =? 0)%nat; [apply sh_ret|apply sh_quiet; [apply sh_write|intros _; apply sh_update]]|]. intros _.
    apply sh_quiet; [apply sh_write|]. intros _. apply sh_quiet; [apply sh_update|]. intros _. apply sh_quiet; [apply sh_store|]. intros _. apply sh_quiet; [apply sh_inc|]. intros _.
    change false with (false || false). apply sh_bind; [intros s0 x s1 E; unfold cursor_int in E; injection E as <- <-; now rewrite orb_false_r|]. intros c.
    change false with (false || false). apply sh_bind.
    { intros s0 x s1 E. unfold buffer_slice in E. repeat match type of E with (if ?c then _ else _) = _ => destruct c; try discriminate E end. injection E as <- <-. now rewrite orb_false_r. }
    intros bs. cbv zeta. apply sh_quiet; [apply sh_store|]. intros _. apply sh_quiet; [apply sh_inc|]. intros _. apply sh_quiet; [apply sh_store|]. intros _. apply sh_quiet; [apply sh_inc|]. intros _. apply sh_ret. }
  rewrite (SF _ _ _ EW), HO. cbn [orb]. rewrite <- (messages_short l HS). now destruct (existsb _ l).
Qed.
Print Assumptions C71_undefined_shift_sent.
Example C71_example_long : sized LittleEndian false [sample_list LittleEndian] /\ ~ sized LittleEndian true [sample_list LittleEndian] /\
  match @sml_file_write LittleEndian (mkFile [sample_list LittleEndian] (sml_buffer_init 300)) with Ret f => ovf (f_buf f) = true | _ => False end.
Proof.
  split; [exact sample_sized|].
  assert (X : match @sml_file_write LittleEndian (mkFile [sample_list LittleEndian] (sml_buffer_init 300)) with Ret f => ovf (f_buf f) = true | _ => False end) by (vm_compute; reflexivity).
  split; [|exact X]. destruct (sml_file_write _) as [f| |] eqn:E; try contradiction.
  exact (proj1 (C71_undefined_shift_iff LittleEndian _ (sml_buffer_init 300) f sample_sized eq_refl E) X).
Qed.
Example C71_example_short : sized BigEndian true [sample_short BigEndian] /\
  match @sml_file_write BigEndian (mkFile [sample_short BigEndian] (sml_buffer_init 300)) with Ret f => ovf (f_buf f) = false | _ => False end.
Proof. split; [exact sample_short_sized|vm_compute; reflexivity]. Qed.
