(** Properties C01 - C09: sml_file_parse on arbitrary input.

    A run of the model returns [Ret] only if it performed no invalid memory
    access (see Base.outcome).  [bytes_ok l]: every element is in 0..255. *)
From Verif Require Import Base Buf Crc16 Number OctetString Boolean Value Time SList Tree Bodies
  Message File Lib Wf Safe Safe2 Safe3 Ctx Ctx2 Ctx3 Scan Spec TL Inv MinSize Reads CrcProof FileFacts.

(** Sample input: a close response (C1) and a value list (C2) as meters send
    them, without and with their checksum. *)
Definition body1 : list Z := [118; 5; 0; 0; 0; 1; 98; 0; 98; 0; 114; 99; 2; 1; 113; 1].
Definition text1 : list Z := body1 ++ [99; 138; 77; 0].
Definition body2 : list Z :=
  [118; 5; 0; 0; 0; 2; 98; 0; 98; 0; 114; 99; 7; 1; 119; 1; 11; 10; 1; 69; 77; 72; 0; 0; 112; 128; 13;
   7; 1; 0; 98; 10; 255; 255; 1; 113; 119; 7; 129; 129; 199; 130; 3; 255; 1; 1; 1; 1; 4; 69; 77; 72; 1; 1; 1].
Definition text2 : list Z := body2 ++ [99; 35; 162; 0].
(** the shortest message there is *)
Definition short9 : list Z := [118; 1; 1; 1; 114; 1; 99; 170; 181].

Ltac bytes := unfold bytes_ok; repeat (constructor; [split; [discriminate|reflexivity]|]); constructor.
Lemma text1_ok : bytes_ok text1. Proof. bytes. Qed.
Lemma text2_ok : bytes_ok text2. Proof. bytes. Qed.

(** *** C01: no invalid memory access on inputs of at most 294912 bytes, and the
    private copy of the input is not modified. *)
Theorem C01_parse_memory_safe (H : Host) bytes :
  bytes_ok bytes -> Z.of_nat (length bytes) <= 294912 ->
  exists f, sml_file_parse bytes = Ret f /\ buffer (f_buf f) = bytes.
Proof.
  intros Hb Hl. destruct (file_parse_ret bytes Hb Hl) as (f & E & _). exists f. split; auto.
  pose proof (file_parse_safe 7 bytes min_size_7 Hb) as HP. rewrite E in HP. apply HP.
Qed.
Print Assumptions C01_parse_memory_safe.
(** hypotheses met, and the result is not empty *)
Example C01_example : bytes_ok (text1 ++ text2) /\ Z.of_nat (length (text1 ++ text2)) <= 294912 /\
  exists f, @sml_file_parse LittleEndian (text1 ++ text2) = Ret f /\ length (f_messages f) = 2%nat.
Proof. repeat split; try (unfold text1, text2; bytes); [cbn; lia|]. eexists. split; vm_compute; reflexivity. Qed.

(** *** C02: one byte more and there is an input with a wild write. *)
Definition overflow_input : list Z := copies (Z.to_nat 32768) short9 ++ [0].
Theorem C02_size_bound_sharp_refuted (H : Host) :
  bytes_ok overflow_input /\ Z.of_nat (length overflow_input) = 294913 /\
  sml_file_parse overflow_input = Fault WildPtr.
Proof.
  assert (Hok : bytes_ok short9) by bytes.
  assert (Hb : bytes_ok overflow_input).
  { apply Forall_app. split; [now apply copies_ok|]. bytes. }
  assert (Hl : Z.of_nat (length overflow_input) = 294913).
  { unfold overflow_input. rewrite app_length, copies_length. change (length short9) with 9%nat. cbn [length]. lia. }
  assert (Hf : fits overflow_input) by (unfold fits; lia).
  split; [exact Hb|]. split; [exact Hl|].
  assert (HO : exists m, one (short9 ++ firstn 2 short9) (Some m) (length short9) /\
    one (short9 ++ [0]) (Some m) (S (length short9))).
  { destruct H; eexists; split; (eexists; split; [vm_compute; reflexivity|split; vm_compute; reflexivity]). }
  destruct HO as (m & HO1 & HO2).
  assert (HS : scan overflow_input (repeat m (Z.to_nat 32768)) false).
  { apply scan_copies; auto; cbn; lia. }
  pose proof (file_parse_scan _ _ _ Hb Hf HS) as HP. rewrite repeat_length in HP.
  destruct (sml_file_parse overflow_input) as [f|f|]; [lia| |contradiction]. destruct HP as [-> _]. reflexivity.
Qed.
Print Assumptions C02_size_bound_sharp_refuted.

(** *** C03: termination.  Each loop of the model carries fuel that is at most the
    number of unread input bytes plus two (file loop: plus one); [NoFuel] is the outcome of
    using it up.  It does not occur, whatever counts the input declares; and
    there are at most (n-1)/9 messages. *)
Theorem C03_parse_terminates (H : Host) bytes : bytes_ok bytes -> sml_file_parse bytes <> NoFuel.
Proof.
  intros Hb E. pose proof (file_parse_safe 7 bytes min_size_7 Hb) as HP. now rewrite E in HP.
Qed.
Print Assumptions C03_parse_terminates.
Theorem C03_message_count (H : Host) bytes f : bytes_ok bytes -> Z.of_nat (length bytes) < 2147483648 ->
  sml_file_parse bytes = Ret f ->
  f_messages f = [] \/ (9 * length (f_messages f) + 1 <= length bytes)%nat.
Proof. intros Hb Hf E. eapply scan_count; eauto. now apply file_parse_inv. Qed.
Print Assumptions C03_message_count.
(** the count is attained: one message of nine bytes and a terminator *)
Example C03_example : exists f, @sml_file_parse BigEndian (short9 ++ [0]) = Ret f /\ length (f_messages f) = 1%nat.
Proof. eexists. split; vm_compute; reflexivity. Qed.
(** a declared count of 2^28-1 list elements: an error, not a long loop *)
Example C03_example_count : exists f, @sml_file_parse BigEndian
  (firstn 35 body2 ++ [255; 255; 255; 255; 255; 255; 127; 119; 1; 1; 1]) = Ret f /\ error (f_buf f) = true.
Proof. eexists. split; vm_compute; reflexivity. Qed.

(** *** C04: TL fields *)
Theorem C04_tl_closed s bs post :
  Z.of_nat (length (buffer s)) < 2147483648 ->
  skipn (cursor s) (buffer s) = bs ++ post -> tl_field bs -> tl_nibbles bs < 2147483648 ->
  sml_buf_get_next_type s = Ret (tl_type bs, s) /\
  sml_buf_get_next_length s = Ret (tl_length bs, set_cursor (cursor s + length bs) s).
Proof.
  intros Sm R Hb Hn. split; [now apply (type_fwd s bs post)|].
  rewrite (length_fwd s bs post Sm R Hb Hn). f_equal. f_equal. unfold at_, set_ovf. destruct s. cbn. now rewrite orb_false_r.
Qed.
Print Assumptions C04_tl_closed.
Theorem C04_tl_open s : Z.of_nat (length (buffer s)) < 2147483648 -> (cursor s <= length (buffer s))%nat ->
  bytes_ok (buffer s) -> Forall (fun b => 128 <= b < 256) (skipn (cursor s) (buffer s)) ->
  exists l s', sml_buf_get_next_length s = Ret (l, s') /\ error s' = true.
Proof.
  intros Sm Hc Hb Hr. destruct (next_length_open s Sm (conj Hc Hb) Hr) as (o & E & _).
  exists (-1), (set_err (at_ s (length (rest s)) o)). rewrite E. split; reflexivity.
Qed.
Print Assumptions C04_tl_open.
(** an octet string of 500 bytes, an unsigned of 8, a list of 300 elements *)
Example C04_example :
  (tl_field [129; 143; 7] /\ tl_type [129; 143; 7] = 0 /\ tl_length [129; 143; 7] = 500) /\
  (tl_field [105] /\ tl_type [105] = 96 /\ tl_length [105] = 8) /\
  (tl_field [241; 130; 12] /\ tl_type [241; 130; 12] = 112 /\ tl_length [241; 130; 12] = 300).
Proof.
  assert (HT : forall init last, Forall (fun b => 128 <= b < 256) init -> 0 <= last < 128 -> tl_field (init ++ [last])).
  { intros init last Hi Hl. exists init, last. auto. }
  repeat split; [apply (HT [129; 143])|apply (HT [])|apply (HT [241; 130])]; try lia; repeat constructor; lia.
Qed.

(** *** C05: signed overflow while reading a TL length.  [ovf] records it. *)
Theorem C05_overflow_iff s bs post :
  Z.of_nat (length (buffer s)) < 2147483648 -> ovf s = false ->
  skipn (cursor s) (buffer s) = bs ++ post -> tl_field bs ->
  exists l s', sml_buf_get_next_length s = Ret (l, s') /\ (ovf s' = true <-> 2147483648 <= tl_nibbles bs).
Proof.
  intros Sm Ho R Hb. destruct (next_length_closed s bs post Sm R Hb) as (l & E & _).
  eexists _, _. split; [exact E|]. unfold at_, set_ovf. cbn. rewrite Ho. cbn. apply Z.leb_le.
Qed.
Print Assumptions C05_overflow_iff.
(** no seven neighbouring bytes with the continuation bit: no overflow anywhere
    in sml_file_parse *)
Theorem C05_no_overflow (H : Host) bytes f : bytes_ok bytes ->
  (forall i, exists j, (i <= j < i + 7)%nat /\ forall x, nth_error bytes j = Some x -> Z.land x 128 = 0) ->
  sml_file_parse bytes = Ret f -> ovf (f_buf f) = false.
Proof.
  intros Hb Hs E. pose proof (file_parse_safe 7 bytes min_size_7 Hb) as HP. rewrite E in HP. now apply HP.
Qed.
Print Assumptions C05_no_overflow.
Example C05_example : (forall i, exists j, (i <= j < i + 7)%nat /\
  forall x, nth_error text1 j = Some x -> Z.land x 128 = 0).
Proof.
  assert (HA : forall j x, nth_error text1 j = Some x -> Z.land x 128 = 0 \/ (j = 17)%nat).
  { intros j x E. unfold text1, body1 in E. cbn [app] in E.
    do 20 (destruct j as [|j]; cbn [nth_error] in E; [injection E as <-; cbn; auto|]). destruct j; discriminate E. }
  intros i. exists (if Nat.eqb i 17 then S i else i). destruct (Nat.eqb_spec i 17).
  - split; [lia|]. subst i. cbn. intros x E. injection E as <-. reflexivity.
  - split; [lia|]. intros x E. destruct (HA _ _ E); [auto|contradiction].
Qed.
(** strict absence of undefined arithmetic is false *)
Theorem C05_no_overflow_refuted (H : Host) : exists bytes f,
  bytes_ok bytes /\ sml_file_parse bytes = Ret f /\ ovf (f_buf f) = true.
Proof.
  exists [255; 255; 255; 255; 255; 255; 255; 127; 0]. eexists. split; [bytes|].
  destruct H; (split; [vm_compute; reflexivity|reflexivity]).
Qed.
Print Assumptions C05_no_overflow_refuted.

(** *** C06: the discipline of the buffer: no parser changes the bytes, moves the
    cursor back or past the end, or clears the error flag; none faults. *)
Definition disciplined {A} (p : P A) : Prop := forall s,
  (cursor s <= length (buffer s))%nat -> bytes_ok (buffer s) -> Z.of_nat (length (buffer s)) < 2147483648 ->
  exists r s', p s = Ret (r, s') /\ buffer s' = buffer s /\
    (cursor s <= cursor s' <= length (buffer s))%nat /\ (error s = true -> error s' = true).
Lemma safe_disciplined {A} n (p : P A) Q : safe n p Q -> disciplined p.
Proof.
  intros Hp s Hc Hb _. pose proof (Hp s (conj Hc Hb)) as HW. unfold wp in HW.
  destruct (p s) as [[r s']|f|]; try contradiction. exists r, s'. destruct HW as [[S1 S2 S3] _]. auto.
Qed.
Theorem C06_parsers_disciplined (H : Host) :
  (disciplined sml_u8_parse /\ disciplined sml_u16_parse /\ disciplined sml_u32_parse /\ disciplined sml_u64_parse /\
   disciplined sml_i8_parse /\ disciplined sml_i16_parse /\ disciplined sml_i32_parse /\ disciplined sml_i64_parse) /\
  (disciplined sml_octet_string_parse /\ disciplined sml_boolean_parse /\ disciplined sml_value_parse /\
   disciplined sml_status_parse /\ disciplined sml_time_parse /\ disciplined sml_list_parse /\
   disciplined sml_tree_path_parse /\ disciplined sml_tupel_entry_parse /\ disciplined sml_period_entry_parse /\
   disciplined sml_proc_par_value_parse /\ disciplined sml_tree_parse /\ disciplined sml_prof_obj_header_entry_parse /\
   disciplined sml_prof_obj_period_entry_parse /\ disciplined sml_value_entry_parse /\
   forall w, disciplined (sml_list_entry_parse w)) /\
  (disciplined sml_open_request_parse /\ disciplined sml_open_response_parse /\ disciplined sml_close_request_parse /\
   disciplined sml_close_response_parse /\ disciplined sml_get_profile_pack_request_parse /\
   disciplined sml_get_profile_pack_response_parse /\ disciplined sml_get_profile_list_response_parse /\
   disciplined sml_get_proc_parameter_request_parse /\ disciplined sml_get_proc_parameter_response_parse /\
   disciplined sml_set_proc_parameter_request_parse /\ disciplined sml_get_list_request_parse /\
   disciplined sml_get_list_response_parse /\ disciplined sml_attention_response_parse /\
   disciplined sml_message_body_parse) /\
  disciplined sml_message_parse.
Proof.
  refine (conj _ (conj _ (conj _ _))).
  { repeat apply conj; [exact (safe_disciplined _ _ _ u8_safe)
   |exact (safe_disciplined _ _ _ u16_safe)
   |exact (safe_disciplined _ _ _ u32_safe)
   |exact (safe_disciplined _ _ _ u64_safe)
   |exact (safe_disciplined _ _ _ i8_safe)
   |exact (safe_disciplined _ _ _ i16_safe)
   |exact (safe_disciplined _ _ _ i32_safe)
   |exact (safe_disciplined _ _ _ i64_safe)]. }
  { repeat apply conj; [exact (safe_disciplined _ _ _ octet_safe)
   |exact (safe_disciplined _ _ _ boolean_safe)
   |exact (safe_disciplined _ _ _ value_safe)
   |exact (safe_disciplined _ _ _ status_safe)
   |exact (safe_disciplined _ _ _ time_safe)
   |exact (safe_disciplined _ _ _ list_safe)
   |exact (safe_disciplined _ _ _ tree_path_safe)
   |exact (safe_disciplined _ _ _ tupel_safe)
   |exact (safe_disciplined _ _ _ period_safe)
   |exact (safe_disciplined _ _ _ ppv_safe)
   |exact (safe_disciplined _ _ _ tree_safe)
   |exact (safe_disciplined _ _ _ header_safe)
   |exact (safe_disciplined _ _ _ per_entry_safe)
   |exact (safe_disciplined _ _ _ value_entry_safe)
   |intros w; exact (safe_disciplined _ _ _ (list_entry_safe w))]. }
  { repeat apply conj; [exact (safe_disciplined _ _ _ open_req_safe)
   |exact (safe_disciplined _ _ _ open_res_safe)
   |exact (safe_disciplined _ _ _ close_req_safe)
   |exact (safe_disciplined _ _ _ close_res_safe)
   |exact (safe_disciplined _ _ _ pack_req_safe)
   |exact (safe_disciplined _ _ _ pack_res_safe)
   |exact (safe_disciplined _ _ _ prof_list_res_safe)
   |exact (safe_disciplined _ _ _ proc_req_safe)
   |exact (safe_disciplined _ _ _ proc_res_safe)
   |exact (safe_disciplined _ _ _ set_proc_safe)
   |exact (safe_disciplined _ _ _ list_req_safe)
   |exact (safe_disciplined _ _ _ list_res_safe)
   |exact (safe_disciplined _ _ _ attention_safe)
   |exact (safe_disciplined _ _ _ body_safe)]. }
  intros s Hc Hb Hl. pose proof (message_safe s (conj Hc Hb)) as HW. unfold wpq in HW.
  destruct (sml_message_parse s) as [[r s']|f|]; try contradiction.
  exists r, s'. destruct HW as [[S1 S2 S3] _]. auto.
Qed.
Print Assumptions C06_parsers_disciplined.

(** Every message that sml_file_parse returns was read completely and without an
    error, starting somewhere in the input; and the file's error flag is set if
    the input was not read to its end. *)
Theorem C06_messages_complete (H : Host) bytes f : bytes_ok bytes -> sml_file_parse bytes = Ret f ->
  Forall (fun m => exists s1 s2, buffer s1 = bytes /\ error s1 = false /\
    sml_message_parse s1 = Ret (Some m, s2) /\ error s2 = false /\
    (cursor s1 < cursor s2 <= length bytes)%nat) (f_messages f) /\
  (error (f_buf f) = false -> cursor (f_buf f) = length bytes).
Proof.
  intros Hb E. pose proof (file_parse_safe 7 bytes min_size_7 Hb) as HP. rewrite E in HP.
  destruct HP as (_ & _ & _ & HF & HE & _). split; auto. eapply Forall_impl; [|exact HF].
  intros m (s1 & s2 & B1 & O1 & E1 & EM & E2). exists s1, s2.
  destruct (message_adv _ _ _ O1 EM) as [St Po]. specialize (Po E2). pose proof (st_cur _ _ St) as C.
  unfold buffer_len in C. rewrite B1 in C. repeat (split; auto); lia.
Qed.
Print Assumptions C06_messages_complete.
(** the parser stops early, and still returns the complete message before *)
Example C06_example : exists f, @sml_file_parse LittleEndian (text1 ++ firstn 30 text2) = Ret f /\
  length (f_messages f) = 1%nat /\ error (f_buf f) = true.
Proof. eexists. split; [vm_compute; reflexivity|]. split; vm_compute; reflexivity. Qed.

(** *** C07: the messages of a file, in order and without overlap, each with the
    bytes it was read from.  [crc_field] is the encoding of the checksum. *)
Inductive located {H : Host} : list Z -> list sml_message -> Prop :=
| located_nil bytes : located bytes []
| located_cons gap body field post m c ms :
    m_crc m = Some c -> crc_field field (mem_u c) ->
    (mem_u c = swap16 (crc16_x25 body) \/ mem_u c = crc16_kermit body) ->
    (exists f, sml_file_parse (body ++ field ++ firstn 3 post) = Ret f /\ f_messages f = [m]) ->
    located post ms ->
    located (gap ++ body ++ field ++ post) (m :: ms).
Lemma located_gap {H : Host} gap l ms : located l ms -> located (gap ++ l) ms.
Proof.
  intros HL. destruct HL as [|gap' body field post m c ms Hc Hfi Hv Ha HL]; [constructor|].
  rewrite app_assoc. econstructor; eauto.
Qed.
Lemma scan_located {H : Host} l ms e : bytes_ok l -> fits l -> scan l ms e -> located l ms.
Proof.
  intros Hb Hf HS. induction HS as [|l ms e HS IH|b l Hnz HF|b l m k ms e Hnz HO HS IH|b l k ms e Hnz HO HS IH]; try constructor.
  - apply (located_gap [0]). apply IH; [now inv Hb|apply (fits_app_r [0]), Hf].
  - destruct (message_parts _ _ _ Hb Hf HO) as (body & field & post & c & El & Hc & Hfi & Hv & Hpo & Ek).
    assert (HL : located (skipn k (b :: l)) ms) by (apply IH; [now apply Forall_skipn|now apply fits_skipn]).
    rewrite El in *. apply (located_cons [] body field post m c ms); auto.
    + (* alone *)
      set (j := if (hd 0 post =? 0)%Z then 1%nat else 0%nat) in *.
      assert (Hb3 : bytes_ok (body ++ field ++ firstn 3 post)).
      { apply Forall_app in Hb. destruct Hb as [Hb1 Hb2]. apply Forall_app in Hb2. destruct Hb2 as [Hb2 Hb3].
        repeat (apply Forall_app; split; auto). now apply Forall_firstn. }
      assert (Hf3 : fits (body ++ field ++ firstn 3 post)).
      { unfold fits in *. rewrite !app_length in *. rewrite firstn_length. lia. }
      assert (HO3 : one (body ++ field ++ firstn 3 post) (Some m) k).
      { replace (body ++ field ++ firstn 3 post) with (firstn (length body + length field + 3) (body ++ field ++ post)).
        - apply one_alone; auto. unfold j in Ek. destruct (hd 0 post =? 0)%Z; lia.
        - rewrite app_assoc, firstn_app. rewrite firstn_all2 by (rewrite app_length; lia).
          rewrite <- app_assoc. f_equal. f_equal. f_equal. rewrite app_length. lia. }
      destruct (scan_total (skipn k (body ++ field ++ firstn 3 post))) as (ms3 & e3 & HS3).
      { now apply Forall_skipn. } { now apply fits_skipn. }
      assert (ms3 = []) as ->.
      { eapply scan_short; [| |exact HS3|]; [now apply Forall_skipn|now apply fits_skipn|].
        rewrite skipn_length, !app_length, firstn_length. lia. }
      assert (HS4 : scan (body ++ field ++ firstn 3 post) [m] e3).
      { destruct body as [|b0 body].
        - exfalso. pose proof (one_min _ _ _ Hb Hf HO). cbn [app] in *. destruct Hfi as (tl & data & -> & Htl & Hty & _ & Hd & _).
          destruct (tl_hd _ Htl) as (x & y & ->). rewrite <- El in HO. destruct HO as (s & E & Er & _).
          cbn [app] in El. injection El as -> El. unfold sml_message_parse in E. unfold bind at 1, cursor_int at 1 in E.
          unfold expect_list in E. apply bind_inv in E. destruct E as (ty & s1 & E1 & E2).
          rewrite (next_type_eq (start (x :: l)) x l eq_refl) in E1. injection E1 as <- <-.
          cbn [tl_type] in Hty. rewrite Hty in E2. discriminate E2.
        - cbn [app] in *. injection El as <- El. eapply scan_some; eauto. }
      pose proof (file_parse_scan _ _ _ Hb3 Hf3 HS4) as HP.
      destruct (sml_file_parse _) as [f|f|]; [|cbn in HP; lia|contradiction]. exists f. split; auto. apply HP.
    + rewrite Ek in HL. rewrite <- skipn_skipn_add in HL. rewrite app_assoc in HL.
      rewrite <- app_length, skipn_app, skipn_all, Nat.sub_diag in HL. cbn [app skipn] in HL.
      destruct (hd 0 post =? 0)%Z; [|exact HL]. rewrite <- (firstn_skipn 1 post). now apply located_gap.
  - rewrite <- (firstn_skipn k (b :: l)). apply located_gap. apply IH; [now apply Forall_skipn|now apply fits_skipn].
Qed.
Theorem C07_checksum_always_matches (H : Host) bytes f : bytes_ok bytes ->
  Z.of_nat (length bytes) < 2147483648 -> sml_file_parse bytes = Ret f -> located bytes (f_messages f).
Proof. intros Hb Hf E. eapply scan_located; eauto. now apply file_parse_inv. Qed.
Print Assumptions C07_checksum_always_matches.
(** a changed transaction id: the message is not delivered *)
Example C07_example :
  (exists f, @sml_file_parse LittleEndian text1 = Ret f /\ length (f_messages f) = 1%nat) /\
  (exists f, @sml_file_parse LittleEndian ([118; 5; 0; 0; 0; 3] ++ skipn 6 text1) = Ret f /\ f_messages f = []).
Proof. split; eexists; (split; [vm_compute; reflexivity|]); vm_compute; reflexivity. Qed.

(** *** C08: messages with the usual three byte crc field and terminator,
    separated by any number of zero bytes; each may have any checksum. *)
Record segment {H : Host} : Type := mkSegment {
  g_body : list Z;            (* everything in front of the crc field *)
  g_fields : fields;          (* what it means *)
  g_hi : Z; g_lo : Z;         (* the checksum *)
  g_padding : nat }.
Definition segment_text {H : Host} (g : segment) : list Z :=
  g_body g ++ [99; g_hi g; g_lo g; 0] ++ repeat 0 (g_padding g).
Definition complete {H : Host} (g : segment) : Prop := head_of (g_body g) (g_fields g).
Definition intact {H : Host} (g : segment) : bool :=
  (g_hi g * 256 + g_lo g =? swap16 (crc16_x25 (g_body g))) || (g_hi g * 256 + g_lo g =? crc16_kermit (g_body g)).
Definition message {H : Host} (g : segment) : sml_message := message_of (g_fields g) (g_hi g) (g_lo g).

Lemma scan_zeros {H : Host} n l ms e : scan l ms e -> scan (repeat 0 n ++ l) ms e.
Proof. intros HS. induction n; cbn; auto. now constructor. Qed.
Lemma intact_bad {H : Host} g : bytes_ok (g_body g) -> crc_bad (host_order [g_hi g; g_lo g]) (g_body g) = negb (intact g).
Proof.
  intros Hb. pose proof (crc_bad_spec (host_order [g_hi g; g_lo g]) (g_body g) Hb) as HC.
  rewrite mem_u_host in HC. change (be_unsigned [g_hi g; g_lo g]) with (g_hi g * 256 + g_lo g) in HC.
  unfold intact. destruct (crc_bad _ _), (Z.eqb_spec (g_hi g * 256 + g_lo g) (swap16 (crc16_x25 (g_body g)))),
    (Z.eqb_spec (g_hi g * 256 + g_lo g) (crc16_kermit (g_body g))); cbn; tauto.
Qed.
Lemma segment_scan {H : Host} g t ms e : complete g -> bytes_ok (segment_text g ++ t) -> fits (segment_text g ++ t) ->
  scan t ms e -> scan (segment_text g ++ t) ((if intact g then [message g] else []) ++ ms) e.
Proof.
  intros Hc Hb Hf HS. unfold segment_text in *. rewrite <- !app_assoc in *.
  pose proof (seg_scan _ _ _ _ _ ms e Hc Hb Hf (scan_zeros _ _ _ _ HS)) as HX.
  rewrite intact_bad in HX by (apply Forall_app in Hb; tauto). now destruct (intact g).
Qed.
Theorem C08_bad_checksum_dropped_alone (H : Host) (gs : list segment) :
  let bytes := flat_map segment_text gs in
  Forall complete gs -> bytes_ok bytes -> Z.of_nat (length bytes) <= 294912 ->
  exists f, sml_file_parse bytes = Ret f /\ error (f_buf f) = false /\
    f_messages f = map message (filter intact gs).
Proof.
  intros bytes HC Hb Hl.
  assert (HS : scan bytes (map message (filter intact gs)) false).
  { assert (Hf : fits bytes) by (unfold fits; lia). clear Hl. subst bytes.
    induction gs as [|g gs IH]; cbn; [constructor|]. inv HC. cbn in Hb, Hf.
    assert (bytes_ok (flat_map segment_text gs)) by (apply Forall_app in Hb; tauto).
    specialize (IH H3 H0 (fits_app_r _ _ Hf)). pose proof (segment_scan g _ _ _ H2 Hb Hf IH) as HX.
    now destruct (intact g). }
  destruct (file_parse_ret bytes Hb Hl) as (f & E & HS').
  destruct (scan_det _ _ _ _ _ HS HS') as [-> ->]. eauto.
Qed.
Print Assumptions C08_bad_checksum_dropped_alone.
(** The same between arbitrary neighbours: [a] is any input that is parsed
    without an error, [b] any input at all. *)
Theorem C08_neighbours_unchanged (H : Host) a g b fa fb :
  complete g -> bytes_ok (a ++ segment_text g ++ b) -> Z.of_nat (length (a ++ segment_text g ++ b)) <= 294912 ->
  sml_file_parse a = Ret fa -> error (f_buf fa) = false -> sml_file_parse b = Ret fb ->
  exists f, sml_file_parse (a ++ segment_text g ++ b) = Ret f /\ error (f_buf f) = error (f_buf fb) /\
    f_messages f = f_messages fa ++ (if intact g then [message g] else []) ++ f_messages fb.
Proof.
  intros Hc Hb Hl Ea Er Eb. assert (Hf : fits (a ++ segment_text g ++ b)) by (unfold fits; lia).
  pose proof Hb as Hb'. apply Forall_app in Hb'. destruct Hb' as [Hba Hb2]. pose proof Hb2 as Hb3.
  apply Forall_app in Hb3. destruct Hb3 as [_ Hbb].
  pose proof (fits_app_l _ _ Hf) as Hfa. pose proof (fits_app_r _ _ Hf) as Hf2. pose proof (fits_app_r _ _ Hf2) as Hfb.
  pose proof (file_parse_inv _ _ Hba Hfa Ea) as HSa. rewrite Er in HSa.
  pose proof (file_parse_inv _ _ Hbb Hfb Eb) as HSb.
  pose proof (segment_scan g _ _ _ Hc Hb2 Hf2 HSb) as HSg.
  pose proof (scan_app _ _ _ _ _ Hb Hf HSa HSg) as HS.
  destruct (file_parse_ret _ Hb Hl) as (f & E & HS').
  destruct (scan_det _ _ _ _ _ HS HS') as [E1 E2]. exists f. auto.
Qed.
Print Assumptions C08_neighbours_unchanged.
(** three complete messages, the one in the middle with a wrong checksum *)
Example C08_example : let H : Host := LittleEndian in exists f1 f2,
  let gs := [mkSegment H body1 f1 138 77 0; mkSegment H body1 f1 138 78 3; mkSegment H body2 f2 35 162 1] in
  Forall complete gs /\ bytes_ok (flat_map segment_text gs) /\
  Z.of_nat (length (flat_map segment_text gs)) <= 294912 /\ map intact gs = [true; false; true].
Proof.
  eexists _, _. split; [|split; [bytes|split; [vm_compute; discriminate|vm_compute; reflexivity]]].
  repeat constructor; unfold complete, head_of; eexists; (split; [vm_compute; reflexivity|split; reflexivity]).
Qed.

(** *** C09: more input does not change what was already recognised *)
Theorem C09_prefix_stable (H : Host) bytes more f1 f2 : bytes_ok (bytes ++ more) ->
  Z.of_nat (length (bytes ++ more)) < 2147483648 ->
  sml_file_parse bytes = Ret f1 -> sml_file_parse (bytes ++ more) = Ret f2 ->
  exists new, f_messages f2 = f_messages f1 ++ new.
Proof.
  intros Hb Hf E1 E2.
  assert (Hb1 : bytes_ok bytes) by (apply Forall_app in Hb; tauto).
  pose proof (fits_app_l _ _ Hf) as Hf1.
  eapply scan_extend; eauto; eapply file_parse_inv; eauto.
Qed.
Print Assumptions C09_prefix_stable.
Example C09_example : exists f1 f2,
  @sml_file_parse LittleEndian (text1 ++ firstn 30 text2) = Ret f1 /\ length (f_messages f1) = 1%nat /\
  @sml_file_parse LittleEndian ((text1 ++ firstn 30 text2) ++ skipn 30 text2) = Ret f2 /\ length (f_messages f2) = 2%nat.
Proof.
  eexists _, _. split; [vm_compute; reflexivity|]. split; [reflexivity|]. split; [vm_compute; reflexivity|reflexivity].
Qed.
