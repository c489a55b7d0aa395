(** C60: the byte order of the host cannot be observed. *)
From Coq Require Import SpecFloat.
From Verif Require Import Base Buf Crc16 Number OctetString Boolean Value Time SList Tree Bodies Message File Transport Server ServerMain
  Lib Wf Safe Safe2 Safe3 Ctx Inv MinSize Spec Enc Write Item Round3 PropsRound TransportFacts TransportWrite PropsTransport PropsSend PropsServer PropsMain
  Hosts HostsSim HostsWrite.

(** [carried A B x]: what host [B] has in memory where host [A] has [x]. *)
Definition same_order (A B : endian) : bool := match A, B with BigEndian, BigEndian | LittleEndian, LittleEndian => true | _, _ => false end.
Definition carried_number (A B : endian) (m : mem) : mem := if same_order A B then m else rev m.
Definition carried (A B : endian) (m : sml_message) : sml_message := if same_order A B then m else flip_message m.
Definition carried_file (A B : endian) (f : sml_file) : sml_file := mkFile (map (carried A B) (f_messages f)) (f_buf f).
Definition carried_value (A B : endian) (v : sml_value) : sml_value := if same_order A B then v else flip_value v.

Lemma order_cases (A B : endian) : (B = A /\ same_order A B = true) \/ (B = other A /\ same_order A B = false).
Proof. destruct A, B; cbn; auto. Qed.
Lemma carried_same A B f : same_order A B = true -> carried_file A B f = f.
Proof.
  intros E. unfold carried_file, carried. rewrite E. destruct f as [l s]. cbn [f_messages f_buf]. f_equal. apply map_id.
Qed.
Lemma carried_flip A B f : same_order A B = false -> carried_file A B f = flip_file f.
Proof. intros E. unfold carried_file, carried, flip_file. now rewrite E. Qed.
Lemma on_id {X} (f : X -> X) o : (forall x, f x = x) -> on_outcome f o = o.
Proof. intros E. destruct o; cbn [on_outcome]; now rewrite ?E. Qed.

(** Numbers: reading the carried memory gives the same value, and the memory made
    from a value on the one host is the carried memory of the other. *)
Theorem C60_numbers A B m : @mem_u B (carried_number A B m) = @mem_u A m /\ @mem_i B (carried_number A B m) = @mem_i A m /\
  length (carried_number A B m) = length m /\
  forall z n, (n <= 8)%nat -> @sml_number_init B z n = carried_number A B (@sml_number_init A z n).
Proof.
  unfold carried_number. destruct (order_cases A B) as [[-> ->]|[-> ->]]; [auto|].
  split; [apply flip_u|]. split; [apply flip_i|]. split; [apply rev_length|]. intros z n HN. now apply init_flip.
Qed.
Print Assumptions C60_numbers.

(** Parsing: for every input, the two hosts return the same messages, read the
    same number of bytes and set the same error flag, or fail in the same way. *)
Theorem C60_parse A B bytes : @sml_file_parse B bytes = on_outcome (carried_file A B) (@sml_file_parse A bytes).
Proof.
  destruct (order_cases A B) as [[-> E]|[-> E]].
  - rewrite on_id; [reflexivity|]. intros f. now apply carried_same.
  - rewrite flip_file_parse. destruct (sml_file_parse bytes) as [f| |]; cbn [on_outcome]; try reflexivity. now rewrite carried_flip.
Qed.
Print Assumptions C60_parse.

(** Writing and sending: the same bytes, the same result. *)
Theorem C60_write A B f : Forall (@writable A) (f_messages f) ->
  @sml_file_write B (carried_file A B f) = on_outcome (carried_file A B) (@sml_file_write A f) /\
  forall wr, @sml_transport_write B wr (carried_file A B f) = on_outcome (fun x => (fst x, carried_file A B (snd x))) (@sml_transport_write A wr f).
Proof.
  intros HW. destruct (order_cases A B) as [[-> E]|[-> E]].
  - split; intros; rewrite carried_same by exact E; rewrite on_id; auto; intros x; rewrite carried_same by exact E; [reflexivity|]. now destruct x.
  - rewrite carried_flip by exact E. split.
    + rewrite file_write_flip by exact HW. destruct (sml_file_write f); cbn [on_outcome]; try reflexivity. now rewrite carried_flip.
    + intros wr. rewrite transport_write_flip by exact HW. destruct (sml_transport_write wr f); cbn [on_outcome]; try reflexivity. now rewrite carried_flip.
Qed.
Print Assumptions C60_write.

(** Conversion to double, for values as the parser returns them. *)
Theorem C60_double A B v : wf_entry_value v -> @sml_value_to_double B (Some (carried_value A B v)) = @sml_value_to_double A (Some v).
Proof.
  intros HV. unfold carried_value. destruct (order_cases A B) as [[-> ->]|[-> ->]]; [reflexivity|]. exact (to_double_flip A (Some v) HV).
Qed.
Print Assumptions C60_double.

Lemma receiver_flip A v s fr : bytes_ok fr -> @receiver (other A) v s fr = @receiver A v s fr.
Proof.
  intros HB. unfold receiver. destruct (length fr <? 16)%nat; [reflexivity|]. set (p := firstn _ _). assert (HP : bytes_ok p) by (apply Forall_firstn, Forall_skipn, HB).
  rewrite flip_file_parse. pose proof (@file_parse_safe A 7 p (@min_size_7 A) HP) as HF. destruct (@sml_file_parse A p) as [f| |]; try reflexivity.
  destruct HF as (_ & _ & _ & HF & _). assert (HW : Forall (@wf_message A) (f_messages f)) by (eapply Forall_impl; [|exact HF]; intros m Hm; eapply parsed_in_wf; eauto).
  cbn [on_outcome obind flip_file f_messages]. unfold print_file. cbn [f_messages f_buf flip_file]. rewrite tags_flip, first_flip, messages_flip, map_length by exact HW. reflexivity.
Qed.
Lemma loop_flip A v s fuel : forall d, device_bytes d -> @server_loop (other A) fuel v s d = @server_loop A fuel v s d.
Proof.
  induction fuel as [|fuel IH]; intros d HB; [reflexivity|]. cbn [server_loop].
  destruct (C37_reads_only_frames MC_SML_BUFFER_LEN d) as (n & bs & d1 & E1 & HL & HC). rewrite E1. cbn [obind]. destruct (Nat.eqb_spec n 0) as [->|HN]; [reflexivity|].
  destruct HC as [->|((_ & HF & _) & noise & HD)]; [contradiction|]. unfold device_bytes in HB. rewrite HD, map_app, !Forall_app in HB. destruct HB as [[_ HB] HB1].
  rewrite Forall_map in HB. rewrite receiver_flip by exact HB. rewrite IH by exact HB1. reflexivity.
Qed.
(** The example program prints the same, whatever it receives and with all
    options, and it crashes for the same input. *)
Theorem C60_program A B v s d : device_bytes d -> @sml_server B v s d = @sml_server A v s d.
Proof.
  intros HB. destruct (order_cases A B) as [[-> _]|[-> _]]; [reflexivity|]. now apply loop_flip.
Qed.
Print Assumptions C60_program.

(** C43 with sender and receiver on different hosts. *)
Theorem C60_send_and_parse A B l n c e o wr : Forall (@round_trippable A) l -> (length l <= Z.to_nat 32767)%nat ->
  (length (flat_map (@message_bytes A) l) + 19 <= n)%nat -> Z.of_nat n < 2147483648 ->
  exists r sent f g, @sml_transport_write A wr (mkFile l (mkBuf (repeat 0 n) c e o)) = Ret (r, sent, f) /\
    map m_message_body (f_messages f) = map m_message_body l /\ map m_transaction_id (f_messages f) = map m_transaction_id l /\
    @sml_file_parse B (firstn (length sent - 16) (skipn 8 sent)) = Ret g /\ f_messages g = map (carried A B) (f_messages f) /\ error (f_buf g) = false.
Proof.
  intros HR HC Hn Hs. destruct (C43_transport_round_trip A l n c e o wr HR HC Hn Hs) as (r & sent & f & body & pad & c1 & c2 & E & _ & _ & _ & _ & _ & _ & _ & _ & EB & ET & _ & g & EG & EM & EE).
  exists r, sent, f, (carried_file A B g). split; [exact E|]. split; [exact EB|]. split; [exact ET|]. rewrite (C60_parse A B), EG. split; [reflexivity|].
  cbn [carried_file f_messages f_buf]. split; [now rewrite EM|exact EE].
Qed.
Print Assumptions C60_send_and_parse.

(** C56 with meter and receiver on different hosts: what is shown for the
    entries as they are in the meter's memory. *)
Theorem C60_meter_to_screen A B w tail d : Forall (transmission A) w -> ~ In 27 tail -> device_bytes d ->
  delivered d = map Some (flat_map (fun x => fst (fst x) ++ snd x) w ++ tail) ->
  exists lss d', @sml_server B false false d = Ret (map OLine (concat lss), d') /\ delivered d' = [] /\
    Forall2 (shows A) (flat_map entries_of (flat_map (fun x => snd (fst x)) w)) lss.
Proof.
  intros HW HT HB HD. destruct (C56_meter_to_screen A w tail d HW HT HD) as (lss & d' & E & ED & HF). exists lss, d'. split; [|auto].
  rewrite <- E. now apply C60_program.
Qed.
Print Assumptions C60_meter_to_screen.

(** *** Example: a big endian meter and a little endian receiver *)
Definition meter_messages : list sml_message :=
  map (carried LittleEndian BigEndian) [sample_close LittleEndian; sample_list LittleEndian; sample_close LittleEndian].
Definition meter_sent : list Z :=
  match @sml_transport_write BigEndian (fun n => Z.of_nat n) (mkFile meter_messages (sml_buffer_init 512)) with
  | Ret (_, sent, _) => sent | _ => [] end.
Example C60_example : meter_sent = run_sent /\ meter_sent <> [] /\
  @sml_server LittleEndian false false [Chunk meter_sent] = Ret (map OLine run_lines, []) /\
  hd_error meter_messages = Some (sample_close BigEndian) /\ sample_close BigEndian <> sample_close LittleEndian.
Proof. split; [vm_compute; reflexivity|]. split; [vm_compute; discriminate|]. split; [vm_compute; reflexivity|]. split; [vm_compute; reflexivity|]. vm_compute. discriminate. Qed.
Example C60_round_trippable : Forall (@round_trippable BigEndian) [sample_close BigEndian; sample_list BigEndian].
Proof.
  assert (H1 : @round_trippable BigEndian (sample_close BigEndian)) by (unfold sample_close; sample; exact I).
  assert (H2 : @round_trippable BigEndian (sample_list BigEndian)) by (unfold sample_list; sample; apply unaffected_stable; reflexivity).
  apply Forall_cons; [exact H1|]. apply Forall_cons; [exact H2|apply Forall_nil].
Qed.
