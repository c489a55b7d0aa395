(** Property C70: what one wrong bit on the line can do. *)
From Coq Require Import SpecFloat.
From Verif Require Import Base Buf Crc16 Number OctetString Boolean Value Time SList Tree Bodies Message File Transport Server ServerMain
  Lib Wf Safe Safe2 Safe3 Ctx Inv MinSize Spec CrcProof Scan FileFacts PropsParse PropsCrc TL Reads Write NumFacts PropsNumber PropsString Item Enc Dzg Round Round2 Round3 PropsRound
  TransportFacts TransportWrite PropsTransport PropsSend PropsServer PropsLost PropsMain.

(** *** As long as the lengths arrive, nothing wrong is delivered *)
(** What was sent and what arrived in its place: a message of the same length,
    with no or an odd number of wrong bits in it and its checksum. *)
Definition codeword {H : Host} (g : segment) : list Z := g_body g ++ [g_hi g; g_lo g].
Definition disturbed {H : Host} (x : segment * segment) : Prop := let (sent, got) := x in
  complete sent /\ intact sent = true /\ bytes_ok (segment_text sent) /\
  complete got /\ length (g_body sent) = length (g_body got) /\
  (codeword sent = codeword got \/ Nat.odd (flipped (codeword sent) (codeword got)) = true).
Definition untouched {H : Host} (x : segment * segment) : bool :=
  if list_eq_dec Z.eq_dec (codeword (fst x)) (codeword (snd x)) then true else false.

Lemma intact_accepted {H : Host} g : bytes_ok (g_body g) -> (intact g = true <-> accepted_crc (g_body g) (g_hi g) (g_lo g)).
Proof. intros B. unfold intact, accepted_crc. now rewrite x25_ok, kermit_ok, orb_true_iff, !Z.eqb_eq by exact B. Qed.
Lemma codeword_bytes {H : Host} g : bytes_ok (segment_text g) -> bytes_ok (g_body g) /\ bytes_ok (codeword g).
Proof.
  unfold segment_text, codeword. intros B. apply Forall_app in B as [B1 B2]. split; [exact B1|]. apply Forall_app. split; [exact B1|].
  cbn [app] in B2. inversion_clear B2 as [|? ? _ B3]. inversion_clear B3 as [|? ? Bh B4]. inversion_clear B4 as [|? ? Bl _].
  constructor; [exact Bh|]. constructor; [exact Bl|constructor].
Qed.
Lemma app_inv_length {A} (a b c d : list A) : a ++ c = b ++ d -> length a = length b -> a = b /\ c = d.
Proof. revert b. induction a as [|x a IH]; intros [|y b] E L; try discriminate; [auto|]. cbn in E, L. injection E as -> E. injection L as L. destruct (IH _ E L) as [-> ->]. auto. Qed.
Lemma disturbed_one {H : Host} s g : bytes_ok (segment_text g) -> disturbed (s, g) ->
  intact g = untouched (s, g) /\ (untouched (s, g) = true -> message g = message s).
Proof.
  intros Bg (C1 & I1 & Bs & C2 & L & D). unfold untouched. cbn [fst snd].
  destruct (codeword_bytes s Bs) as [Bs1 Bs2], (codeword_bytes g Bg) as [Bg1 Bg2].
  destruct (list_eq_dec Z.eq_dec (codeword s) (codeword g)) as [E|N].
  - unfold codeword in E. apply app_inv_length in E as [E1 E2]; [|exact L]. injection E2 as Eh El. split.
    + rewrite <- I1. unfold intact. now rewrite E1, Eh, El.
    + intros _. unfold message. rewrite Eh, El. f_equal. unfold complete in *. rewrite E1 in C1.
      destruct C1 as (s1 & P1 & _), C2 as (s2 & P2 & _). congruence.
  - destruct D as [D|D]; [contradiction|]. split; [|discriminate].
    destruct (intact g) eqn:EI; [exfalso|reflexivity]. apply intact_accepted in I1, EI; try assumption.
    exact (odd_not_accepted _ _ _ _ _ _ Bs2 Bg2 L D I1 EI).
Qed.

Theorem C70_only_what_was_sent (H : Host) xs :
  Forall disturbed xs -> let got := flat_map (fun x => segment_text (snd x)) xs in
  bytes_ok got -> Z.of_nat (length got) <= 294912 ->
  exists f, sml_file_parse got = Ret f /\ error (f_buf f) = false /\
    f_messages f = map (fun x => message (fst x)) (filter untouched xs).
Proof.
  intros HD got HB HL.
  assert (EG : got = flat_map segment_text (map snd xs)).
  { unfold got. clear. induction xs as [|x xs IH]; [reflexivity|]. cbn [flat_map map]. now rewrite IH. }
  destruct (C08_bad_checksum_dropped_alone H (map snd xs)) as (f & E & ER & EM).
  { apply Forall_map. eapply Forall_impl; [|exact HD]. intros [s g] D. apply D. }
  { rewrite <- EG. exact HB. }
  { rewrite <- EG. exact HL. }
  rewrite <- EG in E. exists f. split; [exact E|]. split; [exact ER|]. rewrite EM. clear f E ER EM EG HL. unfold got in HB. clear got.
  induction xs as [|[s g] xs IH]; [reflexivity|]. cbn [flat_map snd] in HB. apply Forall_app in HB as [B1 B2].
  inversion_clear HD as [|? ? D1 D2]. destruct (disturbed_one s g B1 D1) as [EI EM]. cbn [map filter snd]. rewrite EI.
  destruct (untouched (s, g)); [|now apply IH]. cbn [map fst]. rewrite (EM eq_refl). f_equal. now apply IH.
Qed.
Print Assumptions C70_only_what_was_sent.
Example C70_example : let H : Host := LittleEndian in exists fs fs',
  let g := mkSegment H body1 fs 138 77 0 in
  let g' := mkSegment H ([118; 5; 0; 0; 0; 3] ++ skipn 6 body1) fs' 138 77 0 in
  Forall disturbed [(g, g); (g, g'); (g, g)] /\ map untouched [(g, g); (g, g'); (g, g)] = [true; false; true].
Proof.
  eexists _, _. cbv zeta. split; [|vm_compute; reflexivity].
  repeat (apply Forall_cons; [split; [unfold complete, head_of; eexists; (split; [vm_compute; reflexivity|split; reflexivity])|];
    split; [vm_compute; reflexivity|]; split; [bytes|]; split; [unfold complete, head_of; eexists; (split; [vm_compute; reflexivity|split; reflexivity])|];
    split; [reflexivity|]; first [left; reflexivity|right; vm_compute; reflexivity]|]). apply Forall_nil.
Qed.

(** *** A wrong bit in a length *)
(** A message that shows 1.2 kWh, and a tag that holds the rest of another one,
    which shows 9999.9 kWh. *)
Definition other_rest : list Z :=
  [98; 0; 98; 0; 114; 99; 7; 1; 119; 1; 2; 49; 1; 1;
   113; 119; 7; 1; 0; 1; 8; 0; 255; 1; 1; 98; 30; 82; 255; 101; 5; 245; 224; 255; 1;
   1; 1].
Definition other_text : list Z := [118; 128; 6; 1; 2; 3; 4] ++ other_rest.
Definition other_tag : list Z :=
  let c := sml_crc16_calculate other_text in
  [1; 2; 3; 4] ++ other_rest ++ [99; c / 256; c mod 256; 0] ++ repeat 0 (60 - length other_rest).
Definition small_list (H : Host) : sml_message :=
  mkMsg (Some other_tag) (Some (u8 0)) (Some (u8 0)) (Some (mkBody (Some (sml_u32_init 1793))
    (BListRes (mkListRes None (Some [49]) None None
      [mkEntry (Some [1; 0; 1; 8; 0; 255]) None None (Some (u8 30)) (Some (u8 255)) (Some (mkValue 97 (VNum [12]))) None] None None)))) None.
Definition noise_sent : list Z :=
  match @sml_transport_write LittleEndian (fun n => Z.of_nat n) (mkFile [small_list LittleEndian] (sml_buffer_init 512)) with
  | Ret (_, sent, _) => sent | _ => [] end.
Definition noise_got : list Z := firstn 9 noise_sent ++ [128] ++ skipn 10 noise_sent.
(** The sender's message is in order, one bit of its frame is changed on the line,
    and the screen shows another reading. *)
Theorem C70_one_bit_in_a_length_refuted : exists m sent got, let H : Host := LittleEndian in
  transmission H ([], [m], sent) /\ length sent = length got /\ flipped sent got = 1%nat /\
  sml_server false false [Chunk sent] = Ret ([OLine (LNum [1; 0; 1; 8; 0; 255] (double_of_Z 12) (-1) (Some [87; 104]))], []) /\
  sml_server false false [Chunk got] = Ret ([OLine (LNum [1; 0; 1; 8; 0; 255] (double_of_Z 99999999) (-1) (Some [87; 104]))], []).
Proof.
  exists (small_list LittleEndian), noise_sent, noise_got. cbv zeta. split.
  { split; [intros []|]. split; [apply Forall_cons; [|apply Forall_nil]; unfold small_list; sample; apply unaffected_stable; reflexivity|]. split; [cbn [length]; lia|].
    split; [repeat (apply Forall_cons; [right; split; [eexists; split; [reflexivity|cbn [length]; lia]|discriminate]|]); constructor|].
    split; [exists 512%nat, 0%nat, false, false, (fun n => Z.of_nat n); eexists _, _; split; [lia|vm_compute; reflexivity]|].
    split; [apply (unescapedb_ok 200); vm_compute; reflexivity|]. apply Nat.ltb_lt. vm_compute. reflexivity. }
  repeat (split; [vm_compute; reflexivity|]). vm_compute. reflexivity.
Qed.
Print Assumptions C70_one_bit_in_a_length_refuted.
(** The checksum of the frame would have told, but nobody looks at it (C44). *)
Example C70_frame_checksum : sml_crc16_calculate (firstn (length noise_sent - 2) noise_sent) <> sml_crc16_calculate (firstn (length noise_got - 2) noise_got).
Proof. vm_compute. discriminate. Qed.
