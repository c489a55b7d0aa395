(** Property C67: what is on the screen. *)
From Coq Require Import String SpecFloat.
From Verif Require Import Base Buf Crc16 Number OctetString Boolean Value Time SList Tree Bodies Message File Transport Server ServerMain
  Lib Wf Safe Safe2 Safe3 Ctx MinSize Spec TL Inv Reads Write TLWrite TLRound NumFacts PropsNumber Double PropsDouble PropsString Item Enc Dzg Round Round2 Round3 PropsRound PropsServer
  TransportFacts TransportWrite PropsTransport PropsMain Decimal Units Printf PrintFacts.

(** ** What should be on the screen *)
(** The integer in a value of a list entry; the types without one (C14, C15)
    count as 0. *)
Definition integer_in (H : Host) (v : sml_value) (z : Z) : Prop :=
  (exists t signed n m, In (t, signed, n) typed_numbers /\ v = mkValue t (VNum m) /\ z = mem_value signed m) \/
  ((forall signed n, ~ In (v_type v, signed, n) typed_numbers) /\ z = 0).
Definition scaler_of (H : Host) (e : list_entry) : Z := match le_scaler e with None => 0 | Some m => mem_i m end.
(** The name A-B:C.D.E*F in decimal. *)
Definition obis_spelt (obis text : list Z) : Prop :=
  exists a b c d e f, text = a ++ [45] ++ b ++ [58] ++ c ++ [46] ++ d ++ [46] ++ e ++ [42] ++ f /\
    spells a (nth 0 obis 0) 0 /\ spells b (nth 1 obis 0) 0 /\ spells c (nth 2 obis 0) 0 /\
    spells d (nth 3 obis 0) 0 /\ spells e (nth 4 obis 0) 0 /\ spells f (nth 5 obis 0) 0.
(** The number z * 10 ^ s with the decimals the scaler asks for: exact up to
    2 ^ 50, and otherwise with an error below one part in 2 ^ 50 plus half a unit
    of the last digit. *)
Definition number_spelt (z s : Z) (text : list Z) : Prop :=
  let k := Z.to_nat (Z.max (- s) 0) in
  let w := z * 10 ^ Z.max s 0 in
  exists N, spells text N k /\ (Z.abs w <= 2 ^ 50 -> N = w) /\ 2 ^ 50 * Z.abs (N - w) <= Z.abs w + 2 ^ 49.
Definition unit_spelt (H : Host) (e : list_entry) (text : list Z) : Prop :=
  match le_unit e with
  | None => text = []
  | Some u => is_unit (mem_u u) text \/ (forall t, ~ is_unit (mem_u u) t) /\ text = []
  end.
Inductive displays (H : Host) : list_entry -> list Z -> Prop :=
| displays_no_value e : le_value e = None -> displays H e []
| displays_long_integer e v : le_value e = Some v -> v_type v = 112 -> displays H e []
| displays_text e n o bs pre post : le_obj_name e = Some n -> obis_spelt (firstn 6 n) o -> le_value e = Some (mkValue 0 (VBytes bs)) ->
    bs = pre ++ post -> Forall printable pre -> (forall b t, post = b :: t -> ~ printable b) ->
    displays H e (o ++ [35] ++ pre ++ hex_dump post ++ [35; 10])
| displays_bool e n o b : le_obj_name e = Some n -> obis_spelt (firstn 6 n) o -> le_value e = Some (mkValue 64 (VBool b)) ->
    displays H e (o ++ [35] ++ [116; 114; 117; 101] ++ [35; 10])
| displays_number e n o v z num unit : le_obj_name e = Some n -> obis_spelt (firstn 6 n) o -> le_value e = Some v -> (80 <= v_type v < 112) ->
    integer_in H v z -> number_spelt z (scaler_of H e) num -> unit_spelt H e unit ->
    displays H e (o ++ [35] ++ num ++ [35] ++ unit ++ [10]).

(** ** Proofs *)
Lemma units_named code t : In (code, t) (removelast dlms_units) <-> is_unit code t.
Proof.
  assert (E : removelast dlms_units = map (fun p => (fst p, chars (snd p))) unit_names) by (vm_compute; reflexivity). rewrite E, in_map_iff. split.
  - intros ([c x] & EQ & HI). cbn [fst snd] in EQ. injection EQ as <- <-. exists x. auto.
  - intros (x & HI & ->). exists (code, x). auto.
Qed.
Lemma units_distinct c s1 s2 : In (c, s1) unit_names -> In (c, s2) unit_names -> s1 = s2.
Proof.
  assert (ND : NoDup (map fst unit_names)).
  { assert (HB : (fix nd l := match l with [] => true | x :: t => negb (existsb (Z.eqb x) t) && nd t end) (map fst unit_names) = true) by reflexivity.
    revert HB. generalize (map fst unit_names). induction l as [|x l IH]; intros HB; constructor.
    - apply andb_true_iff in HB. destruct HB as [HB _]. intros HI. apply negb_true_iff in HB. assert (existsb (Z.eqb x) l = true); [|congruence].
      apply existsb_exists. exists x. split; [exact HI|apply Z.eqb_refl].
    - apply IH. apply andb_true_iff in HB. apply HB. }
  revert ND. generalize unit_names. induction l as [|[c' s'] l IH]; intros ND H1 H2; [contradiction|]. cbn [map fst] in ND. inversion ND as [|? ? NI ND']; subst.
  assert (NO : forall s, In (c, s) l -> c' <> c) by (intros s HI ->; apply NI; apply (in_map fst) in HI; exact HI).
  destruct H1 as [H1|H1], H2 as [H2|H2]; [congruence| | |auto].
  - injection H1 as -> ->. exfalso. eapply NO; eauto.
  - injection H2 as -> ->. exfalso. eapply NO; eauto.
Qed.
(** The lookup gives the name of the unit with this code. *)
Theorem C50_unit_names code : exists r, dlms_get_unit code = Ret r /\ forall t, r = Some t <-> is_unit code t.
Proof.
  rewrite get_unit. eexists. split; [reflexivity|]. intros t. destruct (find _ _) as [[c x]|] eqn:EF.
  - apply find_some in EF. destruct EF as [HI HC]. cbn [fst snd] in *. apply Z.eqb_eq in HC. subst c. apply units_named in HI. destruct HI as (s & HS & ->). split.
    + intros E. injection E as <-. exists s. auto.
    + intros (s2 & HS2 & ->). now rewrite (units_distinct _ _ _ HS HS2).
  - split; [discriminate|]. intros HU. apply units_named in HU. pose proof (find_none _ _ EF _ HU) as X. cbn [fst] in X. rewrite Z.eqb_refl in X. discriminate.
Qed.
Print Assumptions C50_unit_names.
Example C50_names_example : is_unit 30 [87; 104] /\ is_unit 9 [194; 176; 67] /\ ~ is_unit 58 [].
Proof.
  split; [exists "Wh"%string; split; [cbn; tauto|reflexivity]|]. split; [exists "°C"%string; split; [cbn; tauto|reflexivity]|].
  intros (s & HI & _). cbn [In unit_names] in HI. repeat (destruct HI as [HI|HI]; [discriminate|]). exact HI.
Qed.
Section Facts.
Context {H : Host}.
Lemma obis_text_spelt n : bytes_ok n -> exists o, obis_text (firstn 6 n) = o ++ [35] /\ obis_spelt (firstn 6 n) o.
Proof.
  intros HB. assert (HN : forall i, 0 <= nth i (firstn 6 n) 0).
  { intros i. destruct (Nat.lt_ge_cases i (length (firstn 6 n))); [|rewrite nth_overflow by assumption; lia].
    assert (HF : bytes_ok (firstn 6 n)) by (apply Forall_firstn, HB). apply (proj1 (Forall_forall _ _) HF), nth_In. assumption. }
  unfold obis_text. rewrite !app_assoc. eexists. split; [reflexivity|]. rewrite <- !app_assoc.
  do 6 eexists. split; [reflexivity|]. split; [apply decimal_spells, HN|]. split; [apply decimal_spells, HN|]. split; [apply decimal_spells, HN|].
  split; [apply decimal_spells, HN|]. split; [apply decimal_spells, HN|]. apply decimal_spells, HN.
Qed.
Lemma scaler_range e : wf_entry e -> -128 <= scaler_of H e <= 127.
Proof.
  intros W. unfold scaler_of. pose proof (wfe_scaler _ W) as HS. destruct (le_scaler e) as [m|]; [|lia]. destruct HS as [HL HB].
  destruct m as [|x [|? ?]]; try discriminate. inversion HB as [|? ? Hx _]; subst. unfold byte_ok in Hx.
  assert (EU : mem_u [x] = x) by (unfold mem_u; destruct host_endian; cbn [rev app Base.le_value]; lia).
  unfold mem_i. rewrite EU. cbn [length Nat.ltb andb]. change (2 ^ (8 * Z.of_nat 1)) with 256. change (0 <? Z.of_nat 1) with true. cbn [andb].
  change (256 / 2) with 128. destruct (Z.leb_spec 128 x); lia.
Qed.
Lemma integer_double v d : wf_entry_value v -> 80 <= v_type v < 112 -> sml_value_to_double (Some v) = Ret d ->
  exists z, integer_in H v z /\ Z.abs z < 2 ^ 64 /\ d = double_of_Z z.
Proof.
  intros HW HT HD.
  assert (K : forall t sg n m, In (t, sg, n) typed_numbers -> wf_num n m -> v = mkValue t (VNum m) -> exists z, integer_in H v z /\ Z.abs z < 2 ^ 64 /\ d = double_of_Z z).
  { intros t sg n m HI [HL HB] ->. exists (mem_value sg m). split; [left; eauto 10|].
    assert (Hn : (n <= 8)%nat) by (cbn [In typed_numbers] in HI; repeat (destruct HI as [HI|HI]; [injection HI as <- <- <-; lia|]); contradiction).
    split; [apply mem_range; [exact HB|lia]|].
    assert (E : forall sg, num_to_double sg (VNum m) n = Ret (double_of_Z (mem_value sg m))).
    { intros s. unfold num_to_double, deref_num. rewrite HL, Nat.ltb_irrefl. rewrite <- HL, firstn_all. reflexivity. }
    unfold sml_value_to_double in HD. cbn [v_type v_data] in HD. cbn [In typed_numbers] in HI.
    repeat (destruct HI as [HI|HI]; [injection HI as <- <- <-; cbv iota beta in HD; cbn [Z.eqb Pos.eqb] in HD; rewrite E in HD; now injection HD as <-|]). contradiction. }
  assert (O : (forall signed n, ~ In (v_type v, signed, n) typed_numbers) -> exists z, integer_in H v z /\ Z.abs z < 2 ^ 64 /\ d = double_of_Z z).
  { intros HN. exists 0. split; [right; auto|]. split; [cbn; lia|]. unfold sml_value_to_double in HD.
    assert (KK : forall t sg n, In (t, sg, n) typed_numbers -> (v_type v =? t) = false) by (intros t sg n HI; apply Z.eqb_neq; intros E; apply (HN sg n); now rewrite E).
    rewrite (KK 81 true 1%nat), (KK 82 true 2%nat), (KK 84 true 4%nat), (KK 88 true 8%nat),
      (KK 97 false 1%nat), (KK 98 false 2%nat), (KK 100 false 4%nat), (KK 104 false 8%nat) in HD by (cbn; tauto). now injection HD as <-. }
  assert (U : forall w m, Wf.width_ok w -> wf_num w m -> v = mkValue (96 + Z.of_nat w) (VNum m) -> exists z, integer_in H v z /\ Z.abs z < 2 ^ 64 /\ d = double_of_Z z).
  { intros w m Hw Hm E. apply (K (96 + Z.of_nat w) false w m); [|exact Hm|exact E]. destruct Hw as [->|[->|[->| ->]]]; cbn; tauto. }
  assert (NT : forall t, t = 80 \/ t = 96 -> forall signed n, ~ In (t, signed, n) typed_numbers).
  { intros t Ht signed n HI. cbn [In typed_numbers] in HI. destruct Ht as [->| ->]; repeat (destruct HI as [HI|HI]; [discriminate|]); contradiction. }
  destruct HW as [HV|(v0 & HV & ->)]; inversion HV as [b Hb|b Hb|w m Hw Hm|w m Hw Hm|m Hm|m Hm]; subst; cbn [v_type] in *; try lia.
  - apply (K (80 + Z.of_nat w) true w m); [|exact Hm|reflexivity]. destruct Hw as [->|[->|[->| ->]]]; cbn; tauto.
  - now apply (U w m).
  - apply O, NT. auto.
  - apply O, NT. right. reflexivity.
  - apply O, NT. right. reflexivity.
  - apply (U w m Hw Hm). destruct Hw as [->|[->|[->| ->]]]; reflexivity.
  - apply (U w m Hw Hm). destruct Hw as [->|[->|[->| ->]]]; reflexivity.
  - apply O, NT. right. reflexivity.
  - apply O, NT. right. reflexivity.
Qed.
Lemma shows_displays pow10 e ls : accurate pow10 -> wf_entry e -> shows H e ls -> displays H e (concat (map (line_text pow10) ls)).
Proof.
  intros HP W HS. pose proof (wfe_name _ W) as WN. pose proof (wfe_value _ W) as WV.
  destruct HS as [e EV|e v EV ET|e n bs pre post EN EV EB P1 P2|e n b EN EV|e n v d unit EN EV ET ED EU]; cbn [map concat]; rewrite ?app_nil_r.
  - now apply displays_no_value.
  - now apply displays_long_integer with v.
  - rewrite EN in WN. destruct WN as [WN _]. destruct (obis_text_spelt n WN) as (o & Eo & So). cbn [line_text]. rewrite Eo, <- !app_assoc. eapply displays_text; eauto.
  - rewrite EN in WN. destruct WN as [WN _]. destruct (obis_text_spelt n WN) as (o & Eo & So). cbn [line_text]. rewrite Eo, <- !app_assoc. eapply displays_bool; eauto.
  - rewrite EN in WN. destruct WN as [WN _]. destruct (obis_text_spelt n WN) as (o & Eo & So). rewrite EV in WV. cbn [opt] in WV.
    destruct (integer_double v d WV ET ED) as (z & Iz & Rz & ->). pose proof (scaler_range e W) as Rs. fold (scaler_of H e). set (s := scaler_of H e) in *.
    cbn [line_text]. rewrite Eo, <- !app_assoc.
    replace (if - s <? 0 then 0 else - s) with (Z.max (- s) 0) by (destruct (Z.ltb_spec (- s) 0); lia).
    destruct (printed_number pow10 z s HP Rz Rs) as (N & S1 & S2 & S3).
    eapply displays_number; eauto.
    + exists N. assert (EA : Z.abs (z * 10 ^ Z.max s 0) = Z.abs z * 10 ^ Z.max s 0) by (rewrite Z.abs_mul, (Z.abs_eq (10 ^ Z.max s 0)) by (apply Z.pow_nonneg; lia); reflexivity).
      cbv zeta. fold s. rewrite EA. split; [exact S1|]. split; [exact S3|exact S2].
    + unfold unit_spelt. destruct (le_unit e) as [u|]; [|now rewrite EU]. rewrite EU.
      destruct (find _ _) as [[c t]|] eqn:EF.
      * apply find_some in EF. destruct EF as [HI HC]. cbn [fst snd] in *. apply Z.eqb_eq in HC. subst c. left. now apply units_named.
      * right. split; [|reflexivity]. intros t HI. apply units_named in HI. pose proof (find_none _ _ EF _ HI) as X. cbn [fst] in X. rewrite Z.eqb_refl in X. discriminate.
Qed.
Lemma shows_displays_all pow10 es lss : accurate pow10 -> Forall wf_entry es -> Forall2 (shows H) es lss ->
  screen pow10 (map OLine (concat lss)) = concat (map (fun ls => concat (map (line_text pow10) ls)) lss) /\
  Forall2 (displays H) es (map (fun ls => concat (map (line_text pow10) ls)) lss).
Proof.
  intros HP HW HF. split.
  - unfold screen. clear HF. induction lss as [|ls lss IH]; [reflexivity|]. cbn [concat map]. rewrite !map_app, concat_app, IH. f_equal. rewrite map_map. reflexivity.
  - induction HF as [|e ls es lss HS HF IH]; [constructor|]. inversion HW; subst. cbn [map]. constructor; [now apply shows_displays|auto].
Qed.
Lemma messages_entries_wf l : Forall wf_message l -> Forall (fun m => m_message_body m <> None) l -> Forall wf_entry (flat_map entries_of l).
Proof.
  intros HW HB. apply Forall_forall. intros e HI. apply in_flat_map in HI. destruct HI as (m & Hm & He).
  rewrite Forall_forall in HW, HB. destruct (message_entries m (HW m Hm) (HB m Hm)) as [_ We]. rewrite Forall_forall in We. auto.
Qed.
Lemma frame_entries_wf fr : bytes_ok fr -> (length fr < Z.to_nat 8096)%nat -> showable_frame fr -> Forall wf_entry (frame_entries fr).
Proof.
  intros HB HL (f & EF & [HR _]). unfold frame_entries. rewrite EF. assert (HP : bytes_ok (payload_of fr)) by (apply Forall_firstn, Forall_skipn, HB).
  pose proof (file_parse_safe 7 (payload_of fr) min_size_7 HP) as HS. rewrite EF in HS. destruct HS as (_ & _ & _ & HS & _).
  apply messages_entries_wf; [|apply Forall_forall; exact HR]. eapply Forall_impl; [|exact HS]. intros x Hx. eapply parsed_in_wf; eauto.
Qed.
End Facts.

(** ** C67 *)
(** The text printed for one list entry. *)
Theorem C67_entry (H : Host) pow10 e : accurate pow10 -> wf_entry e -> showable e ->
  exists ls, receive_entry e = Ret ls /\ displays H e (concat (map (line_text pow10) ls)).
Proof. intros HP W HS. destruct (entry_shows e W HS) as (ls & E & HL). exists ls. split; [exact E|]. now apply shows_displays. Qed.
Print Assumptions C67_entry.

(** The whole output of the program, for every device. *)
Theorem C67_program (H : Host) pow10 d : accurate pow10 -> device_bytes d ->
  exists fs d', sml_transport_listen d = Ret (fs, d') /\
    (Forall showable_frame fs -> exists os texts, sml_server false false d = Ret (os, d') /\ screen pow10 os = concat texts /\
       Forall2 (displays H) (flat_map frame_entries fs) texts).
Proof.
  intros HP HB. destruct (C56_program H d HB) as (fs & d' & E & H1 & _). exists fs, d'. split; [exact E|]. intros HS. destruct (H1 HS) as (lss & ES & F).
  pose proof (listen_shape _ _ _ _ E HB) as HF.
  assert (HW : Forall wf_entry (flat_map frame_entries fs)).
  { apply Forall_forall. intros e HI. apply in_flat_map in HI. destruct HI as (fr & Hfr & He). rewrite Forall_forall in HF, HS. destruct (HF fr Hfr) as (B1 & B2 & B3).
    pose proof (frame_entries_wf fr B1 ltac:(lia) (HS fr Hfr)) as X. rewrite Forall_forall in X. auto. }
  destruct (shows_displays_all pow10 _ _ HP HW F) as [E1 E2]. eauto 10.
Qed.
Print Assumptions C67_program.

(** From the sender's messages to the characters on the screen. *)
Theorem C67_meter_to_screen (H : Host) pow10 w tail d : accurate pow10 -> Forall (transmission H) w -> ~ In 27 tail ->
  delivered d = map Some (flat_map (fun x => fst (fst x) ++ snd x) w ++ tail) ->
  exists os d' texts, sml_server false false d = Ret (os, d') /\ delivered d' = [] /\ screen pow10 os = concat texts /\
    Forall2 (displays H) (flat_map entries_of (flat_map (fun x => snd (fst x)) w)) texts.
Proof.
  intros HP HW HT HD. destruct (C56_meter_to_screen H w tail d HW HT HD) as (lss & d' & E & ED & F).
  assert (WE : Forall wf_entry (flat_map entries_of (flat_map (fun x => snd (fst x)) w))).
  { apply Forall_forall. intros e HI. apply in_flat_map in HI. destruct HI as (m & Hm & He). apply in_flat_map in Hm. destruct Hm as ([[noise l] sent] & Hx & Hm). cbn [fst snd] in Hm.
    rewrite Forall_forall in HW. specialize (HW _ Hx). destruct (transmission_frame _ _ _ _ HW) as (_ & HB & HS & EF). destruct HW as (_ & _ & _ & _ & _ & _ & HL).
    pose proof (frame_entries_wf sent HB HL HS) as X. rewrite EF, Forall_forall in X. apply X. apply in_flat_map. eauto. }
  destruct (shows_displays_all pow10 _ _ HP WE F) as [E1 E2]. eauto 10.
Qed.
Print Assumptions C67_meter_to_screen.

(** Numbers up to 2 ^ 50: the text is the one decimal notation of the number, and
    different numbers have different texts. *)
Theorem C67_exact pow10 z s : accurate pow10 -> -128 <= s <= 127 -> Z.abs (z * 10 ^ Z.max s 0) <= 2 ^ 50 ->
  spells (format_f (Z.to_nat (Z.max (- s) 0)) (SFmul 53 1024 (double_of_Z z) (pow10 s))) (z * 10 ^ Z.max s 0) (Z.to_nat (Z.max (- s) 0)).
Proof.
  intros HP Hs HB. assert (P : 0 < 10 ^ Z.max s 0) by (apply Z.pow_pos_nonneg; lia). rewrite Z.abs_mul, (Z.abs_eq (10 ^ Z.max s 0)) in HB by lia.
  destruct (printed_number pow10 z s HP) as (N & S1 & _ & S3); [|exact Hs|].
  { apply Z.le_lt_trans with (2 ^ 50); [|reflexivity]. eapply Z.le_trans; [|exact HB]. rewrite <- (Z.mul_1_r (Z.abs z)) at 1. apply Z.mul_le_mono_nonneg_l; [apply Z.abs_nonneg|exact (Zlt_le_succ 0 _ P)]. }
  now rewrite (S3 HB) in S1.
Qed.
Print Assumptions C67_exact.
Theorem C67_text_tells z1 s1 z2 s2 text : Z.abs (z1 * 10 ^ Z.max s1 0) <= 2 ^ 50 -> Z.abs (z2 * 10 ^ Z.max s2 0) <= 2 ^ 50 ->
  number_spelt z1 s1 text -> number_spelt z2 s2 text ->
  z1 * 10 ^ Z.max s1 0 = z2 * 10 ^ Z.max s2 0 /\ Z.max (- s1) 0 = Z.max (- s2) 0.
Proof.
  intros B1 B2 (N1 & S1 & E1 & _) (N2 & S2 & E2 & _). destruct (spells_value _ _ _ _ _ S1 S2) as [EN EK]. rewrite <- (E1 B1), <- (E2 B2). split; [exact EN|lia].
Qed.
Print Assumptions C67_text_tells.

(** *** Examples *)
(** An accurate power function: 2 ^ 1000 / 10 ^ k rounded. *)
Definition sample_pow10 (s : Z) : spec_float :=
  if 0 <=? s then binary_normalize 53 1024 (10 ^ s) 0 false else binary_normalize 53 1024 (2 ^ 1000 / 10 ^ (- s)) (-1000) false.
Definition near_powerb (s : Z) (f : spec_float) : bool :=
  match f with
  | S754_finite false m e => valid_binary 53 1024 f &&
      (2 ^ 52 * Z.abs (Zpos m * 10 ^ Z.max (- s) 0 * 2 ^ Z.max e 0 - 10 ^ Z.max s 0 * 2 ^ Z.max (- e) 0) <=? 10 ^ Z.max s 0 * 2 ^ Z.max (- e) 0)
  | _ => false
  end.
Lemma near_powerb_ok s f : near_powerb s f = true -> near_power s f.
Proof.
  destruct f as [| | |[|] m e]; try discriminate. cbn [near_powerb]. intros HB. apply andb_true_iff in HB. destruct HB as [H1 H2]. apply Z.leb_le in H2. exists m, e. auto.
Qed.
Example C67_pow : accurate sample_pow10.
Proof.
  assert (HA : forallb (fun i => let s := Z.of_nat i - 128 in near_powerb s (sample_pow10 s)) (seq 0 256) = true) by (vm_compute; reflexivity).
  intros s Hs. apply near_powerb_ok. rewrite forallb_forall in HA. specialize (HA (Z.to_nat (s + 128))). cbv zeta in HA. replace (Z.of_nat (Z.to_nat (s + 128)) - 128) with s in HA by lia.
  apply HA, in_seq. lia.
Qed.
(** 1-0:1.8.0*255#12345.6789#Wh *)
Example C67_example : let H : Host := LittleEndian in
  let e := mkEntry (Some [1; 0; 1; 8; 0; 255]) None None (Some [30]) (Some [252]) (Some (mkValue 88 (VNum [21; 205; 91; 7; 0; 0; 0; 0]))) None in
  wf_entry e /\ showable e /\
  match receive_entry e with Ret ls => concat (map (line_text sample_pow10) ls) | _ => [] end =
    [49; 45; 48; 58; 49; 46; 56; 46; 48; 42; 50; 53; 53; 35; 49; 50; 51; 52; 53; 46; 54; 55; 56; 57; 35; 87; 104; 10].
Proof.
  intros H e. split; [|split].
  - unfold e. constructor; cbn [opt le_obj_name le_status le_val_time le_unit le_scaler le_value le_value_signature]; try exact I; try (split; [reflexivity|unfold bytes_ok; repeat (apply Forall_cons; [unfold byte_ok; lia|]); apply Forall_nil]).
    + split; [repeat (apply Forall_cons; [unfold byte_ok; lia|]); apply Forall_nil|cbn; lia].
    + left. apply (wfv_int 8); [unfold Wf.width_ok; auto|split; [reflexivity|unfold bytes_ok; repeat (apply Forall_cons; [unfold byte_ok; lia|]); apply Forall_nil]].
  - right. split; [exists [1; 0; 1; 8; 0; 255]; cbn; split; [reflexivity|lia]|discriminate].
  - vm_compute. reflexivity.
Qed.
(** Above the bound digits are lost: 2 ^ 53 + 1 is printed as 9007199254740992. *)
Theorem C67_large_refuted : exists z, 0 < z < 2 ^ 64 /\
  ~ spells (format_f 0 (SFmul 53 1024 (double_of_Z z) (sample_pow10 0))) z 0.
Proof.
  exists (2 ^ 53 + 1). split; [lia|]. intros HS.
  assert (E : spells (format_f 0 (SFmul 53 1024 (double_of_Z (2 ^ 53 + 1)) (sample_pow10 0))) (2 ^ 53) 0).
  { replace (format_f 0 (SFmul 53 1024 (double_of_Z (2 ^ 53 + 1)) (sample_pow10 0))) with (decimal (2 ^ 53)) by (vm_compute; reflexivity). apply decimal_spells. lia. }
  destruct (spells_value _ _ _ _ _ HS E). lia.
Qed.
Print Assumptions C67_large_refuted.
