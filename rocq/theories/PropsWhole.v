(** C82: the example program as its user sees it. *)
From Coq Require Import String Ascii.
From Coq Require Import Floats.SpecFloat.
From Verif Require Import Base Buf Number OctetString Boolean Value Time SList Tree Bodies Message File Units Transport Server ServerMain
  Printf ReportModel TransportReport ServerReport Args MainReport
  Lib Spec PropsServer PropsMain PrintFacts PropsTransport PropsEnding PropsPrint PropsArgs PropsScreen PropsStderr.
Local Open Scope list_scope.

(** ** Specification *)
(** a line of text *)
Definition text_line (s : string) : list Z := chars s ++ [10].
(** The texts of the program called [prog]. *)
Definition usage_text (prog : list Z) : list Z :=
  chars "usage: " ++ prog ++ text_line " [-h] [-s] [-v] device" ++
  text_line "device - serial device of connected power meter e.g. /dev/cu.usbserial, or - for stdin" ++
  text_line "-h - help" ++ text_line "-s - process only one OBIS data stream (single)" ++ text_line "-v - verbose".
Definition hint_text (prog : list Z) : list Z := chars "Use " ++ prog ++ text_line " -h for help.".
Definition mismatch_text (prog : list Z) : list Z := text_line "error: Arguments mismatch." ++ hint_text prog.
(** The device that is listened to, if it can be opened. *)
Definition device_of (open_device : list Z -> option fd) (stdin : fd) (name : list Z) : option fd :=
  if list_eq_dec Z.eq_dec name [45] then Some stdin else open_device name.

(** ** Proofs *)
Lemma m_getopt_same prog st : snd (m_getopt prog st) = getopt st.
Proof.
  unfold m_getopt, getopt. destruct (letters st) as [|c t]; [|reflexivity]. destruct (rest st) as [|[|x [|c t]] r]; try reflexivity.
  destruct (negb (x =? 45)); [reflexivity|]. destruct ((c =? 45) && _); reflexivity.
Qed.
Lemma m_options_same fuel : forall prog v s st, snd (m_options_loop fuel prog v s st) = options_loop fuel prog v s st.
Proof.
  induction fuel as [|fuel IH]; intros prog v s st; [reflexivity|]. cbn [m_options_loop options_loop]. rewrite <- (m_getopt_same prog st).
  destruct (m_getopt prog st) as [l [[c|] st']]; cbn [snd]; [|reflexivity].
  destruct (Z.eqb_spec c 104) as [->|N1]; [reflexivity|]. destruct (Z.eqb_spec c 63) as [->|N2]; [reflexivity|].
  destruct (c =? 115); [|destruct (c =? 118)];
    match goal with |- context [m_options_loop fuel ?p ?a ?b ?t] => specialize (IH p a b t); destruct (m_options_loop fuel p a b t) as [l' o] end; exact IH.
Qed.
Lemma m_scan_same prog args : snd (m_scan_options prog args) = scan_options prog args.
Proof. apply m_options_same. Qed.

Lemma eta_pair {A B} (p : A * B) : (let '(a, b) := p in (a, b)) = p.
Proof. now destruct p. Qed.
Lemma m_sv ls : Forall (fun c => c = 115 \/ c = 118) ls -> forall fuel prog v s r tl, (length ls < fuel)%nat ->
  m_options_loop fuel prog v s (mkScan r (ls ++ tl)) =
  m_options_loop (fuel - length ls) prog (v || existsb (Z.eqb 118) ls) (s || existsb (Z.eqb 115) ls) (mkScan r tl).
Proof.
  induction 1 as [|c ls HC HL IH]; intros fuel prog v s r tl HF.
  - cbn [length existsb app]. now rewrite Nat.sub_0_r, !orb_false_r.
  - destruct fuel as [|fuel]; [lia|]. cbn [length] in *. cbn [m_options_loop m_getopt letters rest app existsb].
    destruct HC as [-> | ->]; unfold complain, option_of, known; cbn; rewrite ?eta_pair; rewrite IH by lia; f_equal; destruct v, s; reflexivity.
Qed.
Lemma m_first fuel prog v s ls r : (match ls with [] => False | [45] => False | _ => True end) ->
  m_options_loop (S fuel) prog v s (mkScan ((45 :: ls) :: r) []) = m_options_loop (S fuel) prog v s (mkScan r ls).
Proof.
  destruct ls as [|c t]; [contradiction|]. intros HN. cbn [m_options_loop m_getopt letters rest]. change (negb (45 =? 45)) with false. cbv iota.
  destruct (Z.eqb_spec c 45) as [->|NE]; cbn [andb]; [|reflexivity]. destruct t; [contradiction|reflexivity].
Qed.
Lemma m_switches sw : Forall switches sw -> forall fuel prog v s tl, (args_size sw < fuel)%nat -> exists fuel',
  (fuel - args_size sw <= fuel')%nat /\
  m_options_loop fuel prog v s (mkScan (sw ++ tl) []) = m_options_loop fuel' prog (v || given 118 sw) (s || given 115 sw) (mkScan tl []).
Proof.
  induction 1 as [|a sw (ls & -> & HN & HL) HS IH]; intros fuel prog v s tl HF.
  - exists fuel. cbn [app]. unfold given. cbn [concat existsb]. rewrite !orb_false_r. split; [lia|reflexivity].
  - rewrite size_cons in HF |- *. cbn [length] in HF |- *. rewrite !given_cons. cbn [app existsb].
    change (118 =? 45) with false. change (115 =? 45) with false. cbn [orb].
    destruct fuel as [|fuel]; [lia|]. rewrite m_first.
    2:{ destruct ls as [|c t]; [contradiction|]. inversion HL as [|? ? HC _]; subst. destruct HC as [-> | ->]; exact I. }
    pose proof (m_sv ls HL (S fuel) prog v s (sw ++ tl) []) as EL. rewrite app_nil_r in EL. rewrite EL by lia. clear EL.
    destruct (IH (S fuel - length ls)%nat prog (v || existsb (Z.eqb 118) ls) (s || existsb (Z.eqb 115) ls) tl ltac:(lia)) as (f' & HF' & E).
    exists f'. split; [lia|]. rewrite E, !orb_assoc. reflexivity.
Qed.
Lemma m_operands fuel prog v s tl ops : operands tl ops -> m_options_loop (S fuel) prog v s (mkScan tl []) = ([], Ret (SDone v s ops)).
Proof.
  intros [-> | [-> HP]]; [reflexivity|]. destruct ops as [|a t]; [reflexivity|]. cbn [m_options_loop m_getopt letters rest].
  destruct a as [|x [|c u]]; try reflexivity. destruct HP as [E|HP]; [discriminate|].
  destruct (Z.eqb_spec x 45) as [->|NE]; [exfalso; eapply HP; reflexivity|reflexivity].
Qed.
Lemma m_done prog sw tl ops : Forall switches sw -> operands tl ops ->
  m_scan_options prog (sw ++ tl) = ([], Ret (SDone (given 118 sw) (given 115 sw) ops)).
Proof.
  intros HS HO. unfold m_scan_options. rewrite size_app. destruct (m_switches sw HS (S (args_size sw + args_size tl)) prog false false tl ltac:(lia)) as (f & HF & E).
  rewrite E. destruct f as [|f]; [lia|]. now rewrite (m_operands _ _ _ _ _ ops).
Qed.
Lemma m_stop prog sw c a tl : Forall switches sw -> stops_at c a ->
  m_scan_options prog (sw ++ a :: tl) = if c =? 104 then ([], Ret (SExit (CUsage prog) 0)) else ([MInvalid prog c], Ret (SExit (CUseHelp prog) 1)).
Proof.
  intros HS (ls & t & -> & HL & N1 & N2 & ND). unfold m_scan_options. rewrite size_app. rewrite size_cons.
  cbn [length]. rewrite app_length. cbn [length].
  destruct (m_switches sw HS (S (args_size sw + (S (length ls + S (length t)) + args_size tl))) prog false false ((45 :: ls ++ c :: t) :: tl) ltac:(lia)) as (f & HF & E).
  rewrite E. destruct f as [|f]; [lia|]. rewrite m_first.
  2:{ destruct ls as [|x u]; cbn [app].
      - destruct t; [|now destruct c as [|q|q]; try exact I; do 6 (destruct q as [q|q|]; try exact I)].
        destruct (Z.eq_dec c 45) as [->|NE]; [apply ND; reflexivity|]. destruct c as [|q|q]; try exact I. do 6 (destruct q as [q|q|]; try exact I). now apply NE.
      - inversion HL as [|? ? HX _]; subst. destruct HX as [-> | ->]; exact I. }
  rewrite m_sv by (auto; lia). assert (EF : exists g, (S f - length ls = S g)%nat) by (exists (f - length ls)%nat; lia). destruct EF as [g ->].
  cbn [m_options_loop m_getopt letters rest]. unfold complain, option_of, known. cbn [existsb].
  destruct (Z.eqb_spec c 104) as [->|NH]; [reflexivity|]. destruct (Z.eqb_spec c 115); [contradiction|]. destruct (Z.eqb_spec c 118); [contradiction|]. reflexivity.
Qed.
Lemma open_is (open_device : list Z -> option fd) (stdin : fd) name : serial_port_open open_device stdin name = device_of open_device stdin name.
Proof.
  unfold serial_port_open, device_of. destruct (list_eq_dec Z.eq_dec name [45]) as [->|NE]; [reflexivity|].
  destruct name as [|c t]; [reflexivity|]. destruct (Z.eq_dec c 45) as [->|NC].
  - destruct t; [contradiction|reflexivity].
  - destruct c as [|q|q]; try reflexivity. do 6 (destruct q as [q|q|]; try reflexivity). now contradiction NC.
Qed.

(** ** Theorems *)
Section Program.
Context (H : Host) (pow10 : Z -> spec_float) (open_device : list Z -> option fd) (stdin : fd) (prog : list Z).

(** stdout and the exit status are those of C62. *)
Theorem C82_same args : snd (program pow10 open_device stdin prog args) =
  obind (server_main open_device stdin prog args) (fun r => Ret (concat (map (console_text pow10) (fst r)), snd r)).
Proof.
  unfold program, server_main. rewrite <- m_scan_same. destruct (m_scan_options prog args) as [l [[text code|v s ops]| |]]; cbn [snd obind fst]; try reflexivity.
  1: cbn [map concat]; now rewrite app_nil_r.
  1: destruct ops as [|name [|b t]]; cbn [obind fst snd map concat]; [now rewrite app_nil_r| |now rewrite app_nil_r].
    destruct (serial_port_open open_device stdin name) as [d|]; [|reflexivity]. rewrite <- (C77_same H).
    destruct (e_server v s d) as [l' [[os d']| |]]; cbn [snd fst obind]; try reflexivity. unfold screen. now rewrite map_map.
Qed.
(** -h before a wrong letter: the usage on stdout, nothing on stderr, status 0; no
    device is opened or read. *)
Theorem C82_help sw a tl : Forall switches sw -> stops_at 104 a ->
  program pow10 open_device stdin prog (sw ++ a :: tl) = ([], Ret (usage_text prog, 0)).
Proof.
  intros HS HA. unfold program. rewrite (m_stop _ _ _ _ _ HS HA). change (104 =? 104) with true. cbv iota.
  assert (E : console_text pow10 (CUsage prog) = usage_text prog) by (unfold console_text, usage_text, text_line; now rewrite <- !app_assoc).
  now rewrite E.
Qed.
(** A wrong letter: getopt names the first of them on stderr, the hint is on stdout,
    status 1. *)
Theorem C82_wrong_letter sw c a tl : Forall switches sw -> stops_at c a -> c <> 104 ->
  program pow10 open_device stdin prog (sw ++ a :: tl) = ([MInvalid prog c], Ret (hint_text prog, 1)).
Proof.
  intros HS HA HC. unfold program. rewrite (m_stop _ _ _ _ _ HS HA). destruct (Z.eqb_spec c 104); [contradiction|]. reflexivity.
Qed.
(** No operand or more than one: the message is on stdout, nothing on stderr, status 1. *)
Theorem C82_mismatch sw tl ops : Forall switches sw -> operands tl ops -> length ops <> 1%nat ->
  program pow10 open_device stdin prog (sw ++ tl) = ([], Ret (mismatch_text prog, 1)).
Proof.
  intros HS HO HL. unfold program. rewrite (m_done _ _ _ _ HS HO).
  assert (E : console_text pow10 (CMismatch prog) = mismatch_text prog) by (unfold console_text, mismatch_text, text_line, hint_text, text_line; now rewrite <- !app_assoc).
  rewrite E. destruct ops as [|a [|b t]]; try reflexivity. now contradiction HL.
Qed.
(** One operand that cannot be opened: one line with its name on stderr, nothing on
    stdout, status 1. *)
Theorem C82_no_device sw tl name : Forall switches sw -> operands tl [name] -> device_of open_device stdin name = None ->
  program pow10 open_device stdin prog (sw ++ tl) = ([MOpen name], Ret ([], 1)).
Proof. intros HS HO HN. unfold program. now rewrite (m_done _ _ _ _ HS HO), open_is, HN. Qed.
(** One operand that can be opened: the frames that are found in what the device
    delivers decide on everything.  On stdout are their texts up to the first that ends
    the program, on stderr their lines and the notices about the end of listening, and the status is 0
    (even when there was no frame, or none without errors); or the program crashes,
    at the first frame that cannot be shown. *)
Theorem C82_listens sw tl name d : accurate pow10 -> Forall switches sw -> operands tl [name] -> device_of open_device stdin name = Some d -> device_bytes d ->
  exists nl fs d1, n_transport_listen d = (nl, Ret (fs, d1)) /\
  ((exists texts l, program pow10 open_device stdin prog (sw ++ tl) = (map MLine l, Ret (concat texts, 0)) /\
      run_texts (shown_frame H (given 118 sw) (given 115 sw)) (ends_with H (given 115 sw)) fs texts /\
      stderr_of_run (frame_lines_are H (given 115 sw)) (ends_with H (given 115 sw)) (map ENotice nl) fs l) \/
   (exists pre fr post x, fs = pre ++ fr :: post /\
      Forall (fun g => presentable H (given 118 sw) (given 115 sw) g /\ ~ ends_with H (given 115 sw) g) pre /\ ~ presentable H (given 118 sw) (given 115 sw) fr /\
      snd (program pow10 open_device stdin prog (sw ++ tl)) = Fault x)).
Proof.
  intros HA HS HO HN HB. unfold program. rewrite (m_done _ _ _ _ HS HO), open_is, HN. set (v := given 118 sw). set (s := given 115 sw).
  destruct (C76_ending d) as (nl & parts & d1 & w & EN & _). exists nl, (map snd parts), d1. split; [exact EN|].
  assert (EL : sml_transport_listen d = Ret (map snd parts, d1)) by (rewrite <- (proj2 (C76_same 16 d)), EN; reflexivity).
  destruct (C73_program H pow10 v s d HA HB) as (fs & d2 & E2 & R). rewrite EL in E2. injection E2 as <- <-. pose proof (C77_same H v s d) as SM.
  destruct R as [(os & d' & texts & ES & ET & RT & _)|(pre & fr & post & x & E1 & FP & NP & ES)].
  - left. rewrite ES in SM. destruct (e_server v s d) as [l o] eqn:X. cbn [snd] in SM. subst o. exists texts, l. cbn [obind fst app]. rewrite ET. split; [reflexivity|]. split; [exact RT|].
    destruct (C77_program H v s d l os d' HB X) as (nl' & fs' & d2 & EN' & RL). rewrite EN in EN'. injection EN' as <- <- <-. exact RL.
  - right. exists pre, fr, post, x. split; [exact E1|]. split; [exact FP|]. split; [exact NP|]. rewrite ES in SM. destruct (e_server v s d) as [l o]. cbn [snd] in SM. subst o. reflexivity.
Qed.
(** For every command line and whatever the devices deliver: the program is not stuck in
    a loop, its status is 0 or 1, and with status 1 it has written something; if it
    crashes, it was listening to a device. *)
Theorem C82_status args : accurate pow10 -> (forall name d, device_of open_device stdin name = Some d -> device_bytes d) ->
  (exists l text code, program pow10 open_device stdin prog args = (l, Ret (text, code)) /\ (code = 0 \/ code = 1 /\ (text <> [] \/ l <> []))) \/
  (exists l x sw tl name d, program pow10 open_device stdin prog args = (l, Fault x) /\
     args = sw ++ tl /\ Forall switches sw /\ operands tl [name] /\ device_of open_device stdin name = Some d).
Proof.
  intros HA HB. destruct (C62_all_cases args) as [(sw & tl & ops & -> & HS & HO)|(sw & c & a & tl & -> & HS & HO)].
  - destruct (Nat.eq_dec (length ops) 1) as [EL|NL].
    + destruct ops as [|name [|b t]]; try discriminate. destruct (device_of open_device stdin name) as [d|] eqn:ED.
      * destruct (C82_listens sw tl name d HA HS HO ED (HB _ _ ED)) as (nl & fs & d1 & _ & [(texts & l & E & _)|(pre & fr & post & x & _ & _ & _ & E)]).
        -- left. eauto 10.
        -- right. destruct (program pow10 open_device stdin prog (sw ++ tl)) as [l o]. cbn [snd] in E. subst o. exists l, x, sw, tl, name, d. auto.
      * left. rewrite (C82_no_device sw tl name HS HO ED). do 3 eexists. split; [reflexivity|]. right. split; [reflexivity|]. right. discriminate.
    + left. rewrite (C82_mismatch sw tl ops HS HO NL). do 3 eexists. split; [reflexivity|]. right. split; [reflexivity|]. left. discriminate.
  - left. destruct (Z.eq_dec c 104) as [->|NC].
    + rewrite (C82_help sw a tl HS HO). do 3 eexists. split; [reflexivity|]. now left.
    + rewrite (C82_wrong_letter sw c a tl HS HO NC). do 3 eexists. split; [reflexivity|]. right. split; [reflexivity|]. right. discriminate.
Qed.
End Program.
Print Assumptions C82_same.
Print Assumptions C82_help.
Print Assumptions C82_wrong_letter.
Print Assumptions C82_mismatch.
Print Assumptions C82_no_device.
Print Assumptions C82_listens.
Print Assumptions C82_status.

(** The program, with a port that sends one frame and a stdin that sends another. *)
Definition sample_open (name : list Z) : option fd := if list_eq_dec Z.eq_dec name (text "/dev/ttyUSB0") then Some [Chunk [1; 2]; Chunk mixed_sent; Intr; Err] else None.
Definition sample_run (args : list (list Z)) : list told * outcome (list Z * Z) :=
  @program sample_pow10 LittleEndian sample_open [Chunk run_sent] (text "sml_server") args.
Example C82_example :
  sample_run [text "-s"; text "-vh"; text "-x"] = ([], Ret (usage_text (text "sml_server"), 0)) /\
  sample_run [text "-sxh"] = ([MInvalid (text "sml_server") 120], Ret (text_line "Use sml_server -h for help.", 1)) /\
  sample_run [] = ([], Ret (text_line "error: Arguments mismatch." ++ text_line "Use sml_server -h for help.", 1)) /\
  sample_run [text "-v"; text "/dev/ttyUSB9"] = ([MOpen (text "/dev/ttyUSB9")], Ret ([], 1)) /\
  sample_run [text "-v"; text "--"; text "/dev/ttyUSB0"] =
    (map MLine [EParse (NotImplemented 2305); EParse (NotImplemented 2305); EEntry; EParse (NotFreed 2305); EParse (NotFreed 2305); ENotice ReadError],
     Ret (text_line "SML file (3 SML messages, 96 bytes)" ++ text_line "SML message  901" ++ text_line "SML message  701" ++ text_line "SML message  901" ++ text_line "OBIS data" ++ text_line "1-0:16.7.0*255#43.51#W", 0)) /\
  match sample_run [text "-s"; text "-"] with
  | ([], Ret (t, 0)) => firstn 14 t = chars "1-0:96.50.1*1#"
  | _ => False
  end.
Proof. vm_compute. repeat split. Qed.
Example C82_example_devices : accurate sample_pow10 /\ forall name d, device_of sample_open [Chunk run_sent] name = Some d -> device_bytes d.
Proof.
  split; [exact C67_pow|]. assert (B : device_bytes [Chunk run_sent] /\ device_bytes [Chunk [1; 2]; Chunk mixed_sent; Intr; Err]).
  { split; unfold device_bytes; vm_compute; repeat constructor; discriminate. }
  intros name d. unfold device_of, sample_open. destruct (list_eq_dec Z.eq_dec name [45]); [intros [= <-]; apply B|]. destruct (list_eq_dec Z.eq_dec name _); [intros [= <-]; apply B|discriminate].
Qed.
