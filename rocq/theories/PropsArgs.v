(** C62: the command line of the example program and the serial port. *)
From Coq Require Import String Ascii.
From Verif Require Import Base Buf Number OctetString Boolean Value Time SList Tree Bodies Message File Transport Server ServerMain
  Lib Spec PropsServer PropsMain Args.
Local Open Scope list_scope.

(** *** Specification *)
(** A group of switches: a hyphen and at least one of the letters s and v. *)
Definition switches (a : list Z) : Prop := exists ls, a = 45 :: ls /\ ls <> [] /\ Forall (fun c => c = 115 \/ c = 118) ls.
(** Operands: the arguments behind the switches.  They start at an argument that
    is "-" or does not begin with a hyphen, or behind "--". *)
Definition plain (a : list Z) : Prop := a = [45] \/ (forall t, a <> 45 :: t).
Definition operands (tl ops : list (list Z)) : Prop :=
  tl = [45; 45] :: ops \/ (tl = ops /\ match ops with [] => True | a :: _ => plain a end).
(** is the letter among the switches? *)
Definition given (c : Z) (sw : list (list Z)) : bool := existsb (Z.eqb c) (concat sw).
(** an argument whose first letter other than s and v is [c] *)
Definition stops_at (c : Z) (a : list Z) : Prop :=
  exists ls t, a = 45 :: ls ++ c :: t /\ Forall (fun c => c = 115 \/ c = 118) ls /\ c <> 115 /\ c <> 118 /\ a <> [45; 45].

(** *** Proofs *)
Lemma sv_loop ls : Forall (fun c => c = 115 \/ c = 118) ls -> forall fuel prog v s r tl, (length ls < fuel)%nat ->
  options_loop fuel prog v s (mkScan r (ls ++ tl)) =
  options_loop (fuel - length ls) prog (v || existsb (Z.eqb 118) ls) (s || existsb (Z.eqb 115) ls) (mkScan r tl).
Proof.
  induction 1 as [|c ls HC HL IH]; intros fuel prog v s r tl HF.
  - cbn [length existsb app]. now rewrite Nat.sub_0_r, !orb_false_r.
  - destruct fuel as [|fuel]; [lia|]. cbn [length] in *. cbn [options_loop getopt letters rest app existsb].
    destruct HC as [-> | ->]; cbn; rewrite IH by lia; f_equal; destruct v, s; reflexivity.
Qed.
Lemma first_letter fuel prog v s ls r : (match ls with [] => False | [45] => False | _ => True end) -> 
  options_loop (S fuel) prog v s (mkScan ((45 :: ls) :: r) []) = options_loop (S fuel) prog v s (mkScan r ls).
Proof.
  destruct ls as [|c t]; [contradiction|]. intros HN. cbn [options_loop getopt letters rest]. change (negb (45 =? 45)) with false. cbv iota.
  destruct (Z.eqb_spec c 45) as [->|NE]; cbn [andb]; [|reflexivity]. destruct t; [contradiction|reflexivity].
Qed.
Lemma given_cons c a sw : given c (a :: sw) = existsb (Z.eqb c) a || given c sw.
Proof. unfold given. cbn [concat]. apply existsb_app. Qed.
Lemma size_cons a l : args_size (a :: l) = (length a + args_size l)%nat.
Proof. reflexivity. Qed.
Lemma switches_loop sw : Forall switches sw -> forall fuel prog v s tl, (args_size sw < fuel)%nat -> exists fuel',
  (fuel - args_size sw <= fuel')%nat /\
  options_loop fuel prog v s (mkScan (sw ++ tl) []) = options_loop fuel' prog (v || given 118 sw) (s || given 115 sw) (mkScan tl []).
Proof.
  induction 1 as [|a sw (ls & -> & HN & HL) HS IH]; intros fuel prog v s tl HF.
  - exists fuel. cbn [app]. unfold given. cbn [concat existsb]. rewrite !orb_false_r. split; [lia|reflexivity].
  - rewrite size_cons in HF |- *. cbn [length] in HF |- *. rewrite !given_cons. cbn [app existsb].
    change (118 =? 45) with false. change (115 =? 45) with false. cbn [orb].
    destruct fuel as [|fuel]; [lia|]. rewrite first_letter.
    2:{ destruct ls as [|c t]; [contradiction|]. inversion HL as [|? ? HC _]; subst. destruct HC as [-> | ->]; exact I. }
    pose proof (sv_loop ls HL (S fuel) prog v s (sw ++ tl) []) as EL. rewrite app_nil_r in EL. rewrite EL by lia. clear EL.
    destruct (IH (S fuel - length ls)%nat prog (v || existsb (Z.eqb 118) ls) (s || existsb (Z.eqb 115) ls) tl ltac:(lia)) as (f' & HF' & E).
    exists f'. split; [lia|]. rewrite E, !orb_assoc. reflexivity.
Qed.
Lemma operands_loop fuel prog v s tl ops : operands tl ops -> options_loop (S fuel) prog v s (mkScan tl []) = Ret (SDone v s ops).
Proof.
  intros [-> | [-> HP]]; [reflexivity|]. destruct ops as [|a t]; [reflexivity|]. cbn [options_loop getopt letters rest].
  destruct a as [|x [|c u]]; try reflexivity. destruct HP as [E|HP]; [discriminate|].
  destruct (Z.eqb_spec x 45) as [->|NE]; [exfalso; eapply HP; reflexivity|reflexivity].
Qed.
Lemma size_app a b : args_size (a ++ b) = (args_size a + args_size b)%nat.
Proof. unfold args_size. now rewrite map_app, list_sum_app. Qed.
Lemma scan_done prog sw tl ops : Forall switches sw -> operands tl ops ->
  scan_options prog (sw ++ tl) = Ret (SDone (given 118 sw) (given 115 sw) ops).
Proof.
  intros HS HO. unfold scan_options. rewrite size_app. destruct (switches_loop sw HS (S (args_size sw + args_size tl)) prog false false tl ltac:(lia)) as (f & HF & E).
  rewrite E. destruct f as [|f]; [lia|]. now rewrite (operands_loop _ _ _ _ _ ops).
Qed.
Lemma scan_stop prog sw c a tl : Forall switches sw -> stops_at c a ->
  scan_options prog (sw ++ a :: tl) = Ret (if c =? 104 then SExit (CUsage prog) 0 else SExit (CUseHelp prog) 1).
Proof.
  intros HS (ls & t & -> & HL & N1 & N2 & ND). unfold scan_options. rewrite size_app. rewrite size_cons.
  cbn [length]. rewrite app_length. cbn [length].
  destruct (switches_loop sw HS (S (args_size sw + (S (length ls + S (length t)) + args_size tl))) prog false false ((45 :: ls ++ c :: t) :: tl) ltac:(lia)) as (f & HF & E).
  rewrite E. destruct f as [|f]; [lia|]. rewrite first_letter.
  2:{ destruct ls as [|x u]; cbn [app].
      - destruct t; [|now destruct c as [|q|q]; try exact I; do 6 (destruct q as [q|q|]; try exact I)].
        destruct (Z.eq_dec c 45) as [->|NE]; [apply ND; reflexivity|]. destruct c as [|q|q]; try exact I. do 6 (destruct q as [q|q|]; try exact I). now apply NE.
      - inversion HL as [|? ? HX _]; subst. destruct HX as [-> | ->]; exact I. }
  rewrite sv_loop by (auto; lia). assert (EF : exists g, (S f - length ls = S g)%nat) by (exists (f - length ls)%nat; lia). destruct EF as [g ->].
  cbn [options_loop getopt letters rest]. unfold option_of, known. cbn [existsb].
  destruct (Z.eqb_spec c 104) as [->|NH]; [reflexivity|]. destruct (Z.eqb_spec c 115); [contradiction|]. destruct (Z.eqb_spec c 118); [contradiction|]. reflexivity.
Qed.

(** *** Theorems *)
Section Program.
Context (H : Host) (open_device : list Z -> option fd) (stdin : fd) (prog : list Z).
(** [runs v s d]: what the program does once it listens to [d] *)
Definition runs (v s : bool) (d : fd) : outcome (list console * Z) := obind (sml_server v s d) (fun x => Ret (map COut (fst x), 0)).

(** Switches and one operand: the program listens to this device, or to the
    standard input for "-", verbosely if the letter v is among the switches and
    for one list only if s is; in any grouping, order and repetition. *)
Theorem C62_device sw tl device : Forall switches sw -> operands tl [device] ->
  server_main open_device stdin prog (sw ++ tl) =
  match (if list_eq_dec Z.eq_dec device [45] then Some stdin else open_device device) with
  | Some d => runs (given 118 sw) (given 115 sw) d
  | None => Ret ([], 1)
  end.
Proof.
  intros HS HO. unfold server_main. rewrite (scan_done _ _ _ _ HS HO). cbn [obind]. unfold serial_port_open.
  destruct (list_eq_dec Z.eq_dec device [45]) as [->|NE]; [reflexivity|].
  assert (E : match device with [45] => Some stdin | _ => open_device device end = open_device device).
  { destruct device as [|c t]; [reflexivity|]. destruct (Z.eq_dec c 45) as [->|NC].
    - destruct t; [contradiction|reflexivity].
    - destruct c as [|q|q]; try reflexivity. do 6 (destruct q as [q|q|]; try reflexivity). now contradiction NC. }
  rewrite E. destruct (open_device device); reflexivity.
Qed.
(** Switches and any other number of operands: an error message, status 1. *)
Theorem C62_mismatch sw tl ops : Forall switches sw -> operands tl ops -> length ops <> 1%nat ->
  server_main open_device stdin prog (sw ++ tl) = Ret ([CMismatch prog], 1).
Proof.
  intros HS HO HL. unfold server_main. rewrite (scan_done _ _ _ _ HS HO). cbn [obind]. destruct ops as [|a [|b t]]; try reflexivity. now contradiction HL.
Qed.
(** The letter h before any wrong letter: the usage, status 0, whatever follows. *)
Theorem C62_help sw a tl : Forall switches sw -> stops_at 104 a -> server_main open_device stdin prog (sw ++ a :: tl) = Ret ([CUsage prog], 0).
Proof. intros HS HA. unfold server_main. now rewrite (scan_stop _ _ _ _ _ HS HA). Qed.
(** A wrong letter: a hint, status 1, whatever follows. *)
Theorem C62_wrong_letter sw c a tl : Forall switches sw -> stops_at c a -> c <> 104 ->
  server_main open_device stdin prog (sw ++ a :: tl) = Ret ([CUseHelp prog], 1).
Proof.
  intros HS HA HC. unfold server_main. rewrite (scan_stop _ _ _ _ _ HS HA). destruct (Z.eqb_spec c 104); [contradiction|reflexivity].
Qed.
End Program.
Print Assumptions C62_device.
Print Assumptions C62_mismatch.
Print Assumptions C62_help.
Print Assumptions C62_wrong_letter.

Lemma cut_letters ls : Forall (fun c => c = 115 \/ c = 118) ls \/
  exists a c t, ls = a ++ c :: t /\ Forall (fun c => c = 115 \/ c = 118) a /\ c <> 115 /\ c <> 118.
Proof.
  induction ls as [|c t IH]; [left; constructor|]. destruct (Z.eq_dec c 115) as [->|N1]; [|destruct (Z.eq_dec c 118) as [->|N2]].
  1,2: destruct IH as [IH|(a & x & u & -> & HA & HX)]; [left; constructor; auto|right; eexists (_ :: a), x, u; repeat split; try tauto; constructor; auto].
  right. exists [], c, t. repeat split; auto.
Qed.
(** These are all command lines. *)
Theorem C62_all_cases args :
  (exists sw tl ops, args = sw ++ tl /\ Forall switches sw /\ operands tl ops) \/
  (exists sw c a tl, args = sw ++ a :: tl /\ Forall switches sw /\ stops_at c a).
Proof.
  induction args as [|a r IH]; [left; exists [], [], []; repeat split; [constructor|right; now split]|].
  assert (DA : plain a \/ exists c t, a = 45 :: c :: t).
  { destruct a as [|x [|c t]]; [left; right; discriminate| |]; destruct (Z.eq_dec x 45) as [->|NE].
    - left; now left.
    - left; right. intros t [=]; contradiction.
    - right; eauto.
    - left; right. intros u [=]; contradiction. }
  destruct DA as [HP|(c & t & ->)].
  - left. exists [], (a :: r), (a :: r). split; [reflexivity|]. split; [constructor|]. right. now split.
  - destruct (list_eq_dec Z.eq_dec (45 :: c :: t) [45; 45]) as [->|ND].
    + left. exists [], ([45; 45] :: r), r. split; [reflexivity|]. split; [constructor|]. now left.
    + destruct (cut_letters (c :: t)) as [HL|(b & x & u & E & HB & N1 & N2)].
      * assert (HS : switches (45 :: c :: t)) by (exists (c :: t); repeat split; [discriminate|exact HL]).
        destruct IH as [(sw & tl & ops & -> & H1 & H2)|(sw & x & a & tl & -> & H1 & H2)].
        -- left. exists ((45 :: c :: t) :: sw), tl, ops. split; [reflexivity|]. split; [now constructor|exact H2].
        -- right. exists ((45 :: c :: t) :: sw), x, a, tl. split; [reflexivity|]. split; [now constructor|exact H2].
      * right. exists [], x, (45 :: c :: t), r. split; [reflexivity|]. split; [constructor|]. exists b, u. rewrite <- E. auto.
Qed.
Print Assumptions C62_all_cases.

(** *** The settings of the serial port *)
(** [has x m]: all bits of [m] are set in [x]; [without]: none of them is. *)
Definition has (x m : Z) : Prop := Z.land x m = m.
Definition without (x m : Z) : Prop := Z.land x m = 0.
(** equal but for the bits of [m] *)
Definition same_but (m x y : Z) : Prop := forall i, Z.testbit m i = false -> Z.testbit x i = Z.testbit y i.
(** what <termios.h> promises about the flags that are set *)
Definition sensible (k : constants) : Prop := has (k_CSIZE k) (k_CS8 k) /\ Z.land (k_CSIZE k) (Z.lor (k_PARENB k) (Z.lor (k_PARODD k) (k_CSTOPB k))) = 0.

Ltac bits := apply Z.bits_inj'; let i := fresh "i" in intros i _; rewrite ?Z.land_spec, ?Z.lor_spec, ?Z.ldiff_spec, ?Z.lor_spec, ?Z.bits_0.
Ltac all_bits := repeat match goal with |- context [Z.testbit ?x ?i] => destruct (Z.testbit x i) end; reflexivity.
(** Eight data bits, no parity, one stop bit, 9600 baud, no translation of bytes
    in either direction, no line editing, no signals, no echo, and the
    request-to-send line up; everything else stays as it was. *)
Theorem C62_port k p : sensible k -> let q := setup_port k p in
  Z.land (c_cflag q) (k_CSIZE k) = k_CS8 k /\ without (c_cflag q) (k_PARENB k) /\ without (c_cflag q) (k_PARODD k) /\ without (c_cflag q) (k_CSTOPB k) /\
  ispeed q = k_B9600 k /\ ospeed q = k_B9600 k /\
  Forall (without (c_iflag q)) [k_IGNBRK k; k_BRKINT k; k_PARMRK k; k_ISTRIP k; k_INLCR k; k_IGNCR k; k_ICRNL k; k_IXON k] /\
  without (c_oflag q) (k_OPOST k) /\
  Forall (without (c_lflag q)) [k_ECHO k; k_ECHONL k; k_ICANON k; k_ISIG k; k_IEXTEN k] /\
  has (modem q) (k_TIOCM_RTS k) /\
  same_but (Z.lor (k_CSIZE k) (Z.lor (k_PARENB k) (Z.lor (k_PARODD k) (k_CSTOPB k)))) (c_cflag q) (c_cflag p) /\
  same_but (fold_right Z.lor 0 [k_IGNBRK k; k_BRKINT k; k_PARMRK k; k_ISTRIP k; k_INLCR k; k_IGNCR k; k_ICRNL k; k_IXON k]) (c_iflag q) (c_iflag p) /\
  same_but (k_OPOST k) (c_oflag q) (c_oflag p) /\
  same_but (fold_right Z.lor 0 [k_ECHO k; k_ECHONL k; k_ICANON k; k_ISIG k; k_IEXTEN k]) (c_lflag q) (c_lflag p) /\
  same_but (k_TIOCM_RTS k) (modem q) (modem p).
Proof.
  intros [H8 HD]. cbn zeta. unfold setup_port, clear, without, has in *. cbn [c_cflag c_iflag c_oflag c_lflag ispeed ospeed modem].
  assert (B8 : forall i, implb (Z.testbit (k_CS8 k) i) (Z.testbit (k_CSIZE k) i) = true).
  { intros i. apply (f_equal (fun z => Z.testbit z i)) in H8. rewrite Z.land_spec in H8. destruct (Z.testbit (k_CS8 k) i), (Z.testbit (k_CSIZE k) i); auto. }
  assert (BD : forall i, (Z.testbit (k_CSIZE k) i && (Z.testbit (k_PARENB k) i || (Z.testbit (k_PARODD k) i || Z.testbit (k_CSTOPB k) i)))%bool = false).
  { intros i. apply (f_equal (fun z => Z.testbit z i)) in HD. rewrite Z.land_spec, !Z.lor_spec, Z.bits_0 in HD. exact HD. }
  assert (CF : forall i, Z.testbit (k_CS8 k) i = true -> Z.testbit (k_PARENB k) i = false /\ Z.testbit (k_PARODD k) i = false /\ Z.testbit (k_CSTOPB k) i = false).
  { intros i E. specialize (B8 i). specialize (BD i). rewrite E in B8. cbn [implb] in B8. rewrite B8 in BD. cbn [andb] in BD. now apply orb_false_iff in BD as [? BD%orb_false_iff]. }
  split. { bits. specialize (B8 i). revert B8. destruct (Z.testbit (k_CS8 k) i), (Z.testbit (k_CSIZE k) i); cbn [implb]; try discriminate; intros _; all_bits. }
  split. { bits. specialize (CF i). destruct (Z.testbit (k_CS8 k) i); [destruct CF as (-> & -> & ->); auto; all_bits|all_bits]. }
  split. { bits. specialize (CF i). destruct (Z.testbit (k_CS8 k) i); [destruct CF as (-> & -> & ->); auto; all_bits|all_bits]. }
  split. { bits. specialize (CF i). destruct (Z.testbit (k_CS8 k) i); [destruct CF as (-> & -> & ->); auto; all_bits|all_bits]. }
  split; [reflexivity|]. split; [reflexivity|].
  split. { repeat apply Forall_cons; try apply Forall_nil; bits; all_bits. }
  split. { bits; all_bits. }
  split. { repeat apply Forall_cons; try apply Forall_nil; bits; all_bits. }
  split. { bits; all_bits. }
  unfold same_but. cbn [fold_right]. repeat split; intros i; rewrite ?Z.lor_spec, ?Z.ldiff_spec, ?Z.lor_spec, ?Z.bits_0; intros E;
    repeat match goal with HX : (_ || _)%bool = false |- _ => apply orb_false_iff in HX as [? HX] end;
    repeat match goal with HX : Z.testbit _ _ = false |- _ => rewrite HX end; rewrite ?andb_true_r, ?orb_false_r; try reflexivity.
  specialize (B8 i). destruct (Z.testbit (k_CS8 k) i); [|now rewrite orb_false_r]. cbn [implb] in B8. congruence.
Qed.
Print Assumptions C62_port.

(** *** Examples *)
Fixpoint text (s : string) : list Z :=
  match s with EmptyString => [] | String c t => Z.of_N (N_of_ascii c) :: text t end.
(** "-vs -s -- /dev/ttyUSB0" *)
Example C62_device_example : Forall switches [text "-vs"; text "-s"] /\ operands [text "--"; text "/dev/ttyUSB0"] [text "/dev/ttyUSB0"] /\
  given 118 [text "-vs"; text "-s"] = true /\ given 115 [text "-vs"; text "-s"] = true /\ given 118 [text "-s"] = false.
Proof.
  split; [|split; [now left|now repeat split]]. repeat apply Forall_cons; try apply Forall_nil.
  - exists (text "vs"). repeat split; [discriminate|]. repeat apply Forall_cons; try apply Forall_nil; cbn; auto.
  - exists (text "s"). repeat split; [discriminate|]. repeat apply Forall_cons; try apply Forall_nil; cbn; auto.
Qed.
(** "-s -" reads the standard input; a switch behind the device is not one *)
Example C62_operand_examples : operands [text "-"] [text "-"] /\ operands [text "/dev/ttyUSB0"; text "-v"] [text "/dev/ttyUSB0"; text "-v"].
Proof. split; right; (split; [reflexivity|]); [now left|right; discriminate]. Qed.
Example C62_stop_examples : stops_at 104 (text "-vh") /\ stops_at 120 (text "-sxh") /\ stops_at 45 (text "--help").
Proof.
  split; [exists (text "v"), []|split; [exists (text "s"), (text "h")|exists [], (text "help")]];
    (split; [reflexivity|]; split; [repeat apply Forall_cons; try apply Forall_nil; cbn; auto|]; repeat split; discriminate).
Qed.
(** the values of Linux (asm-generic/termbits.h, asm-generic/termios.h) *)
Definition linux : constants :=
  mkConstants 1 2 8 32 64 128 256 1024 1 8 64 2 1 32768 48 256 512 64 48 13 4.
Example C62_linux : sensible linux /\ setup_port linux (mkPort 1280 5 35387 1215 15 15 0) = mkPort 0 4 2608 1215 13 13 4.
Proof. split; [split; reflexivity|vm_compute; reflexivity]. Qed.
