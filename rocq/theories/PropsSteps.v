(** Property C85: how long parsing takes.

    The number of steps of sml_file_parse grows at most linearly with the length of
    the input, whatever element counts and lengths the input declares and however
    deeply it is nested.  What a step is: StepModel. *)
From Verif Require Import Base Buf Crc16 Number OctetString Boolean Value Time SList Tree Bodies
  Message File Lib Wf Safe Safe2 Safe3 Scan FileFacts Spec Tests PropsParse StepModel StepFacts StepPay StepFile StepBusy.

(** *** Specification *)
(** The parser returns the file [f] after [n] steps. *)
Definition parsed_after {H : Host} (n : nat) (bytes : list Z) (f : sml_file) : Prop := t_file_parse bytes = (n, Ret f).

(** The parser that counts is the parser. *)
Theorem C85_same_parser (H : Host) bytes : snd (t_file_parse bytes) = sml_file_parse bytes.
Proof. apply ts_file. Qed.
Print Assumptions C85_same_parser.

(** Whenever it returns, it has taken at most 82 steps for every byte, and 700; and
    at least one for every byte that it has consumed. *)
Theorem C85_linear (H : Host) bytes f : bytes_ok bytes -> sml_file_parse bytes = Ret f ->
  exists n, parsed_after n bytes f /\ (cursor (f_buf f) <= n <= 82 * length bytes + 700)%nat.
Proof.
  intros Hb E. pose proof (file_parse_safe 7 bytes min_size_7 Hb) as HP. rewrite E in HP. destruct HP as (_ & HC & _).
  pose proof (ts_file bytes) as ES. rewrite E in ES. unfold parsed_after. unfold t_file_parse in *.
  destruct (t_file_loop (S (length bytes)) [] (mkBuf bytes 0 false false)) as [n [[ms s]|x|]] eqn:EL; cbn [snd] in ES; inversion ES; subst.
  cbn [f_buf] in *. exists n. split; [reflexivity|]. pose proof (busy_le (b_file_loop _ _) _ _ _ _ EL) as HL1. apply file_steps in EL; [|reflexivity]. destruct EL as [_ HL2].
  unfold adv in HL1, HL2. cbn [cursor] in HL1, HL2. lia.
Qed.
Print Assumptions C85_linear.

(** For inputs of up to 294912 bytes (C01) it always returns. *)
Theorem C85_always (H : Host) bytes : bytes_ok bytes -> Z.of_nat (length bytes) <= 294912 ->
  exists n f, parsed_after n bytes f /\ (n <= 82 * length bytes + 700)%nat.
Proof.
  intros Hb Hl. destruct (C01_parse_memory_safe H bytes Hb Hl) as (f & E & _). destruct (C85_linear H bytes f Hb E) as (n & E1 & _ & E2). eauto.
Qed.
Print Assumptions C85_always.

(** An input that is read to its end is read in time proportional to its length. *)
Theorem C85_both_ways (H : Host) bytes f : bytes_ok bytes -> sml_file_parse bytes = Ret f -> error (f_buf f) = false ->
  exists n, parsed_after n bytes f /\ (length bytes <= n <= 82 * length bytes + 700)%nat.
Proof.
  intros Hb E He. pose proof (file_parse_safe 7 bytes min_size_7 Hb) as HP. rewrite E in HP. destruct HP as (_ & _ & _ & _ & HC & _).
  destruct (C85_linear H bytes f Hb E) as (n & E1 & E2). rewrite (HC He) in E2. eauto.
Qed.
Print Assumptions C85_both_ways.

(** Two messages. *)
Example C85_example : exists n f, @parsed_after LittleEndian n (text1 ++ text2) f /\ length (f_messages f) = 2%nat /\ error (f_buf f) = false /\
  (4 * length (text1 ++ text2) <= n <= 20 * length (text1 ++ text2))%nat.
Proof. do 2 eexists. split; [vm_compute; reflexivity|]. split; [vm_compute; reflexivity|]. split; [vm_compute; reflexivity|]. vm_compute. lia. Qed.
(** A list that claims to have 2^28 - 1 entries, cut off after a few bytes: the loop
    ends at the first entry that is not there. *)
Definition claims_many : list Z := firstn 35 body2 ++ [255; 255; 255; 255; 255; 255; 127; 119; 1; 1; 1].
Example C85_example_count : exists n f, @parsed_after BigEndian n claims_many f /\ error (f_buf f) = true /\ (n < 600)%nat.
Proof. do 2 eexists. split; [vm_compute; reflexivity|]. split; [vm_compute; reflexivity|]. apply Nat.ltb_lt. vm_compute. reflexivity. Qed.
