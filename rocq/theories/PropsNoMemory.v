(** Property C69: what parsing does when the memory runs out.

    The functions are those of HeapModel: malloc and realloc ask [grants], a function
    of the request and of the state of the program, whether there is memory.  With
    [plenty] there always is; that is what the other theorems are about. *)
From stdpp Require Import gmap.
From Verif Require Import Base Buf Crc16 Number Message File Wf Tests HeapBase HeapModel HeapWriteModel HeapLogic HeapParse2 HeapCost NoMemory PropsParse PropsHeap PropsMemory.

(** Whichever requests are refused: sml_file_parse gives what it gives with memory in
    plenty, or the program ends with a write through the NULL that malloc returned.
    It never reports the problem and never returns something else. *)
Theorem C69_refusal_is_never_reported {HO : Host} {AL : Allocator} (ME : Memory) bytes st :
  bytes_ok bytes -> Z.of_nat (length bytes) <= 294912 ->
  exists file st1, @h_file_parse HO AL plenty bytes st = Ret (file, st1) /\
    (@h_file_parse HO AL ME bytes st = Ret (file, st1) \/ @h_file_parse HO AL ME bytes st = Fault NullDeref).
Proof.
  intros HB HL. destruct (C01_parse_memory_safe HO bytes HB HL) as (f & E & _). destruct (C51_parse_builds bytes f st E) as (file & st1 & k & m & E1 & _).
  exists file, st1. split; [exact E1|]. rewrite <- E1. unfold h_file_parse. apply (nm_file ME 0 bytes).
Qed.
Print Assumptions C69_refusal_is_never_reported.

(** Memory for twice what C63 says is enough: no request is refused, and the
    result holds the messages of the value-level parser, as in C51. *)
Theorem C69_enough {HO : Host} {AL : Allocator} (ME : Memory) L bytes st :
  bytes_ok bytes -> Z.of_nat (length bytes) <= 294912 -> hpeak st = used (hmem st) ->
  grants_up_to ME L -> 2 * (used (hmem st) + 97 * Z.of_nat (length bytes) + 216) <= L ->
  @h_file_parse HO AL ME bytes st = @h_file_parse HO AL plenty bytes st /\
  exists f file st1 st2 k, sml_file_parse bytes = Ret f /\ @h_file_parse HO AL ME bytes st = Ret (file, st1) /\
    h_file_free file st1 = Ret (tt, st2) /\ hmem st2 = hmem st ∪ k /\ lost k /\ (k = ∅ \/ mentions_dzg bytes).
Proof.
  intros HB HL HP G LE. destruct (C63_peak_linear bytes st HB HL HP) as (file & st1 & E & PK).
  assert (E' : @h_file_parse HO AL ME bytes st = Ret (file, st1)).
  { unfold h_file_parse in *. apply (proj2 (nm_file ME L bytes) _ _ _ E); [exact G|lia]. }
  split; [now rewrite E'|]. destruct (C01_parse_memory_safe HO bytes HB HL) as (f & EF & _).
  destruct (C51_parse_then_free bytes f st EF) as (file' & st1' & st2 & k & E1 & E2 & EM & _ & LK & _ & KD). rewrite E in E1. injection E1 as <- <-.
  exists f, file, st1, st2, k. auto 10.
Qed.
Print Assumptions C69_enough.

(** And the limit matters: if requests above it are refused and the parser needs
    more, the program crashes. *)
Theorem C69_too_little {HO : Host} {AL : Allocator} (ME : Memory) L bytes st file st1 :
  @h_file_parse HO AL plenty bytes st = Ret (file, st1) -> hpeak st <= L ->
  refuses_above ME L -> L < hpeak st1 -> @h_file_parse HO AL ME bytes st = Fault NullDeref.
Proof. intros E HP R HL. unfold h_file_parse in *. apply (proj2 (nm_file ME L bytes) _ _ _ E); [exact R|]. cbn [hpeak]. lia. Qed.
Print Assumptions C69_too_little.

(** A memory of [L] bytes *)
Definition limit (L : Z) : Memory := {| grants st b := used (hmem st) + weight b <=? L |}.
Lemma limit_grants L : grants_up_to (limit L) L.
Proof. intros st b HU. cbn. now apply Z.leb_le. Qed.
Lemma limit_refuses L : refuses_above (limit L) L.
Proof. intros st b HU. cbn. now apply Z.leb_gt. Qed.
Example C69_example : hpeak st0 <= used (hmem st0) /\
  match @h_file_parse LittleEndian top plenty (text1 ++ text2) st0 with
  | Ret (_, st1) => hpeak st1 = 1083
  | _ => False
  end /\
  @h_file_parse LittleEndian top (limit 1083) (text1 ++ text2) st0 = @h_file_parse LittleEndian top plenty (text1 ++ text2) st0 /\
  @h_file_parse LittleEndian top (limit 1082) (text1 ++ text2) st0 = Fault NullDeref.
Proof. split; [vm_compute; discriminate|]. split; [vm_compute; reflexivity|]. split; vm_compute; reflexivity. Qed.

(** Writing does test the result of malloc, for the checksum (sml_number_init), and
    goes on without it: the program is told nothing, the message is sent with an
    absent checksum, and no receiver accepts it. *)
Definition written (o : outcome (unit * hstate)) : list Z :=
  match o with Ret (_, st) => firstn (cursor (hbuf st)) (buffer (hbuf st)) | _ => [] end.
Definition room : sbuf := mkBuf (repeat 0 100) 0 false false.
Definition built_mem : heap :=
  {[1%nat := Struct [Nul; Nul; Nul; Ptr 2; Nul]]} ∪ ({[2%nat := Struct [Ptr 3; Ptr 4]]} ∪
  ({[3%nat := Bytes [0; 2; 0; 0]]} ∪ {[4%nat := Struct [Nul]]})).
Theorem C69_written_without_checksum_refuted : exists L st, let w ME := @h_message_write LittleEndian top ME (Ptr 1) st in
  grants_up_to (limit L) L /\ used (hmem st) <= L /\
  (exists st1, w (limit L) = Ret (tt, st1)) /\
  written (w plenty) = [118; 1; 1; 1; 114; 101; 0; 0; 2; 0; 113; 1; 99; 131; 44; 0] /\
  written (w (limit L)) = [118; 1; 1; 1; 114; 101; 0; 0; 2; 0; 113; 1; 1; 0] /\
  (exists f m, @sml_file_parse LittleEndian (written (w plenty) ++ [0]) = Ret f /\ f_messages f = [m]) /\
  (exists f, @sml_file_parse LittleEndian (written (w (limit L)) ++ [0]) = Ret f /\ f_messages f = []).
Proof.
  exists 140, (mkH room built_mem 0 0). cbv zeta. split; [apply limit_grants|]. split; [vm_compute; discriminate|].
  split; [eexists; vm_compute; reflexivity|]. split; [vm_compute; reflexivity|]. split; [vm_compute; reflexivity|].
  split; [do 2 eexists; split; vm_compute; reflexivity|eexists; split; vm_compute; reflexivity].
Qed.
Print Assumptions C69_written_without_checksum_refuted.
