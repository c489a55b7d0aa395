(** Memory after parsing (C63): linear in the length of the input.

    The functions are those of HeapModel.  The specification is [used] of HeapBase:
    the sum, over the blocks of a heap, of 16 bytes for the administration of the
    block and its content, one byte for a byte and eight for a member of a struct or
    an element of an array.  [hpeak] is the largest value that [used] has had, where
    realloc needs the memory for the old and for the new array at the same time:
    malloc and realloc ([append]) are the only operations that take memory, and
    they keep it up to date. *)
From stdpp Require Import gmap.
From Verif Require Import Base Buf File Wf Tests HeapBase HeapModel HeapLogic HeapCost Safe3 PropsParse PropsHeap.

(** ** C63 *)

(** Whatever the bytes are and whatever is in memory already: what sml_file_parse
    leaves in memory in addition, including what it has lost (C47), is at most 97
    times the length of the input and 216 bytes. *)
Theorem C63_memory_linear {HO : Host} {AL : Allocator} bytes f st :
  bytes_ok bytes -> sml_file_parse bytes = Ret f ->
  exists file st1 new, h_file_parse bytes st = Ret (file, st1) /\ hmem st1 = hmem st ∪ new /\ hmem st ##ₘ new /\
    used new <= 97 * Z.of_nat (length bytes) + 216.
Proof.
  intros HB E. destruct (C51_parse_builds bytes f st E) as (file & st1 & k & m & E1 & EB & EM & D1 & D2 & _).
  exists file, st1, (k ∪ m). apply map_disjoint_union_l in D2 as [D2 D3].
  assert (D : hmem st ##ₘ k ∪ m) by now apply map_disjoint_union_r.
  assert (EU : hmem st1 = hmem st ∪ (k ∪ m)) by now rewrite (assoc_L (∪)).
  split; [exact E1|]. split; [exact EU|]. split; [exact D|].
  destruct (c_file bytes _ _ _ E1) as (_ & _ & _ & HU & _). unfold paid in HU. cbn [hbuf hmem cursor] in HU. rewrite EU, (used_union _ _ D), EB in HU.
  pose proof (file_parse_safe 7 bytes min_size_7 HB) as HP. rewrite E in HP. destruct HP as (_ & HC & _).
  unfold rate in HU. destruct (error (f_buf f)); lia.
Qed.
Print Assumptions C63_memory_linear.

(** The same for every input of at most 288 KiB, of which C01 says that it is
    parsed, and for the number of blocks. *)
Theorem C63_blocks_linear {HO : Host} {AL : Allocator} bytes st :
  bytes_ok bytes -> Z.of_nat (length bytes) <= 294912 ->
  exists file st1 new, h_file_parse bytes st = Ret (file, st1) /\ hmem st1 = hmem st ∪ new /\ hmem st ##ₘ new /\
    used new <= 97 * Z.of_nat (length bytes) + 216 /\ 16 * Z.of_nat (size new) <= 97 * Z.of_nat (length bytes) + 216.
Proof.
  intros HB HL. destruct (C01_parse_memory_safe HO bytes HB HL) as (f & E & _).
  destruct (C63_memory_linear bytes f st HB E) as (file & st1 & new & E1 & E2 & E3 & E4). exists file, st1, new. repeat (split; [assumption|]).
  pose proof (used_size new). lia.
Qed.
Print Assumptions C63_blocks_linear.

(** And at no moment while it runs it needs more than twice that, the memory in use
    before included. *)
Theorem C63_peak_linear {HO : Host} {AL : Allocator} bytes st :
  bytes_ok bytes -> Z.of_nat (length bytes) <= 294912 -> hpeak st = used (hmem st) ->
  exists file st1, h_file_parse bytes st = Ret (file, st1) /\
    hpeak st1 <= 2 * (used (hmem st) + 97 * Z.of_nat (length bytes) + 216).
Proof.
  intros HB HL HP. destruct (C01_parse_memory_safe HO bytes HB HL) as (f & E & _).
  destruct (C51_parse_builds bytes f st E) as (file & st1 & k & m & E1 & EB & _). exists file, st1. split; [exact E1|].
  destruct (c_file bytes _ _ _ E1) as (_ & _ & _ & _ & HU & _). unfold paid in HU. cbn [hbuf hmem cursor hpeak] in HU. rewrite EB, HP in HU.
  pose proof (file_parse_safe 7 bytes min_size_7 HB) as HS. rewrite E in HS. destruct HS as (_ & HC & _). pose proof (used_nonneg (hmem st)).
  unfold rate in HU. lia.
Qed.
Print Assumptions C63_peak_linear.

(** [hpeak] means what it says: it never falls and is never below what is in use.
    (Here for the whole run; the proof shows it for every function on the way.) *)
Theorem C63_peak_is_one {HO : Host} {AL : Allocator} bytes st file st1 :
  h_file_parse bytes st = Ret (file, st1) -> used (hmem st) <= hpeak st ->
  used (hmem st1) <= hpeak st1 /\ hpeak st <= hpeak st1.
Proof. intros E L. destruct (c_file bytes _ _ _ E) as (_ & _ & _ & _ & _ & H1 & H2). cbn in H1, H2. auto. Qed.
Print Assumptions C63_peak_is_one.

(** Announced sizes do not count: a list or a string that says it has millions of
    elements costs no more than the bytes that are there (six here). *)
Definition boast : list Z := [118; 255; 255; 255; 255; 15].
Example C63_example : bytes_ok (text1 ++ text2) /\ bytes_ok boast /\
  match @h_file_parse LittleEndian top plenty (text1 ++ text2) st0, @h_file_parse LittleEndian top plenty boast st0 with
  | Ret (_, st1), Ret (_, st2) => length (text1 ++ text2) = 79%nat /\ used (hmem st0) = 19 /\ used (hmem st1) = 1059 /\ used (hmem st2) = 105 /\ hpeak st1 = 1083
  | _, _ => False
  end.
Proof. split; [unfold text1, text2; bytes|]. split; [unfold boast; bytes|]. vm_compute. repeat split. Qed.
