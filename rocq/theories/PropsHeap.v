(** Memory (C51, and the leak of C47): parsing and freeing on a heap.

    The functions are those of HeapModel; [hmem st] is the memory before the call,
    with whatever blocks the rest of the program has; the addresses that malloc
    returns are arbitrary ([Allocator]).  A fault is: reading or writing through
    NULL or outside a block, using a freed block, freeing something twice. *)
From stdpp Require Import gmap.
From iris.proofmode Require Import tactics.
From Verif Require Import Base Buf Number OctetString Boolean Value Time SList Tree Bodies Message File Wf Tests
  HeapBase HeapModel HeapLogic HeapRep HeapFree HeapSim HeapParse HeapParse2 HeapParse3 HeapParse4 HeapParse5 PropsParse Crc16 Dzg PropsDzg.

(** ** C51 *)

(** From the program logic to a plain statement about one run. *)
Lemma wp_run {AL : Allocator} {WA : Watch} {A} (c : H A) s (Φ : A -> sbuf -> hprop) h m k n pk :
  lost k -> h ##ₘ k -> h ∪ k ##ₘ m -> holds (wp c s Φ) m ->
  exists a s' k' m' pk', c (mkH s (h ∪ k ∪ m) (n + size k) pk) = Ret (a, mkH s' (h ∪ k' ∪ m') (n + size k') pk') /\
    lost k' /\ h ##ₘ k' /\ h ∪ k' ##ₘ m' /\ kept s s' k k' /\ Φ a s' m'.
Proof.
  intros L D1 D2 W. destruct (W h k n pk D1 D2 L) as (a & s' & k' & m' & [pk' E] & ?). exists a, s', k', m', pk'. tauto.
Qed.

(** sml_file_parse followed by sml_file_free: no fault, every block that was there
    before is untouched, and every block allocated in between is freed, except
    [k]: one text of one or two bytes for each octet string that the workaround
    for DZG meters has turned into a number (C47). *)
Theorem C51_parse_then_free {HO : Host} {AL : Allocator} bytes f st :
  sml_file_parse bytes = Ret f ->
  exists file st1 st2 k,
    h_file_parse bytes st = Ret (file, st1) /\ h_file_free file st1 = Ret (tt, st2) /\
    hmem st2 = hmem st ∪ k /\ hmem st ##ₘ k /\ lost k /\ hconf st2 = (hconf st + size k)%nat /\
    (k = ∅ \/ mentions_dzg bytes).
Proof.
  intros E. set (WA := dzg_watch).
  assert (W : holds (wp (file <- h_file_parse_run bytes ;; h_file_free file) (mkBuf bytes 0 false false) (fun _ _ => emp%I)) ∅).
  { assert (WP : ⊢ wp (file <- h_file_parse_run bytes ;; h_file_free file) (mkBuf bytes 0 false false) (fun _ _ => emp%I)).
    { iApply wp_bind. iApply wp_wand. iSplitR; [iApply (r_file bytes f E)|]. iIntros (p s2) "[-> F]".
      iApply f_file. by iFrame. }
    by apply (proj1 (entails_holds _ _) WP ∅). }
  destruct (wp_run _ _ _ (hmem st) ∅ ∅ (hconf st) (hpeak st) (fun l b F => match lookup_empty_Some l b F with end)
    (map_disjoint_empty_r _) (map_disjoint_empty_r _) W) as (u & s' & k & m & pk & ER & L & D1 & D2 & [_ K] & Em).
  assert (m = ∅) as -> by exact (proj1 (emp_holds m) Em). destruct u. rewrite !right_id_L map_size_empty Nat.add_0_r in ER.
  apply bind_inv in ER as (file & st1 & E1 & E2).
  exists file, st1, (mkH s' (hmem st ∪ k) (hconf st + size k) pk), k. unfold h_file_parse. split_and!; auto.
Qed.
Print Assumptions C51_parse_then_free.

(** Nothing is left behind if the input does not contain the beginning of a DZG
    serial number. *)
Theorem C51_nothing_left {HO : Host} {AL : Allocator} bytes st :
  bytes_ok bytes -> Z.of_nat (length bytes) <= 294912 -> ~ mentions_dzg bytes ->
  exists file st1 st2,
    h_file_parse bytes st = Ret (file, st1) /\ h_file_free file st1 = Ret (tt, st2) /\
    hmem st2 = hmem st /\ hconf st2 = hconf st.
Proof.
  intros HB HL HM. destruct (C01_parse_memory_safe HO bytes HB HL) as (f & E & _).
  destruct (C51_parse_then_free bytes f st E) as (file & st1 & st2 & k & E1 & E2 & EM & _ & _ & EC & [->|K]); [|done].
  exists file, st1, st2. rewrite right_id_L in EM. rewrite map_size_empty Nat.add_0_r in EC. auto.
Qed.
Print Assumptions C51_nothing_left.

(** Between the two calls the memory is the old one, untouched, and blocks that
    hold the messages [f] of the value-level parser and the copy of the input
    ([rep_file]), besides what has been given up already. *)
Theorem C51_parse_builds {HO : Host} {AL : Allocator} bytes f st :
  sml_file_parse bytes = Ret f ->
  exists file st1 k m, h_file_parse bytes st = Ret (file, st1) /\ hbuf st1 = f_buf f /\
    hmem st1 = hmem st ∪ k ∪ m /\ hmem st ##ₘ k /\ hmem st ∪ k ##ₘ m /\ lost k /\
    hconf st1 = (hconf st + size k)%nat /\ holds (rep_file (f_messages f) bytes file) m.
Proof.
  intros E. set (WA := dzg_watch).
  assert (W := r_file bytes f E). apply (proj1 (entails_holds _ _)) with (m := ∅) in W; [|done].
  destruct (wp_run _ _ _ (hmem st) ∅ ∅ (hconf st) (hpeak st) (fun l b F => match lookup_empty_Some l b F with end)
    (map_disjoint_empty_r _) (map_disjoint_empty_r _) W) as (p & s' & k & m & pk & ER & L & D1 & D2 & _ & Em).
  destruct Em as (m1 & m2 & -> & D & [Em1 Es] & R). assert (m1 = ∅) as -> by exact Em1.
  rewrite left_id_L in D2, ER. rewrite !right_id_L map_size_empty Nat.add_0_r in ER.
  exists p, (mkH s' (hmem st ∪ k ∪ m2) (hconf st + size k) pk), k, m2. unfold h_file_parse. split_and!; auto.
Qed.
Print Assumptions C51_parse_builds.

(** *** Examples *)
(** An allocator that takes the next address. *)
Lemma top_fresh (h : heap) : h !! S (map_fold (fun l _ n => Nat.max l n) 0%nat h) = None.
Proof.
  cut (forall l, is_Some (h !! l) -> (l <= map_fold (fun l _ n => Nat.max l n) 0 h)%nat).
  { intros HB. destruct (h !! _) as [b|] eqn:E; [|done]. specialize (HB _ (ex_intro _ b E)). lia. }
  apply (map_fold_ind (fun r (h : heap) => forall l, is_Some (h !! l) -> (l <= r)%nat)).
  - intros l [b E]. by rewrite lookup_empty in E.
  - intros i b m r N IH l [b' E]. destruct (decide (i = l)) as [->|Ne]; [lia|].
    rewrite lookup_insert_ne in E; [|done]. specialize (IH l (ex_intro _ b' E)). lia.
Qed.
Definition top : Allocator := {| choose h := S (map_fold (fun l _ n => Nat.max l n) 0%nat h); choose_fresh := top_fresh |}.

(** the heap after parsing, and after freeing *)
Definition parse_and_free {HO : Host} {AL : Allocator} (bytes : list Z) (st : hstate) : outcome (nat * (list (nat * block) * nat)) :=
  match h_file_parse bytes st with
  | Ret (file, st1) =>
      match h_file_free file st1 with
      | Ret (_, st2) => Ret (size (hmem st1), (map_to_list (hmem st2), hconf st2))
      | Fault f => Fault f | NoFuel => NoFuel
      end
  | Fault f => Fault f | NoFuel => NoFuel
  end.
(** something the program has in memory already *)
Definition st0 : hstate := mkH (mkBuf [] 0 false false) {[ 7%nat := Bytes [1; 2; 3] ]} 0 0.

(** two messages: 14 blocks of the first one are in memory after the parser has
    given up in the second one; then only the old block is left *)
Example C51_example : bytes_ok (text1 ++ firstn 40 text2) /\ Z.of_nat (length (text1 ++ firstn 40 text2)) <= 294912 /\
  @parse_and_free LittleEndian top (text1 ++ firstn 40 text2) st0 = Ret (14%nat, ([(7%nat, Bytes [1; 2; 3])], 0%nat)).
Proof. split; [unfold text1, text2; bytes|]. split; [done|]. vm_compute. reflexivity. Qed.
(** a value list of an affected meter with the power as a text of two bytes *)
Definition dzg_body : list Z :=
  [118; 2; 1; 98; 0; 98; 0; 114; 99; 7; 1; 119; 1; 1; 1; 1] ++ removelast dzg_list ++ [1; 1].
Definition dzg_message : list Z :=
  dzg_body ++ let c := sml_crc16_calculate dzg_body in [99; c / 256; c mod 256; 0].
Example C51_example_dzg : mentions_dzg dzg_message /\
  @parse_and_free LittleEndian top dzg_message st0 =
  Ret (31%nat, ([(7%nat, Bytes [1; 2; 3]); (35%nat, Bytes [128; 37])], 1%nat)).
Proof. split; [exists (firstn 30 dzg_message), (skipn 35 dzg_message); vm_compute; reflexivity|]. vm_compute. reflexivity. Qed.

(** ** C47: the leak *)

(** A value that is an octet string with a text, under another type than octet
    string and boolean: sml_value_free releases the value and the struct of the
    string, and the text stays. *)
Theorem C47_freeing_leaks_text {AL : Allocator} st h value str text type len bs :
  h !! value = None -> h !! str = None -> h !! text = None -> value <> str -> value <> text -> str <> text ->
  type <> 0 -> type <> 64 ->
  hmem st = <[value := Struct [Int type; Ptr str]]> (<[str := Struct [Ptr text; Int len]]> (<[text := Bytes bs]> h)) ->
  exists st', h_value_free (Ptr value) st = Ret (tt, st') /\ hmem st' = <[text := Bytes bs]> h.
Proof.
  intros N1 N2 N3 D1 D2 D3 T1 T2 E.
  assert (L1 : hmem st !! value = Some (Struct [Int type; Ptr str])) by (rewrite E; apply lookup_insert).
  assert (EL : forall i x, [Int type; Ptr str] !! i = Some x -> load (Ptr value) i st = Ret (x, st)).
  { intros i x Ei. unfold load, load_struct, load_block, bind. rewrite L1. simpl. by rewrite Ei. }
  exists (set_mem (<[text := Bytes bs]> h) st). split; [|done].
  unfold h_value_free, if_ptr, load_int, bind at 1 2. rewrite (EL 0%nat _ eq_refl). unfold ret at 1.
  unfold SML_TYPE_OCTET_STRING, SML_TYPE_BOOLEAN.
  rewrite (proj2 (Z.eqb_neq _ _) T1) (proj2 (Z.eqb_neq _ _) T2). unfold bind at 1 2.
  rewrite (EL 1%nat _ eq_refl). unfold h_number_free, free.
  rewrite E lookup_insert_ne; [|done]. rewrite lookup_insert. unfold set_mem. cbn [hmem hbuf hconf].
  rewrite lookup_delete_ne; [|done]. rewrite lookup_insert. do 3 f_equal.
  rewrite delete_commute delete_insert; [|by rewrite !lookup_insert_ne].
  rewrite delete_insert; [done|by rewrite lookup_insert_ne].
Qed.
Print Assumptions C47_freeing_leaks_text.
(** 83 = signed 16-bit integer *)
Example C47_example_leak : exists st st', hmem st = <[1%nat := Struct [Int 83; Ptr 2]]> (<[2%nat := Struct [Ptr 3; Int 2]]> (<[3%nat := Bytes [128; 37]]> ∅)) /\
  h_value_free (Ptr 1) st = Ret (tt, st') /\ hmem st' = <[3%nat := Bytes [128; 37]]> ∅.
Proof.
  pose (h := <[1%nat := Struct [Int 83; Ptr 2]]> (<[2%nat := Struct [Ptr 3; Int 2]]> (<[3%nat := Bytes [128; 37]]> (∅ : heap)))).
  destruct (C47_freeing_leaks_text (AL := top) (mkH (mkBuf [] 0 false false) h 0 0) ∅ 1 2 3 83 2 [128; 37]) as (st' & E & M); try done.
  exists (mkH (mkBuf [] 0 false false) h 0 0), st'. done.
Qed.
