(** The fuzz target of the project (C87): what a fuzzer with the address and the
    undefined behaviour sanitizer can find with it.

    A report of the address sanitizer is a fault of the run, or memory that is not as
    it was before; a report of the other one is the flag [ovf] (signed overflow,
    which does not stop the run). *)
From stdpp Require Import gmap.
From iris.proofmode Require Import tactics.
From Verif Require Import Base Buf Number OctetString Boolean Value Time SList Tree Bodies Message File Wf Tests
  HeapBase HeapModel HeapLogic HeapRep HeapFree HeapSim HeapParse HeapParse2 HeapParse3 HeapParse4 HeapParse5 PropsParse Crc16 Dzg PropsDzg PropsHeap.
Local Open Scope list_scope.

(** test/src/fuzzer.c:23-24: the bytes that are parsed *)
Definition fuzz_input (data : list Z) : list Z := if (8 <? length data)%nat then skipn 8 data else data.

Section WithHost.
Context {HO : Host} {AL : Allocator}.
(** test/src/fuzzer.c:20-27 *)
Definition fuzz_one (data : list Z) : H Z :=
  file <- h_file_parse (fuzz_input data) ;;
  h_file_free file ;;;
  ret 0.

Lemma fuzz_runs data f st : sml_file_parse (fuzz_input data) = Ret f ->
  exists st' k, fuzz_one data st = Ret (0, st') /\ hbuf st' = f_buf f /\ hmem st' = hmem st ∪ k /\ hmem st ##ₘ k /\ lost k /\
    (k = ∅ \/ mentions_dzg (fuzz_input data)).
Proof.
  intros E. set (bytes := fuzz_input data) in *. set (WA := dzg_watch).
  assert (W : holds (wp (file <- h_file_parse_run bytes ;; h_file_free file) (mkBuf bytes 0 false false) (fun _ s => ⟨s = f_buf f⟩)%I) ∅).
  { assert (WP : ⊢ wp (file <- h_file_parse_run bytes ;; h_file_free file) (mkBuf bytes 0 false false) (fun _ s => ⟨s = f_buf f⟩)%I).
    { iApply wp_bind. iApply wp_wand. iSplitR; [iApply (r_file bytes f E)|]. iIntros (p s2) "[-> F]".
      iApply f_file. by iFrame. }
    by apply (proj1 (entails_holds _ _) WP ∅). }
  destruct (wp_run _ _ _ (hmem st) ∅ ∅ (hconf st) (hpeak st) (fun l b F => match lookup_empty_Some l b F with end)
    (map_disjoint_empty_r _) (map_disjoint_empty_r _) W) as (u & s' & k & m & pk & ER & L & D1 & D2 & [_ K] & [Em Es]).
  assert (m = ∅) as -> by exact Em. destruct u. rewrite !right_id_L map_size_empty Nat.add_0_r in ER.
  apply bind_inv in ER as (file & st1 & E1 & E2).
  exists (mkH s' (hmem st ∪ k) (hconf st + size k) pk), k. split_and!; auto.
  unfold fuzz_one, bind. fold bytes. unfold h_file_parse. rewrite E1 E2. done.
Qed.

(** Seven bytes in a row with the highest bit set *)
Definition seven_long (bytes : list Z) : Prop := exists pre run post,
  bytes = pre ++ run ++ post /\ length run = 7%nat /\ Forall (fun x => Z.land x 128 <> 0) run.
Lemma seven_or bytes : seven_long bytes \/
  forall i, exists j, (i <= j < i + 7)%nat /\ forall x, nth_error bytes j = Some x -> Z.land x 128 = 0.
Proof.
  induction bytes as [|a t IH].
  - right. intros i. exists i. split; [lia|]. intros x E. destruct i; discriminate.
  - destruct IH as [(pre & run & post & -> & L & F)|IH]; [left; by exists (a :: pre), run, post|].
    destruct (decide (length (take 7 (a :: t)) = 7%nat /\ Forall (fun x => Z.land x 128 <> 0) (take 7 (a :: t)))) as [[L F]|N].
    + left. exists [], (take 7 (a :: t)), (drop 7 (a :: t)). split; [|done]. by rewrite app_nil_l take_drop.
    + right. intros [|i].
      * destruct (decide (length (take 7 (a :: t)) = 7%nat)) as [L|NL].
        -- assert (NF : ~ Forall (fun x => Z.land x 128 <> 0) (take 7 (a :: t))) by tauto.
           apply not_Forall_Exists in NF; [|intros x; apply _]. apply Exists_exists in NF as (x & Hx & Nx).
           apply elem_of_list_In, elem_of_list_lookup in Hx as [j Hj]. assert (LJ := lookup_lt_Some _ _ _ Hj). rewrite L in LJ.
           exists j. split; [lia|]. intros y Ey. rewrite lookup_take in Hj; [|done]. assert (NE : forall (l : list Z) n, nth_error l n = l !! n) by (induction l as [|? ? IHl]; intros [|n]; cbn; auto). rewrite -NE in Hj.
           assert (y = x) as -> by congruence. by apply dec_stable in Nx.
        -- rewrite take_length in NL. exists (length (a :: t)). split; [lia|]. intros x E. exfalso.
           assert (N2 : nth_error (a :: t) (length (a :: t)) <> None) by congruence. apply nth_error_Some in N2. lia.
      * destruct (IH i) as (j & J & HJ). exists (S j). split; [lia|]. exact HJ.
Qed.

(** For inputs of up to 294920 bytes there are two kinds of reports and no others:
    overflow, which needs seven bytes in a row with the highest bit set, and lost
    texts of at most two bytes, which need the beginning of a DZG serial number. *)
Theorem C87_nothing_else data st : bytes_ok data -> Z.of_nat (length data) <= 294920 ->
  exists st' k, fuzz_one data st = Ret (0, st') /\
    (ovf (hbuf st') = true -> seven_long (fuzz_input data)) /\
    hmem st' = hmem st ∪ k /\ hmem st ##ₘ k /\ lost k /\ (k <> ∅ -> mentions_dzg (fuzz_input data)).
Proof.
  intros HB HL.
  assert (HB' : bytes_ok (fuzz_input data) /\ Z.of_nat (length (fuzz_input data)) <= 294912).
  { unfold fuzz_input. destruct (Nat.ltb_spec 8 (length data)) as [L|L]; [|split; [done|lia]].
    split; [|rewrite skipn_length; lia]. intros. unfold bytes_ok in *. rewrite -(take_drop 8 data) in HB. by apply List.Forall_app in HB as [_ ?]. }
  destruct HB' as [HB1 HL1]. destruct (C01_parse_memory_safe HO _ HB1 HL1) as (f & E & _).
  destruct (fuzz_runs data f st E) as (st' & k & ER & EB & EM & D & L & K). exists st', k. split_and!; auto.
  - rewrite EB. intros EO. destruct (seven_or (fuzz_input data)) as [S|N]; [done|].
    rewrite (C05_no_overflow HO _ f HB1 N E) in EO. discriminate.
  - intros NK. destruct K as [->|K]; [done|exact K].
Qed.

(** Both kinds occur; the first one with every byte order, allocator and memory. *)
Theorem C87_overflow_found st : exists data st', bytes_ok data /\ fuzz_one data st = Ret (0, st') /\ ovf (hbuf st') = true.
Proof.
  destruct (C05_no_overflow_refuted HO) as (bytes & f & HB & E & EO).
  assert (EI : fuzz_input (repeat 0 8 ++ bytes) = bytes).
  { unfold fuzz_input. destruct bytes as [|b t]; [|done]. vm_compute in E. injection E as <-. discriminate EO. }
  rewrite -EI in E. destruct (fuzz_runs _ f st E) as (st' & k & ER & EB & _). exists (repeat 0 8 ++ bytes), st'. split_and!; [|done|by rewrite EB].
  apply List.Forall_app. split; [repeat constructor; lia|done].
Qed.

(** Every input of the parser is tried by some input of the fuzz target, and the first
    eight of more than eight bytes do not matter. *)
Theorem C87_reaches bytes : bytes_ok bytes -> exists data, bytes_ok data /\ fuzz_input data = bytes.
Proof.
  intros HB. destruct bytes as [|b t]; [by exists []|]. exists (repeat 0 8 ++ b :: t). split; [|done].
  apply List.Forall_app. split; [repeat constructor; lia|done].
Qed.
Theorem C87_first_eight_ignored a a' b st : length a = 8%nat -> length a' = 8%nat -> b <> [] -> fuzz_one (a ++ b) st = fuzz_one (a' ++ b) st.
Proof.
  intros L L' N. assert (X : forall a, length a = 8%nat -> fuzz_input (a ++ b) = b).
  { intros c C. unfold fuzz_input. rewrite app_length C. destruct b as [|x b]; [done|]. cbn [length].
    destruct (Nat.ltb_spec 8 (8 + S (length b))) as [_|?]; [|lia]. by rewrite skipn_app C Nat.sub_diag skipn_all2 ?C. }
  unfold fuzz_one. by rewrite (X a L) (X a' L').
Qed.
End WithHost.
Theorem C87_leak_found : exists data st st', bytes_ok data /\ @fuzz_one LittleEndian top data st = Ret (0, st') /\ size (hmem st') = S (size (hmem st)).
Proof.
  assert (C : match @fuzz_one LittleEndian top (repeat 0 8 ++ dzg_message) st0 with
    | Ret (z, st') => ((z =? 0)%Z && (size (hmem st') =? 2)%nat)%bool | _ => false end = true) by (vm_compute; reflexivity).
  exists (repeat 0 8 ++ dzg_message), st0. destruct (@fuzz_one LittleEndian top (repeat 0 8 ++ dzg_message) st0) as [[z st']|fl|]; [|discriminate C..].
  apply andb_true_iff in C as [C1 C2]. apply Z.eqb_eq in C1 as ->. apply Nat.eqb_eq in C2. exists st'. split; [|split; [done|exact C2]].
  apply List.Forall_app. split; [repeat constructor; lia|].
  assert (B : forallb (fun x : Z => ((0 <=? x) && (x <? 256))%Z) dzg_message = true) by (vm_compute; reflexivity).
  apply List.Forall_forall. intros x Hx. apply (proj1 (List.forallb_forall _ _) B) in Hx. apply andb_true_iff in Hx as [H1 H2]. apply Z.leb_le in H1. apply Z.ltb_lt in H2. unfold byte_ok; lia.
Qed.
Print Assumptions C87_nothing_else.
Print Assumptions C87_overflow_found.
Print Assumptions C87_leak_found.
Print Assumptions C87_reaches.
Print Assumptions C87_first_eight_ignored.

(** *** Examples *)
(** a transport frame as it is in the files of the corpus: the start sequence is skipped, and what
    follows the messages ends the run without a report *)
Example C87_example : let data := [27; 27; 27; 27; 1; 1; 1; 1] ++ text1 ++ [27; 27; 27; 27; 26; 0; 1; 2] in
  bytes_ok data /\ Z.of_nat (length data) <= 294920 /\ ~ seven_long (firstn 20 data) /\
  match @fuzz_one LittleEndian top data st0 with Ret (0, st') => map_to_list (hmem st') = [(7%nat, Bytes [1; 2; 3])] /\ ovf (hbuf st') = false | _ => False end.
Proof.
  split; [unfold text1, body1; bytes|]. split; [vm_compute; discriminate|]. split; [|vm_compute; auto].
  intros (pre & run & post & E & L & F).
  assert (C : forallb (fun x : Z => (Z.land x 128 =? 0)%Z) (firstn 20 (([27; 27; 27; 27; 1; 1; 1; 1] ++ text1) ++ [])) = true) by (vm_compute; reflexivity).
  destruct run as [|x run]; [discriminate L|]. apply Forall_cons_1 in F as [F _]. apply F.
  assert (Hx : In x (pre ++ (x :: run) ++ post)) by (apply in_or_app; right; left; done). rewrite -E in Hx.
  apply (proj1 (List.forallb_forall _ _) C) in Hx. by apply Z.eqb_eq.
Qed.
