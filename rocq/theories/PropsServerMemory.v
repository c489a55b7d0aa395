(** Property C74: the example program when there is little memory. *)
From stdpp Require Import gmap.
From Verif Require Import Base Buf Number OctetString Boolean Value Time SList Tree Bodies Message File Transport Server ServerMain Wf Tests
  HeapBase HeapModel HeapLogic HeapCost HeapParse2 NoMemory PropsHeap PropsNoMemory HeapServerModel HeapServer HeapServerCost NoMemoryServer PropsMain PropsHeapServer TransportFacts TransportWrite.

(** Whichever requests are refused, and whenever: the program prints what it prints with memory in
    plenty, and leaves the same memory; or it ends with a use of NULL. *)
Theorem C74_same_or_crash {HO : Host} {AL : Allocator} (ME : Memory) v sf d out d' st :
  sml_server v sf d = Ret (out, d') ->
  exists st', @h_server HO AL plenty v sf d st = Ret ((out, d'), st') /\
    (@h_server HO AL ME v sf d st = Ret ((out, d'), st') \/ @h_server HO AL ME v sf d st = Fault NullDeref).
Proof.
  intros E. destruct (C72_same_output v sf d out d' st E) as (st' & R). exists st'. split; [exact R|]. rewrite <- R. apply (proj1 (nm_server ME 0 v sf d)).
Qed.
Print Assumptions C74_same_or_crash.

(** With memory for four times (what is in use before + 800000 bytes), which does not
    depend on how long the program runs, it never happens: every frame is printed, unless a meter
    is read for which the DZG workaround loses memory. *)
Theorem C74_enough {HO : Host} {AL : Allocator} (ME : Memory) L v d out d' fs d1 st :
  device_bytes d -> sml_server v false d = Ret (out, d') -> sml_transport_listen d = Ret (fs, d1) ->
  Forall (fun f => ~ mentions_dzg (content f)) fs ->
  grants_up_to ME L -> hpeak st <= L -> 4 * (used (hmem st) + 800000) <= L ->
  exists st', @h_server HO AL ME v false d st = Ret ((out, d'), st') /\ hmem st' = hmem st.
Proof.
  intros HB E EL HN G HP HL. destruct (C72_constant_memory v d out d' fs d1 st HB E EL HN) as (st' & R & M & P). exists st'. split; [|exact M].
  apply (proj2 (nm_server ME L v false d) _ _ _ R); [exact G|lia].
Qed.
Print Assumptions C74_enough.

(** And without enough it does happen. *)
Theorem C74_too_little {HO : Host} {AL : Allocator} (ME : Memory) L v sf d r st st' :
  @h_server HO AL plenty v sf d st = Ret (r, st') -> refuses_above ME L -> hpeak st <= L < hpeak st' ->
  @h_server HO AL ME v sf d st = Fault NullDeref.
Proof. intros E R HL. apply (proj2 (nm_server ME L v sf d) _ _ _ E); [exact R|exact HL]. Qed.
Print Assumptions C74_too_little.

(** The run of C72 needs 2136 bytes: with 2136 it prints all, with 2135 it crashes.
    The meter of C47 can be read once with 1155 bytes, and not
    twice: what is lost each time adds up. *)
Example C74_example : let dev := [Chunk [1; 2]; Intr; Chunk (firstn 50 run_sent); Chunk (skipn 50 run_sent); Chunk run_sent] in
  hpeak st0 <= 2136 /\
  match @h_server LittleEndian top (limit 2136) false false dev st0 with Ret ((o, _), _) => o = map OLine (run_lines ++ run_lines) | _ => False end /\
  @h_server LittleEndian top (limit 2135) false false dev st0 = Fault NullDeref.
Proof. split; [vm_compute; discriminate|]. split; vm_compute; reflexivity. Qed.
Example C74_example_dzg :
  match @h_server LittleEndian top (limit 1155) false false [Chunk dzg_sent] st0 with Ret ((o, _), _) => length o = 3%nat | _ => False end /\
  @h_server LittleEndian top (limit 1155) false false [Chunk dzg_sent; Chunk dzg_sent] st0 = Fault NullDeref.
Proof. split; vm_compute; reflexivity. Qed.
(** The hypotheses of C74_enough are met by a limit on the memory. *)
Example C74_example_enough : grants_up_to (limit 4000000) 4000000 /\ hpeak st0 <= 4000000 /\ 4 * (used (hmem st0) + 800000) <= 4000000.
Proof. split; [apply limit_grants|]. split; vm_compute; discriminate. Qed.
