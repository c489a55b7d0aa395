(** Property C81: without libuuid every new message costs a file descriptor, and when none
    is left its id is not random. *)
From Verif Require Import Base HeapBuildModel Uuid PropsHeapBuild.
From Coq Require Import Lia.

(** Every new message takes a descriptor, which stays open. *)
Theorem C81_descriptors random stacks s : (open_files s <= max_files s)%nat ->
  open_files (snd (new_ids random stacks s)) = Nat.min (max_files s) (open_files s + length stacks).
Proof.
  revert s. induction stacks as [|x t IH]; intros s HS; [cbn; lia|]. cbn [new_ids length]. unfold generate_uuid, open_urandom.
  destruct (Nat.ltb_spec (open_files s) (max_files s)) as [HL|HL]; cbn [open_files max_files reads].
  - specialize (IH (mkSystem (S (open_files s)) (max_files s) (S (reads s)))). destruct (new_ids _ t _) as [ids s2]. cbn [snd open_files max_files] in *. rewrite IH by lia. lia.
  - specialize (IH s HS). destruct (new_ids _ t s) as [ids s2]. cbn [snd] in *. rewrite IH. lia.
Qed.
Print Assumptions C81_descriptors.
Lemma ids_from random stacks : forall s, (open_files s <= max_files s)%nat -> forall i x, nth_error stacks i = Some x ->
  nth_error (fst (new_ids random stacks s)) i = Some (
    if (i <? max_files s - open_files s)%nat then uuid_of (random (reads s + i)%nat ++ skipn (length (random (reads s + i)%nat)) x) else uuid_of x).
Proof.
  induction stacks as [|y t IH]; intros s HS i x HX; [destruct i; discriminate|]. cbn [new_ids]. unfold generate_uuid, open_urandom.
  destruct (Nat.ltb_spec (open_files s) (max_files s)) as [HL|HL]; cbn [open_files max_files reads].
  - specialize (IH (mkSystem (S (open_files s)) (max_files s) (S (reads s)))). destruct (new_ids _ t _) as [ids s2]. cbn [fst open_files max_files reads] in *.
    destruct i as [|i]; cbn [nth_error] in *.
    + injection HX as ->. destruct (Nat.ltb_spec 0 (max_files s - open_files s)); [|lia]. now rewrite Nat.add_0_r.
    + rewrite (IH ltac:(lia) i x HX). replace (S (reads s) + i)%nat with (reads s + S i)%nat by lia.
      destruct (Nat.ltb_spec i (max_files s - S (open_files s))), (Nat.ltb_spec (S i) (max_files s - open_files s)); try lia; reflexivity.
  - specialize (IH s HS). destruct (new_ids _ t s) as [ids s2]. cbn [fst] in *. replace (max_files s - open_files s)%nat with 0%nat in * by lia.
    destruct i as [|i]; cbn [nth_error] in *; [now injection HX as ->|]. now rewrite (IH i x HX).
Qed.
(** As long as descriptors are left (and read(2) returns what it was asked for), the id is
    made of the random bytes, whatever was on the stack. *)
Theorem C81_random random stacks s i x : (open_files s <= max_files s)%nat -> (forall n, length (random n) = 16%nat) -> nth_error stacks i = Some x -> length x = 16%nat ->
  (i < max_files s - open_files s)%nat -> nth_error (fst (new_ids random stacks s)) i = Some (uuid_of (random (reads s + i)%nat)).
Proof.
  intros HS HR HX HL HI. rewrite (ids_from random stacks s HS i x HX). apply Nat.ltb_lt in HI. rewrite HI, HR, <- HL, skipn_all, app_nil_r. reflexivity.
Qed.
Print Assumptions C81_random.
(** From then on it is made of what was on the stack, whatever the random bytes are. *)
Theorem C81_not_random random stacks s i x : (open_files s <= max_files s)%nat -> nth_error stacks i = Some x ->
  (max_files s - open_files s <= i)%nat -> nth_error (fst (new_ids random stacks s)) i = Some (uuid_of x).
Proof. intros HS HX HI. rewrite (ids_from random stacks s HS i x HX). apply Nat.ltb_ge in HI. now rewrite HI. Qed.
Print Assumptions C81_not_random.
(** So ids are not unique, although the random bytes never repeat: with any number of
    descriptors. *)
Theorem C81_unique_refuted random limit stack : exists stacks i j id, i <> j /\
  nth_error (fst (new_ids random stacks (mkSystem 3 (3 + limit) 0))) i = Some id /\ nth_error (fst (new_ids random stacks (mkSystem 3 (3 + limit) 0))) j = Some id /\ id = uuid_of stack.
Proof.
  exists (repeat stack (S (S limit))), limit, (S limit), (uuid_of stack). split; [lia|].
  assert (HN : forall n, (n < S (S limit))%nat -> nth_error (repeat stack (S (S limit))) n = Some stack).
  { intros n Hn. rewrite (nth_error_nth' _ stack) by (rewrite repeat_length; exact Hn). f_equal. apply nth_repeat. }
  split; [|split; [|reflexivity]]; (apply C81_not_random; [cbn; lia|apply HN; lia|cbn [max_files open_files]; lia]).
Qed.
Print Assumptions C81_unique_refuted.
(** On other systems no byte of an id is 255 (rand() % 0xFF). *)
Theorem C81_rand_bytes rand n i : (i < 16)%nat -> i <> 6%nat -> i <> 8%nat -> 0 <= nth i (generate_uuid_rand rand n) 0 < 255.
Proof.
  intros HI N6 N8. unfold generate_uuid_rand. set (l := map _ _). assert (HB : bytes_ok l).
  { apply Forall_forall. intros b Hb. apply in_map_iff in Hb as (j & <- & _). pose proof (Z.mod_pos_bound (rand (n + j)%nat) 255 ltac:(lia)). unfold byte_ok. lia. }
  destruct (C57_uuid l eq_refl HB) as (_ & _ & _ & _ & HU). rewrite (HU i N6 N8). unfold l.
  rewrite (nth_indep _ 0 (rand (n + 0)%nat mod 255)) by (rewrite map_length, seq_length; exact HI). rewrite (map_nth (fun j => rand (n + j)%nat mod 255) (seq 0 16) 0%nat i). apply Z.mod_pos_bound. lia.
Qed.
Print Assumptions C81_rand_bytes.

(** *** Examples *)
(** Two descriptors left, four messages: two random ids, then twice the same. *)
Example C81_example : let stack := repeat 7 16 in let '(ids, s) := new_ids some_random [stack; stack; stack; stack] (mkSystem 3 5 0) in
  ids = [uuid_of (some_random 0); uuid_of (some_random 1); [7; 7; 7; 7; 7; 7; 71; 7; 135; 7; 7; 7; 7; 7; 7; 7]; [7; 7; 7; 7; 7; 7; 71; 7; 135; 7; 7; 7; 7; 7; 7; 7]] /\
  open_files s = 5%nat /\ uuid_of (some_random 0) <> uuid_of (some_random 1).
Proof. vm_compute. split; [reflexivity|]. split; [reflexivity|discriminate]. Qed.
