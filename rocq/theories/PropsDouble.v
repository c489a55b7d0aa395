(** Property C15: numeric values as doubles. *)
From Coq Require Import SpecFloat.
From Verif Require Import Base Buf Number OctetString Boolean Value Lib Wf Ctx Scan Spec TL Inv Reads
  Write TLWrite TLRound NumFacts PropsNumber Double.

(** the number types: type byte, signedness, size *)
Definition typed_numbers : list (Z * bool * nat) :=
  [ (81, true, 1%nat); (82, true, 2%nat); (84, true, 4%nat); (88, true, 8%nat);
    (97, false, 1%nat); (98, false, 2%nat); (100, false, 4%nat); (104, false, 8%nat) ].

Lemma mem_range {H : Host} signed m : bytes_ok m -> (length m <= 8)%nat -> Z.abs (mem_value signed m) < 2 ^ 64.
Proof.
  intros Hb Hl. rewrite <- (host_twice m). pose proof (be_range _ (host_ok _ Hb)) as R. rewrite host_length in R.
  assert (256 ^ Z.of_nat (length m) <= 256 ^ 8) by (apply Z.pow_le_mono_r; lia). change (256 ^ 8) with (2 ^ 64) in *.
  destruct signed; cbn [mem_value].
  - rewrite mem_i_host. unfold be_signed. rewrite host_length, pow256.
    destruct (Z.leb_spec (256 ^ Z.of_nat (length m)) (2 * be_unsigned (host_order m))); lia.
  - rewrite mem_u_host. lia.
Qed.
Lemma rounded_exact z r : Z.abs z <= 2 ^ 53 -> rounded z r -> r = z.
Proof.
  intros Hz [[_ E]|(k & q & Hk & Hb & E & R & T)]; auto.
  assert (k = 1).
  { assert (k + 52 <= 53); [|lia]. destruct (Z.le_gt_cases (k + 52) 53); auto.
    assert (2 ^ 54 <= 2 ^ (k + 52)) by (apply Z.pow_le_mono_r; lia). change (2 ^ 54) with (2 * 2 ^ 53) in *. lia. }
  subst k. change (2 ^ (1 + 52)) with (2 ^ 53) in Hb. change (2 ^ 1) with 2 in *.
  assert (z = 2 ^ 53 \/ z = - 2 ^ 53) by lia. change (2 ^ 53) with (2 * 4503599627370496) in *. lia.
Qed.

Theorem C15_number_types (H : Host) t signed n m :
  In (t, signed, n) typed_numbers -> length m = n -> bytes_ok m ->
  exists f r, sml_value_to_double (Some (mkValue t (VNum m))) = Ret f /\ denotes f r /\
    rounded (mem_value signed m) r /\ (Z.abs (mem_value signed m) <= 2 ^ 53 -> r = mem_value signed m).
Proof.
  intros HI Hl Hb.
  assert (Hn : (n <= 8)%nat) by (cbn [In typed_numbers] in HI; repeat (destruct HI as [HI|HI]; [injection HI as <- <- <-; lia|]); contradiction).
  destruct (double_rounded (mem_value signed m)) as (r & D & R); [apply mem_range; auto; lia|].
  exists (double_of_Z (mem_value signed m)), r. split; [|split; [exact D|split; [exact R|intros; now apply rounded_exact]]].
  assert (E : forall sg, num_to_double sg (VNum m) n = Ret (double_of_Z (mem_value sg m))).
  { intros sg. unfold num_to_double, deref_num. rewrite Hl, Nat.ltb_irrefl. rewrite <- Hl, firstn_all. reflexivity. }
  unfold sml_value_to_double. cbn [v_type v_data]. cbn [In typed_numbers] in HI.
  repeat (destruct HI as [HI|HI]; [injection HI as <- <- <-; apply E|]). contradiction.
Qed.
Print Assumptions C15_number_types.
Theorem C15_other_types (H : Host) v : (forall signed n, ~ In (v_type v, signed, n) typed_numbers) ->
  exists f, sml_value_to_double (Some v) = Ret f /\ denotes f 0.
Proof.
  intros HN. exists (S754_zero false). split; [|reflexivity]. unfold sml_value_to_double.
  assert (K : forall t sg n, In (t, sg, n) typed_numbers -> (v_type v =? t) = false).
  { intros t sg n HI. apply Z.eqb_neq. intros E. apply (HN sg n). now rewrite E. }
  rewrite (K 81 true 1%nat), (K 82 true 2%nat), (K 84 true 4%nat), (K 88 true 8%nat),
    (K 97 false 1%nat), (K 98 false 2%nat), (K 100 false 4%nat), (K 104 false 8%nat) by (cbn; tauto). reflexivity.
Qed.
Print Assumptions C15_other_types.
(** 2^64 - 1 is rounded up to 2^64; -5 is exact; a boolean gives 0 *)
Example C15_example :
  (exists f, @sml_value_to_double LittleEndian (Some (mkValue 104 (VNum (repeat 255 8)))) = Ret f /\ denotes f (2 ^ 64)) /\
  (exists f, @sml_value_to_double LittleEndian (Some (mkValue 82 (VNum [251; 255]))) = Ret f /\ denotes f (-5)) /\
  (forall signed n, ~ In (66, signed, n) typed_numbers).
Proof.
  split; [eexists; split; [vm_compute; reflexivity|reflexivity]|].
  split; [eexists; split; [vm_compute; reflexivity|reflexivity]|].
  intros sg n HI. cbn [In typed_numbers] in HI. repeat (destruct HI as [HI|HI]; [discriminate|]). contradiction.
Qed.
