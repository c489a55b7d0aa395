(** C61: the hex dump. *)
From Verif Require Import Base Buf Number OctetString Boolean Value Lib Spec PropsString HexDump.

(** *** Specification *)
(** the characters 0-9 and A-F *)
Definition digits : list Z := [48; 49; 50; 51; 52; 53; 54; 55; 56; 57; 65; 66; 67; 68; 69; 70].
Definition digit (d : Z) : Z := nth (Z.to_nat d) digits 0.
(** a row of the dump: two digits and a space for every byte, then a newline *)
Definition row (bytes : list Z) : list Z := flat_map (fun b => [digit (b / 16); digit (b mod 16); 32]) bytes ++ [10].
(** what is left of a text without spaces and newlines *)
Definition stripped (txt : list Z) : list Z := filter (fun c => negb (Z.eqb c 32) && negb (Z.eqb c 10)) txt.

(** *** Proofs *)
Lemma nibble_cases d : 0 <= d < 16 -> In d [0;1;2;3;4;5;6;7;8;9;10;11;12;13;14;15].
Proof. intros HD. cbn [In]. lia. Qed.
Lemma upper_digit d : 0 <= d < 16 -> upper_hex d = digit d.
Proof.
  intros HD. apply nibble_cases in HD. cbn [In] in HD. repeat (destruct HD as [<-|HD]; [reflexivity|]). contradiction.
Qed.
Lemma nibbles b : byte_ok b -> 0 <= b / 16 < 16 /\ 0 <= b mod 16 < 16.
Proof.
  intros HB. unfold byte_ok in HB. split; [|apply Z.mod_pos_bound; lia]. split; [apply Z.div_pos; lia|apply Z.div_lt_upper_bound; lia].
Qed.
Lemma dump_bytes l : bytes_ok l -> flat_map dump_byte l ++ [10] = row l.
Proof.
  intros HB. unfold row. f_equal. induction HB as [|b t HB HT IH]; [reflexivity|]. cbn [flat_map]. rewrite IH. f_equal. unfold dump_byte.
  destruct (nibbles b HB). now rewrite !upper_digit.
Qed.
Lemma loop_row : forall bytes i, (i mod 8 + length bytes < 8)%nat -> dump_loop i bytes = flat_map dump_byte bytes.
Proof.
  induction bytes as [|b t IH]; intros i HL; [reflexivity|]. cbn [length] in HL. cbn [dump_loop flat_map].
  pose proof (Nat.div_mod i 8 ltac:(lia)) as HD. assert (E : ((i + 1) mod 8 = i mod 8 + 1)%nat) by (symmetry; apply (Nat.mod_unique _ _ (i / 8)); lia).
  rewrite E. destruct (Nat.eqb_spec (i mod 8 + 1) 0); [lia|]. cbn [app]. rewrite IH; [reflexivity|rewrite E; lia].
Qed.
(** one whole row, then the loop goes on at the next multiple of 8 *)
Lemma loop_full k : forall pre i t, (i + length pre = 8 * (k + 1))%nat -> (8 * k <= i)%nat -> pre <> [] ->
  dump_loop i (pre ++ t) = flat_map dump_byte pre ++ [10] ++ dump_loop (8 * (k + 1)) t.
Proof.
  induction pre as [|b pre IH]; intros i t HL HI HN; [contradiction|]. cbn [length] in HL. cbn [app dump_loop flat_map].
  destruct pre as [|b' pre].
  - cbn [length] in HL. cbn [app flat_map]. replace (i + 1)%nat with (8 * (k + 1))%nat by lia.
    assert (E : ((8 * (k + 1)) mod 8 = 0)%nat) by (rewrite Nat.mul_comm; apply Nat.mod_mul; lia). rewrite E. cbn [Nat.eqb]. now rewrite app_nil_r.
  - assert (E : ((i + 1) mod 8 = i + 1 - 8 * k)%nat) by (symmetry; apply (Nat.mod_unique _ _ k); cbn [length] in HL; lia).
    rewrite E. destruct (Nat.eqb_spec (i + 1 - 8 * k) 0); [lia|]. cbn [app] in *. rewrite IH; [now rewrite <- app_assoc|lia|lia|discriminate].
Qed.
Lemma loop_rows : forall rows k last, Forall (fun r : list Z => length r = 8%nat) rows -> (length last < 8)%nat -> bytes_ok (concat rows ++ last) ->
  dump_loop (8 * k) (concat rows ++ last) ++ [10] = flat_map row rows ++ row last.
Proof.
  induction rows as [|r rows IH]; intros k last HF HL HB.
  - cbn [concat app flat_map] in *. rewrite loop_row, dump_bytes; auto. rewrite Nat.mul_comm, Nat.mod_mul by lia. lia.
  - inversion HF as [|? ? H8 HF']; subst. cbn [concat flat_map] in *. rewrite <- app_assoc in HB |- *. apply Forall_app in HB as [HB1 HB2].
    rewrite (loop_full k); [|lia|lia|intros ->; discriminate]. rewrite <- !app_assoc. rewrite IH by auto. rewrite <- (dump_bytes r) by auto. now rewrite <- app_assoc.
Qed.

(** *** Theorems *)
(** Every dump consists of rows of eight bytes and a last row with fewer than
    eight, which may be empty. *)
Theorem C61_rows rows last : Forall (fun r : list Z => length r = 8%nat) rows -> (length last < 8)%nat -> bytes_ok (concat rows ++ last) ->
  sml_hexdump (concat rows ++ last) = flat_map row rows ++ row last.
Proof. apply (loop_rows rows 0). Qed.
Print Assumptions C61_rows.
(** and every buffer can be cut like this *)
Theorem C61_cut bytes : exists rows last, bytes = concat rows ++ last /\ Forall (fun r : list Z => length r = 8%nat) rows /\ (length last < 8)%nat.
Proof.
  remember (length bytes) as n eqn:EN. revert bytes EN. induction n as [n IH] using lt_wf_ind. intros bytes EN. destruct (Nat.lt_ge_cases n 8) as [HL|HL].
  - exists [], bytes. cbn [concat app]. split; [reflexivity|]. split; [constructor|lia].
  - destruct (IH (n - 8)%nat ltac:(lia) (skipn 8 bytes)) as (rows & last & E & HF & HS); [rewrite skipn_length; lia|].
    exists (firstn 8 bytes :: rows), last. cbn [concat]. rewrite <- app_assoc, <- E, firstn_skipn. split; [reflexivity|]. split; [|exact HS].
    constructor; [rewrite firstn_length; lia|exact HF].
Qed.
Print Assumptions C61_cut.

Lemma digit_hex d : 0 <= d < 16 -> hex_digit (digit d) d /\ stripped [digit d] = [digit d].
Proof.
  intros HD. rewrite <- upper_digit by lia. unfold upper_hex, stripped. cbn [filter]. destruct (Z.ltb_spec d 10).
  - split; [apply hex_decimal; lia|]. destruct (Z.eqb_spec (48 + d) 32), (Z.eqb_spec (48 + d) 10); try lia; reflexivity.
  - split; [replace (55 + d) with (65 + (d - 10)) by lia; apply hex_upper; lia|]. destruct (Z.eqb_spec (55 + d) 32), (Z.eqb_spec (55 + d) 10); try lia; reflexivity.
Qed.
Lemma stripped_app a b : stripped (a ++ b) = stripped a ++ stripped b.
Proof. apply filter_app. Qed.
Lemma dump_stripped bytes : bytes_ok bytes -> forall i, hex_text (stripped (dump_loop i bytes)) bytes /\ length (stripped (dump_loop i bytes)) = (2 * length bytes)%nat.
Proof.
  induction 1 as [|b t HB HT IH]; intros i; [split; [constructor|reflexivity]|]. cbn [dump_loop]. destruct (nibbles b HB) as [H1 H2].
  destruct (digit_hex _ H1) as [D1 S1], (digit_hex _ H2) as [D2 S2]. rewrite !stripped_app.
  assert (E : stripped (dump_byte b) = [digit (b / 16); digit (b mod 16)]).
  { unfold dump_byte. rewrite !upper_digit by auto. change [digit (b / 16); digit (b mod 16); 32] with ([digit (b / 16)] ++ [digit (b mod 16)] ++ [32]). now rewrite !stripped_app, S1, S2. }
  assert (E0 : stripped (if ((i + 1) mod 8 =? 0)%nat then [10] else []) = []) by (destruct (_ =? _)%nat; reflexivity).
  rewrite E, E0. cbn [app]. destruct (IH (i + 1)%nat) as [IH1 IH2]. split.
  - rewrite (Z.div_mod b 16) at 3 by lia. rewrite (Z.mul_comm 16). now constructor.
  - cbn [length]. rewrite IH2. lia.
Qed.
(** Without its spaces and newlines, the dump is a text that
    sml_octet_string_init_from_hex turns back into the same bytes. *)
Theorem C61_back bytes : bytes_ok bytes -> sml_octet_string_init_from_hex (stripped (sml_hexdump bytes)) = Some bytes.
Proof.
  intros HB. unfold sml_hexdump. rewrite stripped_app. change (stripped [10]) with (@nil Z). rewrite app_nil_r. apply C21_from_hex. now apply dump_stripped.
Qed.
Print Assumptions C61_back.
(** so two buffers with the same dump are equal *)
Theorem C61_injective a b : bytes_ok a -> bytes_ok b -> sml_hexdump a = sml_hexdump b -> a = b.
Proof. intros HA HB E. apply C61_back in HA, HB. rewrite E in HA. congruence. Qed.
Print Assumptions C61_injective.
(** three characters for each byte, a newline after each eight, and one at the end *)
Theorem C61_length bytes : length (sml_hexdump bytes) = (3 * length bytes + length bytes / 8 + 1)%nat.
Proof.
  assert (HG : forall i, (length (dump_loop i bytes) + i / 8 = 3 * length bytes + (i + length bytes) / 8)%nat).
  { induction bytes as [|b t IH]; intros i; [cbn [dump_loop length]; now rewrite Nat.add_0_r|]. cbn [dump_loop length]. rewrite !app_length. cbn [dump_byte length].
    specialize (IH (i + 1)%nat). replace (i + S (length t))%nat with (i + 1 + length t)%nat by lia.
    pose proof (Nat.div_mod i 8 ltac:(lia)) as D0. pose proof (Nat.mod_upper_bound i 8 ltac:(lia)) as U0.
    pose proof (Nat.div_mod (i + 1) 8 ltac:(lia)) as D1. pose proof (Nat.mod_upper_bound (i + 1) 8 ltac:(lia)) as U1.
    destruct (Nat.eqb_spec ((i + 1) mod 8) 0); cbn [length]; lia. }
  unfold sml_hexdump. rewrite app_length. cbn [length]. specialize (HG 0%nat). change (0 / 8)%nat with 0%nat in HG. rewrite Nat.add_0_l in HG. lia.
Qed.
Print Assumptions C61_length.

(** *** Examples: a full row and a started one; exactly one row; nothing *)
Definition escape_and_more : list Z := [27; 27; 27; 27; 1; 1; 1; 1; 118; 255].
Example C61_example : bytes_ok escape_and_more /\
  sml_hexdump escape_and_more = [49;66;32;49;66;32;49;66;32;49;66;32;48;49;32;48;49;32;48;49;32;48;49;32;10; 55;54;32;70;70;32;10] /\
  escape_and_more = concat [[27; 27; 27; 27; 1; 1; 1; 1]] ++ [118; 255].
Proof.
  split; [repeat apply Forall_cons; try apply Forall_nil; unfold byte_ok; lia|]. now split.
Qed.
Example C61_one_row : sml_hexdump [0; 0; 0; 0; 0; 0; 0; 0] = row [0; 0; 0; 0; 0; 0; 0; 0] ++ row [] /\ sml_hexdump [] = [10].
Proof. now split. Qed.
