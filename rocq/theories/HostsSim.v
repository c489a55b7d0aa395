(** The parsers on hosts with different byte order. *)
From Verif Require Import Base Buf Crc16 Number OctetString Boolean Value Time SList Tree Bodies Message File Lib Hosts.

Lemma swap_rev l : sml_number_byte_swap l = rev l.
Proof.
  unfold sml_number_byte_swap. apply nth_ext with (d := 0) (d' := 0); [now rewrite map_length, seq_length, rev_length|].
  intros n Hn. rewrite map_length, seq_length in Hn. rewrite rev_nth by auto.
  rewrite (nth_indep _ 0 (nth (length l - (0 + 1)) l 0)) by now rewrite map_length, seq_length.
  rewrite (map_nth (fun i => nth (length l - (i + 1)) l 0)), seq_nth by auto. f_equal. lia.
Qed.
Lemma flip_u (H : Host) m : @mem_u (other H) (rev m) = @mem_u H m.
Proof. unfold mem_u, host_endian. destruct H; cbn [other]; now rewrite ?rev_involutive. Qed.
Lemma flip_i (H : Host) m : @mem_i (other H) (rev m) = @mem_i H m.
Proof. unfold mem_i. now rewrite flip_u, rev_length. Qed.

Definition sim {A B} (f : A -> B) (p : P A) (q : P B) : Prop := forall s,
  q s = match p s with Ret (a, s') => Ret (f a, s') | Fault x => Fault x | NoFuel => NoFuel end.
Definition idf {A} (x : A) : A := x.
Lemma sim_refl {A} (p : P A) : sim idf p p.
Proof. intros s. destruct (p s) as [[a s']| |]; reflexivity. Qed.
Lemma sim_ret {A B} (f : A -> B) a b : f a = b -> sim f (ret a) (ret b).
Proof. intros <- s. reflexivity. Qed.
Lemma sim_bind {A B A' B'} (f : A -> A') (g : B -> B') p q k k' : sim f p q -> (forall a, sim g (k a) (k' (f a))) -> sim g (bind p k) (bind q k').
Proof. intros H1 H2 s. unfold bind. rewrite H1. destruct (p s) as [[a s']| |]; auto. apply H2. Qed.
Lemma sim_same {A B B'} (g : B -> B') (p : P A) k k' : (forall a, sim g (k a) (k' a)) -> sim g (bind p k) (bind p k').
Proof. intros H2. exact (sim_bind idf g p p k k' (sim_refl p) H2). Qed.
Lemma sim_err {A B} (f : A -> B) : sim (omap f) err_null err_null.
Proof. intros s. reflexivity. Qed.
Lemma sim_fail {A B} (f : A -> B) x : sim f (fail x) (fail x).
Proof. intros s. reflexivity. Qed.
Lemma sim_fuel {A B} (f : A -> B) : sim f out_of_fuel out_of_fuel.
Proof. intros s. reflexivity. Qed.
Lemma sim_with {A B} (f : A -> B) p q : (forall n, sim f (p n) (q n)) -> sim f (with_fuel p) (with_fuel q).
Proof. intros HS s. apply HS. Qed.
Lemma sim_skipped {A B} (f : A -> B) p q : sim (omap f) p q -> sim (omap f) (unless_skipped p) (unless_skipped q).
Proof. intros HS. unfold unless_skipped. apply sim_same. intros sk. destruct (negb _); auto. now apply sim_ret. Qed.
Lemma sim_field {A B A' B'} (f : A -> A') (g : B -> B') p q k k' :
  sim f p q -> (forall a, sim (omap g) (k a) (k' (f a))) -> sim (omap g) (field p k) (field q k').
Proof. intros H1 H2. unfold field. apply (sim_bind f); auto. intros a. apply sim_same. intros [|]; auto. now apply sim_ret. Qed.
Lemma sim_list {A B} (f : A -> B) n p q : sim (omap f) p q -> sim (omap f) (expect_list n p) (expect_list n q).
Proof.
  intros HS. unfold expect_list. apply sim_same. intros t. destruct (negb _); [apply sim_err|].
  apply sim_same. intros l. destruct (negb _); [apply sim_err|]. exact HS.
Qed.
Lemma sim_label {A B} (f : A -> B) p q : sim (omap f) p q -> sim (omap f) (error_label p) (error_label q).
Proof.
  intros HS. unfold error_label. apply (sim_bind (omap f)); auto. intros [a|]; cbn [omap]; [now apply sim_ret|apply sim_err].
Qed.
Lemma sim_ext {A B} (f g : A -> B) p q : (forall a, f a = g a) -> sim f p q -> sim g p q.
Proof. intros E HS s. rewrite HS. destruct (p s) as [[a s']| |]; auto. now rewrite E. Qed.
Lemma omap_id {A} (o : option A) : omap idf o = o.
Proof. now destruct o. Qed.


Section TwoHosts.
Variable H : Host.
Lemma sim_num t n : sim (omap (@rev Z)) (@sml_number_parse H t n) (@sml_number_parse (other H) t n).
Proof.
  unfold sml_number_parse. apply sim_skipped.
  repeat first [ apply sim_same; intros ? | match goal with |- sim _ (if ?b then _ else _) _ => destruct b; [apply sim_err|] end ].
  apply sim_ret. cbn [omap]. unfold sml_number_endian, host_endian. destruct H; cbn [other]; now rewrite swap_rev, ?rev_involutive.
Qed.
Lemma sim_oct : sim (omap idf) sml_octet_string_parse sml_octet_string_parse.
Proof. apply (sim_ext idf); [intros a; now rewrite omap_id|apply sim_refl]. Qed.
Lemma sim_bool : sim (omap idf) sml_boolean_parse sml_boolean_parse.
Proof. apply (sim_ext idf); [intros a; now rewrite omap_id|apply sim_refl]. Qed.
Lemma sim_path : sim (omap idf) sml_tree_path_parse sml_tree_path_parse.
Proof. apply (sim_ext idf); [intros a; now rewrite omap_id|apply sim_refl]. Qed.
Hint Resolve sim_num : sim.
Hint Extern 1 (sim _ ?p ?p) => apply sim_refl : sim.

Ltac sim_step :=
  first
  [ apply sim_skipped | apply sim_list | apply sim_label | apply sim_err | apply sim_fail | apply sim_fuel
  | eapply sim_field; [solve [eauto 2 with sim]|intros ?]
  | apply sim_same; intros ?
  | eapply sim_bind; [solve [eauto 2 with sim]|intros ?]
  | match goal with |- sim _ (if ?b then _ else _) (if ?b then _ else _) => destruct b end
  | apply sim_ret; reflexivity ].
Ltac sims := repeat sim_step.

Lemma sim_value : sim (omap flip_value) (@sml_value_parse H) (@sml_value_parse (other H)).
Proof.
  unfold sml_value_parse. apply sim_skipped. apply sim_same. intros t. apply sim_same. intros b.
  apply (sim_bind flip_value).
  - destruct (Z.eqb t _); [apply sim_same; intros [o|]; now apply sim_ret|].
    destruct (Z.eqb t _); [apply sim_same; intros [o|]; now apply sim_ret|].
    destruct (_ || _).
    + apply sim_same. intros w. apply (sim_bind (omap (@rev Z))); [apply sim_num|]. intros [o|]; now apply sim_ret.
    + apply sim_same. intros ?. now apply sim_ret.
  - intros v. sims.
Qed.
Lemma sim_status : sim (omap flip_status) (@sml_status_parse H) (@sml_status_parse (other H)).
Proof.
  unfold sml_status_parse. apply sim_skipped. apply sim_same. intros t. apply sim_same. intros b.
  apply (sim_bind flip_status).
  - destruct (Z.eqb t _).
    + apply sim_same. intros w. apply (sim_bind (omap (@rev Z))); [apply sim_num|]. intros o; now apply sim_ret.
    + apply sim_same. intros ?. now apply sim_ret.
  - intros v. sims.
Qed.
Lemma sim_time_value t : sim (omap flip_time) (@sml_time_value H t) (@sml_time_value (other H) (omap (@rev Z) t)).
Proof. unfold sml_time_value, sml_u32_parse, sml_i16_parse. sims. Qed.
Lemma sim_time : sim (omap flip_time) (@sml_time_parse H) (@sml_time_parse (other H)).
Proof.
  unfold sml_time_parse, sml_u8_parse. apply sim_skipped, sim_same. intros b. destruct (Z.eqb b _); [apply (sim_time_value (Some [SML_TIME_SEC_INDEX]))|].
  apply sim_list. eapply sim_field; [apply sim_num|apply sim_time_value].
Qed.
Hint Resolve sim_value sim_status sim_time sim_time_value : sim.
Ltac numbers := unfold sml_u8_parse, sml_u16_parse, sml_u32_parse, sml_u64_parse, sml_i8_parse, sml_i16_parse, sml_i32_parse, sml_i64_parse.
Lemma sim_tupel : sim (omap flip_tupel) (@sml_tupel_entry_parse H) (@sml_tupel_entry_parse (other H)).
Proof. unfold sml_tupel_entry_parse. numbers. sims. Qed.
Lemma sim_period : sim (omap flip_period) (@sml_period_entry_parse H) (@sml_period_entry_parse (other H)).
Proof. unfold sml_period_entry_parse. numbers. sims. Qed.
Hint Resolve sim_tupel sim_period : sim.
Lemma sim_ppv : sim (omap flip_ppv) (@sml_proc_par_value_parse H) (@sml_proc_par_value_parse (other H)).
Proof.
  unfold sml_proc_par_value_parse. numbers. sims. destruct a as [m|]; cbn [omap]; [|now apply sim_ret]. rewrite flip_u.
  repeat match goal with |- sim _ (if ?b then _ else _) (if ?b then _ else _) => destruct b end;
  [ apply (sim_bind (omap flip_value)); [apply sim_value|] | apply (sim_bind (omap flip_period)); [apply sim_period|]
  | apply (sim_bind (omap flip_tupel)); [apply sim_tupel|] | apply (sim_bind (omap flip_time)); [apply sim_time|] | apply sim_err ];
  intros [d|]; now apply sim_ret.
Qed.
Lemma sim_elems {A B} (f : A -> B) p q : sim f p q -> forall fuel n, sim (omap (map f)) (elems_loop fuel n p) (elems_loop fuel n q).
Proof.
  intros HS. induction fuel as [|fuel IH]; intros n; cbn [elems_loop]; destruct (n <=? 0); try (now apply sim_ret); try apply sim_fuel.
  apply (sim_bind f); auto. intros a. apply sim_same. intros [|]; [now apply sim_ret|].
  apply (sim_bind (omap (map f))); auto. intros [l|]; now apply sim_ret.
Qed.
Lemma somes_map {A B} (f : A -> B) l : somes (map (omap f) l) = map f (somes l).
Proof. induction l as [|[a|] l IH]; cbn [map omap somes]; auto. now rewrite IH. Qed.
Lemma sim_tree_rec d : sim (omap flip_tree) (@sml_tree_parse_rec H d) (@sml_tree_parse_rec (other H) d).
Proof.
  induction d as [|d IH]; cbn [sml_tree_parse_rec]; [apply sim_fuel|].
  apply sim_skipped, sim_list. apply (sim_field (omap idf)); [apply sim_oct|]. intros n. apply (sim_field (omap flip_ppv)); [apply sim_ppv|]. intros v.
  rewrite omap_id. apply sim_same. intros sk. destruct (negb _); [now apply sim_ret|]. apply sim_same. intros t. destruct (negb _); [apply sim_err|].
  apply sim_same. intros e. apply (sim_bind (omap (map (omap flip_tree)))).
  - apply sim_with. intros fuel. apply sim_elems, IH.
  - intros [l|]; apply sim_ret; [|reflexivity]. cbn [omap flip_tree]. now rewrite somes_map.
Qed.
Lemma sim_tree : sim (omap flip_tree) (@sml_tree_parse H) (@sml_tree_parse (other H)).
Proof. apply sim_with. intros d. apply sim_tree_rec. Qed.
Hint Resolve sim_ppv sim_tree : sim.

Lemma sim_sequence_loop {A B} (f : A -> B) p q : sim (omap f) p q -> forall fuel n, sim (omap (map (omap f))) (sequence_loop fuel n p) (sequence_loop fuel n q).
Proof.
  intros HS. induction fuel as [|fuel IH]; intros n; cbn [sequence_loop]; destruct (n <=? 0); try (now apply sim_ret); try apply sim_fuel.
  apply (sim_bind (omap f)); auto. intros a. apply sim_same. intros [|]; [now apply sim_ret|].
  apply (sim_bind (omap (map (omap f)))); auto. intros [l|]; now apply sim_ret.
Qed.
Lemma sim_sequence {A B} (f : A -> B) p q : sim (omap f) p q -> sim (omap (map (omap f))) (sml_sequence_parse p) (sml_sequence_parse q).
Proof.
  intros HS. unfold sml_sequence_parse. apply sim_label. apply sim_same. intros t. destruct (negb _); [now apply sim_ret|].
  apply sim_same. intros n. apply sim_with. intros fuel. now apply sim_sequence_loop.
Qed.
Lemma detect_flip e s : detect_buggy_dzg_dvs74 (flip_entry e) s = detect_buggy_dzg_dvs74 e s.
Proof.
  unfold detect_buggy_dzg_dvs74. cbn [flip_entry le_obj_name]. destruct (negb _); [reflexivity|]. unfold flip_entry. cbn [le_value].
  destruct (le_value e) as [[t d]|]; cbn [omap flip_value v_type v_data]; [|reflexivity]. destruct (negb _); [reflexivity|].
  now destruct d.
Qed.
Lemma sim_workaround w n e : sim (fun x => (flip_entry (fst x), snd x)) (apply_workaround w n e) (apply_workaround w n (flip_entry e)).
Proof.
  intros s. unfold apply_workaround, bind. rewrite detect_flip. destruct (detect_buggy_dzg_dvs74 e s) as [[[|] s']| |]; try reflexivity.
  destruct e as [en es et eu ec [[vt vd]|] eg]; unfold flip_entry; cbn [le_value omap le_obj_name]; [|reflexivity].
  now destruct (w && _ && _).
Qed.
Lemma sim_list_entry w : sim (omap (fun x => (flip_entry (fst x), snd x))) (@sml_list_entry_parse H w) (@sml_list_entry_parse (other H) w).
Proof.
  unfold sml_list_entry_parse. numbers. sims.
  eapply sim_bind; [|intros [? ?]; apply sim_ret; reflexivity].
  match goal with |- sim _ (apply_workaround _ _ ?e) (apply_workaround _ _ ?e') => replace e' with (flip_entry e) end; [apply sim_workaround|].
  unfold flip_entry. cbn. now rewrite ?omap_id.
Qed.
Lemma sim_list_loop fuel : forall n w, sim (omap (map flip_entry)) (@list_loop H fuel n w) (@list_loop (other H) fuel n w).
Proof.
  induction fuel as [|fuel IH]; intros n w; cbn [list_loop]; destruct (n <=? 0); try (now apply sim_ret); try apply sim_fuel.
  eapply sim_bind; [apply sim_list_entry|]. intros r. apply sim_same. intros [|]; [now apply sim_ret|].
  destruct r as [[l w']|]; cbn [omap]; [|apply sim_fail]. cbn [fst snd]. apply (sim_bind (omap (map flip_entry))); auto. intros [t|]; now apply sim_ret.
Qed.
Lemma sim_list_parse : sim (map flip_entry) (@sml_list_parse H) (@sml_list_parse (other H)).
Proof.
  unfold sml_list_parse. apply sim_same. intros sk. destruct (negb _); [now apply sim_ret|]. apply sim_same. intros t.
  destruct (negb _); [apply sim_same; intros ?; now apply sim_ret|]. apply sim_same. intros n.
  apply (sim_bind (omap (map flip_entry))).
  - apply sim_with. intros fuel. apply sim_list_loop.
  - intros [l|]; cbn [omap]; [now apply sim_ret|]. apply sim_same. intros ?. now apply sim_ret.
Qed.
Hint Resolve sim_list_parse : sim.

Ltac done_record := apply sim_ret; cbn [omap]; f_equal; cbn; rewrite ?omap_id; reflexivity.
Lemma sim_open_req : sim (omap flip_open_req) (@sml_open_request_parse H) (@sml_open_request_parse (other H)).
Proof. unfold sml_open_request_parse. numbers. sims; done_record. Qed.
Lemma sim_open_res : sim (omap flip_open_res) (@sml_open_response_parse H) (@sml_open_response_parse (other H)).
Proof. unfold sml_open_response_parse. numbers. sims; done_record. Qed.
Lemma sim_pack_req : sim (omap flip_pack_req) (@sml_get_profile_pack_request_parse H) (@sml_get_profile_pack_request_parse (other H)).
Proof.
  unfold sml_get_profile_pack_request_parse. numbers. sims. destruct a6 as [o|]; [|now apply sim_ret]. sims; done_record.
Qed.
Lemma sim_header : sim (omap flip_header) (@sml_prof_obj_header_entry_parse H) (@sml_prof_obj_header_entry_parse (other H)).
Proof. unfold sml_prof_obj_header_entry_parse. numbers. sims; done_record. Qed.
Lemma sim_val_entry : sim (omap flip_val_entry) (@sml_value_entry_parse H) (@sml_value_entry_parse (other H)).
Proof. unfold sml_value_entry_parse. numbers. sims; done_record. Qed.
Lemma sim_headers : sim (omap (map (omap flip_header))) (sml_sequence_parse (@sml_prof_obj_header_entry_parse H)) (sml_sequence_parse (@sml_prof_obj_header_entry_parse (other H))).
Proof. apply sim_sequence, sim_header. Qed.
Lemma sim_val_entries : sim (omap (map (omap flip_val_entry))) (sml_sequence_parse (@sml_value_entry_parse H)) (sml_sequence_parse (@sml_value_entry_parse (other H))).
Proof. apply sim_sequence, sim_val_entry. Qed.
Lemma sim_periods : sim (omap (map (omap flip_period))) (sml_sequence_parse (@sml_period_entry_parse H)) (sml_sequence_parse (@sml_period_entry_parse (other H))).
Proof. apply sim_sequence, sim_period. Qed.
Hint Resolve sim_headers sim_val_entries sim_periods : sim.
Lemma sim_per_entry : sim (omap flip_per_entry) (@sml_prof_obj_period_entry_parse H) (@sml_prof_obj_period_entry_parse (other H)).
Proof. unfold sml_prof_obj_period_entry_parse. numbers. sims; done_record. Qed.
Lemma sim_per_entries : sim (omap (map (omap flip_per_entry))) (sml_sequence_parse (@sml_prof_obj_period_entry_parse H)) (sml_sequence_parse (@sml_prof_obj_period_entry_parse (other H))).
Proof. apply sim_sequence, sim_per_entry. Qed.
Hint Resolve sim_per_entries : sim.
Lemma sim_pack_res : sim (omap flip_pack_res) (@sml_get_profile_pack_response_parse H) (@sml_get_profile_pack_response_parse (other H)).
Proof. unfold sml_get_profile_pack_response_parse. numbers. sims; done_record. Qed.
Lemma sim_prof_list_res : sim (omap flip_prof_list_res) (@sml_get_profile_list_response_parse H) (@sml_get_profile_list_response_parse (other H)).
Proof. unfold sml_get_profile_list_response_parse. numbers. sims; done_record. Qed.
Lemma sim_proc_res : sim (omap flip_proc_res) (@sml_get_proc_parameter_response_parse H) (@sml_get_proc_parameter_response_parse (other H)).
Proof. unfold sml_get_proc_parameter_response_parse. numbers. sims; done_record. Qed.
Lemma sim_set_proc : sim (omap flip_set_proc) (@sml_set_proc_parameter_request_parse H) (@sml_set_proc_parameter_request_parse (other H)).
Proof. unfold sml_set_proc_parameter_request_parse. numbers. sims; done_record. Qed.
Lemma sim_list_res : sim (omap flip_list_res) (@sml_get_list_response_parse H) (@sml_get_list_response_parse (other H)).
Proof. unfold sml_get_list_response_parse. numbers. sims; done_record. Qed.
Lemma sim_attention : sim (omap flip_attention) (@sml_attention_response_parse H) (@sml_attention_response_parse (other H)).
Proof. unfold sml_attention_response_parse. numbers. sims; done_record. Qed.

Lemma sim_body_data t : sim flip_body_data (@body_data_parse H t) (@body_data_parse (other H) t).
Proof.
  unfold body_data_parse.
  destruct (Z.eqb t _); [apply (sim_bind (omap flip_open_req)); [apply sim_open_req|intros [d|]; now apply sim_ret]|].
  destruct (Z.eqb t _); [apply (sim_bind (omap flip_open_res)); [apply sim_open_res|intros [d|]; now apply sim_ret]|].
  destruct (Z.eqb t _); [apply sim_same; intros [d|]; now apply sim_ret|].
  destruct (Z.eqb t _); [apply sim_same; intros [d|]; now apply sim_ret|].
  destruct (Z.eqb t _); [apply (sim_bind (omap flip_pack_req)); [apply sim_pack_req|intros [d|]; now apply sim_ret]|].
  destruct (Z.eqb t _); [apply (sim_bind (omap flip_pack_res)); [apply sim_pack_res|intros [d|]; now apply sim_ret]|].
  destruct (Z.eqb t _); [apply (sim_bind (omap flip_pack_req)); [apply sim_pack_req|intros [d|]; now apply sim_ret]|].
  destruct (Z.eqb t _); [apply (sim_bind (omap flip_prof_list_res)); [apply sim_prof_list_res|intros [d|]; now apply sim_ret]|].
  destruct (Z.eqb t _); [apply sim_same; intros [d|]; now apply sim_ret|].
  destruct (Z.eqb t _); [apply (sim_bind (omap flip_proc_res)); [apply sim_proc_res|intros [d|]; now apply sim_ret]|].
  destruct (Z.eqb t _); [apply (sim_bind (omap flip_set_proc)); [apply sim_set_proc|intros [d|]; now apply sim_ret]|].
  destruct (Z.eqb t _); [apply sim_same; intros [d|]; now apply sim_ret|].
  destruct (Z.eqb t _); [apply (sim_bind (omap flip_list_res)); [apply sim_list_res|intros [d|]; now apply sim_ret]|].
  destruct (Z.eqb t _); [apply (sim_bind (omap flip_attention)); [apply sim_attention|intros [d|]; now apply sim_ret]|].
  now apply sim_ret.
Qed.
Lemma sim_body : sim (omap flip_body) (@sml_message_body_parse H) (@sml_message_body_parse (other H)).
Proof.
  unfold sml_message_body_parse. numbers. apply sim_same. intros [|]; [apply sim_err|]. apply sim_list. eapply sim_field; [apply sim_num|]. intros [m|]; cbn [omap]; [|now apply sim_ret]. rewrite flip_u.
  apply (sim_bind flip_body_data); [apply sim_body_data|]. intros d. now apply sim_ret.
Qed.
Hint Resolve sim_body : sim.
Lemma sim_message : sim (omap flip_message) (@sml_message_parse H) (@sml_message_parse (other H)).
Proof.
  unfold sml_message_parse. numbers. sims.
  match goal with |- sim _ (match (if ?e then None else ?c) with _ => _ end) _ => destruct e, c as [m|]; cbn [omap]; sims end.
  rewrite flip_u. destruct (_ && _); sims.
Qed.
Lemma sim_file_loop fuel : forall ms, sim (map flip_message) (@file_loop H fuel ms) (@file_loop (other H) fuel (map flip_message ms)).
Proof.
  induction fuel as [|fuel IH]; intros ms; cbn [file_loop]; apply sim_same; intros [|]; try (now apply sim_ret); try apply sim_fuel.
  apply sim_same. intros b. destruct (Z.eqb b _); [apply sim_same; intros ?; apply IH|].
  apply (sim_bind (omap flip_message)); [apply sim_message|]. intros r. apply sim_same. intros [|]; [now apply sim_ret|].
  destruct r as [m|]; cbn [omap]; [|apply IH]. unfold sml_file_add_message. rewrite map_length. destruct (_ <=? _).
  - apply (sim_bind (map flip_message)); [|intros l; apply IH]. apply sim_ret. now rewrite map_app.
  - apply (sim_bind (map flip_message)); [apply sim_fail|]. intros l. apply IH.
Qed.
Lemma flip_file_parse bytes : @sml_file_parse (other H) bytes = on_outcome flip_file (@sml_file_parse H bytes).
Proof.
  unfold sml_file_parse. rewrite (sim_file_loop _ [] _). now destruct (file_loop _ _ _) as [[ms s]| |].
Qed.
End TwoHosts.
