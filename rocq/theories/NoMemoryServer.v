(** The receiver of the example program when malloc may fail, compared with the same
    program where it does not. *)
From stdpp Require Import gmap.
From Verif Require Import Base Buf Number OctetString Boolean Value Time SList Tree Bodies Message File Transport Server ServerMain
  HeapBase HeapModel HeapLogic HeapCost NoMemory HeapServerModel HeapServer HeapServerCost.

Section Sim.
Context {HO : Host} {AL : Allocator} (ME : Memory) (L : Z).
Local Notation nm := (nm ME L).

Lemma calm_pure {A} (o : outcome A) : calm (pure_step o).
Proof. intros st r st' E. unfold pure_step in E. destruct o; try discriminate. injection E as <- <-. repeat split; auto; lia. Qed.
Lemma calm_obis p : calm (h_obis p).
Proof. unfold h_obis. apply calm_bind; [apply calm_load|intros s]. apply calm_bind; [apply calm_load_bytes|intros b]. destruct (_ <? _)%nat; [apply calm_fail|apply calm_ret]. Qed.
Lemma calm_double p : calm (h_value_to_double p).
Proof.
  unfold h_value_to_double. apply calm_bind; [apply calm_load_int|intros t]. apply calm_bind; [apply calm_load|intros d].
  assert (C : forall sg k, calm (h_num_to_double sg d k)).
  { intros sg k. unfold h_num_to_double, h_deref. apply calm_bind; [|intros m; apply calm_ret]. apply calm_bind; [apply calm_load_bytes|intros b]. destruct (_ <? _)%nat; [apply calm_fail|apply calm_ret]. }
  repeat (destruct (_ =? _); [apply C|]). apply calm_ret.
Qed.
Lemma calm_opt {A} p (none : A) f : (forall m, calm (f m)) -> calm (h_optional p none f).
Proof. intros C. destruct p; [apply calm_ret|..]; (apply calm_bind; [apply calm_load_bytes|exact C]). Qed.
Lemma calm_tag m : calm (h_message_tag m).
Proof. unfold h_message_tag. apply calm_bind; [apply calm_load|intros b]. apply calm_bind; [apply calm_load|intros t]. apply calm_bind; [apply calm_load_bytes|intros bs]. apply calm_ret. Qed.
Lemma nm_heap_fuel {A} (f g : nat -> H A) : (forall n, nm (f n) (g n)) -> nm (with_heap_fuel f) (with_heap_fuel g).
Proof. intros F. split; intros st; unfold with_heap_fuel; apply F. Qed.
Lemma nm_gather {A} (f g : slot -> H (list A)) arr : (forall x, nm (f x) (g x)) -> forall n i, nm (gather n i arr f) (gather n i arr g).
Proof.
  intros F. induction n as [|n IH]; intros i; [apply nm_calm, calm_ret|]. cbn [gather]. apply nm_bind; [apply nm_calm, calm_load|intros x].
  apply nm_bind; [apply F|intros a]. apply nm_bind; [apply IH|intros b]. apply nm_calm, calm_ret.
Qed.
Lemma nm_ext {A} (p p' q q' : H A) : (forall st, p st = p' st) -> (forall st, q st = q' st) -> nm p' q' -> nm p q.
Proof. intros EP EQ [N1 N2]. split; intros st; rewrite EP; [rewrite EQ; apply N1|]. intros a st'. rewrite EQ. apply N2. Qed.
Lemma bind_assoc {A B C} (p : H A) (f : A -> H B) (g : B -> H C) st : bind (bind p f) g st = bind p (fun a => bind (f a) g) st.
Proof. unfold bind. destruct (p st) as [[a st1]| |]; reflexivity. Qed.
(** a malloc whose result is tested, where NULL leads to the end of the program *)
Lemma nm_try_malloc {A} b (k : slot -> H A) : (forall st, k Nul st = Fault NullDeref) -> (forall a, nm (k a) (k a)) ->
  nm (p <- @try_malloc AL ME b ;; k p) (p <- @try_malloc AL plenty b ;; k p).
Proof.
  intros KN K. apply (nm_ext _ (p <- @malloc AL ME b ;; k p) _ (p <- @malloc AL plenty b ;; k p)).
  - intros st. unfold bind, try_malloc, malloc. destruct (grants st b); [reflexivity|]. apply KN.
  - intros st. reflexivity.
  - apply nm_bind; [apply nm_malloc|exact K].
Qed.
Lemma nm_strhex {A} v mixed (k : option (slot * nat) -> H A) : (forall n st, k (Some (Nul, n)) st = Fault NullDeref) -> (forall a, nm (k a) (k a)) ->
  nm (r <- @h_value_to_strhex AL ME v mixed ;; k r) (r <- @h_value_to_strhex AL plenty v mixed ;; k r).
Proof.
  intros KN K. assert (N0 : nm (r <- ret None ;; k r) (r <- ret None ;; k r)) by (apply nm_bind; [apply nm_calm, calm_ret|exact K]).
  assert (AS : forall B (p p' : H B) (f f' : B -> H (option (slot * nat))), nm p p' -> (forall a, nm (bind (f a) k) (bind (f' a) k)) -> nm (bind (bind p f) k) (bind (bind p' f') k)).
  { intros B p p' f f' N F. eapply nm_ext; [intros st; apply bind_assoc|intros st; apply bind_assoc|]. apply nm_bind; assumption. }
  unfold h_value_to_strhex. destruct v as [|lv|iv]; [exact N0| |];
  (apply AS; [apply nm_calm, calm_load|]; intros y; destruct y as [|ly|iy]; [exact N0| |];
   (apply AS; [apply nm_calm, calm_load|]; intros z; destruct z as [|lz|iz]; [exact N0| |];
    (apply AS; [apply nm_calm, calm_load_int|]; intros len; apply AS; [apply nm_calm, calm_load_bytes|]; intros bs;
     destruct (_ <? _)%nat; [apply nm_bind; [apply nm_calm, calm_fail|exact K]|]; apply AS; [apply nm_calm, calm_pure|]; intros w;
     destruct (_ <? _)%nat; [|apply nm_bind; [apply nm_calm, calm_fail|exact K]];
     eapply nm_ext; [intros st; apply bind_assoc|intros st; apply bind_assoc|];
     apply nm_try_malloc; [intros st; apply KN|intros p; apply nm_bind; [apply nm_calm, calm_ret|exact K]]))).
Qed.
Lemma nm_entry e : nm (@h_receive_entry HO AL ME e) (@h_receive_entry HO AL plenty e).
Proof.
  unfold h_receive_entry. apply nm_bind; [apply nm_calm, calm_load|]. intros v. destruct v as [|lv|]; [apply nm_calm, calm_ret| |];
  (apply nm_bind; [apply nm_calm, calm_load_int|]; intros t; destruct (_ =? _);
   [apply nm_bind; [apply nm_calm, calm_load|]; intros nm; apply nm_bind; [apply nm_calm, calm_obis|]; intros o;
    apply nm_strhex; [reflexivity|]; intros [[q n]|]; [|apply nm_calm, calm_fail]; apply nm_calm;
    apply calm_bind; [apply calm_load_bytes|intros tx]; apply calm_bind; [apply calm_free|intros _]; apply calm_ret|]);
  (apply nm_calm; destruct (_ =? _);
   [apply calm_bind; [apply calm_load|intros nm]; apply calm_bind; [apply calm_obis|intros o]; apply calm_bind; [apply calm_load|intros b]; apply calm_ret|];
   destruct (_ || _); [|apply calm_ret];
   apply calm_bind; [apply calm_double|intros d]; apply calm_bind; [apply calm_load|intros sp]; apply calm_bind; [apply calm_opt; intros m; apply calm_ret|intros sc];
   apply calm_bind; [apply calm_load|intros nm]; apply calm_bind; [apply calm_obis|intros o]; apply calm_bind; [apply calm_load|intros up];
   apply calm_bind; [apply calm_opt; intros m; apply calm_pure|intros u]; apply calm_ret).
Qed.
Lemma nm_entries fuel : forall e, nm (@h_receive_entries HO AL ME fuel e) (@h_receive_entries HO AL plenty fuel e).
Proof.
  induction fuel as [|fuel IH]; intros e; [apply nm_out|]. cbn [h_receive_entries]. destruct e; [apply nm_calm, calm_ret|..];
  (apply nm_bind; [apply nm_entry|]; intros a; apply nm_bind; [apply nm_calm, calm_load|]; intros n; apply nm_bind; [apply IH|]; intros b; apply nm_calm, calm_ret).
Qed.
Lemma nm_receive_message m : nm (@h_receive_message HO AL ME m) (@h_receive_message HO AL plenty m).
Proof.
  unfold h_receive_message. apply nm_bind; [apply nm_calm, calm_tag|]. intros t. destruct (_ =? _); [|apply nm_calm, calm_ret].
  do 3 (apply nm_bind; [apply nm_calm, calm_load|intros ?]). apply nm_heap_fuel. intros n. apply nm_entries.
Qed.
Lemma nm_first n : forall i arr, nm (@h_receive_first HO AL ME n i arr) (@h_receive_first HO AL plenty n i arr).
Proof.
  induction n as [|n IH]; intros i arr; [apply nm_calm, calm_ret|]. cbn [h_receive_first]. apply nm_bind; [apply nm_calm, calm_load|]. intros m.
  apply nm_bind; [apply nm_receive_message|]. intros a. apply nm_bind; [apply nm_calm, calm_tag|]. intros t. destruct (_ =? _); [apply nm_calm, calm_ret|].
  apply nm_bind; [apply IH|]. intros b. apply nm_calm, calm_ret.
Qed.
Lemma nm_print p : nm (h_file_print p) (h_file_print p).
Proof.
  unfold h_file_print. apply nm_bind; [apply nm_calm, calm_load_int|]. intros n. apply nm_bind; [apply nm_lift|]. intros s.
  apply nm_bind; [apply nm_calm, calm_load|]. intros ms. apply nm_bind; [|intros t; apply nm_calm, calm_ret]. apply nm_gather. intros x.
  apply nm_calm. apply calm_bind; [apply calm_tag|]. intros t. apply calm_ret.
Qed.
Lemma nm_show v sf p : nm (@h_show HO AL ME v sf p) (@h_show HO AL plenty v sf p).
Proof.
  unfold h_show. apply nm_bind; [destruct v; [apply nm_print|apply nm_calm, calm_ret]|]. intros head. apply nm_bind; [apply nm_calm, calm_load_int|]. intros n.
  apply nm_bind; [apply nm_calm, calm_load|]. intros arr. apply nm_bind.
  - destruct sf; [apply nm_first|]. apply nm_bind; [apply nm_gather, nm_receive_message|]. intros ls. apply nm_calm, calm_ret.
  - intros r. cbv zeta. destruct (snd r); [apply nm_calm, calm_ret|]. apply nm_bind; [apply nm_calm, calm_file_free|]. intros _. apply nm_calm, calm_ret.
Qed.
(** sml_file_parse starts with its own buffer. *)
Lemma nm_parse bytes : nm (@h_file_parse HO AL ME bytes) (@h_file_parse HO AL plenty bytes).
Proof.
  destruct (nm_file ME L bytes) as [N1 N2]. split; intros st; unfold h_file_parse; [apply N1|]. intros a st' E. specialize (N2 _ _ _ E). exact N2.
Qed.
Lemma nm_receiver v sf bs : nm (@h_receiver HO AL ME v sf bs) (@h_receiver HO AL plenty v sf bs).
Proof. unfold h_receiver. destruct (_ <? _)%nat; [apply nm_calm, calm_fail|]. apply nm_bind; [apply nm_parse|intros f]. apply nm_show. Qed.
Lemma nm_server_loop fuel v sf : forall d, nm (@h_server_loop HO AL ME fuel v sf d) (@h_server_loop HO AL plenty fuel v sf d).
Proof.
  induction fuel as [|fuel IH]; intros d; [apply nm_out|]. cbn [h_server_loop]. apply nm_bind; [apply nm_calm, calm_pure|]. intros [[len bs] d']. destruct (_ =? _)%nat; [apply nm_calm, calm_ret|].
  apply nm_bind; [apply nm_receiver|]. intros r. destruct (snd r); [apply nm_calm, calm_ret|]. apply nm_bind; [apply IH|]. intros y. apply nm_calm, calm_ret.
Qed.
Lemma nm_server v sf d : nm (@h_server HO AL ME v sf d) (@h_server HO AL plenty v sf d).
Proof. apply nm_server_loop. Qed.
End Sim.
