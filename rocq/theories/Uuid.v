(** Where the ids of new messages come from, in a build without libuuid: a model of
    sml_octet_string_generate_uuid with the file descriptors it takes. *)
From Verif Require Import Base HeapBuildModel.

(** What the process has of the system: the descriptors that are open and how many may be,
    and how often random bytes were read. *)
Record system : Type := mkSystem { open_files : nat; max_files : nat; reads : nat }.
(** open("/dev/urandom", O_RDONLY): fails (here: None) if no descriptor is left.  Other
    reasons to fail are not modelled. *)
Definition open_urandom (s : system) : option system :=
  if (open_files s <? max_files s)%nat then Some (mkSystem (S (open_files s)) (max_files s) (reads s)) else None.

Section Source.
(** [random i]: the bytes that the [i]-th read returns, at most 16. *)
Context (random : nat -> list Z).
(** sml_octet_string.c:102-124 with SML_NO_UUID_LIB on Linux.  [stack] are the bytes that the
    array uuid[16] holds before it is written.  read(-1, ...) fails and stores nothing; the
    results of open and read are not checked, and the descriptor is not closed. *)
Definition generate_uuid (stack : list Z) (s : system) : list Z * system :=
  match open_urandom s with
  | None => (uuid_of stack, s)
  | Some s1 =>
      let bs := random (reads s1) in
      (uuid_of (bs ++ skipn (length bs) stack), mkSystem (open_files s1) (max_files s1) (S (reads s1)))
  end.
(** A program that makes messages (sml_message_init, sml_message.c:107-116) one after the
    other; freeing them in between makes no difference here. *)
Fixpoint new_ids (stacks : list (list Z)) (s : system) : list (list Z) * system :=
  match stacks with
  | [] => ([], s)
  | x :: t => let '(id, s1) := generate_uuid x s in let '(ids, s2) := new_ids t s1 in (id :: ids, s2)
  end.
End Source.

(** sml_octet_string.c:111-115, other systems than Linux: [rand i] is the [i]-th number of
    rand(), and [i] numbers were taken before. *)
Definition generate_uuid_rand (rand : nat -> Z) (i : nat) : list Z := uuid_of (map (fun j => rand (i + j)%nat mod 255) (seq 0 16)).
