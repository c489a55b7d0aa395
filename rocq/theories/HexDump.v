(** Model of sml_hexdump (sml/src/sml_shared.c:165-173): the text it prints. *)
From Verif Require Import Base.

(** one digit of printf("%X") *)
Definition upper_hex (d : Z) : Z := if d <? 10 then 48 + d else 55 + d.
(** printf("%02X ", byte), line 167 *)
Definition dump_byte (b : Z) : list Z := [upper_hex (b / 16); upper_hex (b mod 16); 32].
(** lines 166-171; [i] is the loop variable *)
Fixpoint dump_loop (i : nat) (bytes : list Z) : list Z :=
  match bytes with
  | [] => []
  | b :: t => dump_byte b ++ (if ((i + 1) mod 8 =? 0)%nat then [10] else []) ++ dump_loop (i + 1) t
  end.
(** lines 165-173; puts("") prints a newline *)
Definition sml_hexdump (bytes : list Z) : list Z := dump_loop 0 bytes ++ [10].
