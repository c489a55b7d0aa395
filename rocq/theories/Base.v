(** Common ground of the model: bytes, C integers, outcomes of a run, a state
    monad.  Nothing in this file models a particular function of /repo. *)
From Coq Require Export ZArith List Bool Lia.
Export ListNotations.
#[global] Open Scope Z_scope.

(** Bytes are integers; [byte_ok] is the range of [unsigned char]. *)
Definition byte_ok (b : Z) : Prop := 0 <= b < 256.
Definition bytes_ok (l : list Z) : Prop := Forall byte_ok l.

(** Invalid actions.  A run that performs one ends there. *)
Inductive fault : Type :=
| OobRead        (** read outside an array *)
| OobWrite       (** write outside an array *)
| NullDeref      (** dereference of NULL *)
| WildPtr        (** access through a pointer computed from a negative index *)
| TypeConfusion  (** a union / void* read as something it does not hold *)
| CursorWrap     (** size_t cursor moved by a negative amount *)
| ShiftCount     (** shift by the width of the type or more *)
| BadFree        (** free of something that is not a live heap block *)
| DeadBlock      (** access to a heap block that is not live *)
| UninitRead.    (** use of an uninitialised variable *)

(** Outcome of a run.  [NoFuel] is only there because the loops of the model
    carry fuel; theorem C03 shows it does not occur. *)
Inductive outcome (A : Type) : Type :=
| Ret (a : A)
| Fault (f : fault)
| NoFuel.
Arguments Ret {A} a.
Arguments Fault {A} f.
Arguments NoFuel {A}.

(** State monad over a state type [S]. *)
Definition M (S A : Type) : Type := S -> outcome (A * S).

Definition ret {S A} (a : A) : M S A := fun s => Ret (a, s).
Definition bind {S A B} (m : M S A) (k : A -> M S B) : M S B :=
  fun s => match m s with
           | Ret (a, s') => k a s'
           | Fault f => Fault f
           | NoFuel => NoFuel
           end.
Definition fail {S A} (f : fault) : M S A := fun _ => Fault f.
Definition out_of_fuel {S A} : M S A := fun _ => NoFuel.

Notation "x <- m ;; k" := (bind m (fun x => k))
  (at level 62, m at next level, right associativity).
Notation "m ;;; k" := (bind m (fun _ => k))
  (at level 62, right associativity).

(** C [int] (32 bit two's complement), [unsigned int], [size_t] (64 bit). *)
Definition int_ok (z : Z) : Prop := -2147483648 <= z < 2147483648.
Definition int_okb (z : Z) : bool := (-2147483648 <=? z) && (z <? 2147483648).
Definition wrap32 (z : Z) : Z := (z + 2147483648) mod 4294967296 - 2147483648.
Definition to_u32 (z : Z) : Z := z mod 4294967296.
Definition to_size (z : Z) : Z := z mod 18446744073709551616.
Definition to_u8 (z : Z) : Z := z mod 256.

(** [size_t] subtraction of two array positions, wrapping like C. *)
Definition size_sub (a b : nat) : Z := to_size (Z.of_nat a - Z.of_nat b).

(** Byte order of the host; everything is proved for both. *)
Inductive endian : Type := BigEndian | LittleEndian.
Class Host : Type := host_endian : endian.

(** Object representation of unsigned integers: little-endian digits. *)
Fixpoint le_bytes (n : nat) (z : Z) : list Z :=
  match n with
  | O => []
  | S n' => z mod 256 :: le_bytes n' (z / 256)
  end.
Fixpoint le_value (l : list Z) : Z :=
  match l with
  | [] => 0
  | b :: l' => b + 256 * le_value l'
  end.

(** Memory of a C integer object.  [mem_u]/[mem_i]: value read from it through a
    pointer to an unsigned/signed integer of that size. *)
Definition mem : Type := list Z.
Section WithHost.
Context {H : Host}.
Definition mem_of (n : nat) (z : Z) : mem :=
  match host_endian with
  | LittleEndian => le_bytes n z
  | BigEndian => rev (le_bytes n z)
  end.
Definition mem_u (m : mem) : Z :=
  match host_endian with
  | LittleEndian => le_value m
  | BigEndian => le_value (rev m)
  end.
Definition mem_i (m : mem) : Z :=
  let u := mem_u m in
  let w := 2 ^ (8 * Z.of_nat (length m)) in
  if (0 <? Z.of_nat (length m)) && (w / 2 <=? u) then u - w else u.
End WithHost.

(** Update of one element of an array. *)
Fixpoint upd (l : list Z) (i : nat) (b : Z) : list Z :=
  match l, i with
  | [], _ => []
  | _ :: t, O => b :: t
  | x :: t, S j => x :: upd t j b
  end.

(** memcpy into an array at position [i] (caller checks the bounds). *)
Fixpoint upds (l : list Z) (i : nat) (bs : list Z) : list Z :=
  match bs with
  | [] => l
  | b :: t => upds (upd l i b) (S i) t
  end.

Definition list_eqb (a b : list Z) : bool :=
  if list_eq_dec Z.eq_dec a b then true else false.
