(** Model of sml/src/sml_value.c and sml/src/sml_status.c. *)
From Coq Require Import SpecFloat.
From Verif Require Import Base Buf Number OctetString Boolean.

(** sml_value.h:32-46.  The union of pointers, with what the pointer points to. *)
Inductive value_data : Type :=
| VNull
| VBytes (s : octet_string)
| VBool (b : sml_boolean)
| VNum (m : mem).

Record sml_value : Type := mkValue { v_type : Z; v_data : value_data }.

(** sml_status.h, struct sml_status: the union holds pointers to unsigned
    numbers only. *)
Record sml_status : Type := mkStatus { st_type : Z; st_data : option mem }.

Section WithHost.
Context {H : Host}.

(** sml_value.c:45-47, sml_status.c:42-44: smallest power of two that is not
    less than the length nibble - 1 (at most 14, so 16 at most). *)
Fixpoint max_loop (fuel : nat) (max limit : Z) : P Z :=
  match fuel with
  | O => out_of_fuel
  | S fuel' => if max <? limit then max_loop fuel' (max * 2) limit else ret max
  end.
Definition number_width (byte : Z) : P Z :=
  max_loop 5 1 (Z.land byte SML_LENGTH_FIELD - 1).

Definition data_of_bytes (o : option octet_string) : value_data :=
  match o with None => VNull | Some s => VBytes s end.
Definition data_of_bool (o : option sml_boolean) : value_data :=
  match o with None => VNull | Some s => VBool s end.
Definition data_of_num (o : option mem) : value_data :=
  match o with None => VNull | Some s => VNum s end.

(** sml_value.c:23-62.  value->type is a u8. *)
Definition sml_value_parse : P (option sml_value) :=
  unless_skipped (
  type <- sml_buf_get_next_type ;;
  byte <- sml_buf_get_current_byte ;;
  value <- (if type =? SML_TYPE_OCTET_STRING then
              d <- sml_octet_string_parse ;; ret (mkValue (to_u8 type) (data_of_bytes d))
            else if type =? SML_TYPE_BOOLEAN then
              d <- sml_boolean_parse ;; ret (mkValue (to_u8 type) (data_of_bool d))
            else if (type =? SML_TYPE_UNSIGNED) || (type =? SML_TYPE_INTEGER) then
              max <- number_width byte ;;
              d <- sml_number_parse type max ;;
              ret (mkValue (to_u8 (Z.lor (to_u8 type) max)) (data_of_num d))
            else
              set_error ;;; ret (mkValue (to_u8 type) VNull)) ;;
  e <- sml_buf_has_errors ;;
  if (e : bool) then ret None else ret (Some value)).

(** Reading the union through a member: NULL is NULL under every member. *)
Definition as_bytes (d : value_data) : P (option octet_string) :=
  match d with VNull => ret None | VBytes s => ret (Some s) | _ => fail TypeConfusion end.
Definition as_bool (d : value_data) : P (option sml_boolean) :=
  match d with VNull => ret None | VBool s => ret (Some s) | _ => fail TypeConfusion end.
Definition as_num (d : value_data) : P (option mem) :=
  match d with VNull => ret None | VNum s => ret (Some s) | _ => fail TypeConfusion end.

(** sml_value.c:79-80 and sml_status.c:66-67 pass a pointer and a size; a copy of
    0 bytes reads nothing, so with size 0 the pointed-to object does not matter. *)
Definition as_num_sized (d : value_data) (size : Z) : P (option mem) :=
  match d with
  | VNull => ret None
  | VNum s => ret (Some s)
  | _ => if size =? 0 then ret (Some []) else fail TypeConfusion
  end.

(** sml_value.c:64-83 *)
Definition sml_value_write (value : option sml_value) : P unit :=
  write_opt value (fun v =>
    let ty := Z.land (v_type v) SML_TYPE_FIELD in
    if ty =? SML_TYPE_OCTET_STRING then
      d <- as_bytes (v_data v) ;; sml_octet_string_write d
    else if ty =? SML_TYPE_BOOLEAN then
      d <- as_bool (v_data v) ;; sml_boolean_write d
    else if (ty =? SML_TYPE_UNSIGNED) || (ty =? SML_TYPE_INTEGER) then
      let size := Z.land (v_type v) SML_LENGTH_FIELD in
      d <- as_num_sized (v_data v) size ;; sml_number_write d ty size
    else ret tt).

(** sml_value.c:85-90 *)
Definition sml_value_init : sml_value := mkValue SML_TYPE_OCTET_STRING VNull.

(** Conversion of an integer to double (IEEE binary64, round to nearest even),
    by the specification of floating point of Coq's standard library. *)
Definition double_of_Z (z : Z) : spec_float := binary_normalize 53 1024 z 0 false.

(** sml_value.c:109-140; [value] and the number are dereferenced; an object
    smaller than the type says is read out of bounds. *)
Definition deref_num (d : value_data) (size : nat) : outcome mem :=
  match d with
  | VNull => Fault NullDeref
  | VNum m => if (length m <? size)%nat then Fault OobRead else Ret (firstn size m)
  | _ => Fault TypeConfusion
  end.
Definition num_to_double (signed : bool) (d : value_data) (size : nat) : outcome spec_float :=
  match deref_num d size with
  | Ret m => Ret (double_of_Z (if signed then mem_i m else mem_u m))
  | Fault f => Fault f
  | NoFuel => NoFuel
  end.
Definition sml_value_to_double (value : option sml_value) : outcome spec_float :=
  match value with
  | None => Fault NullDeref
  | Some v =>
      let t := v_type v in
      if t =? 81 then num_to_double true (v_data v) 1         (* 0x51 *)
      else if t =? 82 then num_to_double true (v_data v) 2    (* 0x52 *)
      else if t =? 84 then num_to_double true (v_data v) 4    (* 0x54 *)
      else if t =? 88 then num_to_double true (v_data v) 8    (* 0x58 *)
      else if t =? 97 then num_to_double false (v_data v) 1   (* 0x61 *)
      else if t =? 98 then num_to_double false (v_data v) 2   (* 0x62 *)
      else if t =? 100 then num_to_double false (v_data v) 4  (* 0x64 *)
      else if t =? 104 then num_to_double false (v_data v) 8  (* 0x68 *)
      else Ret (double_of_Z 0)
  end.

(** sml_value.c:147, hex_str *)
Definition hex_str : list Z := [48;49;50;51;52;53;54;55;56;57;97;98;99;100;101;102].

(** "*res_ptr++ = c" into the block [out] of fixed size: (block, position). *)
Definition put_char (st : list Z * nat) (c : Z) : outcome (list Z * nat) :=
  if (snd st <? length (fst st))%nat
  then Ret (upd (fst st) (snd st) c, S (snd st))
  else Fault OobWrite.
Definition obind {A B} (o : outcome A) (k : A -> outcome B) : outcome B :=
  match o with Ret a => k a | Fault f => Fault f | NoFuel => NoFuel end.

(** sml_value.c:161-170, the loop. *)
Fixpoint strhex_loop (str : list Z) (mixed : bool) (st : list Z * nat) : outcome (list Z * nat) :=
  match str with
  | [] => Ret st
  | c :: t =>
      if mixed && ((c >? 32) && (c <? 123)) then
        obind (put_char st c) (fun st => strhex_loop t mixed st)
      else
        obind (put_char st (nth (Z.to_nat (Z.land (Z.shiftr c 4) 15)) hex_str 0)) (fun st =>
        obind (put_char st (nth (Z.to_nat (Z.land c 15)) hex_str 0)) (fun st =>
        obind (put_char st 32) (fun st => strhex_loop t false st)))
  end.

(** sml_value.c:146-175.  Result: NULL, or the allocated block after writing the
    terminator together with the position of the terminator.  The fresh block
    has unspecified content; 0 is used.  data.bytes->str is NULL iff the string
    is empty. *)
Definition sml_value_to_strhex (value : option sml_value) (mixed : bool)
  : outcome (option (list Z * nat)) :=
  match value with
  | None => Ret None
  | Some v =>
      match v_data v with
      | VNull => Ret None
      | VBytes [] => Ret None
      | VBytes str =>
          obind (strhex_loop str mixed (repeat 0 (length str * 3 + 1), O)) (fun st =>
          if (snd st <? length (fst st))%nat
          then Ret (Some (upd (fst st) (snd st) 0, snd st))
          else Fault OobWrite)
      | _ => Fault TypeConfusion
      end
  end.

(** sml_status.c:28-59 *)
Definition sml_status_parse : P (option sml_status) :=
  unless_skipped (
  type <- sml_buf_get_next_type ;;
  byte <- sml_buf_get_current_byte ;;
  status <- (if type =? SML_TYPE_UNSIGNED then
               max <- number_width byte ;;
               d <- sml_number_parse type max ;;
               ret (mkStatus (to_u8 (Z.lor (to_u8 type) max)) d)
             else
               set_error ;;; ret (mkStatus (to_u8 type) None)) ;;
  e <- sml_buf_has_errors ;;
  if (e : bool) then ret None else ret (Some status)).

(** sml_status.c:61-68 *)
Definition sml_status_write (status : option sml_status) : P unit :=
  write_opt status (fun st =>
    sml_number_write (st_data st) (Z.land (st_type st) SML_TYPE_FIELD)
                     (Z.land (st_type st) SML_LENGTH_FIELD)).

End WithHost.
