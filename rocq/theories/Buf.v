(** Model of sml/src/sml_shared.c and of the struct sml_buffer
    (sml/include/sml/sml_shared.h:40-75). *)
From Verif Require Import Base.

(** sml_shared.h:40-57 *)
Definition SML_MESSAGE_END := 0.
Definition SML_TYPE_FIELD := 112.       (* 0x70 *)
Definition SML_LENGTH_FIELD := 15.      (* 0x0F *)
Definition SML_ANOTHER_TL := 128.       (* 0x80 *)
Definition SML_TYPE_OCTET_STRING := 0.
Definition SML_TYPE_BOOLEAN := 64.      (* 0x40 *)
Definition SML_TYPE_INTEGER := 80.      (* 0x50 *)
Definition SML_TYPE_UNSIGNED := 96.     (* 0x60 *)
Definition SML_TYPE_LIST := 112.        (* 0x70 *)
Definition SML_OPTIONAL_SKIPPED := 1.

(** sml_shared.h:69-75, struct sml_buffer.  [buffer_len] is the length of the
    list: the C code never makes them differ.  [error] is the int flag (only
    compared with 0).  [error_msg] is never set by the library and is dropped.
    [ovf] is not in the C struct: it records that signed arithmetic overflowed
    somewhere (strictly undefined behaviour), see Base. *)
Record sbuf : Type := mkBuf {
  buffer : list Z;
  cursor : nat;
  error : bool;
  ovf : bool
}.
Definition buffer_len (s : sbuf) : nat := length (buffer s).

Definition P (A : Type) : Type := M sbuf A.

Definition set_cursor (c : nat) (s : sbuf) : sbuf := mkBuf (buffer s) c (error s) (ovf s).
Definition set_buffer (b : list Z) (s : sbuf) : sbuf := mkBuf b (cursor s) (error s) (ovf s).
Definition set_err (s : sbuf) : sbuf := mkBuf (buffer s) (cursor s) true (ovf s).
Definition set_ovf (o : bool) (s : sbuf) : sbuf := mkBuf (buffer s) (cursor s) (error s) (ovf s || o).

(** buf->error = 1 *)
Definition set_error : P unit := fun s => Ret (tt, set_err s).

(** "buf->error = 1; return NULL" *)
Definition err_null {A} : P (option A) := set_error ;;; ret None.

(** sml_shared.c:103 *)
Definition sml_buf_has_errors : P bool := fun s => Ret (error s, s).

(** The test "cursor >= buffer_len" (equivalently "cursor + 1 > buffer_len")
    that occurs all over the parsers. *)
Definition at_end : P bool := fun s => Ret ((buffer_len s <=? cursor s)%nat, s).

(** sml_shared.c:113 *)
Definition sml_buf_get_current_byte : P Z := fun s =>
  match nth_error (buffer s) (cursor s) with
  | Some b => Ret (b, s)
  | None => Fault OobRead
  end.

(** sml_shared.c:115, sml_buf_get_current_buf, always used as the source of a
    copy of [n] bytes (memcpy): the bytes read. *)
Definition read_current (n : nat) : P (list Z) := fun s =>
  if (cursor s + n <=? buffer_len s)%nat
  then Ret (firstn n (skipn (cursor s) (buffer s)), s)
  else Fault OobRead.

(** sml_shared.c:117.  [bytes] is an int added to a size_t; a negative value
    would wrap around: that is a fault of its own here. *)
Definition sml_buf_update_bytes_read (bytes : Z) : P unit := fun s =>
  if bytes <? 0 then Fault CursorWrap
  else Ret (tt, set_cursor (cursor s + Z.to_nat bytes) s).

(** int addition / left shift by 4 of an int: wrap, and note the overflow. *)
Definition int_op (exact : Z) : P Z := fun s =>
  Ret (wrap32 exact, set_ovf (negb (int_okb exact)) s).

(** sml_shared.c:105-111 *)
Definition sml_buf_get_next_type : P Z :=
  e <- at_end ;;
  if (e : bool) then set_error ;;; ret 256
  else b <- sml_buf_get_current_byte ;; ret (Z.land b SML_TYPE_FIELD).

(** sml_shared.c:34-46, the for loop.  Result: (length, list) at loop exit.
    "length <<= 4" is undefined when length is negative or length*16 does not
    fit: the test [int_okb] of the exact result covers the second case, and the
    first can only follow it (length starts at 0 and or-ing bits 0..3 keeps the
    sign), so [ovf] is set before any negative length is shifted. *)
Fixpoint get_next_length_loop (fuel : nat) (length list : Z) : P (Z * Z) :=
  match fuel with
  | O => out_of_fuel
  | S fuel' =>
      e <- at_end ;;
      if (e : bool) then ret (length, list) else
      byte <- sml_buf_get_current_byte ;;
      length1 <- int_op (length * 16) ;;
      let length2 := Z.lor length1 (Z.land byte SML_LENGTH_FIELD) in
      if negb (Z.land byte SML_ANOTHER_TL =? SML_ANOTHER_TL) then ret (length2, list)
      else
        sml_buf_update_bytes_read 1 ;;;
        list1 <- (if negb (list =? 0) then int_op (list + -1) else ret list) ;;
        get_next_length_loop fuel' length2 list1
  end.

(** Fuel for a loop that consumes at least one byte per iteration. *)
Definition fuel_of (s : sbuf) : nat := S (S (buffer_len s - cursor s)).
Definition with_fuel {A} (f : nat -> P A) : P A := fun s => f (fuel_of s) s.

(** sml_shared.c:23-55 *)
Definition sml_buf_get_next_length : P Z :=
  e <- at_end ;;
  if (e : bool) then set_error ;;; ret (-1) else
  byte <- sml_buf_get_current_byte ;;
  let list := if Z.land byte SML_TYPE_FIELD =? SML_TYPE_LIST then 0 else -1 in
  ll <- with_fuel (fun fuel => get_next_length_loop fuel 0 list) ;;
  e <- at_end ;;
  if (e : bool) then set_error ;;; ret (-1) else
  sml_buf_update_bytes_read 1 ;;;
  int_op (fst ll + snd ll).

(** sml_shared.c:145-163; the inner re-check of the bound (153-156) is kept. *)
Definition sml_buf_optional_is_skipped : P Z :=
  e <- at_end ;;
  if (e : bool) then set_error ;;; ret (-1) else
  b <- sml_buf_get_current_byte ;;
  if b =? SML_OPTIONAL_SKIPPED then
    e <- at_end ;;
    if (e : bool) then set_error ;;; ret (-1) else
    sml_buf_update_bytes_read 1 ;;; ret 1
  else ret 0.

(** "if (sml_buf_optional_is_skipped(buf)) return NULL;" followed by [k]. *)
Definition unless_skipped {A} (k : P (option A)) : P (option A) :=
  sk <- sml_buf_optional_is_skipped ;;
  if negb (sk =? 0) then ret None else k.

(** sml_shared.c:119-128; malloc is assumed to succeed. *)
Definition sml_buffer_init (length : nat) : sbuf := mkBuf (repeat 0 length) 0 false false.

(** *** Writing *)

(** buf->buffer[buf->cursor] = v *)
Definition store_current (v : Z) : P unit := fun s =>
  if (cursor s <? buffer_len s)%nat
  then Ret (tt, set_buffer (upd (buffer s) (cursor s) (to_u8 v)) s)
  else Fault OobWrite.

(** buf->buffer[buf->cursor] |= v *)
Definition or_current (v : Z) : P unit := fun s =>
  match nth_error (buffer s) (cursor s) with
  | Some b => Ret (tt, set_buffer (upd (buffer s) (cursor s) (to_u8 (Z.lor b v))) s)
  | None => Fault OobWrite
  end.

(** buf->cursor++ *)
Definition inc_cursor : P unit := fun s => Ret (tt, set_cursor (S (cursor s)) s).

(** memcpy(sml_buf_get_current_buf(buf), bs, len) without moving the cursor. *)
Definition write_current (bs : list Z) : P unit := fun s =>
  if (cursor s + length bs <=? buffer_len s)%nat
  then Ret (tt, set_buffer (upds (buffer s) (cursor s) bs) s)
  else Fault OobWrite.

(** sml_shared.c:75-78; at most 8 iterations because l <> 0. *)
Fixpoint find_mask (fuel : nat) (mask mask_pos l : Z) : P (Z * Z) :=
  match fuel with
  | O => out_of_fuel
  | S fuel' =>
      if Z.land mask l =? 0
      then find_mask fuel' (Z.shiftr mask 4) (mask_pos - 1) l
      else ret (mask, mask_pos)
  end.

(** sml_shared.c:90-96.  The shift count 4*mask_pos is non-negative here. *)
Fixpoint copy_nibbles (fuel : nat) (mask mask_pos l : Z) : P unit :=
  match fuel with
  | O => out_of_fuel
  | S fuel' =>
      if mask >? SML_LENGTH_FIELD then
        or_current SML_ANOTHER_TL ;;;
        or_current (Z.shiftr (Z.land mask l) (4 * mask_pos)) ;;;
        inc_cursor ;;;
        copy_nibbles fuel' (Z.shiftr mask 4) (mask_pos - 1) l
      else ret tt
  end.

(** sml_shared.c:57-101.  [type] and [l] are unsigned int.  "0xF0 << 24" (line
    71) does not fit an int and neither does "0x0F << 28" (line 82 with
    mask_pos = 6): strictly undefined, noted in [ovf], value as computed by
    every two's-complement compiler.  "0x0F << 32" (mask_pos = 7, lengths of
    2^28 and more) is a fault. *)
Definition sml_buf_set_type_and_length (type l : Z) : P unit :=
  store_current type ;;;
  let l := if negb (type =? SML_TYPE_LIST) then to_u32 (l + 1) else l in
  l <- (if l >? SML_LENGTH_FIELD then
     (fun s => Ret (tt, set_ovf true s)) ;;;           (* 0xF0 << 24 *)
     mp <- find_mask 9 4026531840 7 l ;;
     let mask := fst mp in
     let mask_pos := snd mp in
     let l := to_u32 (l + mask_pos) in
     if 8 <=? mask_pos + 1 then fail ShiftCount else
     (* conversion of the int 0x0F << n to unsigned for the & *)
     let probe := to_u32 (Z.shiftl 15 (4 * (mask_pos + 1))) in
     let rare := negb (Z.land probe l =? 0) in
     let mask_pos := if rare then mask_pos + 1 else mask_pos in
     let l := if rare then to_u32 (l + 1) else l in
     copy_nibbles 9 mask mask_pos l ;;;
     ret l
   else ret l) ;;
  or_current (Z.land l SML_LENGTH_FIELD) ;;;
  inc_cursor.

(** sml_shared.c:130-133 *)
Definition sml_buf_optional_write : P unit :=
  store_current SML_OPTIONAL_SKIPPED ;;; inc_cursor.

(** "if (x == 0) { sml_buf_optional_write(buf); return; }" followed by [k]. *)
Definition write_opt {A} (x : option A) (k : A -> P unit) : P unit :=
  match x with
  | None => sml_buf_optional_write
  | Some v => k v
  end.

(** Idioms of the record parsers.  [field p k]: "x = p(buf); if
    (sml_buf_has_errors(buf)) goto error;" then [k x]; the label "error" frees
    and returns NULL.  [expect_list n k]: "if (sml_buf_get_next_type(buf) !=
    SML_TYPE_LIST) {buf->error = 1; goto error;} if (sml_buf_get_next_length(buf)
    != n) {buf->error = 1; goto error;}" then [k]. *)
Definition field {A B} (p : P A) (k : A -> P (option B)) : P (option B) :=
  v <- p ;;
  e <- sml_buf_has_errors ;;
  if (e : bool) then ret None else k v.

Definition expect_list {B} (n : Z) (k : P (option B)) : P (option B) :=
  t <- sml_buf_get_next_type ;;
  if negb (t =? SML_TYPE_LIST) then err_null else
  l <- sml_buf_get_next_length ;;
  if negb (l =? n) then err_null else k.

(** A label "error: buf->error = 1; ... return NULL" at the end of a function
    whose only NULL results come through that label. *)
Definition error_label {A} (m : P (option A)) : P (option A) :=
  r <- m ;;
  match r with
  | Some v => ret (Some v)
  | None => err_null
  end.

Notation "x <-? p ;; k" := (field p (fun x => k))
  (at level 62, p at next level, right associativity).
