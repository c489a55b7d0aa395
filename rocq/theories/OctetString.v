(** Model of sml/src/sml_octet_string.c. *)
From Verif Require Import Base Buf.

(** sml_octet_string.h, struct octet_string: [str] and [len].  Every function of
    the library keeps [len] equal to the size of the block and [str] NULL iff
    [len] is 0 (sml_octet_string.c:35-45), so the content alone represents it. *)
Definition octet_string : Type := list Z.

(** sml_octet_string.c:35-45.  [str] points to at least [length] bytes. *)
Definition sml_octet_string_init (str : list Z) (length : Z) : octet_string :=
  if length >? 0 then firstn (Z.to_nat length) str else [].

(** sml_octet_string.c:143-154 *)
Definition ctoi (c : Z) : Z :=
  if (48 <=? c) && (c <=? 57) then c - 48
  else if (97 <=? c) && (c <=? 102) then c - 97 + 10
  else if (65 <=? c) && (c <=? 70) then c - 65 + 10
  else 0.

(** sml_octet_string.c:156, 158 *)
Definition c2toi (c1 c2 : Z) : Z := to_u8 (Z.lor (Z.shiftl (ctoi c1) 4) (ctoi c2)).

(** sml_octet_string.c:53-55, the loop over the digit pairs. *)
Fixpoint hex_pairs (str : list Z) : list Z :=
  match str with
  | c1 :: c2 :: t => c2toi c1 c2 :: hex_pairs t
  | _ => []
  end.

(** sml_octet_string.c:47-57.  [str] is the text without the terminating NUL.
    Simplification: the variable length array of size 0 for an empty text
    (strictly undefined, harmless in practice) is not a fault here. *)
Definition sml_octet_string_init_from_hex (str : list Z) : option octet_string :=
  let len := Z.of_nat (length str) in
  if negb (len mod 2 =? 0) then None
  else Some (sml_octet_string_init (hex_pairs str) (len / 2)).

(** sml_octet_string.c:68-89.  In line 80 [l] is converted to size_t and
    compared with the (wrapping) difference. *)
Definition sml_octet_string_parse : P (option octet_string) :=
  unless_skipped (
  t <- sml_buf_get_next_type ;;
  if negb (t =? SML_TYPE_OCTET_STRING) then err_null else
  l <- sml_buf_get_next_length ;;
  bad <- (fun s => Ret ((l <? 0) || (size_sub (buffer_len s) (cursor s) <=? to_size l), s)) ;;
  if (bad : bool) then err_null else
  str <- read_current (Z.to_nat l) ;;
  sml_buf_update_bytes_read l ;;;
  ret (Some (sml_octet_string_init str l))).

(** sml_octet_string.c:91-100 *)
Definition sml_octet_string_write (str : option octet_string) : P unit :=
  write_opt str (fun v =>
    let len := Z.of_nat (length v) in
    sml_buf_set_type_and_length SML_TYPE_OCTET_STRING (to_u32 len) ;;;
    write_current v ;;;
    sml_buf_update_bytes_read len).

(** memcmp on equally long arrays: sign of the first difference. *)
Fixpoint memcmp (a b : list Z) : Z :=
  match a, b with
  | x :: a', y :: b' => if x =? y then memcmp a' b' else x - y
  | _, _ => 0
  end.

(** sml_octet_string.c:125-130; both arguments are dereferenced. *)
Definition sml_octet_string_cmp (s1 s2 : option octet_string) : outcome Z :=
  match s1, s2 with
  | Some a, Some b =>
      if negb (Z.of_nat (length a) =? Z.of_nat (length b)) then Ret (-1) else Ret (memcmp a b)
  | _, _ => Fault NullDeref
  end.

(** sml_octet_string.c:132-141 *)
Definition sml_octet_string_cmp_with_hex (str : option octet_string) (hex : list Z) : outcome Z :=
  match str, sml_octet_string_init_from_hex hex with
  | Some a, Some h =>
      if negb (Z.of_nat (length a) =? Z.of_nat (length h)) then Ret (-1) else Ret (memcmp a h)
  | _, _ => Fault NullDeref
  end.
