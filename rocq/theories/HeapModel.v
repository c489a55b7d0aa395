(** The parsers and the free functions once more, with pointers: every struct,
    number, text and array is a block of the heap, fields are stored and loaded
    through pointers, error paths call the free functions.  The buffer functions
    (sml_shared.c) are those of Buf.v. *)
From stdpp Require Import gmap.
From Verif Require Import Base Buf Crc16 Number OctetString Boolean Value Time SList Tree Bodies
  Message File HeapBase.

Section WithHost.
Context {HO : Host} {AL : Allocator} {ME : Memory}.

Definition hwith_fuel {A} (f : nat -> H A) : H A := fun st => f (fuel_of (hbuf st)) st.

(** *** sml_number.c *)

(** sml_number.c:147-151 *)
Definition h_number_free (np : slot) : H unit := free np.

(** sml_number.c:46-66 *)
Definition h_number_init (number : Z) (size : nat) : H slot := try_malloc (Bytes (sml_number_init number size)).

(** sml_number.c:68-129 *)
Definition h_number_parse (type max_size : Z) : H slot :=
  hunless_skipped (
  e <- lift at_end ;;
  if (e : bool) then herr_null else
  t <- lift sml_buf_get_next_type ;;
  if negb (t =? type) then herr_null else
  l <- lift sml_buf_get_next_length ;;
  if (l <? 0) || (l >? max_size) then herr_null else
  np <- malloc (Bytes (repeat 0 (Z.to_nat max_size))) ;;
  short <- lift (fun s => Ret ((buffer_len s <? cursor s + Z.to_nat l)%nat, s)) ;;
  if (short : bool) then lift set_error ;;; free np ;;; ret Nul else
  e <- lift at_end ;;
  if (e : bool) then lift set_error ;;; free np ;;; ret Nul else
  b <- lift sml_buf_get_current_byte ;;
  let negative_int := (type =? SML_TYPE_INTEGER) && negb (Z.land b 128 =? 0) in
  let missing_bytes := Z.to_nat (max_size - l) in
  data <- lift (read_current (Z.to_nat l)) ;;
  let bs := repeat (if negative_int then 255 else 0) missing_bytes ++ data in
  let bs := match sml_number_endian with
            | BigEndian => bs
            | LittleEndian => sml_number_byte_swap bs
            end in
  store_bytes np bs ;;;
  lift (sml_buf_update_bytes_read l) ;;;
  ret np).
Definition h_u8_parse := h_number_parse SML_TYPE_UNSIGNED 1.
Definition h_u16_parse := h_number_parse SML_TYPE_UNSIGNED 2.
Definition h_u32_parse := h_number_parse SML_TYPE_UNSIGNED 4.
Definition h_u64_parse := h_number_parse SML_TYPE_UNSIGNED 8.
Definition h_i8_parse := h_number_parse SML_TYPE_INTEGER 1.
Definition h_i16_parse := h_number_parse SML_TYPE_INTEGER 2.
Definition h_i64_parse := h_number_parse SML_TYPE_INTEGER 8.

(** *** sml_octet_string.c; struct octet_string: 0 = str, 1 = len *)

(** sml_octet_string.c:35-45 *)
Definition h_octet_string_init (str : list Z) (length : Z) : H slot :=
  s <- malloc (Struct [Nul; Int 0]) ;;
  (if length >? 0 then
     d <- malloc (Bytes (firstn (Z.to_nat length) str)) ;;
     store s 0 d ;;;
     store s 1 (Int length)
   else ret tt) ;;;
  ret s.

(** sml_octet_string.c:59-66 *)
Definition h_octet_string_free (str : slot) : H unit :=
  if_ptr str (d <- load str 0 ;; if_ptr d (free d) ;;; free str).

(** sml_octet_string.c:68-89 *)
Definition h_octet_string_parse : H slot :=
  hunless_skipped (
  t <- lift sml_buf_get_next_type ;;
  if negb (t =? SML_TYPE_OCTET_STRING) then herr_null else
  l <- lift sml_buf_get_next_length ;;
  bad <- lift (fun s => Ret ((l <? 0) || (size_sub (buffer_len s) (cursor s) <=? to_size l), s)) ;;
  if (bad : bool) then herr_null else
  bs <- lift (read_current (Z.to_nat l)) ;;
  str <- h_octet_string_init bs l ;;
  lift (sml_buf_update_bytes_read l) ;;;
  ret str).

(** *** sml_boolean.c *)

(** sml_boolean.c:29-56 *)
Definition h_boolean_parse : H slot :=
  hunless_skipped (
  t <- lift sml_buf_get_next_type ;;
  if negb (t =? SML_TYPE_BOOLEAN) then herr_null else
  l <- lift sml_buf_get_next_length ;;
  if negb (l =? 1) then herr_null else
  e <- lift at_end ;;
  if (e : bool) then herr_null else
  b <- lift sml_buf_get_current_byte ;;
  lift (sml_buf_update_bytes_read 1) ;;;
  malloc (Bytes [sml_boolean_init (if negb (b =? 0) then SML_BOOLEAN_TRUE else SML_BOOLEAN_FALSE)])).
(** sml_boolean.c:73-77 *)
Definition h_boolean_free (b : slot) : H unit := free b.

(** *** sml_value.c; struct sml_value: 0 = type, 1 = data *)

(** sml_value.c:92-107; the switch compares the whole type. *)
Definition h_value_free (value : slot) : H unit :=
  if_ptr value (
  type <- load_int value 0 ;;
  (if type =? SML_TYPE_OCTET_STRING then d <- load value 1 ;; h_octet_string_free d
   else if type =? SML_TYPE_BOOLEAN then d <- load value 1 ;; h_boolean_free d
   else d <- load value 1 ;; h_number_free d) ;;;
  free value).

(** sml_value.c:23-62 *)
Definition h_value_parse : H slot :=
  hunless_skipped (
  type <- lift sml_buf_get_next_type ;;
  byte <- lift sml_buf_get_current_byte ;;
  value <- malloc (Struct [Int SML_TYPE_OCTET_STRING; Nul]) ;;
  store value 0 (Int (to_u8 type)) ;;;
  (if type =? SML_TYPE_OCTET_STRING then
     d <- h_octet_string_parse ;; store value 1 d
   else if type =? SML_TYPE_BOOLEAN then
     d <- h_boolean_parse ;; store value 1 d
   else if (type =? SML_TYPE_UNSIGNED) || (type =? SML_TYPE_INTEGER) then
     max <- lift (number_width byte) ;;
     d <- h_number_parse type max ;;
     store value 1 d ;;;
     t <- load_int value 0 ;;
     store value 0 (Int (to_u8 (Z.lor t max)))
   else
     lift set_error) ;;;
  e <- lift sml_buf_has_errors ;;
  if (e : bool) then h_value_free value ;;; ret Nul else ret value).

(** *** sml_status.c; struct sml_status: 0 = type, 1 = data *)

(** sml_status.c:70-75 *)
Definition h_status_free (status : slot) : H unit :=
  if_ptr status (d <- load status 1 ;; h_number_free d ;;; free status).

(** sml_status.c:30-59 *)
Definition h_status_parse : H slot :=
  hunless_skipped (
  type <- lift sml_buf_get_next_type ;;
  byte <- lift sml_buf_get_current_byte ;;
  status <- malloc (Struct [Int SML_TYPE_UNSIGNED; Nul]) ;;
  store status 0 (Int (to_u8 type)) ;;;
  (if type =? SML_TYPE_UNSIGNED then
     max <- lift (number_width byte) ;;
     d <- h_number_parse type max ;;
     store status 1 d ;;;
     t <- load_int status 0 ;;
     store status 0 (Int (to_u8 (Z.lor t max)))
   else
     lift set_error) ;;;
  e <- lift sml_buf_has_errors ;;
  if (e : bool) then h_status_free status ;;; ret Nul else ret status).

(** *** sml_time.c; struct sml_time: 0 = tag, 1 = data *)

(** sml_time.c:131-137 *)
Definition h_time_free : slot -> H unit := free_struct [h_number_free; h_number_free].

(** sml_time.c:62-117 *)
Definition h_time_value (tme : slot) : H slot :=
  type <- lift sml_buf_get_next_type ;;
  if type =? SML_TYPE_UNSIGNED then
    hfield tme 1 h_u32_parse (on_error h_time_free tme) (ret tme)
  else if type =? SML_TYPE_LIST then
    lift sml_buf_get_next_length ;;;
    t1 <- h_u32_parse ;;
    e <- lift sml_buf_has_errors ;;
    if (e : bool) then if_ptr t1 (h_number_free t1) ;;; on_error h_time_free tme else
    t2 <- h_i16_parse ;;
    e <- lift sml_buf_has_errors ;;
    if (e : bool) then
      if_ptr t1 (h_number_free t1) ;;; if_ptr t2 (h_number_free t2) ;;; on_error h_time_free tme else
    t3 <- h_i16_parse ;;
    e <- lift sml_buf_has_errors ;;
    if (e : bool) then
      if_ptr t1 (h_number_free t1) ;;; if_ptr t2 (h_number_free t2) ;;; if_ptr t3 (h_number_free t3) ;;;
      on_error h_time_free tme else
    if_ptr t1 (load_bytes t1 ;;; ret tt) ;;;       (* the values are printed *)
    if_ptr t2 (load_bytes t2 ;;; ret tt) ;;;
    if_ptr t3 (load_bytes t3 ;;; ret tt) ;;;
    if_ptr t1 (h_number_free t1) ;;; if_ptr t2 (h_number_free t2) ;;; if_ptr t3 (h_number_free t3) ;;;
    ret tme
  else on_error h_time_free tme.

(** sml_time.c:30-118 *)
Definition h_time_parse : H slot :=
  hunless_skipped (
  tme <- malloc (Struct [Nul; Nul]) ;;
  b <- lift sml_buf_get_current_byte ;;
  if b =? Z.lor SML_TYPE_UNSIGNED 5 then
    tag <- malloc (Bytes [SML_TIME_SEC_INDEX]) ;;
    store tme 0 tag ;;;
    h_time_value tme
  else
    hexpect_list 2 (on_error h_time_free tme) (
    hfield tme 0 h_u8_parse (on_error h_time_free tme) (h_time_value tme))).

(** *** sml_list.c: sequences; struct sml_sequence: 0 = elems, 1 = elems_len.
    The function pointer elem_free is passed along instead of being stored. *)

(** sml_list.c:77-90 *)
Definition h_sequence_free (elem_free : slot -> H unit) (seq : slot) : H unit :=
  if_ptr seq (
  n <- load_int seq 1 ;;
  elems <- load seq 0 ;;
  for_each (Z.to_nat n) 0 elems elem_free ;;;
  if_ptr elems (free elems) ;;;
  free seq).

(** sml_list.c:45-51 *)
Fixpoint h_sequence_loop (fuel : nat) (n : Z) (seq : slot) (elem_parse : H slot)
  (elem_free : slot -> H unit) : H slot :=
  if n <=? 0 then ret seq else
  match fuel with
  | O => out_of_fuel
  | S fuel' =>
      p <- elem_parse ;;
      e <- lift sml_buf_has_errors ;;
      if (e : bool) then h_sequence_free elem_free seq ;;; herr_null else
      append seq 0 p ;;;
      h_sequence_loop fuel' (n - 1) seq elem_parse elem_free
  end.

(** sml_list.c:36-60 *)
Definition h_sequence_parse (elem_parse : H slot) (elem_free : slot -> H unit) : H slot :=
  t <- lift sml_buf_get_next_type ;;
  if negb (t =? SML_TYPE_LIST) then herr_null else
  seq <- malloc (Struct [Nul; Int 0]) ;;
  len <- lift sml_buf_get_next_length ;;
  hwith_fuel (fun fuel => h_sequence_loop fuel len seq elem_parse elem_free).

(** *** sml_list.c: lists; struct sml_list: 0 = obj_name, 1 = status, 2 =
    val_time, 3 = unit, 4 = scaler, 5 = value, 6 = value_signature, 7 = next *)

(** sml_list.c:334-346 *)
Definition h_list_entry_free : slot -> H unit :=
  free_struct [h_octet_string_free; h_status_free; h_time_free; h_number_free; h_number_free;
               h_value_free; h_octet_string_free].

(** sml_list.c:353-359 *)
Fixpoint h_list_free_loop (fuel : nat) (f n : slot) : H unit :=
  match fuel with
  | O => out_of_fuel
  | S fuel' =>
      if_ptr f (
      h_list_entry_free f ;;;
      let f := n in
      n <- match f with Nul => ret n | _ => load f 7 end ;;
      h_list_free_loop fuel' f n)
  end.
(** sml_list.c:348-361 *)
Definition h_list_free (list : slot) : H unit :=
  if_ptr list (
  n <- load list 7 ;;
  with_heap_fuel (fun fuel => h_list_free_loop fuel list n)).

(** "l->obj_name && l->obj_name->len == 6 && !memcmp(l->obj_name->str, name, 6)" *)
Definition h_name_is (l : slot) (name : list Z) : H bool :=
  o <- load l 0 ;;
  match o with
  | Nul => ret false
  | _ =>
      len <- load_int o 1 ;;
      if negb (len =? Z.of_nat (length name)) then ret false else
      str <- load o 0 ;;
      bs <- load_bytes str ;;
      ret (memcmp bs name =? 0)
  end.

(** sml_list.c:116-166 *)
Definition h_detect_buggy_dzg_dvs74 (l : slot) : H bool :=
  n <- h_name_is l dzg_serial_oid ;;
  if negb n then ret false else
  value <- load l 5 ;;
  match value with
  | Nul => ret false
  | _ =>
      type <- load_int value 0 ;;
      if negb (type =? SML_TYPE_OCTET_STRING) then ret false else
      bytes <- load value 1 ;;
      len <- load_int bytes 1 ;;
      if negb (len =? DZG_SERIAL_LENGTH) then ret false else
      str <- load bytes 0 ;;
      val <- load_bytes str ;;
      if negb (memcmp (firstn 5 val) dzg_serial_start =? 0) then ret false else
      let serial := serial_of val in
      ret (existsb (fun r => (fst r <=? serial) && (serial <=? snd r)) broken_dvs74_ranges)
  end.

(** The counter of [hstate]: not in the code.  Counts if the value has been an
    octet string with a text. *)
Definition count_confusion (type : Z) (value : slot) : H unit :=
  if type =? SML_TYPE_OCTET_STRING then
    d <- load value 1 ;;
    match d with
    | Nul => ret tt
    | _ => str <- load d 0 ;;
           match str with
           | Nul => ret tt
           | _ => fun st => Ret (tt, mkH (hbuf st) (hmem st) (S (hconf st)) (hpeak st))
           end
    end
  else ret tt.

(** sml_list.c:249-257 *)
Definition h_apply_workaround (w : bool) (value_len_more : Z) (l : slot) : H bool :=
  d <- h_detect_buggy_dzg_dvs74 l ;;
  if (d : bool) then ret true
  else
    if negb w then ret w else
    n <- h_name_is l dzg_power_name ;;
    if negb n then ret w else
    value <- load l 5 ;;
    match value with
    | Nul => ret w
    | _ =>
        if (value_len_more =? 1) || (value_len_more =? 2) || (value_len_more =? 3) then
          t <- load_int value 0 ;;
          store value 0 (Int (Z.ldiff t SML_TYPE_FIELD)) ;;;
          t' <- load_int value 0 ;;
          store value 0 (Int (Z.lor t' SML_TYPE_UNSIGNED)) ;;;
          count_confusion t value ;;;
          ret w
        else ret w
    end.

(** sml_list.c:172-267.  Result: the new entry (NULL on an error) and the state
    of the workaround. *)
Definition h_list_entry_parse (w : bool) : H (slot * bool) :=
  hexpect_list 7 (lift set_error ;;; ret (Nul, w)) (       (* l is still NULL *)
  l <- malloc (Struct [Nul; Nul; Nul; Nul; Nul; Nul; Nul; Nul]) ;;
  let err := lift set_error ;;; if_ptr l (h_list_free l) ;;; ret (Nul, w) in
  hfield l 0 h_octet_string_parse err (
  hfield l 1 h_status_parse err (
  hfield l 2 h_time_parse err (
  hfield l 3 h_u8_parse err (
  hfield l 4 h_i8_parse err (
  e <- lift at_end ;;
  if (e : bool) then err else
  value_tl <- lift sml_buf_get_current_byte ;;
  let value_len_more := Z.land value_tl (Z.lor SML_ANOTHER_TL SML_LENGTH_FIELD) in
  hfield l 5 h_value_parse err (
  hfield l 6 h_octet_string_parse err (
  w' <- h_apply_workaround w value_len_more l ;;
  ret (l, w'))))))))).

(** sml_list.c:285-298.  [pos] is where "*pos" is: the variable ret itself (as
    long as [last] is NULL) or the member next of the entry [last]. *)
Fixpoint h_list_loop (fuel : nat) (elems : Z) (w : bool) (head last : slot) : H slot :=
  if elems <=? 0 then ret head else
  match fuel with
  | O => out_of_fuel
  | S fuel' =>
      r <- h_list_entry_parse w ;;
      head' <- match last with Nul => ret (fst r) | _ => store last 7 (fst r) ;;; ret head end ;;
      e <- lift sml_buf_has_errors ;;
      if (e : bool) then lift set_error ;;; h_list_free head' ;;; ret Nul else
      load (fst r) 7 ;;;                          (* line 289: &( *pos)->next *)
      h_list_loop fuel' (elems - 1) (snd r) head' (fst r)
  end.

(** sml_list.c:269-299 *)
Definition h_list_parse : H slot :=
  hunless_skipped (
  t <- lift sml_buf_get_next_type ;;
  if negb (t =? SML_TYPE_LIST) then herr_null else
  elems <- lift sml_buf_get_next_length ;;
  hwith_fuel (fun fuel => h_list_loop fuel elems false Nul Nul)).

(** *** sml_tree.c *)

(** struct sml_tree_path: 0 = path_entries, 1 = path_entries_len;
    sml_tree.c:86-100 *)
Definition h_tree_path_free (tree_path : slot) : H unit :=
  if_ptr tree_path (
  entries <- load tree_path 0 ;;
  n <- load_int tree_path 1 ;;
  (match entries with
   | Nul => ret tt
   | _ => if n >? 0 then for_each (Z.to_nat n) 0 entries h_octet_string_free ;;; free entries else ret tt
   end) ;;;
  free tree_path).

(** sml_tree.c:46-54 *)
Fixpoint h_tree_path_loop (fuel : nat) (elems : Z) (tree_path : slot) : H slot :=
  if elems <=? 0 then ret tree_path else
  match fuel with
  | O => out_of_fuel
  | S fuel' =>
      s <- h_octet_string_parse ;;
      e <- lift sml_buf_has_errors ;;
      if (e : bool) then on_error_set h_tree_path_free tree_path else
      if_ptr s (append tree_path 0 s) ;;;
      h_tree_path_loop fuel' (elems - 1) tree_path
  end.

(** sml_tree.c:32-60 *)
Definition h_tree_path_parse : H slot :=
  hunless_skipped (
  tree_path <- malloc (Struct [Nul; Int 0]) ;;
  t <- lift sml_buf_get_next_type ;;
  if negb (t =? SML_TYPE_LIST) then on_error_set h_tree_path_free tree_path else
  elems <- lift sml_buf_get_next_length ;;
  hwith_fuel (fun fuel => h_tree_path_loop fuel elems tree_path)).

(** sml_tree.c:496-530 *)
Definition h_tupel_entry_free : slot -> H unit :=
  free_struct [h_octet_string_free; h_time_free; h_number_free;
               h_number_free; h_number_free; h_number_free;
               h_number_free; h_number_free; h_number_free;
               h_number_free; h_number_free; h_number_free;
               h_octet_string_free;
               h_number_free; h_number_free; h_number_free;
               h_number_free; h_number_free; h_number_free;
               h_number_free; h_number_free; h_number_free;
               h_octet_string_free].

(** sml_tree.c:353-453 *)
Definition h_tupel_entry_parse : H slot :=
  hunless_skipped (
  p <- malloc (Struct (repeat Nul 23)) ;;
  let err := on_error h_tupel_entry_free p in
  hexpect_list 23 err (
  hfield p 0 h_octet_string_parse err (
  hfield p 1 h_time_parse err (
  hfield p 2 h_u64_parse err (
  hfield p 3 h_u8_parse err (
  hfield p 4 h_i8_parse err (
  hfield p 5 h_i64_parse err (
  hfield p 6 h_u8_parse err (
  hfield p 7 h_i8_parse err (
  hfield p 8 h_i64_parse err (
  hfield p 9 h_u8_parse err (
  hfield p 10 h_i8_parse err (
  hfield p 11 h_i64_parse err (
  hfield p 12 h_octet_string_parse err (
  hfield p 13 h_u8_parse err (
  hfield p 14 h_i8_parse err (
  hfield p 15 h_i64_parse err (
  hfield p 16 h_u8_parse err (
  hfield p 17 h_i8_parse err (
  hfield p 18 h_i64_parse err (
  hfield p 19 h_u8_parse err (
  hfield p 20 h_i8_parse err (
  hfield p 21 h_i64_parse err (
  hfield p 22 h_octet_string_parse err (
  ret p))))))))))))))))))))))))).

(** sml_tree.c:605-617 *)
Definition h_period_entry_free : slot -> H unit :=
  free_struct [h_octet_string_free; h_number_free; h_number_free; h_value_free; h_octet_string_free].

(** sml_tree.c:544-586 *)
Definition h_period_entry_parse : H slot :=
  hunless_skipped (
  p <- malloc (Struct (repeat Nul 5)) ;;
  let err := on_error h_period_entry_free p in
  hexpect_list 5 err (
  hfield p 0 h_octet_string_parse err (
  hfield p 1 h_u8_parse err (
  hfield p 2 h_i8_parse err (
  hfield p 3 h_value_parse err (
  hfield p 4 h_octet_string_parse err (
  ret p))))))).

(** struct sml_proc_par_value: 0 = tag, 1 = data; sml_tree.c:289-320 *)
Definition h_proc_par_value_free (ppv : slot) : H unit :=
  if_ptr ppv (
  tag <- load ppv 0 ;;
  d <- load ppv 1 ;;
  (match tag with
   | Nul => if_ptr d (free d)
   | _ =>
       m <- load_bytes tag ;;
       let t := mem_u m in
       (if t =? SML_PROC_PAR_VALUE_TAG_VALUE then h_value_free d
        else if t =? SML_PROC_PAR_VALUE_TAG_PERIOD_ENTRY then h_period_entry_free d
        else if t =? SML_PROC_PAR_VALUE_TAG_TUPEL_ENTRY then h_tupel_entry_free d
        else if t =? SML_PROC_PAR_VALUE_TAG_TIME then h_time_free d
        else if_ptr d (free d)) ;;;
       h_number_free tag
   end) ;;;
  free ppv).

(** sml_tree.c:216-260 *)
Definition h_proc_par_value_parse : H slot :=
  hunless_skipped (
  p <- malloc (Struct [Nul; Nul]) ;;
  let err := on_error h_proc_par_value_free p in
  hexpect_list 2 err (
  tag <- h_u8_parse ;;
  store p 0 tag ;;;
  e <- lift sml_buf_has_errors ;;
  if (e : bool) then err else
  match tag with
  | Nul => err
  | _ =>
      m <- load_bytes tag ;;
      let t := mem_u m in
      if t =? SML_PROC_PAR_VALUE_TAG_VALUE then d <- h_value_parse ;; store p 1 d ;;; ret p
      else if t =? SML_PROC_PAR_VALUE_TAG_PERIOD_ENTRY then d <- h_period_entry_parse ;; store p 1 d ;;; ret p
      else if t =? SML_PROC_PAR_VALUE_TAG_TUPEL_ENTRY then d <- h_tupel_entry_parse ;; store p 1 d ;;; ret p
      else if t =? SML_PROC_PAR_VALUE_TAG_TIME then d <- h_time_parse ;; store p 1 d ;;; ret p
      else lift set_error ;;; err
  end)).

(** struct s_tree: 0 = parameter_name, 1 = parameter_value, 2 = child_list, 3 =
    child_list_len; sml_tree.c:171-183.  [depth] is the fuel of the recursion. *)
Fixpoint h_tree_free_rec (depth : nat) (tree : slot) : H unit :=
  match depth with
  | O => out_of_fuel
  | S depth' =>
      if_ptr tree (
      name <- load tree 0 ;; h_octet_string_free name ;;;
      value <- load tree 1 ;; h_proc_par_value_free value ;;;
      n <- load_int tree 3 ;;
      children <- load tree 2 ;;
      for_each (Z.to_nat n) 0 children (h_tree_free_rec depth') ;;;
      free children ;;;
      free tree)
  end.
Definition h_tree_free (tree : slot) : H unit := with_heap_fuel (fun fuel => h_tree_free_rec fuel tree).

(** sml_tree.c:142-155, the loop over the children *)
Fixpoint h_children_loop (fuel : nat) (elems : Z) (tree : slot) (parse : H slot) : H slot :=
  if elems <=? 0 then ret tree else
  match fuel with
  | O => out_of_fuel
  | S fuel' =>
      c <- parse ;;
      e <- lift sml_buf_has_errors ;;
      if (e : bool) then if_ptr c (h_tree_free c) ;;; on_error h_tree_free tree else
      if_ptr c (append tree 2 c) ;;;
      h_children_loop fuel' (elems - 1) tree parse
  end.

(** sml_tree.c:111-162 *)
Fixpoint h_tree_parse_rec (depth : nat) : H slot :=
  match depth with
  | O => out_of_fuel
  | S depth' =>
      hunless_skipped (
      p <- malloc (Struct [Nul; Nul; Nul; Int 0]) ;;
      let err := on_error h_tree_free p in
      hexpect_list 3 err (
      hfield p 0 h_octet_string_parse err (
      hfield p 1 h_proc_par_value_parse err (
      sk <- lift sml_buf_optional_is_skipped ;;
      if negb (sk =? 0) then ret p
      else
        t <- lift sml_buf_get_next_type ;;
        if negb (t =? SML_TYPE_LIST) then lift set_error ;;; err else
        elems <- lift sml_buf_get_next_length ;;
        hwith_fuel (fun fuel => h_children_loop fuel elems p (h_tree_parse_rec depth'))))))
  end.
Definition h_tree_parse : H slot := hwith_fuel h_tree_parse_rec.

(** *** The message bodies *)

(** sml_open_request.c:95-107 and 35-81 *)
Definition h_open_request_free : slot -> H unit :=
  free_struct [h_octet_string_free; h_octet_string_free; h_octet_string_free; h_octet_string_free;
               h_octet_string_free; h_octet_string_free; h_number_free].
Definition h_open_request_parse : H slot :=
  p <- malloc (Struct (repeat Nul 7)) ;;
  let err := on_error h_open_request_free p in
  hexpect_list 7 err (
  hfield p 0 h_octet_string_parse err (
  hfield p 1 h_octet_string_parse err (
  hfield p 2 h_octet_string_parse err (
  hfield p 3 h_octet_string_parse err (
  hfield p 4 h_octet_string_parse err (
  hfield p 5 h_octet_string_parse err (
  hfield p 6 h_u8_parse err (
  ret p)))))))).

(** sml_open_response.c:88-99 and 34-75 *)
Definition h_open_response_free : slot -> H unit :=
  free_struct [h_octet_string_free; h_octet_string_free; h_octet_string_free; h_octet_string_free;
               h_time_free; h_number_free].
Definition h_open_response_parse : H slot :=
  p <- malloc (Struct (repeat Nul 6)) ;;
  let err := on_error h_open_response_free p in
  hexpect_list 6 err (
  hfield p 0 h_octet_string_parse err (
  hfield p 1 h_octet_string_parse err (
  hfield p 2 h_octet_string_parse err (
  hfield p 3 h_octet_string_parse err (
  hfield p 4 h_time_parse err (
  hfield p 5 h_u8_parse err (
  ret p))))))).

(** sml_close_request.c:58-63 and 29-51; sml_close_response.c:58-64 and 29-51 *)
Definition h_close_request_free : slot -> H unit := free_struct [h_octet_string_free].
Definition h_close_request_parse : H slot :=
  p <- malloc (Struct (repeat Nul 1)) ;;
  let err := on_error h_close_request_free p in
  hexpect_list 1 err (
  hfield p 0 h_octet_string_parse err (
  ret p)).
Definition h_close_response_free : slot -> H unit := free_struct [h_octet_string_free].
Definition h_close_response_parse : H slot :=
  p <- malloc (Struct (repeat Nul 1)) ;;
  let err := on_error h_close_response_free p in
  hexpect_list 1 err (
  hfield p 0 h_octet_string_parse err (
  ret p)).

(** struct sml_obj_req_entry_list: 0 = object_list_entry, 1 = next;
    sml_get_profile_pack_request.c:159-167 *)
Fixpoint h_object_list_free_loop (fuel : nat) (d : slot) : H unit :=
  match fuel with
  | O => out_of_fuel
  | S fuel' =>
      n <- load d 1 ;;
      e <- load d 0 ;; h_octet_string_free e ;;;
      free d ;;;
      if_ptr n (h_object_list_free_loop fuel' n)
  end.
Definition h_object_list_free (d : slot) : H unit :=
  if_ptr d (with_heap_fuel (fun fuel => h_object_list_free_loop fuel d)).

(** sml_get_profile_pack_request.c:149-172; 0 = server_id, 1 = username, 2 =
    password, 3 = with_rawdata, 4 = begin_time, 5 = end_time, 6 =
    parameter_tree_path, 7 = object_list, 8 = das_details *)
Definition h_get_profile_pack_request_free : slot -> H unit :=
  free_struct [h_octet_string_free; h_octet_string_free; h_octet_string_free; h_boolean_free;
               h_time_free; h_time_free; h_tree_path_free; h_object_list_free; h_tree_free].

(** sml_get_profile_pack_request.c:117-135; [last] as in the code.  [k] is what
    follows the loop. *)
Fixpoint h_object_list_loop (fuel : nat) (i : Z) (p last : slot) (k : H slot) : H slot :=
  if i <=? 0 then k else
  match fuel with
  | O => out_of_fuel
  | S fuel' =>
      n <- malloc (Struct [Nul; Nul]) ;;
      x <- h_octet_string_parse ;;
      store n 0 x ;;;
      e <- lift sml_buf_has_errors ;;
      if (e : bool) then
        if_ptr x (h_octet_string_free x) ;;;
        free n ;;;
        on_error h_get_profile_pack_request_free p
      else
        head <- load p 7 ;;
        (match head with Nul => store p 7 n | _ => store last 1 n end) ;;;
        h_object_list_loop fuel' (i - 1) p n k
  end.

(** sml_get_profile_pack_request.c:69-147 *)
Definition h_get_profile_pack_request_parse : H slot :=
  p <- malloc (Struct (repeat Nul 9)) ;;
  let err := on_error h_get_profile_pack_request_free p in
  hexpect_list 9 err (
  hfield p 0 h_octet_string_parse err (
  hfield p 1 h_octet_string_parse err (
  hfield p 2 h_octet_string_parse err (
  hfield p 3 h_boolean_parse err (
  hfield p 4 h_time_parse err (
  hfield p 5 h_time_parse err (
  hfield p 6 h_tree_path_parse err (
  sk <- lift sml_buf_optional_is_skipped ;;
  let details := hfield p 8 h_tree_parse err (ret p) in
  if negb (sk =? 0) then details
  else
    t <- lift sml_buf_get_next_type ;;
    if negb (t =? SML_TYPE_LIST) then lift set_error ;;; err else
    len <- lift sml_buf_get_next_length ;;
    hwith_fuel (fun fuel => h_object_list_loop fuel len p Nul details))))))))).

(** sml_get_profile_pack_response.c:27-36 and 261-289 *)
Definition h_prof_obj_header_entry_free : slot -> H unit :=
  free_struct [h_octet_string_free; h_number_free; h_number_free].
Definition h_prof_obj_header_entry_parse : H slot :=
  p <- malloc (Struct (repeat Nul 3)) ;;
  let err := on_error_set h_prof_obj_header_entry_free p in
  hexpect_list 3 err (
  hfield p 0 h_octet_string_parse err (
  hfield p 1 h_u8_parse err (
  hfield p 2 h_i8_parse err (
  ret p)))).

(** sml_get_profile_pack_response.c:141-150 and 105-131 *)
Definition h_value_entry_free : slot -> H unit := free_struct [h_value_free; h_octet_string_free].
Definition h_value_entry_parse : H slot :=
  p <- malloc (Struct (repeat Nul 2)) ;;
  let err := on_error_set h_value_entry_free p in
  hexpect_list 2 err (
  hfield p 0 h_value_parse err (
  hfield p 1 h_octet_string_parse err (
  ret p))).

(** sml_get_profile_pack_response.c:72-83 and 38-70 *)
Definition h_prof_obj_period_entry_free : slot -> H unit :=
  free_struct [h_time_free; h_number_free; h_sequence_free h_value_entry_free; h_octet_string_free].
Definition h_prof_obj_period_entry_parse : H slot :=
  p <- malloc (Struct (repeat Nul 4)) ;;
  let err := on_error_set h_prof_obj_period_entry_free p in
  hexpect_list 4 err (
  hfield p 0 h_time_parse err (
  hfield p 1 h_u64_parse err (
  hfield p 2 (h_sequence_parse h_value_entry_parse h_value_entry_free) err (
  hfield p 3 h_octet_string_parse err (
  ret p))))).

(** sml_get_profile_pack_response.c:237-250 and 169-222 *)
Definition h_get_profile_pack_response_free : slot -> H unit :=
  free_struct [h_octet_string_free; h_time_free; h_number_free; h_tree_path_free;
               h_sequence_free h_prof_obj_header_entry_free;
               h_sequence_free h_prof_obj_period_entry_free;
               h_octet_string_free; h_octet_string_free].
Definition h_get_profile_pack_response_parse : H slot :=
  p <- malloc (Struct (repeat Nul 8)) ;;
  let err := on_error_set h_get_profile_pack_response_free p in
  hexpect_list 8 err (
  hfield p 0 h_octet_string_parse err (
  hfield p 1 h_time_parse err (
  hfield p 2 h_u32_parse err (
  hfield p 3 h_tree_path_parse err (
  hfield p 4 (h_sequence_parse h_prof_obj_header_entry_parse h_prof_obj_header_entry_free) err (
  hfield p 5 (h_sequence_parse h_prof_obj_period_entry_parse h_prof_obj_period_entry_free) err (
  hfield p 6 h_octet_string_parse err (
  hfield p 7 h_octet_string_parse err (
  ret p))))))))).

(** sml_get_profile_list_response.c:115-129 and 42-97 *)
Definition h_get_profile_list_response_free : slot -> H unit :=
  free_struct [h_octet_string_free; h_time_free; h_number_free; h_tree_path_free; h_time_free;
               h_number_free; h_sequence_free h_period_entry_free; h_octet_string_free;
               h_octet_string_free].
Definition h_get_profile_list_response_parse : H slot :=
  p <- malloc (Struct (repeat Nul 9)) ;;
  let err := on_error_set h_get_profile_list_response_free p in
  hexpect_list 9 err (
  hfield p 0 h_octet_string_parse err (
  hfield p 1 h_time_parse err (
  hfield p 2 h_u32_parse err (
  hfield p 3 h_tree_path_parse err (
  hfield p 4 h_time_parse err (
  hfield p 5 h_u64_parse err (
  hfield p 6 (h_sequence_parse h_period_entry_parse h_period_entry_free) err (
  hfield p 7 h_octet_string_parse err (
  hfield p 8 h_octet_string_parse err (
  ret p)))))))))).

(** sml_get_proc_parameter_request.c:85-95 and 35-73 *)
Definition h_get_proc_parameter_request_free : slot -> H unit :=
  free_struct [h_octet_string_free; h_octet_string_free; h_octet_string_free; h_tree_path_free;
               h_octet_string_free].
Definition h_get_proc_parameter_request_parse : H slot :=
  p <- malloc (Struct (repeat Nul 5)) ;;
  let err := on_error h_get_proc_parameter_request_free p in
  hexpect_list 5 err (
  hfield p 0 h_octet_string_parse err (
  hfield p 1 h_octet_string_parse err (
  hfield p 2 h_octet_string_parse err (
  hfield p 3 h_tree_path_parse err (
  hfield p 4 h_octet_string_parse err (
  ret p)))))).

(** sml_get_proc_parameter_response.c:70-78 and 31-61 *)
Definition h_get_proc_parameter_response_free : slot -> H unit :=
  free_struct [h_octet_string_free; h_tree_path_free; h_tree_free].
Definition h_get_proc_parameter_response_parse : H slot :=
  p <- malloc (Struct (repeat Nul 3)) ;;
  let err := on_error h_get_proc_parameter_response_free p in
  hexpect_list 3 err (
  hfield p 0 h_octet_string_parse err (
  hfield p 1 h_tree_path_parse err (
  hfield p 2 h_tree_parse err (
  ret p)))).

(** sml_set_proc_parameter_request.c:82-92 and 33-71 *)
Definition h_set_proc_parameter_request_free : slot -> H unit :=
  free_struct [h_octet_string_free; h_octet_string_free; h_octet_string_free; h_tree_path_free;
               h_tree_free].
Definition h_set_proc_parameter_request_parse : H slot :=
  p <- malloc (Struct (repeat Nul 5)) ;;
  let err := on_error h_set_proc_parameter_request_free p in
  hexpect_list 5 err (
  hfield p 0 h_octet_string_parse err (
  hfield p 1 h_octet_string_parse err (
  hfield p 2 h_octet_string_parse err (
  hfield p 3 h_tree_path_parse err (
  hfield p 4 h_tree_parse err (
  ret p)))))).

(** sml_get_list_request.c:88-97 and 43-86.  0 = client_id, 1 = server_id, 2 =
    list_name, 3 = username, 4 = password (the order of the free function). *)
Definition h_get_list_request_free : slot -> H unit :=
  free_struct [h_octet_string_free; h_octet_string_free; h_octet_string_free; h_octet_string_free;
               h_octet_string_free].
Definition h_get_list_request_parse : H slot :=
  p <- malloc (Struct (repeat Nul 5)) ;;
  let err := on_error h_get_list_request_free p in
  hexpect_list 5 err (
  hfield p 0 h_octet_string_parse err (
  hfield p 1 h_octet_string_parse err (
  hfield p 3 h_octet_string_parse err (
  hfield p 4 h_octet_string_parse err (
  hfield p 2 h_octet_string_parse err (
  ret p)))))).

(** sml_get_list_response.c:94-106 and 34-80 *)
Definition h_get_list_response_free : slot -> H unit :=
  free_struct [h_octet_string_free; h_octet_string_free; h_octet_string_free; h_time_free;
               h_list_free; h_octet_string_free; h_time_free].
Definition h_get_list_response_parse : H slot :=
  p <- malloc (Struct (repeat Nul 7)) ;;
  let err := on_error h_get_list_response_free p in
  hexpect_list 7 err (
  hfield p 0 h_octet_string_parse err (
  hfield p 1 h_octet_string_parse err (
  hfield p 2 h_octet_string_parse err (
  hfield p 3 h_time_parse err (
  hfield p 4 h_list_parse err (
  hfield p 5 h_octet_string_parse err (
  hfield p 6 h_time_parse err (
  ret p)))))))).

(** sml_attention_response.c:77-86 and 32-66 *)
Definition h_attention_response_free : slot -> H unit :=
  free_struct [h_octet_string_free; h_octet_string_free; h_octet_string_free; h_tree_free].
Definition h_attention_response_parse : H slot :=
  p <- malloc (Struct (repeat Nul 4)) ;;
  let err := on_error h_attention_response_free p in
  hexpect_list 4 err (
  hfield p 0 h_octet_string_parse err (
  hfield p 1 h_octet_string_parse err (
  hfield p 2 h_octet_string_parse err (
  hfield p 3 h_tree_parse err (
  ret p))))).

(** *** sml_message.c *)

(** struct sml_message_body: 0 = tag, 1 = data; sml_message.c:172-218 *)
Definition h_body_data_parse (tag : Z) : H slot :=
  if tag =? SML_MESSAGE_OPEN_REQUEST then h_open_request_parse
  else if tag =? SML_MESSAGE_OPEN_RESPONSE then h_open_response_parse
  else if tag =? SML_MESSAGE_CLOSE_REQUEST then h_close_request_parse
  else if tag =? SML_MESSAGE_CLOSE_RESPONSE then h_close_response_parse
  else if tag =? SML_MESSAGE_GET_PROFILE_PACK_REQUEST then h_get_profile_pack_request_parse
  else if tag =? SML_MESSAGE_GET_PROFILE_PACK_RESPONSE then h_get_profile_pack_response_parse
  else if tag =? SML_MESSAGE_GET_PROFILE_LIST_REQUEST then h_get_profile_pack_request_parse
  else if tag =? SML_MESSAGE_GET_PROFILE_LIST_RESPONSE then h_get_profile_list_response_parse
  else if tag =? SML_MESSAGE_GET_PROC_PARAMETER_REQUEST then h_get_proc_parameter_request_parse
  else if tag =? SML_MESSAGE_GET_PROC_PARAMETER_RESPONSE then h_get_proc_parameter_response_parse
  else if tag =? SML_MESSAGE_SET_PROC_PARAMETER_REQUEST then h_set_proc_parameter_request_parse
  else if tag =? SML_MESSAGE_GET_LIST_REQUEST then h_get_list_request_parse
  else if tag =? SML_MESSAGE_GET_LIST_RESPONSE then h_get_list_response_parse
  else if tag =? SML_MESSAGE_ATTENTION_RESPONSE then h_attention_response_parse
  else ret Nul.

(** sml_message.c:149-225; the label "error" frees the body alone. *)
Definition h_message_body_parse : H slot :=
  p <- malloc (Struct [Nul; Nul]) ;;
  let err := on_error free p in
  e <- lift at_end ;;
  if (e : bool) then lift set_error ;;; err else
  hexpect_list 2 err (
  tag <- h_u32_parse ;;
  store p 0 tag ;;;
  e <- lift sml_buf_has_errors ;;
  if (e : bool) then err else
  match tag with
  | Nul => err
  | _ =>
      m <- load_bytes tag ;;
      d <- h_body_data_parse (mem_u m) ;;
      store p 1 d ;;;
      ret p
  end).

(** sml_message.c:294-344, the switch of the free function *)
Definition h_body_data_free (tag : Z) (d : slot) : H unit :=
  if tag =? SML_MESSAGE_OPEN_REQUEST then h_open_request_free d
  else if tag =? SML_MESSAGE_OPEN_RESPONSE then h_open_response_free d
  else if tag =? SML_MESSAGE_CLOSE_REQUEST then h_close_request_free d
  else if tag =? SML_MESSAGE_CLOSE_RESPONSE then h_close_response_free d
  else if tag =? SML_MESSAGE_GET_PROFILE_PACK_REQUEST then h_get_profile_pack_request_free d
  else if tag =? SML_MESSAGE_GET_PROFILE_PACK_RESPONSE then h_get_profile_pack_response_free d
  else if tag =? SML_MESSAGE_GET_PROFILE_LIST_REQUEST then h_get_profile_pack_request_free d
  else if tag =? SML_MESSAGE_GET_PROFILE_LIST_RESPONSE then h_get_profile_list_response_free d
  else if tag =? SML_MESSAGE_GET_PROC_PARAMETER_REQUEST then h_get_proc_parameter_request_free d
  else if tag =? SML_MESSAGE_GET_PROC_PARAMETER_RESPONSE then h_get_proc_parameter_response_free d
  else if tag =? SML_MESSAGE_SET_PROC_PARAMETER_REQUEST then h_set_proc_parameter_request_free d
  else if tag =? SML_MESSAGE_GET_LIST_REQUEST then h_get_list_request_free d
  else if tag =? SML_MESSAGE_GET_LIST_RESPONSE then h_get_list_response_free d
  else if tag =? SML_MESSAGE_ATTENTION_RESPONSE then h_attention_response_free d
  else ret tt.

(** sml_message.c:292-348 *)
Definition h_message_body_free (body : slot) : H unit :=
  if_ptr body (
  tag <- load body 0 ;;
  m <- load_bytes tag ;;
  d <- load body 1 ;;
  h_body_data_free (mem_u m) d ;;;
  h_number_free tag ;;;
  free body).

(** struct sml_message: 0 = transaction_id, 1 = group_id, 2 = abort_on_error, 3 =
    message_body, 4 = crc; sml_message.c:118-127 *)
Definition h_message_free : slot -> H unit :=
  free_struct [h_octet_string_free; h_number_free; h_number_free; h_message_body_free; h_number_free].

(** sml_message.c:32-105 *)
Definition h_message_parse : H slot :=
  p <- malloc (Struct (repeat Nul 5)) ;;
  let err := on_error h_message_free p in
  msg_start <- lift (cursor_int 0) ;;
  hexpect_list 6 err (
  hfield p 0 h_octet_string_parse err (
  hfield p 1 h_u8_parse err (
  hfield p 2 h_u8_parse err (
  hfield p 3 h_message_body_parse err (
  len <- lift (cursor_int msg_start) ;;
  few <- lift (fun s => Ret (size_sub (buffer_len s) (cursor s) <? 3, s)) ;;
  if (few : bool) then lift set_error ;;; err else
  crc <- h_u16_parse ;;
  store p 4 crc ;;;
  e <- lift sml_buf_has_errors ;;
  match (if (e : bool) then Nul else crc) with
  | Nul => lift set_error ;;; err
  | _ =>
      c <- load_bytes crc ;;
      bs <- lift (buffer_slice msg_start len) ;;
      if negb (mem_u c =? sml_crc16_calculate bs) && negb (mem_u c =? sml_crc16kermit_calculate bs)
      then err
      else
        e <- lift at_end ;;
        if (e : bool) then lift set_error ;;; err else
        b <- lift sml_buf_get_current_byte ;;
        lift (if b =? SML_MESSAGE_END then sml_buf_update_bytes_read 1 else ret tt) ;;;
        ret p
  end))))).

(** *** sml_file.c; struct sml_file: 0 = messages, 1 = messages_len, 2 = buf;
    struct sml_buffer: 0 = buffer (the other members are in [hbuf]; error_msg is
    never set) *)

(** sml_file.c:73-78; messages_len is a short (see [sml_file_add_message]). *)
Definition h_file_add_message (file msg : slot) : H unit :=
  n <- load_int file 1 ;;
  if n + 1 <=? 32767 then append file 0 msg else fail WildPtr.

(** sml_file.c:41-58 *)
Fixpoint h_file_loop (fuel : nat) (file : slot) : H unit :=
  e <- lift at_end ;;
  if (e : bool) then ret tt else
  match fuel with
  | O => out_of_fuel
  | S fuel' =>
      b <- lift sml_buf_get_current_byte ;;
      if b =? SML_MESSAGE_END then
        lift (sml_buf_update_bytes_read 1) ;;; h_file_loop fuel' file
      else
        msg <- h_message_parse ;;
        e <- lift sml_buf_has_errors ;;
        if (e : bool) then ret tt else
        if_ptr msg (h_file_add_message file msg) ;;;
        h_file_loop fuel' file
  end.

(** sml_shared.c:119-128 *)
Definition h_buffer_init (bytes : list Z) : H slot :=
  buf <- malloc (Struct [Nul]) ;;
  d <- malloc (Bytes bytes) ;;
  store buf 0 d ;;;
  ret buf.

(** sml_file.c:32-61.  The buffer in [hbuf] becomes the copy of the input (first
    here, in the code when the buffer is made). *)
Definition h_file_parse_run (bytes : list Z) : H slot :=
  file <- malloc (Struct [Nul; Int 0; Nul]) ;;
  buf <- h_buffer_init bytes ;;
  store file 2 buf ;;;
  h_file_loop (S (length bytes)) file ;;;
  ret file.
Definition h_file_parse (bytes : list Z) : H slot := fun st =>
  h_file_parse_run bytes (mkH (mkBuf bytes 0 false false) (hmem st) (hconf st) (hpeak st)).

(** sml_shared.c:135-143 *)
Definition h_buffer_free (buf : slot) : H unit :=
  if_ptr buf (d <- load buf 0 ;; if_ptr d (free d) ;;; free buf).

(** sml_file.c:90-106 *)
Definition h_file_free (file : slot) : H unit :=
  if_ptr file (
  messages <- load file 0 ;;
  (match messages with
   | Nul => ret tt
   | _ =>
       n <- load_int file 1 ;;
       for_each (Z.to_nat n) 0 messages h_message_free ;;;
       free messages
   end) ;;;
  buf <- load file 2 ;;
  h_buffer_free buf ;;;
  free file).

End WithHost.
