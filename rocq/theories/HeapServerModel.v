(** The receiver of the example program with pointers: what it reads from the
    structures that sml_file_parse has built, what it allocates itself, and what it
    gives back (examples/sml_server.c, sml_value.c, sml_file.c). *)
From Coq Require Import SpecFloat.
From stdpp Require Import gmap.
From Verif Require Import Base Buf Number OctetString Boolean Value Time SList Tree Bodies Message File
  Transport Server ServerMain HeapBase HeapModel.

(** a computation that needs no memory *)
Definition pure_step {A} (o : outcome A) : H A := fun st =>
  match o with Ret a => Ret (a, st) | Fault f => Fault f | NoFuel => NoFuel end.

(** "for (i = 0; i < n; i++)" over the elements of an array; what is printed for
    each of them, in order *)
Fixpoint gather {A} (n i : nat) (arr : slot) (f : slot -> H (list A)) : H (list A) :=
  match n with
  | O => ret []
  | S n' => x <- load arr i ;; a <- f x ;; b <- gather n' (S i) arr f ;; ret (a ++ b)
  end.

Section WithHost.
Context {HO : Host} {AL : Allocator} {ME : Memory}.

(** entry->obj_name->str[0] .. str[5] (sml_server.c:114-117 and the same lines for
    the other types); [name] is entry->obj_name *)
Definition h_obis (name : slot) : H (list Z) :=
  str <- load name 0 ;;
  bs <- load_bytes str ;;
  if (length bs <? 6)%nat then fail OobRead else ret (firstn 6 bs).

(** sml_value.c:146-175.  Result: nothing, if the function returns before *result is
    set; otherwise the new value of *result and the position of the terminator.
    *result is NULL if malloc fails (line 157).  The text is written after malloc; here the new
    block has its final content at once. *)
Definition h_value_to_strhex (value : slot) (mixed : bool) : H (option (slot * nat)) :=
  match value with
  | Nul => ret None
  | _ =>
      bytes <- load value 1 ;;
      match bytes with
      | Nul => ret None
      | _ =>
          str <- load bytes 0 ;;
          match str with
          | Nul => ret None
          | _ =>
              len <- load_int bytes 1 ;;
              bs <- load_bytes str ;;
              if (length bs <? Z.to_nat len)%nat then fail OobRead else
              st <- pure_step (strhex_loop (firstn (Z.to_nat len) bs) mixed (repeat 0 (Z.to_nat len * 3 + 1), O)) ;;
              if (snd st <? length (fst st))%nat then
                p <- try_malloc (Bytes (upd (fst st) (snd st) 0)) ;;
                ret (Some (p, snd st))
              else fail OobWrite
          end
      end
  end.

(** sml_value.c:109-144: the number of [size] bytes at [p] *)
Definition h_deref (p : slot) (size : nat) : H mem :=
  bs <- load_bytes p ;;
  if (length bs <? size)%nat then fail OobRead else ret (firstn size bs).
Definition h_num_to_double (signed : bool) (p : slot) (size : nat) : H spec_float :=
  m <- h_deref p size ;;
  ret (double_of_Z (if signed then mem_i m else mem_u m)).
Definition h_value_to_double (value : slot) : H spec_float :=
  t <- load_int value 0 ;;
  d <- load value 1 ;;
  if t =? 81 then h_num_to_double true d 1
  else if t =? 82 then h_num_to_double true d 2
  else if t =? 84 then h_num_to_double true d 4
  else if t =? 88 then h_num_to_double true d 8
  else if t =? 97 then h_num_to_double false d 1
  else if t =? 98 then h_num_to_double false d 2
  else if t =? 100 then h_num_to_double false d 4
  else if t =? 104 then h_num_to_double false d 8
  else ret (double_of_Z 0).

(** *p of an integer object that may be absent *)
Definition h_optional {A} (p : slot) (none : A) (f : mem -> H A) : H A :=
  match p with Nul => ret none | _ => m <- load_bytes p ;; f m end.

(** sml_server.c:108-145, one entry; printf("%s") reads the text before free(str)
    (line 119).  Nothing is at str if sml_value_to_strhex did not set it; printf("%s")
    of NULL is undefined (C11 7.21.6.1; glibc prints "(null)"). *)
Definition h_receive_entry (entry : slot) : H (list line) :=
  value <- load entry 5 ;;
  match value with
  | Nul => ret []
  | _ =>
      type <- load_int value 0 ;;
      if type =? SML_TYPE_OCTET_STRING then
        name <- load entry 0 ;;
        o <- h_obis name ;;
        r <- h_value_to_strhex value true ;;
        match r with
        | None => fail UninitRead
        | Some (str, n) =>
            text <- load_bytes str ;;
            free str ;;;
            ret [LStr o (firstn n text)]
        end
      else if type =? SML_TYPE_BOOLEAN then
        name <- load entry 0 ;;
        o <- h_obis name ;;
        b <- load value 1 ;;
        ret [LBool o (match b with Nul => false | _ => true end)]
      else if (Z.land type SML_TYPE_FIELD =? SML_TYPE_INTEGER) ||
              (Z.land type SML_TYPE_FIELD =? SML_TYPE_UNSIGNED) then
        d <- h_value_to_double value ;;
        sp <- load entry 4 ;;
        scaler <- h_optional sp 0 (fun m => ret (mem_i m)) ;;
        name <- load entry 0 ;;
        o <- h_obis name ;;
        up <- load entry 3 ;;
        unit <- h_optional up None (fun m => pure_step (dlms_get_unit (mem_u m))) ;;
        ret [LNum o d scaler unit]
      else ret []
  end.

(** sml_server.c:107, "for (entry = body->val_list; entry != NULL; entry = entry->next)" *)
Fixpoint h_receive_entries (fuel : nat) (entry : slot) : H (list line) :=
  match fuel with
  | O => out_of_fuel
  | S fuel' =>
      match entry with
      | Nul => ret []
      | _ =>
          a <- h_receive_entry entry ;;
          n <- load entry 7 ;;
          b <- h_receive_entries fuel' n ;;
          ret (a ++ b)
      end
  end.

(** *message->message_body->tag (sml_server.c:103, sml_file.c:113) *)
Definition h_message_tag (message : slot) : H Z :=
  body <- load message 3 ;;
  tag <- load body 0 ;;
  bs <- load_bytes tag ;;
  ret (mem_u bs).

(** sml_server.c:103-146 *)
Definition h_receive_message (message : slot) : H (list line) :=
  tag <- h_message_tag message ;;
  if tag =? SML_MESSAGE_GET_LIST_RESPONSE then
    body <- load message 3 ;;
    data <- load body 1 ;;
    val_list <- load data 4 ;;
    with_heap_fuel (fun fuel => h_receive_entries fuel val_list)
  else ret [].

(** sml_server.c:101-150 with the option -s: the flag says that exit(0) of line 148
    was reached *)
Fixpoint h_receive_first (n i : nat) (arr : slot) : H (list line * bool) :=
  match n with
  | O => ret ([], false)
  | S n' =>
      message <- load arr i ;;
      a <- h_receive_message message ;;
      tag <- h_message_tag message ;;
      if tag =? SML_MESSAGE_GET_LIST_RESPONSE then ret (a, true)
      else b <- h_receive_first n' (S i) arr ;; ret (a ++ fst b, snd b)
  end.

(** sml_file.c:108-115; [hbuf] is file->buf *)
Definition h_file_print (file : slot) : H (list output) :=
  n <- load_int file 1 ;;
  s <- lift (fun s => Ret (cursor s, s)) ;;
  messages <- load file 0 ;;
  tags <- gather (Z.to_nat n) 0 messages (fun m => t <- h_message_tag m ;; ret [t]) ;;
  ret (OFile n (Z.of_nat s) :: map OTag tags).

(** sml_server.c:93-153 after sml_file_parse: what is printed, and whether the
    program ends (then nothing is freed) *)
Definition h_show (vflag sflag : bool) (file : slot) : H (list output * bool) :=
  head <- (if vflag then h_file_print file else ret []) ;;
  n <- load_int file 1 ;;
  messages <- load file 0 ;;
  r <- (if sflag then h_receive_first (Z.to_nat n) 0 messages
        else ls <- gather (Z.to_nat n) 0 messages h_receive_message ;; ret (ls, false)) ;;
  let out := head ++ (if vflag then [OHeader] else []) ++ map OLine (fst r) in
  if (snd r : bool) then ret (out, true)
  else h_file_free file ;;; ret (out, false).

(** sml_server.c:86-154 *)
Definition h_receiver (vflag sflag : bool) (buffer : list Z) : H (list output * bool) :=
  if (length buffer <? 16)%nat then fail OobRead else
  file <- h_file_parse (firstn (length buffer - 16) (skipn 8 buffer)) ;;
  h_show vflag sflag file.

(** sml_transport.c:117-125 with this receiver as the callback; as server_loop of
    ServerMain.v.  The frame is in an array on the stack. *)
Fixpoint h_server_loop (fuel : nat) (vflag sflag : bool) (d : fd) : H (list output * fd) :=
  match fuel with
  | O => out_of_fuel
  | S fuel' =>
      x <- pure_step (sml_transport_read MC_SML_BUFFER_LEN d) ;;
      let '(len, bs, d') := x in
      if (len =? 0)%nat then ret ([], d')
      else r <- h_receiver vflag sflag bs ;;
           if (snd r : bool) then ret (fst r, d')
           else y <- h_server_loop fuel' vflag sflag d' ;; ret (fst r ++ fst y, snd y)
  end.
Definition h_server (vflag sflag : bool) (d : fd) : H (list output * fd) :=
  h_server_loop (S (fd_size d)) vflag sflag d.

End WithHost.
