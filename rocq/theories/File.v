(** Model of sml/src/sml_file.c. *)
From Verif Require Import Base Buf Crc16 Number OctetString Boolean Value Time SList Tree Bodies Message.

(** sml_file.h: messages, messages_len (a short), buf.  Simplification: messages
    are never NULL (the parser does not add NULL messages). *)
Record sml_file : Type := mkFile { f_messages : list sml_message; f_buf : sbuf }.

Definition SML_FILE_BUFFER_LENGTH : nat := 512.

Section WithHost.
Context {H : Host}.

(** sml_file.c:73-78.  messages_len is a short: after 32767 messages the
    increment makes it negative, realloc is called with a size near 2^64 (and
    fails) and the message pointer is stored at a negative index. *)
Definition sml_file_add_message (msgs : list sml_message) (m : sml_message)
  : P (list sml_message) :=
  if Z.of_nat (length msgs) + 1 <=? 32767 then ret (msgs ++ [m]) else fail WildPtr.

(** sml_file.c:41-58, the loop of the parser. *)
Fixpoint file_loop (fuel : nat) (msgs : list sml_message) : P (list sml_message) :=
  e <- at_end ;;
  if (e : bool) then ret msgs else
  match fuel with
  | O => out_of_fuel
  | S fuel' =>
      b <- sml_buf_get_current_byte ;;
      if b =? SML_MESSAGE_END then
        sml_buf_update_bytes_read 1 ;;; file_loop fuel' msgs
      else
        msg <- sml_message_parse ;;
        e <- sml_buf_has_errors ;;
        if (e : bool) then ret msgs else
        match msg with
        | Some m => msgs' <- sml_file_add_message msgs m ;; file_loop fuel' msgs'
        | None => file_loop fuel' msgs
        end
  end.

(** sml_file.c:30-61.  The argument is the content of the caller's buffer. *)
Definition sml_file_parse (bytes : list Z) : outcome sml_file :=
  match file_loop (S (length bytes)) [] (mkBuf bytes 0 false false) with
  | Ret (msgs, s) => Ret (mkFile msgs s)
  | Fault f => Fault f
  | NoFuel => NoFuel
  end.

(** sml_file.c:63-71 *)
Definition sml_file_init : sml_file := mkFile [] (sml_buffer_init SML_FILE_BUFFER_LENGTH).

(** sml_file.c:84-86: the messages are updated in place (their crc). *)
Fixpoint write_messages (l : list sml_message) : P (list sml_message) :=
  match l with
  | [] => ret []
  | m :: t => m' <- sml_message_write m ;; t' <- write_messages t ;; ret (m' :: t')
  end.

(** sml_file.c:80-88 *)
Definition sml_file_write (f : sml_file) : outcome sml_file :=
  match write_messages (f_messages f) (f_buf f) with
  | Ret (ms, s) => Ret (mkFile ms s)
  | Fault x => Fault x
  | NoFuel => NoFuel
  end.

(** sml_file.c:108-115: the tags that are printed. *)
Definition print_tag (m : sml_message) : outcome Z :=
  match m_message_body m with
  | None => Fault NullDeref
  | Some b => match mb_tag b with None => Fault NullDeref | Some t => Ret (mem_u t) end
  end.
Fixpoint print_tags (l : list sml_message) : outcome (list Z) :=
  match l with
  | [] => Ret []
  | m :: t =>
      match print_tag m with
      | Ret z => match print_tags t with Ret zs => Ret (z :: zs) | Fault f => Fault f | NoFuel => NoFuel end
      | Fault f => Fault f
      | NoFuel => NoFuel
      end
  end.
Definition sml_file_print (f : sml_file) : outcome (list Z) := print_tags (f_messages f).

End WithHost.
