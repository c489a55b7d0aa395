(** Model of the example program as a whole: transport_receiver of
    examples/sml_server.c with the options -v and -s, called by
    sml_transport_listen.  The command line and the serial port (sml_server.c:44-85,
    156-206) are in Args.v. *)
From Verif Require Import Base Buf Number OctetString Boolean Value Time SList Tree Bodies Message File Transport Server.

(** What is printed. *)
Inductive output : Type :=
| OFile (messages bytes : Z)          (* sml_file.c:111, first line of sml_file_print *)
| OTag (tag : Z)                      (* sml_file.c:113, one line per message *)
| OHeader                             (* sml_server.c:100, "OBIS data" *)
| OLine (l : line).                   (* sml_server.c:114-145 *)

Section WithHost.
Context {H : Host}.

(** sml_file.c:108-115 *)
Definition print_file (f : sml_file) : outcome (list output) :=
  obind (print_tags (f_messages f)) (fun tags =>
  Ret (OFile (Z.of_nat (length (f_messages f))) (Z.of_nat (cursor (f_buf f))) :: map OTag tags)).

(** sml_server.c:101-150 with the option -s; the flag says that exit(0) of line
    148 was reached.  It is reached after the entries of the first message with
    the tag of a list response. *)
Fixpoint receive_first (l : list sml_message) : outcome (list line * bool) :=
  match l with
  | [] => Ret ([], false)
  | m :: t =>
      obind (receive_message m) (fun a =>
      obind (print_tag m) (fun tag =>
      if tag =? SML_MESSAGE_GET_LIST_RESPONSE then Ret (a, true)
      else obind (receive_first t) (fun b => Ret (a ++ fst b, snd b))))
  end.

(** sml_server.c:86-154: what is printed for one frame, and whether the program
    ends. *)
Definition receiver (vflag sflag : bool) (buffer : list Z) : outcome (list output * bool) :=
  if (length buffer <? 16)%nat then Fault OobRead else
  obind (sml_file_parse (firstn (length buffer - 16) (skipn 8 buffer))) (fun f =>
  obind (if vflag then print_file f else Ret []) (fun head =>
  obind (if sflag then receive_first (f_messages f)
         else obind (receive_messages (f_messages f)) (fun ls => Ret (ls, false))) (fun r =>
  Ret (head ++ (if vflag then [OHeader] else []) ++ map OLine (fst r), snd r)))).

(** sml_transport.c:117-125 with the receiver above as the callback
    (sml_server.c:203).  The result is all that is printed until the program
    ends, and the device afterwards. *)
Fixpoint server_loop (fuel : nat) (vflag sflag : bool) (d : fd) : outcome (list output * fd) :=
  match fuel with
  | O => NoFuel
  | S fuel' =>
      obind (sml_transport_read MC_SML_BUFFER_LEN d) (fun x =>
      let '(len, bs, d') := x in
      if (len =? 0)%nat then Ret ([], d')
      else obind (receiver vflag sflag bs) (fun r =>
           if snd r then Ret (fst r, d')
           else obind (server_loop fuel' vflag sflag d') (fun y => Ret (fst r ++ fst y, snd y))))
  end.
Definition sml_server (vflag sflag : bool) (d : fd) : outcome (list output * fd) :=
  server_loop (S (fd_size d)) vflag sflag d.

End WithHost.
