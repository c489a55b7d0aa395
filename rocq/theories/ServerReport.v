(** What the example program writes to stderr: sml_server.c with the lines of the
    parser (ReportModel.v), of the reader (TransportReport.v) and its own.

    Simplification: the order of what goes to stdout and what goes to stderr is not
    recorded. *)
From Verif Require Import Base Buf Crc16 Number OctetString Boolean Value Time SList Tree Bodies Message File Transport Server ServerMain ReportModel TransportReport.

Inductive err_line : Type :=
| EParse (l : ReportModel.line)
| EEntry                          (* sml_server.c:109, "Error in data stream. entry->value should not be NULL. Skipping this." *)
| EType (t : Z)                   (* sml_value.c:137, "libsml: error: unknown type %d in sml_value_to_double" *)
| ENotice (n : notice).

(** Lines, and what happens otherwise; after a crash, the lines up to it. *)
Definition E (A : Type) : Type := (list err_line * outcome A)%type.
Definition calm {A} (o : outcome A) : E A := ([], o).
Definition ebind {A B} (p : E A) (k : A -> E B) : E B :=
  match p with
  | (l, Ret x) => let '(l', o) := k x in (l ++ l', o)
  | (l, Fault f) => (l, Fault f)
  | (l, NoFuel) => (l, NoFuel)
  end.

Section WithHost.
Context {H : Host}.

(** sml_value.c:107-139, what is printed by it *)
Definition to_double_lines (v : sml_value) : list err_line :=
  if existsb (Z.eqb (v_type v)) [81; 82; 84; 88; 97; 98; 100; 104] then [] else [EType (v_type v)].
(** sml_server.c:107-145.  sml_value_to_double (line 129) is called before the name is
    read. *)
Definition e_receive_entry (e : list_entry) : E (list Server.line) :=
  match le_value e with
  | None => ([EEntry], Ret [])
  | Some v =>
      (if v_type v =? SML_TYPE_OCTET_STRING then [] else if v_type v =? SML_TYPE_BOOLEAN then []
       else if (Z.land (v_type v) SML_TYPE_FIELD =? SML_TYPE_INTEGER) || (Z.land (v_type v) SML_TYPE_FIELD =? SML_TYPE_UNSIGNED)
       then to_double_lines v else [], receive_entry e)
  end.
Fixpoint e_receive_entries (l : list list_entry) : E (list Server.line) :=
  match l with
  | [] => calm (Ret [])
  | e :: t => ebind (e_receive_entry e) (fun a => ebind (e_receive_entries t) (fun b => calm (Ret (a ++ b))))
  end.

(** sml_server.c:101-146 *)
Definition e_receive_message (m : sml_message) : E (list Server.line) :=
  ebind (calm (print_tag m)) (fun tag =>
  if tag =? SML_MESSAGE_GET_LIST_RESPONSE then
    match m_message_body m with
    | Some (mkBody _ (BListRes b)) => e_receive_entries (lr_val_list b)
    | Some (mkBody _ BNull) => calm (Fault NullDeref)
    | _ => calm (Fault TypeConfusion)
    end
  else calm (Ret [])).
Fixpoint e_receive_messages (l : list sml_message) : E (list Server.line) :=
  match l with
  | [] => calm (Ret [])
  | m :: t => ebind (e_receive_message m) (fun a => ebind (e_receive_messages t) (fun b => calm (Ret (a ++ b))))
  end.
(** sml_server.c:101-150 with -s *)
Fixpoint e_receive_first (l : list sml_message) : E (list Server.line * bool) :=
  match l with
  | [] => calm (Ret ([], false))
  | m :: t =>
      ebind (e_receive_message m) (fun a =>
      ebind (calm (print_tag m)) (fun tag =>
      if tag =? SML_MESSAGE_GET_LIST_RESPONSE then calm (Ret (a, true))
      else ebind (e_receive_first t) (fun b => calm (Ret (a ++ fst b, snd b)))))
  end.

(** sml_file.c:88-95, what is printed by it *)
Definition file_free_lines (f : sml_file) : list err_line :=
  map EParse (flat_map (fun m => body_free_lines (m_message_body m)) (f_messages f)).

(** sml_server.c:86-154; exit(0) of line 148 comes before sml_file_free of line 153 *)
Definition e_receiver (vflag sflag : bool) (buffer : list Z) : E (list output * bool) :=
  if (length buffer <? 16)%nat then calm (Fault OobRead) else
  ebind (let '(l, o) := r_file_parse (firstn (length buffer - 16) (skipn 8 buffer)) in (map EParse l, o)) (fun f =>
  ebind (calm (if vflag then print_file f else Ret [])) (fun head =>
  ebind (if sflag then e_receive_first (f_messages f)
         else ebind (e_receive_messages (f_messages f)) (fun ls => calm (Ret (ls, false)))) (fun r =>
  (if snd r then [] else file_free_lines f,
   Ret (head ++ (if vflag then [OHeader] else []) ++ map OLine (fst r), snd r))))).

(** sml_transport.c:117-125 with this receiver *)
Fixpoint e_server_loop (fuel : nat) (vflag sflag : bool) (d : fd) : E (list output * fd) :=
  match fuel with
  | O => ([], NoFuel)
  | S fuel' =>
      ebind (let '(l, o) := n_transport_read MC_SML_BUFFER_LEN d in (map ENotice l, o)) (fun x =>
      let '(len, bs, d') := x in
      if (len =? 0)%nat then calm (Ret ([], d'))
      else ebind (e_receiver vflag sflag bs) (fun r =>
           if snd r then calm (Ret (fst r, d'))
           else ebind (e_server_loop fuel' vflag sflag d') (fun y => calm (Ret (fst r ++ fst y, snd y)))))
  end.
Definition e_server (vflag sflag : bool) (d : fd) : E (list output * fd) :=
  e_server_loop (S (fd_size d)) vflag sflag d.
End WithHost.
