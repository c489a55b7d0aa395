(** Model of the example program: examples/unit.h and transport_receiver of
    examples/sml_server.c. *)
From Coq Require Import SpecFloat.
From Verif Require Import Base Buf Number OctetString Boolean Value Time SList Tree Bodies Message File.

(** examples/unit.h:33-103, copied by script; unit names as UTF-8 bytes. *)
Definition dlms_units : list (Z * list Z) := [
  (1, [97]);
  (2, [109; 111]);
  (3, [119; 107]);
  (4, [100]);
  (5, [104]);
  (6, [109; 105; 110; 46]);
  (7, [115]);
  (8, [194; 176]);
  (9, [194; 176; 67]);
  (10, [99; 117; 114; 114; 101; 110; 99; 121]);
  (11, [109]);
  (12, [109; 47; 115]);
  (13, [109; 194; 179]);
  (14, [109; 194; 179]);
  (15, [109; 194; 179; 47; 104]);
  (16, [109; 194; 179; 47; 104]);
  (17, [109; 194; 179; 47; 100]);
  (18, [109; 194; 179; 47; 100]);
  (19, [108]);
  (20, [107; 103]);
  (21, [78]);
  (22, [78; 109]);
  (23, [80; 97]);
  (24, [98; 97; 114]);
  (25, [74]);
  (26, [74; 47; 104]);
  (27, [87]);
  (28, [86; 65]);
  (29, [118; 97; 114]);
  (30, [87; 104]);
  (31, [86; 65; 104]);
  (32, [118; 97; 114; 104]);
  (33, [65]);
  (34, [67]);
  (35, [86]);
  (36, [86; 47; 109]);
  (37, [70]);
  (38, [206; 169]);
  (39, [206; 169; 109; 194; 178; 47; 109]);
  (40, [87; 98]);
  (41, [84]);
  (42, [65; 47; 109]);
  (43, [72]);
  (44, [72; 122]);
  (45, [49; 47; 40; 87; 104; 41]);
  (46, [49; 47; 40; 118; 97; 114; 104; 41]);
  (47, [49; 47; 40; 86; 65; 104; 41]);
  (48, [86; 194; 178; 104]);
  (49, [65; 194; 178; 104]);
  (50, [107; 103; 47; 115]);
  (51, [83; 44; 32; 109; 104; 111]);
  (52, [75]);
  (53, [49; 47; 40; 86; 194; 178; 104; 41]);
  (54, [49; 47; 40; 65; 194; 178; 104; 41]);
  (55, [49; 47; 109; 194; 179]);
  (56, [37]);
  (57, [65; 104]);
  (60, [87; 104; 47; 109; 194; 179]);
  (61, [74; 47; 109; 194; 179]);
  (62, [77; 111; 108; 32; 37]);
  (63, [103; 47; 109; 194; 179]);
  (64, [80; 97; 32; 115]);
  (253, [40; 114; 101; 115; 101; 114; 118; 101; 100; 41]);
  (254, [40; 111; 116; 104; 101; 114; 41]);
  (255, [40; 117; 110; 105; 116; 108; 101; 115; 115; 41]);
  (0, [])].

(** examples/unit.h:105-114: do { ... } while ((++it)->code). *)
Fixpoint unit_search (tab : list (Z * list Z)) (code : Z) : outcome (option (list Z)) :=
  match tab with
  | [] => Fault OobRead                       (* ran past the table *)
  | (c, u) :: t =>
      if c =? code then Ret (Some u)
      else match t with
           | [] => Fault OobRead
           | (c', _) :: _ => if c' =? 0 then Ret None else unit_search t code
           end
  end.
Definition dlms_get_unit (code : Z) : outcome (option (list Z)) := unit_search dlms_units code.

(** What the receiver prints for one list entry.  Numbers are kept as the double
    before scaling, the scaler, and the unit text; the multiplication by
    pow(10, scaler) and the formatting by printf are in Printf.v. *)
Inductive line : Type :=
| LStr (obis : list Z) (text : list Z)                 (* line 114: %s of strhex *)
| LBool (obis : list Z) (text_true : bool)             (* line 121 *)
| LNum (obis : list Z) (value : spec_float) (scaler : Z) (unit : option (list Z)).

Section WithHost.
Context {H : Host}.

(** obj_name->str[0] .. str[5] *)
Definition obis_of (name : option octet_string) : outcome (list Z) :=
  match name with
  | None => Fault NullDeref
  | Some [] => Fault NullDeref               (* str is NULL *)
  | Some s => if (length s <? 6)%nat then Fault OobRead else Ret (firstn 6 s)
  end.

(** sml_server.c:108-145.  In the octet string case the variable str (line 113)
    is only set when sml_value_to_strhex allocates; otherwise "%s" of NULL is
    printed and the uninitialised str is freed. *)
Definition receive_entry (e : list_entry) : outcome (list line) :=
  match le_value e with
  | None => Ret []
  | Some v =>
      if v_type v =? SML_TYPE_OCTET_STRING then
        obind (obis_of (le_obj_name e)) (fun o =>
        obind (sml_value_to_strhex (Some v) true) (fun r =>
        match r with
        | None => Fault UninitRead
        | Some (blk, n) => Ret [LStr o (firstn n blk)]
        end))
      else if v_type v =? SML_TYPE_BOOLEAN then
        obind (obis_of (le_obj_name e)) (fun o =>
        Ret [LBool o (match v_data v with VNull => false | _ => true end)])
      else if (Z.land (v_type v) SML_TYPE_FIELD =? SML_TYPE_INTEGER) ||
              (Z.land (v_type v) SML_TYPE_FIELD =? SML_TYPE_UNSIGNED) then
        obind (sml_value_to_double (Some v)) (fun d =>
        let scaler := match le_scaler e with Some m => mem_i m | None => 0 end in
        obind (obis_of (le_obj_name e)) (fun o =>
        obind (match le_unit e with
               | Some u => dlms_get_unit (mem_u u)
               | None => Ret None
               end) (fun unit =>
        Ret [LNum o d scaler unit])))
      else Ret []
  end.

Fixpoint receive_entries (l : list list_entry) : outcome (list line) :=
  match l with
  | [] => Ret []
  | e :: t => obind (receive_entry e) (fun a => obind (receive_entries t) (fun b => Ret (a ++ b)))
  end.

(** sml_server.c:101-150 with sflag unset *)
Definition receive_message (m : sml_message) : outcome (list line) :=
  obind (print_tag m) (fun tag =>
  if tag =? SML_MESSAGE_GET_LIST_RESPONSE then
    match m_message_body m with
    | Some (mkBody _ (BListRes b)) => receive_entries (lr_val_list b)
    | Some (mkBody _ BNull) => Fault NullDeref
    | _ => Fault TypeConfusion
    end
  else Ret []).

Fixpoint receive_messages (l : list sml_message) : outcome (list line) :=
  match l with
  | [] => Ret []
  | m :: t => obind (receive_message m) (fun a => obind (receive_messages t) (fun b => Ret (a ++ b)))
  end.

(** sml_server.c:86-154 with vflag and sflag unset: buffer + 8, buffer_len - 16
    (a size_t: frames shorter than 16 bytes would wrap around). *)
Definition transport_receiver (buffer : list Z) : outcome (list line) :=
  if (length buffer <? 16)%nat then Fault OobRead else
  obind (sml_file_parse (firstn (length buffer - 16) (skipn 8 buffer))) (fun f =>
  receive_messages (f_messages f)).

End WithHost.
