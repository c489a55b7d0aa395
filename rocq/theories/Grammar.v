(** The language of SML messages: which bytes say what.  This is the specification
    the parser is compared with (C64, C65).  It mentions the types of the content
    (the structs of the library), type-length fields (Spec.v) and the values of
    integer objects in memory, but no function of the library.

    A language relates a content to the bytes that say it and to the bytes that
    follow these.  The latter only matter in a few productions.  The productions
    marked [quirk] are not SML; the parser accepts them all the same. *)
From Verif Require Import Base Buf Number OctetString Boolean Value Time SList Tree Bodies Message File Spec Dzg.

Definition lang (A : Type) : Type := A -> list Z -> list Z -> Prop.

(** A type-length field of the given type and length (for lists: the number of
    elements).  It may have any number of bytes. *)
Definition header (type len : Z) (tl : list Z) : Prop := tl_field tl /\ tl_type tl = type /\ tl_length tl = len.

(** An element that may be left out; 01 stands for an element that is not there. *)
Definition optional {A} (W : lang A) : lang (option A) := fun o bs t =>
  match o with None => bs = [1] | Some x => W x bs t end.
(** An element that must be there. *)
Definition required {A} (W : lang A) : lang (option A) := fun o bs t =>
  match o with None => False | Some x => W x bs t end.

(** One element after the other. *)
Fixpoint fields (ws : list (list Z -> list Z -> Prop)) (bs t : list Z) : Prop :=
  match ws with
  | [] => bs = []
  | w :: ws' => exists b1 b2, bs = b1 ++ b2 /\ w b1 (b2 ++ t) /\ fields ws' b2 t
  end.
(** A list: the number of elements and the elements. *)
Definition structure (ws : list (list Z -> list Z -> Prop)) (bs t : list Z) : Prop :=
  exists tl b, bs = tl ++ b /\ header 112 (Z.of_nat (length ws)) tl /\ fields ws b t.
Definition sequence_of {A} (W : lang A) : lang (list A) := fun l bs t => structure (map W l) bs t.
(** The elements of a list that are there. *)
Fixpoint present {A} (l : list (option A)) : list A :=
  match l with [] => [] | Some x :: l' => x :: present l' | None :: l' => present l' end.

(** *** Simple elements *)

(** A string.  [quirk], C19: something must follow. *)
Definition octets : lang octet_string := fun s bs t =>
  exists tl, bs = tl ++ s /\ header 0 (Z.of_nat (length s)) tl /\ tl <> [1] /\ bytes_ok s /\ t <> [].

(** 42 00 is false; 42 and any other byte is true. *)
Definition boolean : lang sml_boolean := fun b bs t =>
  exists tl x, bs = tl ++ [x] /\ header 64 1 tl /\ byte_ok x /\ b = (if x =? 0 then 0 else 255).

Section WithHost.
Context {H : Host}.
Section Quirks.
Variable quirk : bool.

(** An integer object of [n] bytes in memory: the transmitted bytes are the value,
    most significant byte first; leading bytes may be missing.  [quirk], C11: no
    byte at all is 0, or for signed numbers -1 if the bit 0x80 of the byte that
    follows is set. *)
Definition unsigned (n : nat) : lang mem := fun m bs t =>
  exists tl data, bs = tl ++ data /\ header 96 (Z.of_nat (length data)) tl /\ bytes_ok data /\ (length data <= n)%nat /\
    length m = n /\ bytes_ok m /\ mem_u m = be_unsigned data /\ (data = [] -> quirk = true /\ t <> []).
Definition signed (n : nat) : lang mem := fun m bs t =>
  exists tl data, bs = tl ++ data /\ header 80 (Z.of_nat (length data)) tl /\ bytes_ok data /\ (length data <= n)%nat /\
    length m = n /\ bytes_ok m /\
    match data with
    | [] => quirk = true /\ t <> [] /\ mem_i m = (if 128 <=? hd 0 t then -1 else 0)
    | _ => mem_i m = be_signed data
    end.

(** The width in which a value is kept: 1, 2, 4 or 8 bytes, by the low digit of the
    first byte ([n] is that digit minus 1: the number of bytes if there is one
    length byte).  [quirk], C14: 16 bytes, and the width spoils the type. *)
Definition width_for (n : Z) : nat :=
  if n <=? 1 then 1%nat else if n <=? 2 then 2%nat else if n <=? 4 then 4%nat else if n <=? 8 then 8%nat else 16%nat.
Definition sized (bs : list Z) (w : nat) : Prop :=
  w = width_for (hd 0 bs mod 16 - 1) /\ (quirk = true \/ (hd 0 bs < 128 /\ (w <= 8)%nat)).

(** SML_Value *)
Definition value : lang sml_value := fun v bs t =>
  (exists s, octets s bs t /\ v = mkValue 0 (VBytes s)) \/
  (exists b, boolean b bs t /\ v = mkValue 64 (VBool b)) \/
  (exists w m, signed w m bs t /\ sized bs w /\ v = mkValue (Z.lor 80 (Z.of_nat w)) (VNum m)) \/
  (exists w m, unsigned w m bs t /\ sized bs w /\ v = mkValue (Z.lor 96 (Z.of_nat w)) (VNum m)).
(** SML_Status *)
Definition status : lang sml_status := fun v bs t =>
  exists w m, unsigned w m bs t /\ sized bs w /\ v = mkStatus (Z.lor 96 (Z.of_nat w)) (Some m).

(** SML_Time: omitted; a tag and a number of seconds; a tag and a local time (three
    numbers, which the library drops); or (some meters, C54) a plain number of four
    bytes, which is taken for a seconds index.  [quirk], C30: the number of elements
    of the local time does not matter; and if something else follows the tag then
    there is no time, and reading goes on there. *)
Definition local_time : list Z -> list Z -> Prop := fun bs t =>
  exists tl b n o1 o2 o3, bs = tl ++ b /\ header 112 n tl /\ (n = 3 \/ quirk = true /\ n < 2147483648) /\
    fields [optional (unsigned 4) o1; optional (signed 2) o2; optional (signed 2) o3] b t.
Definition time : lang (option sml_time) := fun o bs t =>
  (o = None /\ bs = [1]) \/
  (exists m, unsigned 4 m bs t /\ hd 0 bs = 101 /\ o = Some (mkTime (Some [1]) (Some m))) \/
  (exists tag m, structure [optional (unsigned 1) tag; unsigned 4 m] bs t /\ o = Some (mkTime tag (Some m))) \/
  (exists tag, structure [optional (unsigned 1) tag; local_time] bs t /\ o = Some (mkTime tag None)) \/
  (quirk = true /\ exists tl b tag c u, bs = tl ++ b /\ header 112 2 tl /\ optional (unsigned 1) tag b t /\ o = None /\
     t = c :: u /\ c / 16 mod 8 * 16 <> 96 /\ c / 16 mod 8 * 16 <> 112).

(** *** Structures.  The comments give the names of the SML standard. *)

(** SML_ListEntry, and the first byte of its value *)
Definition entry : lang (list_entry * Z) := fun '(e, b) => structure
  [optional octets (le_obj_name e); optional status (le_status e); time (le_val_time e); optional (unsigned 1) (le_unit e);
   optional (signed 1) (le_scaler e); (fun bs t => optional value (le_value e) bs t /\ hd 0 bs = b); optional octets (le_value_signature e)].
(** The correction for certain DZG meters (C45 - C47): behind an affected serial
    number, values of the power entry that start with a byte 0xX1, 0xX2, 0xX3 (X < 8)
    are unsigned. *)
Definition unsigned_value (e : list_entry) : list_entry :=
  mkEntry (le_obj_name e) (le_status e) (le_val_time e) (le_unit e) (le_scaler e)
    (match le_value e with None => None | Some v => Some (mkValue (96 + v_type v mod 16) (v_data v)) end) (le_value_signature e).
Fixpoint dzg_list (seen : bool) (l : list (list_entry * Z)) : list list_entry :=
  match l with
  | [] => []
  | (e, b) :: l' =>
      (if seen && negb (affectedb e) && match le_obj_name e with Some n => list_eqb n power_name | None => false end &&
          (b <? 128) && (1 <=? b mod 16) && (b mod 16 <=? 3) then unsigned_value e else e) :: dzg_list (seen || affectedb e) l'
  end.
(** SML_List *)
Definition value_list : lang sml_list := fun l bs t =>
  (l = [] /\ bs = [1]) \/ exists raw, sequence_of entry raw bs t /\ l = dzg_list false raw.

(** SML_TreePath; entries that are left out are dropped *)
Definition tree_path : lang (option sml_tree_path) := fun o bs t =>
  (o = None /\ bs = [1]) \/ exists l, sequence_of (optional octets) l bs t /\ o = Some (present l).
(** SML_TupelEntry *)
Definition tupel : lang sml_tupel_entry := fun u => structure
  [optional octets (tu_server_id u); time (tu_sec_index u); optional (unsigned 8) (tu_status u);
   optional (unsigned 1) (tu_unit_pA u); optional (signed 1) (tu_scaler_pA u); optional (signed 8) (tu_value_pA u);
   optional (unsigned 1) (tu_unit_R1 u); optional (signed 1) (tu_scaler_R1 u); optional (signed 8) (tu_value_R1 u);
   optional (unsigned 1) (tu_unit_R4 u); optional (signed 1) (tu_scaler_R4 u); optional (signed 8) (tu_value_R4 u);
   optional octets (tu_signature_pA_R1_R4 u);
   optional (unsigned 1) (tu_unit_mA u); optional (signed 1) (tu_scaler_mA u); optional (signed 8) (tu_value_mA u);
   optional (unsigned 1) (tu_unit_R2 u); optional (signed 1) (tu_scaler_R2 u); optional (signed 8) (tu_value_R2 u);
   optional (unsigned 1) (tu_unit_R3 u); optional (signed 1) (tu_scaler_R3 u); optional (signed 8) (tu_value_R3 u);
   optional octets (tu_signature_mA_R2_R3 u)].
(** SML_PeriodEntry *)
Definition period : lang sml_period_entry := fun p => structure
  [optional octets (pe_obj_name p); optional (unsigned 1) (pe_unit p); optional (signed 1) (pe_scaler p);
   optional value (pe_value p); optional octets (pe_value_signature p)].
(** SML_ProcParValue: the tag says what follows.  [quirk]: if the tag is left out
    there is no value, and reading goes on behind the tag. *)
Definition ppv_content (tag : Z) : lang ppv_data := fun d bs t =>
  (tag = 1 /\ exists o, optional value o bs t /\ d = from_opt PNull PValue o) \/
  (tag = 2 /\ exists o, optional period o bs t /\ d = from_opt PNull PPeriod o) \/
  (tag = 3 /\ exists o, optional tupel o bs t /\ d = from_opt PNull PTupel o) \/
  (tag = 4 /\ exists o, time o bs t /\ d = from_opt PNull PTime o).
Definition proc_par_value : lang (option sml_proc_par_value) := fun o bs t =>
  (o = None /\ bs = [1]) \/
  (exists m d, structure [unsigned 1 m; ppv_content (mem_u m) d] bs t /\ o = Some (mkPpv (Some m) d)) \/
  (quirk = true /\ exists tl, bs = tl ++ [1] /\ header 112 2 tl /\ o = None).
(** SML_Tree, of a nesting depth of at most [depth]; children that are left out are
    dropped *)
Fixpoint tree_upto (depth : nat) : lang sml_tree :=
  match depth with
  | O => fun _ _ _ => False
  | S depth' => fun '(Tree name v children) => structure
      [optional octets name; proc_par_value v;
       (fun bs t => (children = [] /\ bs = [1]) \/
                    exists l, sequence_of (optional (tree_upto depth')) l bs t /\ children = present l)]
  end.
Definition tree : lang sml_tree := fun v bs t => exists depth, tree_upto depth v bs t.

(** *** Message bodies *)

Definition open_request : lang sml_open_request := fun m => structure
  [optional octets (oq_codepage m); optional octets (oq_client_id m); optional octets (oq_req_file_id m);
   optional octets (oq_server_id m); optional octets (oq_username m); optional octets (oq_password m);
   optional (unsigned 1) (oq_sml_version m)].
Definition open_response : lang sml_open_response := fun m => structure
  [optional octets (or_codepage m); optional octets (or_client_id m); optional octets (or_req_file_id m);
   optional octets (or_server_id m); time (or_ref_time m); optional (unsigned 1) (or_sml_version m)].
Definition close_request : lang sml_close_request := fun m => structure [optional octets (cq_global_signature m)].
Definition close_response : lang sml_close_response := fun m => structure [optional octets (cr_global_signature m)].
(** the objects of a profile request *)
Definition object_list : lang (list (option octet_string)) := fun l bs t =>
  (l = [] /\ bs = [1]) \/ sequence_of (optional octets) l bs t.
(** SML_GetProfilePack.Req and SML_GetProfileList.Req *)
Definition profile_request : lang sml_get_profile_pack_request := fun m => structure
  [optional octets (gq_server_id m); optional octets (gq_username m); optional octets (gq_password m);
   optional boolean (gq_with_rawdata m); time (gq_begin_time m); time (gq_end_time m);
   tree_path (gq_parameter_tree_path m); object_list (gq_object_list m); optional tree (gq_das_details m)].
Definition header_entry : lang sml_prof_obj_header_entry := fun e => structure
  [optional octets (he_obj_name e); optional (unsigned 1) (he_unit e); optional (signed 1) (he_scaler e)].
Definition value_entry : lang sml_value_entry := fun e => structure
  [optional value (ve_value e); optional octets (ve_value_signature e)].
(** A list whose elements must all be there. *)
Definition list_of {A} (W : lang A) : lang (option (sml_sequence A)) := required (sequence_of (required W)).
Definition period_of_objects : lang sml_prof_obj_period_entry := fun e => structure
  [time (pp_val_time e); optional (unsigned 8) (pp_status e); list_of value_entry (pp_value_list e);
   optional octets (pp_period_signature e)].
Definition profile_pack_response : lang sml_get_profile_pack_response := fun m => structure
  [optional octets (gr_server_id m); time (gr_act_time m); optional (unsigned 4) (gr_reg_period m);
   tree_path (gr_parameter_tree_path m); list_of header_entry (gr_header_list m); list_of period_of_objects (gr_period_list m);
   optional octets (gr_rawdata m); optional octets (gr_profile_signature m)].
Definition profile_list_response : lang sml_get_profile_list_response := fun m => structure
  [optional octets (gl_server_id m); time (gl_act_time m); optional (unsigned 4) (gl_reg_period m);
   tree_path (gl_parameter_tree_path m); time (gl_val_time m); optional (unsigned 8) (gl_status m);
   required (sequence_of (optional period)) (gl_period_list m);
   optional octets (gl_rawdata m); optional octets (gl_period_signature m)].
Definition proc_parameter_request : lang sml_get_proc_parameter_request := fun m => structure
  [optional octets (pq_server_id m); optional octets (pq_username m); optional octets (pq_password m);
   tree_path (pq_parameter_tree_path m); optional octets (pq_attribute m)].
Definition proc_parameter_response : lang sml_get_proc_parameter_response := fun m => structure
  [optional octets (pr_server_id m); tree_path (pr_parameter_tree_path m); optional tree (pr_parameter_tree m)].
Definition set_proc_parameter_request : lang sml_set_proc_parameter_request := fun m => structure
  [optional octets (sq_server_id m); optional octets (sq_username m); optional octets (sq_password m);
   tree_path (sq_parameter_tree_path m); optional tree (sq_parameter_tree m)].
Definition list_request : lang sml_get_list_request := fun m => structure
  [optional octets (lq_client_id m); optional octets (lq_server_id m); optional octets (lq_username m);
   optional octets (lq_password m); optional octets (lq_list_name m)].
Definition list_response : lang sml_get_list_response := fun m => structure
  [optional octets (lr_client_id m); optional octets (lr_server_id m); optional octets (lr_list_name m);
   time (lr_act_sensor_time m); value_list (lr_val_list m); optional octets (lr_list_signature m);
   time (lr_act_gateway_time m)].
Definition attention : lang sml_attention_response := fun m => structure
  [optional octets (ar_server_id m); optional octets (ar_attention_number m); optional octets (ar_attention_message m);
   optional tree (ar_attention_details m)].

(** The tag says which body follows.  [quirk]: nothing is read for other tags. *)
Definition body_content (tag : Z) : lang body_data := fun d bs t =>
  (tag = 256 /\ exists m, open_request m bs t /\ d = BOpenReq m) \/
  (tag = 257 /\ exists m, open_response m bs t /\ d = BOpenRes m) \/
  (tag = 512 /\ exists m, close_request m bs t /\ d = BCloseReq m) \/
  (tag = 513 /\ exists m, close_response m bs t /\ d = BCloseRes m) \/
  (tag = 768 /\ exists m, profile_request m bs t /\ d = BPackReq m) \/
  (tag = 769 /\ exists m, profile_pack_response m bs t /\ d = BPackRes m) \/
  (tag = 1024 /\ exists m, profile_request m bs t /\ d = BPackReq m) \/
  (tag = 1025 /\ exists m, profile_list_response m bs t /\ d = BProfListRes m) \/
  (tag = 1280 /\ exists m, proc_parameter_request m bs t /\ d = BProcReq m) \/
  (tag = 1281 /\ exists m, proc_parameter_response m bs t /\ d = BProcRes m) \/
  (tag = 1536 /\ exists m, set_proc_parameter_request m bs t /\ d = BSetProc m) \/
  (tag = 1792 /\ exists m, list_request m bs t /\ d = BListReq m) \/
  (tag = 1793 /\ exists m, list_response m bs t /\ d = BListRes m) \/
  (tag = 65281 /\ exists m, attention m bs t /\ d = BAttention m) \/
  (quirk = true /\ ~ In tag [256; 257; 512; 513; 768; 769; 1024; 1025; 1280; 1281; 1536; 1792; 1793; 65281] /\ bs = [] /\ d = BNull).
(** SML_MessageBody.  [quirk], C31: without a tag there is no body, and reading goes
    on behind the tag. *)
Definition body : lang (option sml_message_body) := fun o bs t =>
  (exists m d, structure [unsigned 4 m; body_content (mem_u m) d] bs t /\ o = Some (mkBody (Some m) d)) \/
  (quirk = true /\ exists tl, bs = tl ++ [1] /\ header 112 2 tl /\ o = None).

(** SML_Message: a list of six elements.  The checksum is one of two (C07); it is
    taken over everything before it.  The last element is the end mark 00; [quirk]:
    it may be missing if some other byte follows. *)
Definition checksum_ok (c : mem) (bs : list Z) : Prop := mem_u c = swap16 (crc16_x25 bs) \/ mem_u c = crc16_kermit bs.
Definition message : lang sml_message := fun m bs t =>
  exists tl b cb e c, bs = tl ++ b ++ cb ++ e /\ header 112 6 tl /\
    fields [optional octets (m_transaction_id m); optional (unsigned 1) (m_group_id m);
            optional (unsigned 1) (m_abort_on_error m); body (m_message_body m)] b (cb ++ e ++ t) /\
    m_crc m = Some c /\ unsigned 2 c cb (e ++ t) /\ (3 <= length (cb ++ e ++ t))%nat /\ checksum_ok c (tl ++ b) /\
    (e = [0] \/ (quirk = true /\ e = [] /\ t <> [] /\ hd 0 t <> 0)).
(** A message whose checksum is wrong, up to the checksum: the parser drops it and
    goes on (C07). *)
Definition damaged (bs t : list Z) : Prop :=
  exists tl b cb c ti gi ab mb, bs = tl ++ b ++ cb /\ header 112 6 tl /\
    fields [optional octets ti; optional (unsigned 1) gi; optional (unsigned 1) ab; body mb] b (cb ++ t) /\
    unsigned 2 c cb t /\ (3 <= length (cb ++ t))%nat /\ ~ checksum_ok c (tl ++ b).

(** A file: messages, with any number of fill bytes 00 before, between and behind
    them.  [quirk]: damaged messages are passed over. *)
Inductive file : list sml_message -> list Z -> list Z -> Prop :=
| file_end t : file [] [] t
| file_fill ms bs t : file ms bs t -> file ms (0 :: bs) t
| file_message m ms b bs t : message m b (bs ++ t) -> file ms bs t -> file (m :: ms) (b ++ bs) t
| file_damaged ms b bs t : quirk = true -> damaged b (bs ++ t) -> file ms bs t -> file ms (b ++ bs) t.
End Quirks.
End WithHost.
