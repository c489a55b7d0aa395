(** The upstream unit tests (/repo/test/src) replayed on the model, for both
    byte orders.  They are no proof of anything about the code; they check that
    the model computes what the tests expect of the C functions. *)
From Coq Require Import String Ascii.
From Verif Require Import Base Buf Crc16 Number OctetString Boolean Value Time SList Tree Bodies
  Message File Transport.

Definition text (s : string) : list Z :=
  List.map (fun a => Z.of_nat (nat_of_ascii a)) (list_ascii_of_string s).
(** hex2binary of test_helper.c *)
Definition hx (s : string) : list Z := hex_pairs (text s).
(** the test buffer: 512 bytes, test data at its start *)
Definition buf512 (s : string) : sbuf :=
  mkBuf (hx s ++ repeat 0 (512 - List.length (hx s))) 0 false false.
Definition empty512 : sbuf := sml_buffer_init 512.

(** [p] applied to the buffer returns [v] without error, cursor at [c]. *)
Definition parses {A} (p : P A) (s : string) (v : A) (c : nat) : Prop :=
  p (buf512 s) = Ret (v, set_cursor c (buf512 s)).
(** expected_buf of test_helper.c *)
Definition emits (p : P unit) (s : string) : Prop :=
  match p empty512 with
  | Ret (_, b) => cursor b = List.length (hx s) /\ firstn (cursor b) (buffer b) = hx s
                  /\ error b = false
  | _ => False
  end.
Definition fails {A} (p : P (option A)) (s : string) : Prop :=
  match p (buf512 s) with
  | Ret (None, b) => error b = true
  | _ => False
  end.

Ltac run := split; vm_compute; repeat split.

(** Both hosts. *)
Definition both (f : Host -> Prop) : Prop := f BigEndian /\ f LittleEndian.

Open Scope string_scope.

Section Plain.
(** sml_boolean_test.c *)
Example boolean_true : parses sml_boolean_parse "420F" (Some 255) 2. Proof. reflexivity. Qed.
Example boolean_false : parses sml_boolean_parse "4200" (Some 0) 2. Proof. reflexivity. Qed.
Example boolean_opt : parses sml_boolean_parse "01" None 1. Proof. reflexivity. Qed.
Example boolean_w_true : emits (sml_boolean_write (Some 255)) "42FF". Proof. vm_compute; auto. Qed.
Example boolean_w_false : emits (sml_boolean_write (Some 0)) "4200". Proof. vm_compute; auto. Qed.
Example boolean_w_opt : emits (sml_boolean_write None) "01". Proof. vm_compute; auto. Qed.
(** sml_octet_string_test.c *)
Example os_parse : parses sml_octet_string_parse "0648616C6C6F" (Some (text "Hallo")) 6.
Proof. reflexivity. Qed.
Example os_parse_multi :
  parses sml_octet_string_parse "8102616161616F6161616161616161616161" (Some (text "aaaaoaaaaaaaaaaa")) 18.
Proof. reflexivity. Qed.
Example os_parse_opt : parses sml_octet_string_parse "01" None 1. Proof. reflexivity. Qed.
Example os_write : emits (sml_octet_string_write (Some (text "Hallo"))) "0648616C6C6F".
Proof. vm_compute; auto. Qed.
Example os_write_multi : emits (sml_octet_string_write (Some (text "aaaaoaaaaaaaaaaa")))
  "8102616161616F6161616161616161616161".
Proof. vm_compute; auto. Qed.
Example os_write_opt : emits (sml_octet_string_write None) "01". Proof. vm_compute; auto. Qed.
Example os_cmp1 : sml_octet_string_cmp (Some (text "Hallo")) (Some (text "Hi")) <> Ret 0.
Proof. vm_compute; discriminate. Qed.
Example os_cmp2 : sml_octet_string_cmp (Some (text "Hallo")) (Some (text "Hallo")) = Ret 0.
Proof. reflexivity. Qed.
Example os_cmp_hex : sml_octet_string_cmp_with_hex (Some (text "Hallo")) (text "48616C6C6F") = Ret 0.
Proof. reflexivity. Qed.
End Plain.

(** sml_number_test.c *)
Definition num_is {H : Host} (rd : mem -> Z) (p : P (option mem)) (s : string) (v : Z) (c : nat) : Prop :=
  match p (buf512 s) with
  | Ret (Some m, b) => rd m = v /\ cursor b = c /\ error b = false
  | _ => False
  end.
Example init_u8 : both (fun H => mem_u (sml_u8_init 1) = 1). Proof. run. Qed.
Example init_i16 : both (fun H => mem_i (sml_i16_init (-1)) = -1). Proof. run. Qed.
Example parse_u8 : both (fun H => num_is mem_u sml_u8_parse "6201" 1 2). Proof. run. Qed.
Example parse_u16 : both (fun H => num_is mem_u sml_u16_parse "630101" 257 3). Proof. run. Qed.
Example parse_u32 : both (fun H => num_is mem_u sml_u32_parse "6500000001" 1 5). Proof. run. Qed.
Example parse_u32f : both (fun H => num_is mem_u sml_u32_parse "64010001" 65537 4). Proof. run. Qed.
Example parse_u32o : both (fun H => parses sml_u32_parse "01" None 1). Proof. run. Qed.
Example parse_u64 : both (fun H => num_is mem_u sml_u64_parse "690000000000000001" 1 9). Proof. run. Qed.
Example parse_u64f : both (fun H => num_is mem_u sml_u64_parse "67000000000001" 1 7). Proof. run. Qed.
Example parse_i8 : both (fun H => num_is mem_i sml_i8_parse "52FF" (-1) 2). Proof. run. Qed.
Example parse_i16 : both (fun H => num_is mem_i sml_i16_parse "53EC78" (-5000) 3). Proof. run. Qed.
Example parse_i32 : both (fun H => num_is mem_i sml_i32_parse "55FFFFEC78" (-5000) 5). Proof. run. Qed.
Example parse_i64 : both (fun H => num_is mem_i sml_i64_parse "59FFFFFFFFFFFFFFFF" (-1) 9). Proof. run. Qed.
Example parse_i64f : both (fun H => num_is mem_i sml_i64_parse "58FFFFFFFFFFEC78" (-5000) 8). Proof. run. Qed.
Example write_u8 : both (fun H => emits (sml_u8_write (Some (sml_u8_init 1))) "6201"). Proof. run. Qed.
Example write_i32 : both (fun H => emits (sml_i32_write (Some (sml_i32_init (-5000)))) "55FFFFEC78").
Proof. run. Qed.
Example write_i8o : both (fun H => emits (sml_i8_write None) "01"). Proof. run. Qed.

(** sml_status_test.c *)
Example status8 : both (fun H => parses sml_status_parse "6201" (Some (mkStatus 97 (Some [1]))) 2).
Proof. run. Qed.
Example status_opt : both (fun H => parses sml_status_parse "01" None 1). Proof. run. Qed.
Example status_bad : both (fun H => fails sml_status_parse "5001"). Proof. run. Qed.
Example status_w32 : both (fun H =>
  emits (sml_status_write (Some (mkStatus 100 (Some (sml_u32_init 42))))) "650000002A"). Proof. run. Qed.
Example status_wo : both (fun H => emits (sml_status_write None) "01"). Proof. run. Qed.

(** sml_time_test.c *)
Example time_sec : both (fun H => parses sml_time_parse "72620165000000FF"
  (Some (mkTime (Some [1]) (Some (sml_u32_init 255)))) 8). Proof. run. Qed.
Example time_stamp : both (fun H => parses sml_time_parse "72620265000000FF"
  (Some (mkTime (Some [2]) (Some (sml_u32_init 255)))) 8). Proof. run. Qed.
Example time_opt : both (fun H => parses sml_time_parse "01" None 1). Proof. run. Qed.
Example time_w : both (fun H =>
  emits (sml_time_write (Some (mkTime (Some [1]) (Some (sml_u32_init 255))))) "72620165000000FF").
Proof. run. Qed.
Example time_wo : both (fun H => emits (sml_time_write None) "01"). Proof. run. Qed.

(** sml_value_test.c *)
Example val_os : both (fun H => parses sml_value_parse "0648616C6C6F"
  (Some (mkValue 0 (VBytes (text "Hallo")))) 6). Proof. run. Qed.
Example val_bool : both (fun H => parses sml_value_parse "4200" (Some (mkValue 64 (VBool 0))) 2).
Proof. run. Qed.
Example val_u32 : both (fun H => parses sml_value_parse "6500000001"
  (Some (mkValue 100 (VNum (sml_u32_init 1)))) 5). Proof. run. Qed.
Example val_i64 : both (fun H => parses sml_value_parse "58FFFFFFFFFFFF0F"
  (Some (mkValue 88 (VNum (sml_i64_init (-241))))) 8). Proof. run. Qed.
Example val_opt : both (fun H => parses sml_value_parse "01" None 1). Proof. run. Qed.
Example val_wos : both (fun H => emits (sml_value_write (Some (mkValue 0 (VBytes (text "Hallo")))))
  "0648616C6C6F"). Proof. run. Qed.
Example val_wb : both (fun H => emits (sml_value_write (Some (mkValue 64 (VBool 0)))) "4200"). Proof. run. Qed.
Example val_wu32 : both (fun H => emits (sml_value_write (Some (mkValue 100 (VNum (sml_u32_init 42)))))
  "650000002A"). Proof. run. Qed.
Example val_wi16 : both (fun H => emits (sml_value_write (Some (mkValue 82 (VNum (sml_i16_init (-5))))))
  "53FFFB"). Proof. run. Qed.
Example val_wo : both (fun H => emits (sml_value_write None) "01"). Proof. run. Qed.

(** sml_list_test.c *)
Definition test_entry : list_entry :=
  mkEntry (Some (hx "61")) None None None None (Some (mkValue 64 (VBool 0))) None.
Example list_two : both (fun H => parses sml_list_parse "727702610101010142000177026101010101420001"
  [test_entry; test_entry] 21). Proof. run. Qed.
Example list_opt : both (fun H => parses sml_list_parse "01" [] 1). Proof. run. Qed.
Example list_w : both (fun H => emits (sml_list_write
  [mkEntry (Some (text "Hallo")) None None None None (Some (mkValue 0 (VBytes (text "Hallo")))) None])
  "71770648616C6C6F010101010648616C6C6F01"). Proof. run. Qed.
Example list_wo : both (fun H => emits (sml_list_write []) "01"). Proof. run. Qed.
Example seq_parse : parses (sml_sequence_parse sml_octet_string_parse) "720648616C6C6F0648616C6C6F"
  (Some [Some (text "Hallo"); Some (text "Hallo")]) 13. Proof. reflexivity. Qed.
Example seq_write : emits (sml_sequence_write sml_octet_string_write
  (Some [Some (text "Hallo"); Some (text "Hallo")])) "720648616C6C6F0648616C6C6F".
Proof. vm_compute; auto. Qed.

(** sml_tree_test.c *)
Example tree_w : both (fun H => emits (sml_tree_write (Some (Tree (Some (text "Hallo")) None [])))
  "730648616C6C6F0101"). Proof. run. Qed.
Example tree_child : both (fun H => parses sml_tree_parse "730648616C6C6F0171730648616C6C6F0101"
  (Some (Tree (Some (text "Hallo")) None [Tree (Some (text "Hallo")) None []])) 18). Proof. run. Qed.
Example tree_bad : both (fun H => fails sml_tree_parse "730648616C6C6F0171720648616C6C6F0101"). Proof. run. Qed.
Example path_p : parses sml_tree_path_parse "720648616C6C6F0264" (Some [text "Hallo"; [100]]) 9.
Proof. reflexivity. Qed.
Example path_w : emits (sml_tree_path_write (Some [text "Hallo"; text "Hallo"]))
  "720648616C6C6F0648616C6C6F". Proof. vm_compute; auto. Qed.
Example ppv_p : both (fun H => parses sml_proc_par_value_parse "72620472620265000000FF"
  (Some (mkPpv (Some [4]) (PTime (mkTime (Some [2]) (Some (sml_u32_init 255)))))) 11). Proof. run. Qed.
Example ppv_w : both (fun H => emits (sml_proc_par_value_write
  (Some (mkPpv (Some [4]) (PTime (mkTime (Some [1]) (Some (sml_u32_init 255))))))) "72620472620165000000FF").
Proof. run. Qed.

(** sml_get_profile_pack_request_test.c *)
Example pack_req : both (fun H =>
  parses sml_get_profile_pack_request_parse "7901010101010101730648616C6C6F0648616C6C6F0648616C6C6F01"
   (Some (mkPackReq None None None None None None None
      [Some (text "Hallo"); Some (text "Hallo"); Some (text "Hallo")] None)) 28). Proof. run. Qed.

(** sml_message_test.c *)
Definition good_msg : string :=
 "7607003800003FB662006200726301017601010700380042153D0B06454D48010271533BCD010163820800".
Definition bad_msg : string :=
 "7607003800003FB662006200726301017601010700390042153D0B06454D48010271533BCD010163820800".
Example msg_good : both (fun H =>
  match sml_message_parse (buf512 good_msg) with Ret (Some _, b) => error b = false | _ => False end).
Proof. run. Qed.
Example msg_bad : both (fun H =>
  match sml_message_parse (buf512 bad_msg) with Ret (None, b) => True | _ => False end).
Proof. run. Qed.

(** sml_file_test.c: the first message of the crash report (the rest of that
    input is uninitialised memory in the test). *)
Definition crash_report : list Z := [
27; 27; 27; 27; 1; 1; 1; 1; 118; 11; 69; 83; 89; 65; 31; 232; 5; 181; 131; 17; 98; 0; 98; 0; 114; 99; 1; 1; 118; 1; 4; 69; 83; 89; 8; 69; 83; 89; 43; 177; 131; 17; 11; 9; 1; 69; 83; 89; 17; 3; 166; 31; 232; 1; 1; 99; 29; 82; 0; 118; 11; 69; 83; 89; 65; 31; 232; 5; 181; 131; 18; 98; 0; 98; 0; 114; 99; 9; 0; 1; 69; 83; 89; 17; 3; 166; 31; 232; 7; 1; 0; 98; 10; 255; 255; 114; 98; 1; 101; 1; 231; 43; 177; 121; 119; 7; 129; 129; 199; 130; 3; 255; 1; 1; 1; 1; 4; 69; 83; 89; 1; 119; 7; 1; 0; 0; 0; 9; 255; 1; 1; 1; 1; 11; 9; 1; 69; 83; 89; 17; 3; 166; 31; 232; 1; 119; 7; 1; 0; 1; 8; 0; 255; 100; 0; 0; 128; 1; 98; 30; 82; 252; 89; 0; 0; 0; 9; 114; 153; 145; 4; 1; 119; 7; 1; 0; 16; 7; 0; 255; 1; 1; 98; 27; 82; 254; 89; 0; 0; 0; 0; 0; 0; 105; 153; 1; 119; 7; 1; 0; 36].
Example file_report : both (fun H =>
  match sml_file_parse (skipn 8 crash_report) with
  | Ret f => Datatypes.length (f_messages f) = 1%nat | _ => False end).
Proof. run. Qed.
