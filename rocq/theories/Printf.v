(** Model of what the example program writes to its standard output: the calls
    of printf in transport_receiver of examples/sml_server.c and in
    sml_file_print of sml/src/sml_file.c, and the multiplication by
    pow(10, scaler) before a number is printed.

    The C library is not part of /repo.  Its printf is modelled for the
    conversions used there ("%d" and "%zu" of a number that is not negative,
    "%s", "%4.X" and "%.*f"), following C11 7.21.6.1, in the "C" locale and with
    the exact decimal rounding to nearest, ties to even, that glibc uses.
    Its pow is not modelled: it is the parameter [pow10]. *)
From Coq Require Import SpecFloat.
From Verif Require Import Base Buf Number OctetString Boolean Value Time SList Tree Bodies Message File Transport Server ServerMain.

(** *** printf *)
(** The digits of [n >= 0] to the base [b], before [acc]. *)
Definition digit_char (d : Z) : Z := if d <? 10 then 48 + d else 55 + d.
Fixpoint digits_of (fuel : nat) (b n : Z) (acc : list Z) : list Z :=
  match fuel with
  | O => acc
  | S fuel' => if n <? b then digit_char n :: acc
               else digits_of fuel' b (n / b) (digit_char (n mod b) :: acc)
  end.
(** "%d", "%zu": as many steps as there are bits are enough *)
Definition decimal (n : Z) : list Z := digits_of (S (Z.to_nat (Z.log2 n))) 10 n [].
(** "%4.X": the precision 0 prints no digit for 0; padded with blanks *)
Definition upper_hex (n : Z) : list Z := if n =? 0 then [] else digits_of (S (Z.to_nat (Z.log2 n))) 16 n [].
Definition pad (c : Z) (w : nat) (t : list Z) : list Z := repeat c (w - length t) ++ t.
(** a * 2 ^ e to the nearest integer, ties to even *)
Definition nearest (a e : Z) : Z :=
  if 0 <=? e then a * 2 ^ e
  else let w := 2 ^ (- e) in
       let q := a / w in
       let r := a mod w in
       if 2 * r <? w then q
       else if w <? 2 * r then q + 1
       else if Z.even q then q else q + 1.
(** n / 10 ^ prec with a decimal point before the last [prec] digits *)
Definition with_point (n : Z) (prec : nat) : list Z :=
  let d := pad 48 (S prec) (decimal n) in
  firstn (length d - prec) d ++
  match prec with O => [] | S _ => 46 :: skipn (length d - prec) d end.
Definition minus (s : bool) : list Z := if s then [45] else [].
(** "%.*f" *)
Definition format_f (prec : nat) (x : spec_float) : list Z :=
  match x with
  | S754_zero s => minus s ++ with_point 0 prec
  | S754_finite s m e => minus s ++ with_point (nearest (Zpos m * 10 ^ Z.of_nat prec) e) prec
  | S754_infinity s => minus s ++ [105; 110; 102]
  | S754_nan => [110; 97; 110]
  end.

(** *** transport_receiver, sml_file_print *)
(** sml_server.c:114, 121, 136: "%d-%d:%d.%d.%d*%d#" *)
Definition obis_text (obis : list Z) : list Z :=
  decimal (nth 0 obis 0) ++ [45] ++ decimal (nth 1 obis 0) ++ [58] ++ decimal (nth 2 obis 0) ++ [46] ++
  decimal (nth 3 obis 0) ++ [46] ++ decimal (nth 4 obis 0) ++ [42] ++ decimal (nth 5 obis 0) ++ [35].
Section Pow.
(** the value of pow(10, x) for the integer x *)
Variable pow10 : Z -> spec_float.
(** sml_server.c:114-118, 121-125, 128-145.  The product of line 135 is the one
    of IEEE 754 (no excess precision: FLT_EVAL_METHOD 0). *)
Definition line_text (l : line) : list Z :=
  match l with
  | LStr obis text => obis_text obis ++ text ++ [35; 10]
  | LBool obis b => obis_text obis ++ (if b then [116; 114; 117; 101] else [102; 97; 108; 115; 101]) ++ [35; 10]
  | LNum obis value scaler unit =>
      let prec := - scaler in
      let prec := if prec <? 0 then 0 else prec in
      let value := SFmul 53 1024 value (pow10 scaler) in
      obis_text obis ++ format_f (Z.to_nat prec) value ++ [35] ++
      match unit with None => [] | Some u => u end ++ [10]
  end.
(** "SML file (%d SML messages, %zu bytes)\n", "SML message %4.X\n"
    (sml_file.c:111, 113) and "OBIS data\n" (sml_server.c:100) *)
Definition output_text (o : output) : list Z :=
  match o with
  | OFile messages bytes =>
      [83; 77; 76; 32; 102; 105; 108; 101; 32; 40] ++ decimal messages ++
      [32; 83; 77; 76; 32; 109; 101; 115; 115; 97; 103; 101; 115; 44; 32] ++ decimal bytes ++
      [32; 98; 121; 116; 101; 115; 41; 10]
  | OTag tag => [83; 77; 76; 32; 109; 101; 115; 115; 97; 103; 101; 32] ++ pad 32 4 (upper_hex tag) ++ [10]
  | OHeader => [79; 66; 73; 83; 32; 100; 97; 116; 97; 10]
  | OLine l => line_text l
  end.
(** all that is written to the standard output *)
Definition screen (os : list output) : list Z := concat (map output_text os).
End Pow.
