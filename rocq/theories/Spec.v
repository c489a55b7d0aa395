(** Specifications: what the words of the properties mean.  Nothing in this
    file mentions the model of the code, only bytes and numbers. *)
From Verif Require Import Base.

(** *** SML type-length fields *)

(** A TL field: bytes with the continuation bit (0x80) set, then one without. *)
Definition tl_field (bs : list Z) : Prop := exists init last,
  bs = init ++ [last] /\ Forall (fun b => 128 <= b < 256) init /\ 0 <= last < 128.

(** The low nibbles, most significant first. *)
Definition tl_nibbles (bs : list Z) : Z := fold_left (fun a b => a * 16 + b mod 16) bs 0.

(** Bits 4..6 of the first byte: the type, as the SML_TYPE constants are written. *)
Definition tl_type (bs : list Z) : Z := match bs with [] => 0 | b :: _ => (b / 16) mod 8 * 16 end.

(** Payload length: the nibbles count the TL bytes too, except for lists
    (type 0x70), where they count the elements. *)
Definition tl_length (bs : list Z) : Z :=
  if tl_type bs =? 112 then tl_nibbles bs else tl_nibbles bs - Z.of_nat (length bs).

(** *** Integers *)

(** Big-endian unsigned value and two's complement value. *)
Definition be_unsigned (bs : list Z) : Z := fold_left (fun a b => a * 256 + b) bs 0.
Definition be_signed (bs : list Z) : Z :=
  let u := be_unsigned bs in
  let w := 2 ^ (8 * Z.of_nat (length bs)) in
  if w <=? 2 * u then u - w else u.

(** *** Checksums *)

(** The bits of a byte / of a message in the order in which a serial line sends
    them: least significant bit of each byte first. *)
Definition byte_bits (b : Z) : list bool := map (Z.testbit b) [0; 1; 2; 3; 4; 5; 6; 7].
Definition message_bits (bs : list Z) : list bool := flat_map byte_bits bs.

(** Addition of polynomials over GF(2). *)
Fixpoint xor_bits (a b : list bool) : list bool :=
  match a, b with
  | x :: a', y :: b' => xorb x y :: xor_bits a' b'
  | _, _ => []
  end.

(** The textbook CRC register of 16 bits, most significant bit first: shift out
    the top bit, and if it differs from the next message bit add the generator
    polynomial x^16 + x^12 + x^5 + 1 (0x1021). *)
Definition poly_1021 : list bool :=
  [false; false; false; true;  false; false; false; false;
   false; false; true;  false; false; false; false; true].
Definition crc_shift (reg : list bool) (bit : bool) : list bool :=
  match reg with
  | [] => []
  | top :: low =>
      let shifted := low ++ [false] in
      if xorb top bit then xor_bits shifted poly_1021 else shifted
  end.
Definition crc_register (init : list bool) (bits : list bool) : list bool :=
  fold_left crc_shift bits init.

(** The number whose binary digits, least significant first, are [l] ("reflected
    output"). *)
Fixpoint lsb_value (l : list bool) : Z :=
  match l with [] => 0 | b :: t => Z.b2z b + 2 * lsb_value t end.

(** CRC-16/KERMIT: initial value 0, no final xor.  CRC-16/X.25: initial value
    0xffff, final xor 0xffff.  Both take and deliver bits reflected. *)
Definition crc16_kermit (bs : list Z) : Z :=
  lsb_value (crc_register (repeat false 16) (message_bits bs)).
Definition crc16_x25 (bs : list Z) : Z :=
  Z.lxor (lsb_value (crc_register (repeat true 16) (message_bits bs))) 65535.

(** A 16 bit number with its two bytes exchanged. *)
Definition swap16 (z : Z) : Z := z mod 256 * 256 + z / 256.

(** The catalogue's check value: the checksum of the text "123456789". *)
Example check_x25 : crc16_x25 [49; 50; 51; 52; 53; 54; 55; 56; 57] = 36974 (* 0x906e *).
Proof. reflexivity. Qed.
Example check_kermit : crc16_kermit [49; 50; 51; 52; 53; 54; 55; 56; 57] = 8585 (* 0x2189 *).
Proof. reflexivity. Qed.
