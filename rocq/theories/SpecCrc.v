(** Independent specification for C02-C04: the textbook bit-serial CRC and the notion of an error
    burst on the serial line.  Mentions no model definition. *)
From Verif Require Import Base.

(* One message bit enters a 16 bit shift register with feedback polynomial
   x^16 + x^12 + x^5 + 1 (0x1021 = 4129). *)
Definition crc_bit (c : Z) (b : bool) : Z :=
  let shifted := (2 * c) mod 65536 in
  if xorb (Z.testbit c 15) b then Z.lxor shifted 4129 else shifted.

(* bits of a byte, most significant first *)
Definition bits_msb (b : Z) : list bool := map (Z.testbit b) [7; 6; 5; 4; 3; 2; 1; 0].

(* textbook CRC-16 with initial value init *)
Definition textbook_crc (init : Z) (msg : list Z) : Z :=
  fold_left crc_bit (flat_map bits_msb msg) init.

(* bits in the order in which a UART puts them on the line: least significant first *)
Definition bits_wire (b : Z) : list bool := map (Z.testbit b) [0; 1; 2; 3; 4; 5; 6; 7].
Definition wire (msg : list Z) : list bool := flat_map bits_wire msg.

(* The two messages have the same length and differ at most in the window of len bits that starts
   at bit pos of the line. *)
Definition burst (pos len : nat) (m1 m2 : list Z) : Prop :=
  length m1 = length m2 /\
  forall i, (i < pos \/ pos + len <= i)%nat -> nth i (wire m1) false = nth i (wire m2) false.

(* A message whose last two bytes carry the CRC of the rest, low byte first. *)
Definition crc_valid (m : list Z) : Prop :=
  exists body lo hi, m = body ++ [lo; hi] /\ textbook_crc 7439 body = lo + 256 * hi.

(* A message whose bytes, checksum included, add up to 0 modulo 256. *)
Definition sum_valid (m : list Z) : Prop :=
  m <> [] /\ (fold_right Z.add 0 m) mod 256 = 0.

(* The two messages have the same length and differ at exactly one position. *)
Definition one_byte_off (m1 m2 : list Z) : Prop :=
  exists pre x y post, m1 = pre ++ x :: post /\ m2 = pre ++ y :: post /\ x <> y.
