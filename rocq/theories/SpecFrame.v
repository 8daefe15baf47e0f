(** When a frame is intact, whom it is for, and which sequence number is acceptable. *)
From Verif Require Import Base SpecCrc SpecRx.

(* the check bytes that the control byte announces are right *)
Definition f_intact (b : list Z) : Prop := if f_crc b then crc_valid b else sum_valid b.

(* the frame is for the device with address a (127 is the broadcast address) *)
Definition f_mine (a : Z) (b : list Z) : Prop := f_addr b = a \/ f_addr b = 127.

(* successor in the cycle 0 1 2 3 1 2 3 ... *)
Definition seq_next (s : Z) : Z := if s =? 3 then 1 else s + 1.

(* acceptable number when the counter stands at last (-1: nothing received yet) *)
Definition seq_ok (last s : Z) : Prop := s = 0 \/ s = last \/ s = seq_next last.

(* a byte string followed by its CRC, low byte first *)
Definition with_crc (b : list Z) : list Z :=
  b ++ [textbook_crc 7439 b mod 256; textbook_crc 7439 b / 256].

(* header: start byte, address, length of the whole frame, control byte *)
Definition header (addr total ctl : Z) : list Z := [83; addr; total mod 256; total / 256; ctl].

(* A frame without security block: addr includes the direction bit, pay is the command or reply
   code followed by its data. *)
Definition plain_frame (addr seq : Z) (pay : list Z) : list Z :=
  with_crc (header addr (zlen pay + 7) (4 + seq) ++ pay).
