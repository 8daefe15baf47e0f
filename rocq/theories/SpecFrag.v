(** What the theorem about repeated fragments of a file speaks of. *)
From Verif Require Import Base Types SpecRx SpecReply SpecFile PdRefuse.

(* the payload of a packet is a file fragment: code 124, one byte file type, four bytes size, four bytes offset
   and two bytes length, all low byte first, and the data d, which belong at the offset i *)
Definition fragment (pay : list Z) (d : list Z) (i : Z) : Prop :=
  nth 0 pay 0 = 124 /\ d = skipn 12 pay /\
  i = nth 6 pay 0 + 256 * nth 7 pay 0 + 65536 * nth 8 pay 0 + 16777216 * nth 9 pay 0 /\
  zlen d = nth 10 pay 0 + 256 * nth 11 pay 0.
(* the bytes of the file at that offset *)
Definition in_file (data d : list Z) (i : Z) : Prop := d = firstn (length d) (skipn (Z.to_nat i) data).

(* what a packet says to a device that reads it: its payload, deciphered with the keys of the session if one is open
   and the number of the packet is not 0 (such a packet ends the session) *)
Definition says_to (e : env) (p : pd) (f pay : list Z) : Prop :=
  f_says (session_open e p && negb (f_seq f =? 0)) (s_enc (sc p)) (r_mac (sc p)) f pay.
