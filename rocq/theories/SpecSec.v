(** Secure channel, stated with single cipher blocks only: message authentication code, data block
    and secure frames as the OSDP specification describes them. *)
From Verif Require Import Base Aes SpecCrc SpecRx SpecFrame.

(* AES-128 of one block; that the tables below it are a permutation is C05 *)
Definition enc1 (k b : list Z) : list Z := aes_ecb_encrypt k b.

(* the message cut into blocks of 16 bytes *)
Fixpoint cut16 (n : nat) (l : list Z) : list (list Z) :=
  match n with O => [] | S k => firstn 16 l :: cut16 k (skipn 16 l) end.
Definition blocks16 (l : list Z) : list (list Z) := cut16 (length l / 16) l.

(* 0x80 and zero bytes up to a full block; not when the message is a whole number of blocks *)
Definition pad80 (l : list Z) : list Z :=
  if Nat.eqb (length l mod 16) 0 then l else l ++ 128 :: repeat 0 (15 - length l mod 16).

(* every block but the last under k1, the last under k2 *)
Fixpoint mac_chain (k1 k2 iv : list Z) (bs : list (list Z)) {struct bs} : list Z :=
  match bs with
  | [] => iv
  | [b] => enc1 k2 (xorl b iv)
  | b :: t => mac_chain k1 k2 (enc1 k1 (xorl b iv)) t
  end.

Definition osdp_mac (k1 k2 iv msg : list Z) : list Z := mac_chain k1 k2 iv (blocks16 (pad80 msg)).

(* cipher block chaining *)
Fixpoint cbc_chain (k iv : list Z) (bs : list (list Z)) {struct bs} : list (list Z) :=
  match bs with
  | [] => []
  | b :: t => let c := enc1 k (xorl b iv) in c :: cbc_chain k c t
  end.

(* 0x80 and zero bytes, always at least the 0x80 *)
Definition padded (l : list Z) : list Z := l ++ 128 :: repeat 0 (15 - length l mod 16).

(* data block encrypted under k; the initialisation vector is the complement of the peer's last MAC *)
Definition osdp_encrypt (k last_mac data : list Z) : list Z :=
  concat (cbc_chain k (map (fun b => 255 - b) last_mac) (blocks16 (padded data))).

(* parts of a secure frame: what the MAC covers, and the four MAC bytes in front of the check bytes *)
Definition f_tail (f : list Z) : Z := if f_crc f then 2 else 1.
Definition f_covered (f : list Z) : list Z := firstn (Z.to_nat (zlen f - f_tail f - 4)) f.
Definition f_mac (f : list Z) : list Z := sub f (zlen f - f_tail f - 4) 4.
(* type of the security block; 21..24 are the types used inside a session *)
Definition f_sctype (f : list Z) : Z := nth 6 f 0.
