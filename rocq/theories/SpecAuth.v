(** Replies that a panel accepts inside a session. *)
From Verif Require Import Base SpecRx SpecFrame SpecSec.

(* frame f carries the MAC over all that precedes it, under keys k1, k2 and chaining value last *)
Definition mac_right (k1 k2 last f : list Z) : Prop := f_mac f = firstn 4 (osdp_mac k1 k2 last (f_covered f)).

(* what f says (payload l, in answer to the command with code cmd) is authentic - or f is one of the
   exceptions: a NAK in clear, an ACK to KEYSET in clear, a frame with a block of the handshake *)
Definition genuine (k1 k2 last : list Z) (cmd : Z) (f l : list Z) : Prop :=
  if f_scb f then 17 <= f_sctype f <= 20 \/ (21 <= f_sctype f <= 24 /\ mac_right k1 k2 last f)
  else nth 0 l 0 = 65 \/ (nth 0 l 0 = 64 /\ cmd = 117).
