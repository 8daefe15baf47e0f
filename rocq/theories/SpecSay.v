(** When a device may stay silent on a valid packet (C44). *)
From Verif Require Import Base Types SpecRx SpecFrame SpecSec.

(* number of bytes that a packet leaves for the command: all of it without header, security block,
   message authentication code (security block types 21 to 24) and check bytes *)
Definition cmd_room (f : list Z) : Z :=
  zlen f - 5 - f_tail f - (if f_scb f then nth 5 f 0 + (if 21 <=? f_sctype f then 4 else 0) else 0).

(* the command code; it is not encrypted *)
Definition cmd_code (f : list Z) : Z := nth (Z.to_nat (5 + if f_scb f then nth 5 f 0 else 0)) f 0.

(* the application took all the bytes of a file fragment *)
Definition taken (e : env) (o : list out) : Prop :=
  exists data off, In (OFWrite data off) o /\ e_fwrite e data off = zlen data.

(* what the panel said about its receive buffer: nothing, or at least n bytes *)
Definition says_room (n : Z) (p : pd) : Prop := peer_rx p = 0 \/ n <= peer_rx p.
