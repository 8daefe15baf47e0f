(** Frames of a secure session and of its handshake, built from single cipher blocks. *)
From Verif Require Import Base SpecCrc SpecRx SpecFrame SpecSec.

(* A frame inside a session.  ty 21 and 22 (command, reply) carry the data in clear, 23 and 24
   encrypted; last is the MAC of the last frame in the other direction; the MAC covers everything
   in front of it and its first four bytes are sent. *)
Definition secure_frame (addr seq ty code : Z) (data kenc k1 k2 last : list Z) : list Z :=
  let d := if (ty =? 23) || (ty =? 24) then osdp_encrypt kenc last data else data in
  let body := header addr (zlen d + 14) (12 + seq) ++ [2; ty; code] ++ d in
  with_crc (body ++ firstn 4 (osdp_mac k1 k2 last body)).

(* the whole MAC of that frame *)
Definition secure_mac (addr seq ty code : Z) (data kenc k1 k2 last : list Z) : list Z :=
  let d := if (ty =? 23) || (ty =? 24) then osdp_encrypt kenc last data else data in
  osdp_mac k1 k2 last (header addr (zlen d + 14) (12 + seq) ++ [2; ty; code] ++ d).

(* a frame of the handshake: ty 17..20, b the data byte of the security block *)
Definition handshake_frame (addr seq ty b : Z) (pay : list Z) : list Z :=
  with_crc (header addr (zlen pay + 10) (12 + seq) ++ [3; ty; b] ++ pay).
