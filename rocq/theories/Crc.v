(** CRC-16 and checksum: model of osdp_common.c:18-33 and osdp_phy.c:82-93. *)
From Verif Require Import Base.

(* osdp_common.c:21-25, body of the loop of crc16_itu_t; `seed` is a uint16_t, so every
   assignment truncates to 16 bits. *)
Definition crc_step (seed b : Z) : Z :=
  let s1 := Z.lor (Z.shiftr seed 8) (Z.land (Z.shiftl seed 8) 65535) in
  let s2 := Z.lxor s1 b in
  let s3 := Z.lxor s2 (Z.shiftr (Z.land s2 255) 4) in
  let s4 := Z.lxor s3 (Z.land (Z.shiftl s3 12) 65535) in
  Z.lxor s4 (Z.land (Z.shiftl (Z.land s4 255) 5) 65535).

(* osdp_common.c:18-28 crc16_itu_t. *)
Definition crc16_itu_t (seed : Z) (src : list Z) : Z := fold_left crc_step src seed.

(* osdp_common.c:30-33 osdp_compute_crc16; 0x1D0F = 7439. *)
Definition compute_crc16 (buf : list Z) : Z := crc16_itu_t 7439 buf.

(* osdp_phy.c:82-93 osdp_compute_checksum: `~(0xff & whole) + 1` truncated to uint8_t; the value
   after the last iteration (0 for the empty message).  whole_checksum is an int; with at most
   256 bytes it stays below 65536, so no overflow is modelled. *)
Definition compute_checksum (msg : list Z) : Z :=
  match msg with
  | [] => 0
  | _ => u8 (Z.lnot (Z.land 255 (fold_left Z.add msg 0)) + 1)
  end.
