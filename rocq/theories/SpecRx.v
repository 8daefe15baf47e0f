(** What a receiver should make of a byte stream, stated without the packet buffer, the ring buffer
    or any other state of the library. *)
From Verif Require Import Base.

(* The bytes a reader hears that asks for at most 64 bytes at a time and goes on only after a full
   64 byte answer (osdp_phy.c:52-80). *)
Fixpoint heard (chunks : list (list Z)) : list Z :=
  match chunks with
  | [] => []
  | c :: cs =>
      let d := firstn 64 c in
      if Nat.eqb (length d) 64 then d ++ heard cs else d
  end.

(* A frame, without mark byte: start byte 0x53, address, length, control, data, check bytes. *)
Definition f_addr (b : list Z) : Z := nth 1 b 0 mod 128.
Definition f_reply (b : list Z) : bool := 128 <=? nth 1 b 0.
Definition f_len (b : list Z) : Z := nth 2 b 0 + 256 * nth 3 b 0.
Definition f_seq (b : list Z) : Z := nth 4 b 0 mod 4.
Definition f_crc (b : list Z) : bool := nth 4 b 0 / 4 mod 2 =? 1.
Definition f_scb (b : list Z) : bool := nth 4 b 0 / 8 mod 2 =? 1.

(* shape of a frame: start byte, direction, and a length field that is the number of bytes *)
Definition f_shape (from_pd : bool) (b : list Z) : Prop :=
  nth 0 b 0 = 83 /\ f_reply b = from_pd /\ f_len b = zlen b /\ 6 <= zlen b <= 256.
