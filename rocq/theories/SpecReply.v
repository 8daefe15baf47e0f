(** What a frame says: its payload (code and data), and the events that payloads report. *)
From Verif Require Import Base Aes Types SpecCrc SpecRx SpecFrame SpecSec.

(* ct is a data block that deciphers to data, an end mark 0x80 and zero bytes *)
Definition enciphers (kenc last : list Z) (ct data : list Z) : Prop :=
  exists k, Nat.modulo (length (data ++ 128 :: repeat 0 k)) 16 = 0%nat /\
    ct = concat (cbc_chain kenc (map (fun b => 255 - b) last) (blocks16 (data ++ 128 :: repeat 0 k))).

(* position of the code: behind the header and the security block, if there is one *)
Definition f_start (f : list Z) : Z := if f_scb f then 5 + nth 5 f 0 else 5.

(* The payload l (code followed by data) of frame f.  act: a session is open, with data key kenc;
   last is the MAC of the last frame in the other direction. *)
Inductive f_says (act : bool) (kenc last : list Z) (f l : list Z) : Prop :=
| FS_clear : f_scb f = false \/ act = false \/ f_sctype f <= 20 ->
    l = sub f (f_start f) (zlen f - f_tail f - f_start f) -> l <> [] -> f_says act kenc last f l
| FS_mac : f_scb f = true -> act = true -> 21 <= f_sctype f <= 22 ->
    l = sub f (f_start f) (zlen f - f_tail f - 4 - f_start f) -> l <> [] -> f_says act kenc last f l
| FS_cipher code data ct : f_scb f = true -> act = true -> 23 <= f_sctype f <= 24 ->
    l = code :: data -> code :: ct = sub f (f_start f) (zlen f - f_tail f - 4 - f_start f) ->
    ct = [] /\ data = [] \/ enciphers kenc last ct data -> f_says act kenc last f l.

(* the code of a frame *)
Definition f_code (f : list Z) : Z := nth (Z.to_nat (f_start f)) f 0.

(* replies that answer a command when the device is online *)
Definition answers_cmd (c r : Z) : Prop :=
  r = 64 \/ (c = 96 /\ In r [72; 73; 74; 75; 80; 83; 144]) \/
  In (c, r) [(124, 122); (110, 84); (128, 144); (100, 72); (101, 73); (102, 74); (103, 75)].

(* number i is set in the mask exactly if flag i is not zero *)
Definition mask_of (flags : list Z) (m : Z) : Prop :=
  0 <= m < 2 ^ zlen flags /\ forall i, (i < length flags)%nat -> Z.testbit m (Z.of_nat i) = negb (nth i flags 0 =? 0).

(* the payload reports the event *)
Definition reports (l : list Z) (ev : event) : Prop :=
  match ev with
  | ECard reader fmt dir n data => dir = 0 /\ l = [80; reader; fmt; n mod 256; n / 256] ++ data /\ zlen data = (n + 7) / 8
  | EKey reader n data => l = [83; reader; n] ++ data /\ zlen data = n
  | EMfgrep v c n data => l = [144; v mod 256; v / 256 mod 256; v / 65536; c] ++ data /\ zlen data = n
  | EStatus ty n m => exists flags, l = (if ty =? 0 then 73 else if ty =? 1 then 74 else if ty =? 2 then 72 else 75) :: flags /\
      0 <= ty <= 3 /\ n = zlen flags /\ mask_of flags m
  | ENotif _ _ _ | EOther _ => False
  end.
