(** What an application of the control panel has to keep to, and the replies that bring the panel
    down all the same. *)
From Verif Require Import Base Types Phy File Pd Cp CpCtx SpecRx SpecFrame SpecReply SpecPd SpecCp SpecTotal RxProofs.

(* a command with its data, small enough for the smallest packet a device may ask for *)
Definition cmd_small (c : cmd) : Prop :=
  match c with
  | CText _ _ _ _ _ n d => 0 <= n <= 32 /\ n <= zlen d
  | CMfg _ _ n d => 0 <= n <= 55 /\ n <= zlen d
  | CKeyset _ _ k => 16 <= zlen k
  | COther _ => False
  | _ => True
  end.

(* the application keeps to that and registers no file operations *)
Definition careful_cp (c : cp_call) : Prop :=
  match c with
  | Send _ c => cmd_small c
  | CpRegisterFileOps => False
  | _ => True
  end.

(* a reply packet of 256 bytes with mark is arriving *)
Definition reply_256 (e : env) (p : pd) : Prop :=
  exists noise f, arrived e p = noise ++ 255 :: f /\ nth 0 f 0 = 83 /\ f_reply f = true /\ SpecRx.f_len f = 256 /\ 256 <= zlen f.

(* a keypad or card reply with more data than an event holds *)
Definition too_much (l : list Z) : Prop :=
  (nth 0 l 0 = 83 /\ 64 < nth 2 l 0 /\ zlen l = 3 + nth 2 l 0) \/
  (let n := (nth 3 l 0 + 256 * nth 4 l 0 + 7) / 8 in nth 0 l 0 = 80 /\ 64 < n /\ zlen l = 5 + n).
