(** What an application has to keep to, and the packets that bring a peripheral device down all the
    same. *)
From Verif Require Import Base Types Pd SpecRx SpecFrame SpecSec SpecReply SpecCmd SpecPd.

(* the callback leaves the command structure in the kind it was given, and a whole key whole in a KEYSET *)
Definition keeps_kind (e : env) : Prop := forall n c c', e_cb e n c = (0, c') ->
  match c, c' with
  | CStatus _ _ _, CStatus _ _ _ => True
  | CComset _ _, CComset _ _ => True
  | CKeyset _ _ k, CKeyset _ _ k' => 16 <= zlen k -> 16 <= zlen k'
  | CStatus _ _ _, _ | CComset _ _, _ | CKeyset _ _ _, _ => False
  | _, _ => True
  end.

(* at most 55 data bytes, all of them there: fits the smallest packet a panel may ask for *)
Definition event_small (ev : event) : Prop :=
  match ev with
  | EKey _ n d => 0 <= n <= 55 /\ n <= zlen d
  | EMfgrep _ _ n d => 0 <= n <= 55 /\ n <= zlen d
  | ECard _ _ _ n d => 0 <= n <= 440 /\ (n + 7) / 8 <= zlen d
  | _ => True
  end.

(* at most 32 inputs (function 1) and outputs (function 2): as many as the status mask has bits *)
Definition cap_small (c : capent) : Prop := c_fc c = 1 \/ c_fc c = 2 -> c_num c <= 32.

(* the application keeps to that *)
Definition careful (c : pd_call) : Prop :=
  match c with
  | Refresh e => keeps_kind e
  | Notify ev => event_small ev
  | SetCaps l => Forall cap_small l
  | _ => True
  end.
Definition careful_info (i : pdinfo) : Prop := Forall cap_small (i_cap i).

(* the security block leaves no room for code and MAC *)
Definition block_too_long (f : list Z) : Prop := f_scb f = true /\ zlen f - f_tail f - f_start f < 5.

(* file transfer data d whose length field does not fit the packet, or that carries the file of p
   beyond its announced size *)
Definition overruns (p : pd) (d : list Z) : Prop :=
  match file p with
  | None => False
  | Some f =>
      let n := nth 9 d 0 + 256 * nth 10 d 0 in
      let size := nth 1 d 0 + 256 * nth 2 d 0 + 65536 * nth 3 d 0 + 16777216 * nth 4 d 0 in
      11 < zlen d /\
      (n + 11 <> zlen d \/
       match f_state f with
       | FIdle | FDone => size < n
       | _ => f_size f < (f_off f + n) mod 4294967296
       end)
  end.
