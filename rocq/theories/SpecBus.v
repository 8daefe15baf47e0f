(** What the theorems about a line shared by several devices speak of. *)
From Verif Require Import Base Rb RbProofs Types Phy Pd SpecRx SpecFrame RxProofs SpecPd SpecLink SpecTalk.

(* what a device with address a can hear without being concerned: stray bytes, intact packets of the panel
   for other devices, and packets of other devices with no start byte inside *)
Inductive benign (a : Z) : list Z -> Prop :=
| bn_nil : benign a []
| bn_stray b s : b <> 83 -> benign a s -> benign a (b :: s)
| bn_command f s : f_shape false f -> zlen f <= 255 -> bytes f -> f_intact f -> f_addr f <> a -> f_addr f <> 127 -> benign a s -> benign a (f ++ s)
| bn_reply f s : f_shape true f -> bytes f -> ~ In 83 (tl f) -> benign a s -> benign a (f ++ s).

(* the refresh comes in time: what is coming in fits the ring buffer together with what is waiting, a packet
   that has begun began less than 200 ms ago, and the session has not timed out *)
Record in_time (e : env) (p : pd) : Prop := {
  it_env : call_typed (Refresh e);
  it_room : (length (rb_contents (rb p)) + length (heard (e_rx e)) < RB_SIZE)%nat;
  it_fresh : pending p = [] \/ e_now e - tstamp p < 200;
  it_session : in_session e p
}.

(* refreshes of a device, each in time, with all their effects *)
Inductive bus_run : pd -> list env -> pd -> list out -> Prop :=
| br_nil p : bus_run p [] p []
| br_cons p e q o es r o' : in_time e p -> pd_do (Refresh e) p = Ok (q, o) -> bus_run q es r o' -> bus_run p (e :: es) r (o ++ o').

(* q is p but for the receive buffers, the mark flag, the time of the last byte and the phase *)
Definition undisturbed (p q : pd) : Prop :=
  exists s m r t a b c, q = set_phy_state s (set_has_mark m (set_rb r (set_tstamp t (set_pblen a (set_plen b (set_pbuf c p)))))).
