(** What the status notifications of one call say (include/osdp.h:823-848). *)
From Verif Require Import Base Types Phy File Pd Cp CpCtx SpecPd SpecCp SpecCpRun.

(* the states told of the secure channel: 1 active, 0 inactive *)
Definition sc_told (o : list out) : list Z := flat_map (fun x => match x with OEv _ (ENotif 1 a _) => [a] | _ => [] end) o.
(* the states told of the PD: 1 online, 0 offline *)
Definition pd_told (o : list out) : list Z := flat_map (fun x => match x with OEv _ (ENotif 2 a _) => [a] | _ => [] end) o.

(* what an application believes that goes by the latest notification *)
Definition believes (d : Z) (l : list Z) : Z := last l d.

(* whether a call brought the PD online or took it offline *)
Definition came_or_went (p q : pd) : bool :=
  match state p, state q with
  | SOnline, SOnline | SOffline, SOffline => false
  | _, SOnline | _, SOffline => true
  | _, _ => false
  end.
