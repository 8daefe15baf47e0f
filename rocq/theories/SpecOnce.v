(** The reports about the completion of commands, against the commands taken from the queue. *)
From Verif Require Import Base Types Phy File Pd Cp CpCtx SpecPd SpecCp SpecCpRun.

(* refreshes are made with an event callback registered and notifications enabled *)
Definition listens (en : cp_entry) : Prop :=
  match ce_call en with Update e => e_evcb e = true /\ notif (fl (ce_pd en)) = true | _ => True end.

(* the entry replaces the default key, by a KEYSET the application did not ask for *)
Definition own_keyset (p : pd) : bool := match state p with SSetScbk => true | _ => false end.

(* the kind of command in each completion report of one call *)
Definition report_of (x : out) : list Z := match x with OEv _ (ENotif 0 a _) => [a] | _ => [] end.
Definition reports (en : cp_entry) : list Z :=
  if own_keyset (ce_pd en) then [] else flat_map report_of (ce_out en).

(* the kind of an application command (enum osdp_cmd_e) that the entry can transmit at all *)
Definition kind_of (secure : bool) (c : cmd) : list Z :=
  match c with
  | COutput _ _ _ => [1] | CLed _ _ _ _ => [2] | CBuzzer _ _ _ _ _ => [3] | CText _ _ _ _ _ _ _ => [4]
  | CKeyset ty _ _ => if (ty =? 1) && secure then [5] else []
  | CComset _ _ => [6] | CMfg _ _ _ _ => [7]
  | CStatus ty _ _ => if (0 <=? ty) && (ty <=? 3) then [9] else []
  | _ => []
  end.
Definition kinds (en : cp_entry) : list Z := flat_map (kind_of (sc_active (fl (ce_pd en)))) (taken_cmd en).

(* the kind of the command whose exchange is under way *)
Definition kind_of_code (c : Z) : list Z :=
  if c =? 104 then [1] else if c =? 105 then [2] else if c =? 106 then [3] else if c =? 107 then [4]
  else if c =? 117 then [5] else if c =? 110 then [6] else if c =? 128 then [7]
  else if (100 <=? c) && (c <=? 103) then [9] else [].
Definition under_way (p : pd) : list Z :=
  match state p with SOnline => if phy_running p then kind_of_code (cmd_id p) else [] | _ => [] end.

(* manufacturer specific commands left out *)
Definition not_mfg (l : list Z) : list Z := filter (fun a => negb (a =? 7)) l.
