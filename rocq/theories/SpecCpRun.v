(** Stretches of a run of one PD entry of a control panel, and what is observed in them. *)
From Verif Require Import Base Types Phy File Pd Cp CpCtx SpecPd SpecCp.

(* cp_seg p l q: from p the calls of l (in order) lead to q *)
Inductive cp_seg : pd -> list cp_entry -> pd -> Prop :=
| cseg_nil p : cp_seg p [] p
| cseg_cons p c q o l r : cp_call_typed c -> cp_do c p = Ok (q, o) -> cp_seg q l r -> cp_seg p (mkCe p c o :: l) r.

(* the entry transmitted something *)
Definition transmits (en : cp_entry) : Prop := exists d, In (OTx d) (ce_out en).

(* states the documentation names as successors *)
Definition successor (a b : cpstate) : bool :=
  match a, b with
  | SInit, (SInit | SCapdet | SOffline) => true
  | SCapdet, (SCapdet | SChlng | SOnline | SOffline) => true
  | SChlng, (SChlng | SScrypt | SOnline | SOffline) => true
  | SScrypt, (SScrypt | SSetScbk | SOnline | SOffline) => true
  | SSetScbk, (SSetScbk | SChlng | SOffline) => true
  | SOnline, (SOnline | SChlng | SOffline) => true
  | SOffline, (SOffline | SInit) => true
  | _, _ => false
  end.

(* the application neither takes ENFORCE_SECURE away nor sets INSTALL_MODE *)
Definition stays_strict (c : cp_call) : Prop :=
  match c with
  | ModifyFlag enf inst _ other do_set => other = false -> (enf = true -> do_set = true) /\ (inst = true -> do_set = false)
  | _ => True
  end.

(** * Commands *)

(* commands the application got accepted for the queue (file transfers have no queue) *)
Definition accepted_cmd (en : cp_entry) : list cmd :=
  match ce_call en with
  | Send e (CFileTx _ _) => []
  | Send e c => if snd (fst (cp_send_command e (ce_pd en) c)) then [c] else []
  | _ => []
  end.

(* the command a refresh takes up: the online entry has nothing else to do *)
Definition taken_cmd (en : cp_entry) : list cmd :=
  match ce_call en, state (ce_pd en), phy_state (ce_pd en) with
  | Update _, SOnline, PIdle => firstn 1 (cmdq (ce_pd en))
  | _, _, _ => []
  end.

(* in order of time; the history has the latest call first *)
Fixpoint in_time {A} (g : cp_entry -> list A) (h : list cp_entry) : list A :=
  match h with [] => [] | en :: t => in_time g t ++ g en end.

(* a is b with some elements left out *)
Inductive left_out {A} : list A -> list A -> Prop :=
| lo_nil : left_out [] []
| lo_keep x a b : left_out a b -> left_out (x :: a) (x :: b)
| lo_drop x a b : left_out a b -> left_out a (x :: b).

Definition is_flush (c : cp_call) : bool := match c with FlushCmds => true | _ => false end.
