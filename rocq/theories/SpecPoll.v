(** The polls that the control panel sends to an idle device (C68). *)
From Verif Require Import Base Types Phy File SpecSay SpecCp SpecTalk.

(* the call transmitted a poll (code 96), whole or cut short by the channel; the first byte is the mark byte *)
Definition polls (o : list out) : Prop := exists w, In (OTx (255 :: w)) o /\ cmd_code w = 96.

(* the time of a refresh lies between a and b *)
Definition timed (a b : Z) (en : cp_entry) : Prop := forall x, ce_call en = Update x -> a <= e_now x <= b.

(* a file is being sent, and the device asked in its last status report to be polled before the next fragment *)
Definition wants_polls (p : pd) : Prop :=
  exists f, file p = Some f /\ f_state f <> FIdle /\ f_state f <> FDone /\ Z.testbit (f_flags f) FB_POLL = true.

(* the application did not ask to ignore unknown answers, nor the device to be polled *)
Definition plainly (p : pd) : Prop := ign_unsol (fl p) = false /\ ~ wants_polls p.

(* online, and no exchange under way *)
Definition rests (p : pd) : Prop := state p = SOnline /\ phy_state p = PIdle.
