(** The files of the application of the control panel, as seen through the functions it registers. *)
From Verif Require Import Base Types Phy File Pd Cp CpCtx SpecPd SpecCp SpecOpen CpReply.

(* an answer that arrives is a status report of the device (code 122) with a number that is none of
   1 (done), 2 (done, restarting) and 3 (still at work) *)
Definition unclear (e : env) (p : pd) : Prop :=
  exists l, heard_reply e p l /\ nth 0 l 0 = 122 /\ ~ In (nth 4 l 0 + 256 * nth 5 l 0) [1; 2; 3].

(* the panel has no file, it works with an open one, or it works with one it has closed *)
Inductive hold := Shut | Held | Stray.

(* one call.  Some of the cases are not what an application would like: p_empty and p_lost leave the file open for
   ever, and after p_stray the panel may read or close a file that has been closed, until it opens one again. *)
Inductive puse (e : env) (U : Prop) : hold -> out -> hold -> Prop :=
| p_open b id n : b <> Held -> 0 <= fst (e_fopen e id n) -> 0 < snd (e_fopen e id n) -> puse e U b (OFOpen id n) Held
| p_empty b id n : b <> Held -> 0 <= fst (e_fopen e id n) -> snd (e_fopen e id n) <= 0 -> puse e U b (OFOpen id n) b
| p_fail b id n : b <> Held -> fst (e_fopen e id n) < 0 -> puse e U b (OFOpen id n) b
| p_read n i d : e_fread e n i = Some d -> d <> [] -> puse e U Held (OFRead n i) Held
| p_lost n i : (e_fread e n i = None \/ e_fread e n i = Some []) -> puse e U Held (OFRead n i) Shut
| p_close : puse e U Held OFClose Shut
| p_stray : U -> puse e U Held OFClose Stray
| p_reread n i : puse e U Stray (OFRead n i) Stray
| p_reclose : puse e U Stray OFClose Stray
| p_other b x : ~ file_call x -> puse e U b x b.

(* the calls of one update in their order *)
Inductive puses (e : env) (U : Prop) : hold -> list out -> hold -> Prop :=
| ps_nil b : puses e U b [] b
| ps_cons b x c o d : puse e U b x c -> puses e U c o d -> puses e U b (x :: o) d.

(* a whole history (latest first) *)
Inductive pfiled : list cp_entry -> hold -> Prop :=
| pf_start : pfiled [] Shut
| pf_update h p e o b c : pfiled h b -> puses e (unclear e p) b o c -> pfiled (mkCe p (Update e) o :: h) c
| pf_send h p e k o b c : pfiled h b -> puses e False b o c -> pfiled (mkCe p (Send e k) o :: h) c
| pf_register h p b : pfiled h b -> pfiled (mkCe p CpRegisterFileOps [] :: h) Shut
| pf_other h p k b : pfiled h b -> (forall e, k <> Update e) -> (forall e c, k <> Send e c) -> k <> CpRegisterFileOps ->
    pfiled (mkCe p k [] :: h) b.
