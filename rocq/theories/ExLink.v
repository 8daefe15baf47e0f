(** A panel and a device on one line, used in the examples beside the theorems. *)
From Verif Require Import Base ListLemmas SpecCrc Aes Rb RbProofs Types Sc Phy File Pd Cp CpCtx SpecRx SpecFrame SpecSec RxProofs SpecPd SpecCp SpecCpRun SpecLink PdRx ExPd ExCp.

Definition said (o : list out) : list Z := flat_map (fun x => match x with OTx w => w | _ => [] end) o.

(* the panel is refreshed, then the device, 20 ms per round; what one sends the other hears *)
Fixpoint duo (k : nat) (t : Z) (c p : pd) (rx : list Z) (xs ys : list (Z * list Z)) : pd * pd * list (Z * list Z) * list (Z * list Z) :=
  match k with
  | O => (c, p, rev xs, rev ys)
  | S k =>
      match cp_do (Update (ex_env t [rx])) c with
      | Ok (c1, o1) =>
          match pd_do (Refresh (ex_env t [said o1])) p with
          | Ok (p1, o2) => duo k (t + 20) c1 p1 (said o2) ((t, rx) :: xs) ((t, said o1) :: ys)
          | _ => (c1, p, rev xs, rev ys)
          end
      | _ => (c, p, rev xs, rev ys)
      end
  end.
Definition ex_c0 : pd := match new_pd 0 4 ex_cinfo_sc with Some p => p | None => pd_zero end.
Definition ex_p0 : pd := match pd_setup (ex_info true (Some ex_key)) 4 with Some p => p | None => pd_zero end.
(* handshake and one poll *)
Definition ex_duo := Eval vm_compute in duo 17 1000 ex_c0 ex_p0 [] [] [].
Definition ex_lc : pd := Eval vm_compute in fst (fst (fst ex_duo)).
Definition ex_lp : pd := Eval vm_compute in snd (fst (fst ex_duo)).
Definition ex_lc_calls : list cp_call := map (fun x => Update (ex_env (fst x) [snd x])) (snd (fst ex_duo)).
Definition ex_lp_calls : list pd_call := map (fun x => Refresh (ex_env (fst x) [snd x])) (snd ex_duo).
Lemma ex_lc_reach : cp_reach ex_lc.
Proof.
  assert (E : ex_lc = state_of (crun_from ex_cinfo_sc 4 ex_lc_calls)) by (vm_compute; reflexivity).
  rewrite E. ex_crun.
Qed.
Lemma ex_lp_reach : pd_reach ex_lp.
Proof.
  assert (E : ex_lp = state_of (run_from (ex_info true (Some ex_key)) 4 ex_lp_calls)) by (vm_compute; reflexivity).
  rewrite E. apply run_reach; [apply ex_info_typed; exact ex_key_ok| |vm_compute; reflexivity].
  repeat apply Forall_cons; try apply Forall_nil; try exact I; apply ex_env_typed; vm_compute; reflexivity.
Qed.

(* the payload the receiver gets from the pieces, if any *)
Fixpoint feed (p : pd) (xs : list (list Z)) : option (list Z) :=
  match xs with
  | [] => None
  | x :: t =>
      match check_packet (ex_env 2000 [x]) p with
      | Ok (q, KNone) => match decode_packet q with Ok (_, DData d) => Some d | _ => None end
      | Ok (q, KWait) => feed q t
      | Ok (q, KNoData) => feed q t
      | _ => None
      end
  end.
Definition sent_by (r : res (pd * bool * list out)) : list Z := match r with Ok (_, _, o) => said o | _ => [] end.
