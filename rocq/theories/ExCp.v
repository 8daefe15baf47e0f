(** Concrete entries of a control panel and replies, used in the examples beside the theorems. *)
From Verif Require Import Base ListLemmas SpecCrc Aes Rb RbProofs Types Sc Phy File Pd Cp CpCtx SpecRx SpecFrame SpecSec RxProofs SpecPd SpecCp SpecCpRun PdRx ExPd CpFacts CpFwd CpInv.

Lemma ex_cenv_typed now rx : forallb bytesb rx = true -> env_typed (ex_env now rx).
Proof.
  intros H. split; [|split; [apply bytesb_ok; reflexivity|intros n off d X; discriminate]].
  apply Forall_forall. intros x Hx. rewrite forallb_forall in H. apply bytesb_ok; auto.
Qed.

(* the entry for the device with address 101 *)
Definition ex_cflags (enf inst ign notif : bool) : flagset :=
  mkFlags false false false false false false false false false false enf inst ign notif false.
Definition ex_cinfo (enf inst ign notif : bool) (key : option (list Z)) : pdinfo :=
  mkInfo 9600 101 (ex_cflags enf inst ign notif) (mkId 0 0 0 0 0) [] key 1.
Lemma ex_cinfo_typed a b c d key : match key with Some k => length k = 16%nat /\ bytes k | None => True end -> cp_info_typed (ex_cinfo a b c d key).
Proof. intros H. exact H. Qed.

(* calls in a row *)
Fixpoint crun (p : pd) (cs : list cp_call) : res (pd * list out) :=
  match cs with
  | [] => Ok (p, [])
  | c :: t => bind (cp_do c p) (fun x => bind (crun (fst x) t) (fun y => Ok (fst y, snd x ++ snd y)))
  end.
Definition crun_from (i : pdinfo) (n : Z) (cs : list cp_call) : res (pd * list out) :=
  match new_pd 0 n i with Some p => crun p cs | None => UB AppContract end.
(* history of the calls, latest first *)
Fixpoint chist (p : pd) (cs : list cp_call) (h : list cp_entry) : list cp_entry :=
  match cs with
  | [] => h
  | c :: t => match cp_do c p with Ok (q, o) => chist q t (mkCe p c o :: h) | _ => h end
  end.
Definition chist_from (i : pdinfo) (n : Z) (cs : list cp_call) : list cp_entry :=
  match new_pd 0 n i with Some p => chist p cs [] | None => [] end.

Lemma crun_runs k i n cs : forall h p, cp_runs k n i h p -> Forall cp_call_typed cs -> forall q o, crun p cs = Ok (q, o) ->
  cp_runs k n i (chist p cs h) q.
Proof.
  induction cs as [|c t IH]; intros h p R T q o H; simpl in H.
  - inversion H; subst. exact R.
  - simpl. destruct (cp_do c p) as [[p1 o1]| |] eqn:D; try discriminate. simpl in H.
    inversion T; subst. pose proof (cruns_step k n i h p c p1 o1 R H2 D) as R1.
    destruct (crun p1 t) as [[p2 o2]| |] eqn:E; try discriminate. simpl in H. inversion H; subst.
    exact (IH _ _ R1 H3 _ _ E).
Qed.
Lemma crun_from_runs i n cs : cp_info_typed i -> Forall cp_call_typed cs -> is_ok (crun_from i n cs) = true ->
  cp_runs 0 n i (chist_from i n cs) (state_of (crun_from i n cs)).
Proof.
  intros T1 T2 H. unfold crun_from, chist_from in *. destruct (new_pd 0 n i) as [p|] eqn:S; [|discriminate].
  destruct (crun p cs) as [[q o]| |] eqn:E; try discriminate. simpl.
  eapply crun_runs; eauto. apply cruns_start; auto.
Qed.
Lemma crun_reach i n cs : cp_info_typed i -> Forall cp_call_typed cs -> is_ok (crun_from i n cs) = true ->
  cp_reach (state_of (crun_from i n cs)).
Proof. intros. do 4 eexists. eapply crun_from_runs; eauto. Qed.
Lemma crun_reach2 p cs q o : cp_reach p -> Forall cp_call_typed cs -> crun p cs = Ok (q, o) -> cp_reach q.
Proof. intros (k & n & i & h & R) T H. do 4 eexists. eapply crun_runs; eauto. Qed.

(* replies of device 101 in clear: number, code and data *)
Definition reply (seq : Z) (pay : list Z) : list Z := plain_frame 229 seq pay.
(* one exchange: the command is chosen, sent, answered *)
Definition exch (t : Z) (r : list (list Z)) : list cp_call :=
  [Update (ex_env t []); Update (ex_env t []); Update (ex_env (t + 10) r)].
Definition ex_pdid : list Z := 69 :: [1; 2; 3; 4; 5; 6; 7; 8; 9; 10; 11; 12].
Definition ex_pdcap_plain : list Z := 70 :: [2; 1; 2; 1; 1; 3].
Definition ex_pdcap : list Z := 70 :: [2; 1; 2; 9; 1; 1; 1; 1; 3].

(* online, no secure channel: the entry has no key *)
Definition ex_up (seq0 : Z) : list cp_call := exch 1000 [reply 0 ex_pdid] ++ exch 1100 [reply 1 ex_pdcap_plain].
Definition ex_cp (ign notif : bool) : pd := state_of (crun_from (ex_cinfo false false ign notif None) 4 (ex_up 0)).

(* handshake with a device that holds the same key *)
Definition ex_senc (k : list Z) : list Z := enc1 k ([1; 130] ++ firstn 6 ex_pd_rnd ++ repeat 0 8).
Definition ex_dev_rnd : list Z := [21; 22; 23; 24; 25; 26; 27; 28].
Definition ex_ccrypt (sq : Z) (k : list Z) (own : Z) : list Z :=
  scb_frame 229 sq 18 [own] ((118 :: [1; 2; 3; 4; 5; 6; 7; 8] ++ ex_dev_rnd) ++ enc1 (ex_senc k) (ex_pd_rnd ++ ex_dev_rnd)).
Definition ex_mac0 : list Z := map Z.of_nat (seq 50 16).
Definition ex_rmac (sq : Z) : list Z := scb_frame 229 sq 20 [1] (120 :: ex_mac0).
Definition ex_sc_calls : list cp_call := exch 1000 [reply 0 ex_pdid] ++ exch 1100 [reply 1 ex_pdcap] ++ exch 1200 [ex_ccrypt 2 ex_key 1] ++ exch 1300 [ex_rmac 3].
Definition ex_cinfo_sc : pdinfo := ex_cinfo true false false true (Some ex_key).
Definition ex_cp_sc : pd := Eval vm_compute in state_of (crun_from ex_cinfo_sc 4 ex_sc_calls).
Lemma crun_reach3 p cs : cp_reach p -> Forall cp_call_typed cs -> is_ok (crun p cs) = true -> cp_reach (state_of (crun p cs)).
Proof. intros R T H. destruct (crun p cs) as [[q o]| |] eqn:E; try discriminate. exact (crun_reach2 p cs q o R T E). Qed.
Ltac ex_ccalls := repeat apply Forall_cons; try apply Forall_nil; try exact I; apply ex_cenv_typed; vm_compute; reflexivity.
Ltac ex_crun := apply crun_reach; [apply ex_cinfo_typed; first [exact I|exact ex_key_ok]|ex_ccalls|vm_compute; reflexivity].
Lemma ex_cp_sc_reach : cp_reach ex_cp_sc /\ sc_active (fl ex_cp_sc) = true.
Proof.
  assert (E : ex_cp_sc = state_of (crun_from ex_cinfo_sc 4 ex_sc_calls)) by (vm_compute; reflexivity).
  split; [|reflexivity]. rewrite E. ex_crun.
Qed.
Lemma ok_eq (r : res (pd * list out)) : is_ok r = true -> r = Ok (state_of r, outs_of r).
Proof. destruct r as [[q o]| |]; simpl; auto; discriminate. Qed.
Lemma ex_cp_reach ign notif : cp_reach (ex_cp ign notif).
Proof. unfold ex_cp. destruct ign, notif; ex_crun. Qed.

(* nothing can be sent at time t *)
Definition ex_env_stuck (t : Z) : env :=
  mkEnv t [] 0 ex_pd_rnd (fun _ c => (0, c)) true (fun _ n => (0, n)) (fun _ _ => None) (fun d _ => zlen d) 0.
Lemma ex_stuck_typed t : env_typed (ex_env_stuck t).
Proof. split; [constructor|]. split; [apply bytesb_ok; reflexivity|intros n off d X; discriminate]. Qed.
(* numbers of the frames sent *)
Definition numbers (o : list out) : list Z :=
  flat_map (fun x => match x with OTx (255 :: w) => [f_seq w] | _ => [] end) o.
