(** How often an idle device is polled. *)
From Verif Require Import Base ListLemmas Crc SpecCrc Aes Rb RbProofs Types Sc Phy File Pd Cp CpCtx SpecRx SpecFrame SpecSec PdReply PdStep
  SpecPd SpecCp SpecCpRun CpStep CpInv CpSum CpHist CpTime CpReply ExPd ExCp SpecSay SpecTalk SpecPoll PollCp.
From Coq Require Import ZifyBool ZifyNat.
Local Opaque RB_SIZE.

(** C68.  A poll goes out at time t.  Whatever calls follow, and whatever arrives, no further poll for this device goes
    out before t + 50 ms have passed, repetitions of the first one included.  What is missing is in plainly: the
    application has not asked to ignore unknown answers, and the device has not asked, while a file is being sent to it,
    to be polled before the next fragment. *)
Theorem C68_gap_partial : forall p ea qa oa l q eb r ob,
  cp_reach p -> env_typed ea -> env_typed eb -> cp_do (Update ea) p = Ok (qa, oa) -> polls oa ->
  cp_seg qa l q -> e_now ea <= e_now eb -> Forall (timed (e_now ea) (e_now eb)) l -> Forall (fun en => plainly (ce_pd en)) l ->
  cp_do (Update eb) q = Ok (r, ob) -> polls ob -> e_now ea + 50 < e_now eb.
Proof.
  intros p ea qa oa l q eb r ob R T1 T2 D1 P1 S LE F1 F2 D2 P2.
  destruct (cp_do_update _ _ _ _ D1) as (rc1 & U1). destruct (cp_do_update _ _ _ _ D2) as (rc2 & U2).
  pose proof (reach_step p (Update ea) qa oa R T1 D1) as RQ.
  pose proof (polled_since (e_now eb) ea p qa rc1 oa (cp_reach_inv _ R) T1 LE U1 P1) as H.
  pose proof (seg_since _ _ _ _ _ S (cp_reach_inv _ RQ) (cp_reach_tinv _ RQ) H F1 F2) as HQ.
  exact (since_poll _ eb q r rc2 ob (seg_inv _ _ _ S (cp_reach_inv _ RQ)) (seg_tinv _ _ _ S (cp_reach_inv _ RQ) (cp_reach_tinv _ RQ)) T2 HQ U2 P2).
Qed.
Print Assumptions C68_gap_partial.

(* polls among the outputs of each call, with the time of the call *)
Fixpoint ex_polls (p : pd) (cs : list cp_call) : list Z :=
  match cs with
  | [] => []
  | c :: t =>
      match cp_do c p with
      | Ok (q, o) => (match c, o with Update e, [OTx (255 :: w)] => if cmd_code w =? 96 then [e_now e] else [] | _, _ => [] end) ++ ex_polls q t
      | _ => []
      end
  end.
Definition ex_ticks (t : Z) (n : nat) (r : list (list Z)) : list cp_call := map (fun k => Update (ex_env (t + Z.of_nat k) r)) (seq 0 n).
(* a refresh every millisecond; the answer comes 5 ms after the poll, or never *)
Example C68_example :
  ex_polls (ex_cp false false) (ex_ticks 1150 17 [] ++ ex_ticks 1167 1 [reply 2 [64]] ++ ex_ticks 1168 60 [] ++ ex_ticks 1228 1 [reply 3 [64]] ++ ex_ticks 1229 55 []) =
    [1162; 1219; 1280] /\
  ex_polls (ex_cp false false) [Update (ex_env 1200 []); Update (ex_env 1201 []); Update (ex_env 1402 []); Update (ex_env 2201 []); Update (ex_env 2202 [])] = [1201; 2202].
Proof. vm_compute. auto. Qed.

Lemma ex_timed a b p e o : a <= e_now e <= b -> timed a b (mkCe p (Update e) o).
Proof. intros H x X. injection X as <-. exact H. Qed.

(** C68 is false when the application asked to ignore unknown answers: the time of such an answer is not noted, so that
    after a slow refresh two polls follow each other within 12 ms. *)
Theorem C68_gap_refuted : exists p ea qa oa l q eb r ob,
  cp_reach p /\ env_typed ea /\ env_typed eb /\ cp_do (Update ea) p = Ok (qa, oa) /\ polls oa /\
  cp_seg qa l q /\ Forall (timed (e_now ea) (e_now eb)) l /\ Forall (fun en => no_transfer (ce_pd en)) l /\
  cp_do (Update eb) q = Ok (r, ob) /\ polls ob /\ e_now eb - e_now ea = 12.
Proof.
  set (p0 := ex_cp true false). set (c1 := Update (ex_env 1200 [])). set (ea := ex_env 1300 []).
  set (c2 := Update (ex_env 1310 [reply 2 [200; 1]])). set (c3 := Update (ex_env 1311 [])). set (eb := ex_env 1312 []).
  set (p := state_of (cp_do c1 p0)). set (qa := state_of (cp_do (Update ea) p)). set (q1 := state_of (cp_do c2 qa)). set (q := state_of (cp_do c3 q1)).
  assert (D0 : cp_do c1 p0 = Ok (p, [])) by (vm_compute; reflexivity).
  assert (D1 : cp_do (Update ea) p = Ok (qa, [OTx (255 :: plain_frame 101 2 [96])])) by (vm_compute; reflexivity).
  assert (D2 : cp_do c2 qa = Ok (q1, [])) by (vm_compute; reflexivity).
  assert (D3 : cp_do c3 q1 = Ok (q, [])) by (vm_compute; reflexivity).
  assert (D4 : cp_do (Update eb) q = Ok (state_of (cp_do (Update eb) q), [OTx (255 :: plain_frame 101 3 [96])])) by (vm_compute; reflexivity).
  assert (N1 : no_transfer qa) by (vm_compute; exact I). assert (N2 : no_transfer q1) by (vm_compute; exact I).
  assert (T : forall t, env_typed (ex_env t [])) by (intros t; apply ex_cenv_typed; reflexivity).
  assert (T2 : cp_call_typed c2) by (apply ex_cenv_typed; vm_compute; reflexivity).
  exists p, ea, qa, [OTx (255 :: plain_frame 101 2 [96])], [mkCe qa c2 []; mkCe q1 c3 []], q, eb, (state_of (cp_do (Update eb) q)), [OTx (255 :: plain_frame 101 3 [96])].
  split; [exact (reach_step p0 c1 p [] (ex_cp_reach true false) (T 1200) D0)|].
  split; [apply T|]. split; [apply T|]. split; [exact D1|]. split; [eexists; split; [left; reflexivity|vm_compute; reflexivity]|].
  split; [econstructor; [exact T2|exact D2|]; econstructor; [apply T|exact D3|constructor]|].
  split. { apply Forall_cons; [apply ex_timed; simpl; lia|]. apply Forall_cons; [apply ex_timed; simpl; lia|constructor]. }
  split. { apply Forall_cons; [exact N1|]. apply Forall_cons; [exact N2|constructor]. }
  split; [exact D4|]. split; [eexists; split; [left; reflexivity|vm_compute; reflexivity]|reflexivity].
Qed.
Print Assumptions C68_gap_refuted.

(** C68.  A device that is online and has nothing to be told is polled in time: no refresh up to the end of the last
    exchange (history h) was later than t, and since then (l) nothing happened; then the first refresh later than
    t + 50 ms begins a poll, and the one after it sends the poll. *)
Theorem C68_due : forall k n i h c0 t l c e1 e2,
  cp_runs k n i h c0 -> 0 <= t -> Forall (fun en => forall x, ce_call en = Update x -> e_now x <= t) h ->
  cp_seg c0 l c -> Forall (fun en => rests (ce_pd en)) l -> rests c -> cmdq c = [] -> no_transfer c -> 69 <= tx_buf_size c ->
  env_typed e1 -> env_typed e2 -> t + 50 < e_now e1 -> 256 <= e_tx e2 ->
  exists c1 c2 w, cp_do (Update e1) c = Ok (c1, []) /\ cp_do (Update e2) c1 = Ok (c2, [OTx (255 :: w)]) /\ cmd_code w = 96.
Proof.
  intros k n i h c0 t l c e1 e2 R T0 F S FR RC Q NT TB T1 T2 L TX. pose proof (cp_runs_inv _ _ _ _ _ R) as I0.
  pose proof (rest_stamp c0 l c S I0 FR RC) as E. pose proof (runs_stamp t k n i h c0 T0 R F) as M.
  apply poll_due; auto; [exact (seg_inv _ _ _ S I0)|]. rewrite E. lia.
Qed.
Print Assumptions C68_due.

Example C68_due_example :
  let c0 := ex_cp false false in let c := state_of (crun c0 (ex_ticks 1111 50 [])) in
  cp_reach c0 /\ rests c0 /\ rests c /\ cmdq c = [] /\ no_transfer c /\ 69 <= tx_buf_size c /\
  ex_polls c [Update (ex_env 1161 []); Update (ex_env 1162 [])] = [1162].
Proof. split; [apply ex_cp_reach|]. vm_compute. repeat split; try reflexivity; discriminate. Qed.
