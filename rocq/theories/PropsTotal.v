(** Property theorem C43 (device side): every refresh ends, except for the listed packets. *)
From Verif Require Import Base ListLemmas Crc SpecCrc Aes Rb RbProofs Types Sc Phy File Pd SpecRx SpecFrame
  SpecSec SpecCmd SpecApp SpecReply SpecPd SpecTotal PdRun PdRefuse PdKinds PdTotal ExPd PropsPd2.
Local Opaque RB_SIZE.

Lemma careful_run i n cs : forall h p, pd_runs i n h p -> Forall call_typed cs -> Forall careful cs ->
  Forall (fun x => careful (en_call x)) h -> forall q o, run p cs = Ok (q, o) ->
  exists h2, pd_runs i n h2 q /\ Forall (fun x => careful (en_call x)) h2.
Proof.
  induction cs as [|c cs IH]; intros h p R T C F q o H; simpl in H.
  - inversion H; subst. eauto.
  - inversion T; subst. inversion C; subst. destruct (pd_do c p) as [[p1 o1]| |] eqn:E; cbn [bind] in H; try discriminate.
    assert (R1 : pd_runs i n (mkEntry p c o1 :: h) p1) by (eapply runs_step; eauto).
    cbn [fst snd] in H. destruct (run p1 cs) as [[p2 o2]| |] eqn:E2; cbn [bind] in H; try discriminate. inversion H; subst.
    apply (IH (mkEntry p c o1 :: h) p1 R1 ltac:(assumption) ltac:(assumption) ltac:(constructor; assumption) _ _ E2).
Qed.

(** C43, device (part that holds).  An application that keeps command structures in their kind, its events small and its status tables within
    32 entries gets a result from every refresh, whatever bytes arrive in whatever pieces, unless
    - a packet of 256 bytes with mark arrives,
    - the next packet is one inside a session whose security block leaves no room for code and MAC, or
    - it carries, outside a session of a device that enforces security, a code without name; a status
      request to a device without callback; or a file fragment that does not fit. *)
Theorem C43_total_partial : forall i n h p e,
  careful_info i -> pd_runs i n h p -> Forall (fun x => careful (en_call x)) h ->
  call_typed (Refresh e) -> careful (Refresh e) ->
  (exists q o, pd_do (Refresh e) p = Ok (q, o)) \/ marked_256 e p \/
  (exists f rest, heard_frame e p f rest /\ fatal_frame e p f).
Proof. exact pd_total. Qed.
Print Assumptions C43_total_partial.

(* a careful application with file operations and queued events; noise, then a file command *)
Definition ex_careful : list pd_call :=
  [SetCallback true; RegisterFileOps; Notify (EKey 0 3 [49; 50; 51]); Notify (ECard 0 0 0 26 [1; 2; 3; 4]);
   Refresh (ex_env 1000 [[1; 2; 255]; plain_frame 101 0 [96]])].
Lemma ex_env_careful now rx : careful (Refresh (ex_env now rx)).
Proof. intros n c c' H. inversion H; subst. destruct c'; auto; exact I. Qed.

Example C43_total_example :
  let p := state_of (run_from (ex_info true (Some ex_key)) 4 ex_careful) in
  exists h, careful_info (ex_info true (Some ex_key)) /\ pd_runs (ex_info true (Some ex_key)) 4 h p /\
    Forall (fun x => careful (en_call x)) h /\ careful (Refresh (ex_env 1100 [plain_frame 101 0 (105 :: repeat 7 100)])) /\
    (* a refresh that ends *)
    is_ok (pd_do (Refresh (ex_env 1100 [plain_frame 101 0 (105 :: repeat 7 100)])) p) = true /\
    (* and one of the exceptions: a code without name *)
    pd_do (Refresh (ex_env 1100 [plain_frame 101 0 [99]])) p = UB NullCall.
Proof.
  cbv zeta. 
  assert (R0 : pd_runs (ex_info true (Some ex_key)) 4 [] (match pd_setup (ex_info true (Some ex_key)) 4 with Some p => p | None => ex_pd end)).
  { apply runs_start; [apply ex_info_typed; exact ex_key_ok|]. vm_compute; reflexivity. }
  assert (T : Forall call_typed ex_careful).
  { repeat apply Forall_cons; try apply Forall_nil; try exact I; try ex_typed.
    all: split; [bytes_cons; try apply bytes_nil; unfold byte; lia|vm_compute; discriminate]. }
  assert (K : Forall careful ex_careful).
  { repeat apply Forall_cons; try apply Forall_nil; try exact I; try apply ex_env_careful.
    all: vm_compute; intuition discriminate. }
  destruct (careful_run _ _ ex_careful _ _ R0 T K (Forall_nil _)
    (state_of (run_from (ex_info true (Some ex_key)) 4 ex_careful))
    (outs_of (run_from (ex_info true (Some ex_key)) 4 ex_careful))) as (h & R & C).
  - vm_compute; reflexivity.
  - exists h. split; [unfold careful_info; simpl; repeat apply Forall_cons; try apply Forall_nil; intros _; vm_compute; discriminate|].
    split; [exact R|]. split; [exact C|]. split; [apply ex_env_careful|]. split; vm_compute; reflexivity.
Qed.
