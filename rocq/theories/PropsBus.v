(** Property theorem C61: a device on a line that it shares with others. *)
From Verif Require Import Base ListLemmas Crc SpecCrc Aes Rb RbProofs Types Sc Phy File Pd Cp CpCtx PdRun SpecRx SpecFrame SpecSec SpecSession SpecCmd SpecApp SpecPd SpecCp SpecCpRun SpecLink SpecTalk
  RxProofs PdTx PdStep CpInv Bus Keys ExPd ExCp ExLink PropsPd2 PropsTalk PropsFile PropsRun SpecHand SpecRun SpecBoot SpecKey SpecBus.
Local Opaque aes_ecb_encrypt aes_cbc_encrypt aes_cbc_decrypt mac_of RB_SIZE osdp_mac enc1 osdp_encrypt encrypt_data.

(** C61.  However long a device listens to stray bytes, to packets for others and to packets of others with
    no start byte inside, and however these are cut into pieces: it sends nothing, it calls nobody, and
    nothing of it changes but the receive buffers. *)
Theorem C61_undisturbed_partial : forall p es q o s,
  pd_reach p -> benign (address p) (pending p ++ stream es ++ s) -> bus_run p es q o ->
  o = [] /\ undisturbed p q /\ benign (address p) (pending q ++ s).
Proof. intros p es q o s R B H. exact (proj2 (bus_runs es p q o s R B H)). Qed.
Print Assumptions C61_undisturbed_partial.

(** C61.  The next refresh is always possible ... *)
Theorem C61_goes_on : forall p e s, pd_reach p -> in_time e p -> benign (address p) (pending p ++ heard (e_rx e) ++ s) ->
  exists q, pd_do (Refresh e) p = Ok (q, []).
Proof. intros p e s R T B. destruct (bus_step e p s R T B) as (q & D & _). exists q. exact D. Qed.
Print Assumptions C61_goes_on.

(** C61.  ... and once the line is silent after whole packets, the buffers get empty. *)
Theorem C61_drains : forall p es q o,
  pd_reach p -> benign (address p) (pending p) -> Forall (fun e => heard (e_rx e) = []) es -> (length (pending p) <= length es)%nat -> bus_run p es q o -> pending q = [].
Proof. intros p es q o. exact (bus_drains es p q o). Qed.
Print Assumptions C61_drains.

(** C61.  So a panel and a device that work together (C58) go on working together, in the same session, after
    the device listened to the others. *)
Theorem C61_works_on : forall c p es q o,
  at_work c p -> benign (address p) (stream es) -> bus_run p es q o -> pending q = [] ->
  o = [] /\ at_work c q /\ (in_step c p -> in_step c q).
Proof.
  intros c p es q o [[RC PH LN [Qc Qp] [NC0 NP]] RP ON NT SE AM NC HC GC GE] B H PN.
  assert (P0 : pending p = []) by (destruct Qp as (a & _ & b & _); unfold pending; rewrite a, b; reflexivity).
  destruct (bus_runs es p q o [] RP ltac:(rewrite P0, app_nil_r; exact B) H) as (RQ & -> & U & _).
  split; [reflexivity|]. split; [|exact (undisturbed_step c p q U)].
  destruct (undisturbed_view p q U) as ((v1 & v2 & v3 & v4 & v5) & (v6 & v7 & v8 & v9) & (w1 & w2 & w3 & w4 & w5 & w6 & w7)).
  constructor.
  - constructor; [exact RC|exact PH|exact (undisturbed_line c p q U LN)|exact (conj Qc (drained_quiet q RQ PN))|]. split; [exact NC0|]. unfold tx_buf_size in *. rewrite v5. exact NP.
  - exact RQ.
  - exact ON.
  - exact NT.
  - exact SE.
  - rewrite w7, w1. exact AM.
  - exact NC.
  - rewrite v7. exact HC.
  - exact (good_caps p q _ v4 GC).
  - rewrite v6. exact (good_evs _ c p c q _ eq_refl v4 v5 GE).
Qed.
Print Assumptions C61_works_on.

(* --- examples --- *)
Ltac ex_shape := split; [reflexivity|split; [vm_compute; reflexivity|split; [vm_compute; reflexivity|vm_compute; split; discriminate]]].
(* a poll for device 55, its answer, and noise; in three pieces, cut inside the packets *)
Definition ex_bus1 : list Z := Eval vm_compute in plain_frame 55 2 [96].
Definition ex_bus2 : list Z := Eval vm_compute in plain_frame 183 2 [64].
Definition ex_bus : list Z := Eval vm_compute in 255 :: ex_bus1 ++ [0; 255] ++ ex_bus2.
Definition ex_bus_envs : list env := [ex_env 1400 [firstn 4 ex_bus]; ex_env 1410 [firstn 10 (skipn 4 ex_bus)]; ex_env 1420 [skipn 14 ex_bus]; ex_env 1430 []; ex_env 1440 []].
Fixpoint bus_end (p : pd) (es : list env) : option pd :=
  match es with
  | [] => Some p
  | e :: es =>
      if ((length (rb_contents (rb p)) + length (heard (e_rx e)) <? RB_SIZE)%nat && ((e_now e - tstamp p <? 200) || (length (pending p) =? 0)%nat) && (e_now e - sc_tstamp p <=? 8000))%bool then
        match pd_do (Refresh e) p with Ok (q, []) => bus_end q es | _ => None end
      else None
  end.
Lemma bus_end_run es : forall p q, Forall (fun e => call_typed (Refresh e)) es -> bus_end p es = Some q -> bus_run p es q [].
Proof.
  induction es as [|e es IH]; intros p q T H; cbn [bus_end] in H; [injection H as <-; constructor|]. inversion T as [|? ? T1 T2]; subst.
  destruct (_ && _)%bool eqn:C in H; [|discriminate]. destruct (pd_do (Refresh e) p) as [[x [|]]| |] eqn:D; try discriminate.
  apply (br_cons p e x [] es q []); [|exact D|exact (IH x q T2 H)]. apply andb_true_iff in C. destruct C as [C C3]. apply andb_true_iff in C. destruct C as [C1 C2].
  constructor; [exact T1|apply Nat.ltb_lt, C1| |intros _; apply Z.leb_le, C3].
  apply orb_true_iff in C2. destruct C2 as [C2|C2]; [right; apply Z.ltb_lt, C2|left]. apply Nat.eqb_eq in C2. destruct (pending p); [reflexivity|discriminate].
Qed.
Definition ex_bus_q : pd := Eval vm_compute in match bus_end ex_tp ex_bus_envs with Some q => q | None => pd_zero end.
Lemma ex_bus_ok : benign (address ex_tp) ex_bus.
Proof.
  change ex_bus with (255 :: ex_bus1 ++ 0 :: 255 :: ex_bus2 ++ []). apply bn_stray; [discriminate|].
  apply bn_command; [ex_shape|vm_compute; discriminate|apply bytesb_ok; reflexivity|apply intact_test; vm_compute; reflexivity|vm_compute; discriminate|vm_compute; discriminate|].
  apply bn_stray; [discriminate|]. apply bn_stray; [discriminate|].
  apply bn_reply; [ex_shape|apply bytesb_ok; reflexivity| |apply bn_nil].
  intros H. vm_compute in H. repeat (destruct H as [H|H]; [discriminate|]). exact H.
Qed.
Example C61_example :
  at_work ex_lc ex_tp /\ sc_active (fl ex_tp) = true /\ stream ex_bus_envs = ex_bus /\ benign (address ex_tp) ex_bus /\
  bus_run ex_tp ex_bus_envs ex_bus_q [] /\ pending ex_bus_q = [] /\ sc_active (fl ex_bus_q) = true.
Proof.
  split; [exact ex_at_work|]. split; [reflexivity|]. split; [vm_compute; reflexivity|]. split; [exact ex_bus_ok|].
  split; [|split; vm_compute; reflexivity].
  apply bus_end_run; [repeat apply Forall_cons; try apply Forall_nil; apply ex_env_typed; vm_compute; reflexivity|vm_compute; reflexivity].
Qed.

(** C61, refuted for packets of others with a start byte inside.  A device steps over the packet of another
    device by five bytes only and goes on searching for a start byte behind them.  Card data that contain a
    packet are executed: the application is called, and the device answers although nobody asked. *)
Definition ex_inner : list Z := Eval vm_compute in plain_frame 101 0 [105; 0; 0; 2; 5; 6; 1; 2; 88; 2; 1; 9; 8; 3; 0].
Definition ex_outer : list Z := Eval vm_compute in plain_frame 183 2 ([80; 0; 0; 176; 0] ++ ex_inner).
Definition ex_b1 := Eval vm_compute in pd_do (Refresh (ex_env 2000 [ex_outer])) ex_qp.
Definition ex_b2 := Eval vm_compute in pd_do (Refresh (ex_env 2010 [])) (state_of ex_b1).
Theorem C61_injected_refuted : exists p f e1 e2 q1 q2 k w,
  pd_reach p /\ pending p = [] /\ f_shape true f /\ f_intact f /\ f_addr f <> address p /\ f_addr f <> 127 /\
  in_time e1 p /\ heard (e_rx e1) = f /\ pd_do (Refresh e1) p = Ok (q1, []) /\
  in_time e2 q1 /\ heard (e_rx e2) = [] /\ pd_do (Refresh e2) q1 = Ok (q2, [OCmd k; OTx w]).
Proof.
  exists ex_qp, ex_outer, (ex_env 2000 [ex_outer]), (ex_env 2010 []), (state_of ex_b1), (state_of ex_b2), ex_led, (said (outs_of ex_b2)).
  split; [exact ex_qp_reach|]. split; [vm_compute; reflexivity|]. split; [ex_shape|]. split; [apply intact_test; vm_compute; reflexivity|]. do 2 (split; [vm_compute; discriminate|]).
  split. { constructor; [apply ex_env_typed; vm_compute; reflexivity| |left; vm_compute; reflexivity|intros H; vm_compute in H; discriminate H]. apply Nat.ltb_lt. vm_compute. reflexivity. }
  split; [vm_compute; reflexivity|]. split; [vm_compute; reflexivity|].
  split. { constructor; [apply ex_env_typed; vm_compute; reflexivity| |right; vm_compute; reflexivity|intros H; vm_compute in H; discriminate H]. apply Nat.ltb_lt. vm_compute. reflexivity. }
  split; [vm_compute; reflexivity|]. vm_compute. reflexivity.
Qed.
Print Assumptions C61_injected_refuted.

(** C61, refuted.  The answer of another device with the start byte among its data, in four bytes of card
    data here, ends the session of this one. *)
Definition ex_spoil : list Z := Eval vm_compute in plain_frame 183 2 [80; 0; 0; 32; 0; 83; 1; 1; 1].
Definition ex_b3 := Eval vm_compute in pd_do (Refresh (ex_env 1400 [ex_spoil])) ex_tp.
Definition ex_b4 := Eval vm_compute in pd_do (Refresh (ex_env 1410 [])) (state_of ex_b3).
Theorem C61_session_refuted : exists c p f e1 e2 q1 q2,
  at_work c p /\ in_step c p /\ f_shape true f /\ f_intact f /\ f_addr f <> address p /\ f_addr f <> 127 /\
  in_time e1 p /\ heard (e_rx e1) = f /\ pd_do (Refresh e1) p = Ok (q1, []) /\
  in_time e2 q1 /\ heard (e_rx e2) = [] /\ pd_do (Refresh e2) q1 = Ok (q2, []) /\
  sc_active (fl p) = true /\ sc_active (fl q2) = false.
Proof.
  exists ex_lc, ex_tp, ex_spoil, (ex_env 1400 [ex_spoil]), (ex_env 1410 []), (state_of ex_b3), (state_of ex_b4).
  split; [exact ex_at_work|]. split; [destruct (ex_step_ok ex_tp ex_in_step eq_refl eq_refl eq_refl eq_refl) as [[A1 A2 A3 A4 A5] B C D E F G]; constructor; [constructor|..]; assumption|].
  split; [ex_shape|]. split; [apply intact_test; vm_compute; reflexivity|]. do 2 (split; [vm_compute; discriminate|]).
  split. { constructor; [apply ex_env_typed; vm_compute; reflexivity| |left; vm_compute; reflexivity|intros _; vm_compute; discriminate]. apply Nat.ltb_lt. vm_compute. reflexivity. }
  split; [vm_compute; reflexivity|]. split; [vm_compute; reflexivity|].
  split. { constructor; [apply ex_env_typed; vm_compute; reflexivity| |right; vm_compute; reflexivity|intros _; vm_compute; discriminate]. apply Nat.ltb_lt. vm_compute. reflexivity. }
  split; [vm_compute; reflexivity|]. split; [vm_compute; reflexivity|]. split; vm_compute; reflexivity.
Qed.
Print Assumptions C61_session_refuted.
