(** Property theorems C49 - C51: what holds of sessions, keys and repeated packets of a device. *)
From Verif Require Import Base ListLemmas Crc SpecCrc Aes Rb RbProofs Types Sc Phy File Pd SpecRx SpecFrame
  SpecSec SpecCmd SpecApp SpecPd RxProofs PdRx PdCore PhyTx PdTx PdReply PdStep PdWire PdFwd PdRun PdSpeak PdPlain PdSec PdRefuse PdFacts
  PdKinds PdCase PdApp PdTrace PdHist PdHist2 PdOwn PdAnswer PdMore ExPd PropsPd2.
From Coq Require Import ZifyBool ZifyNat.
Local Opaque RB_SIZE.

(** C49.  Take a device that was set up with a base key and not in install mode.  Whenever a session is
    open, it was opened in some earlier call by sixteen bytes received in clear that are the encryption of a
    block under a session key which the device made from a base key it held - or under the zero key, if
    the device had not made any session key before that call (C49_zero_key_refuted shows that this happens). *)
Theorem C49_base_key_partial : forall i n h p k0,
  i_scbk i = Some k0 -> install (i_flags i) = false -> pd_runs i n h p -> sc_active (fl p) = true ->
  exists h2 en0 h1 en x k r, h = h2 ++ en0 :: h1 /\ In en (en0 :: h1) /\ scrypt_in en x /\ x = enc1 k r /\ zlen r <= 16 /\
    ((exists en2 rnd, In en2 (en0 :: h1) /\ k = enc1 (scbk (sc (en_pd en2))) (session_block 1 130 rnd)) \/
     (k = zeros 16 /\ Forall (fun en2 => s_enc (sc (en_pd en2)) = zeros 16) (en0 :: h1))).
Proof.
  intros i n h p k0 SK NI R A. destruct (key_runs i n h p k0 SK NI R) as (_ & _ & X). exact (X A).
Qed.
Print Assumptions C49_base_key_partial.

(* a device in a session, set up with a key *)
Example C49_example : exists h,
  pd_runs (ex_info true (Some ex_key)) 4 h ex_pd_sc /\ i_scbk (ex_info true (Some ex_key)) = Some ex_key /\
  install (i_flags (ex_info true (Some ex_key))) = false /\ sc_active (fl ex_pd_sc) = true.
Proof.
  assert (S : exists p, pd_setup (ex_info true (Some ex_key)) 4 = Some p /\ exists o, run p ex_hs = Ok (ex_pd_sc, o)).
  { eexists. split; [reflexivity|]. eexists. vm_compute. reflexivity. }
  destruct S as (p & S & o & X).
  assert (R : pd_runs (ex_info true (Some ex_key)) 4 [] p) by (constructor; [apply ex_info_typed; exact ex_key_ok|exact S]).
  destruct (run_runs _ _ ex_hs [] p R ltac:(unfold ex_hs; ex_calls) _ _ X) as (h2 & RR). exists (h2 ++ []).
  split; [exact RR|]. auto.
Qed.

(** C50.  A packet with the bytes of a session packet (security block of type 21..24, number not 0) that is
    executed twice while a session is open has, each time, the number that is due and the right MAC.  So
    the truncated MACs over its bytes under the keys and chaining values of both times coincide. *)
Theorem C50_chain_partial : forall f e1 p1 rest1 q1 o1 e2 p2 rest2 q2 o2,
  pd_reach p1 -> pd_reach p2 -> call_typed (Refresh e1) -> call_typed (Refresh e2) ->
  next_frame e1 p1 f rest1 -> next_frame e2 p2 f rest2 -> f_intact f -> f_mine (address p1) f -> f_mine (address p2) f ->
  f_scb f = true -> 7 <= zlen f -> 21 <= f_sctype f <= 24 -> f_seq f <> 0 ->
  session_open e1 p1 = true -> session_open e2 p2 = true ->
  pd_refresh e1 p1 = Ok (q1, o1) -> pd_refresh e2 p2 = Ok (q2, o2) ->
  ~ only_tx o1 -> ~ only_tx o2 \/ app_view q2 <> app_view p2 ->
  seq_ok (seqn p2) (f_seq f) /\
  firstn 4 (osdp_mac (s_mac1 (sc p1)) (s_mac2 (sc p1)) (r_mac (sc p1)) (f_covered f)) =
  firstn 4 (osdp_mac (s_mac1 (sc p2)) (s_mac2 (sc p2)) (r_mac (sc p2)) (f_covered f)).
Proof.
  intros f e1 p1 rest1 q1 o1 e2 p2 rest2 q2 o2 R1 R2 T1 T2 N1 N2 V M1 M2 SB L TY S0 O1 O2 H1 H2 A1 A2.
  destruct (session_acts e1 p1 f rest1 q1 o1 (env_typed e1 T1) (reach_inv p1 R1) N1 V M1 S0 SB L TY O1 H1 (or_introl A1)) as (E1 & _).
  destruct (session_acts e2 p2 f rest2 q2 o2 (env_typed e2 T2) (reach_inv p2 R2) N2 V M2 S0 SB L TY O2 H2 A2) as (E2 & X2).
  split; [exact X2|]. rewrite <- E1, <- E2. reflexivity.
Qed.
Print Assumptions C50_chain_partial.

(* the packet is executed; sent again at once it is refused and the session dropped *)
Example C50_example :
  let f := mac_frame (sc ex_pd_sc) 101 2 [104; 0; 1; 0; 0] in
  let q := state_of (pd_refresh (ex_env 1200 [f]) ex_pd_sc) in
  In (OCmd (COutput 0 1 0)) (outs_of (pd_refresh (ex_env 1200 [f]) ex_pd_sc)) /\
  session_open (ex_env 1300 [f]) q = true /\
  outs_of (pd_refresh (ex_env 1300 [f]) q) = [OTx (plain_frame 229 2 [65; 6])] /\
  sc_active (fl (state_of (pd_refresh (ex_env 1300 [f]) q))) = false.
Proof. vm_compute. auto. Qed.

(** C51 (inside a session).  A packet that was executed and comes again at once is executed again only if the
    truncated MAC over its bytes is the same with the chaining value from before and after the answer.
    Otherwise the application is not called, nothing it can see changes, and the session is dropped. *)
Theorem C51_session_partial : forall f e1 p rest1 q o1 e2 rest2 q2 o2,
  pd_reach p -> call_typed (Refresh e1) -> call_typed (Refresh e2) ->
  next_frame e1 p f rest1 -> next_frame e2 q f rest2 -> f_intact f -> f_mine (address p) f -> f_mine (address q) f ->
  f_scb f = true -> 7 <= zlen f -> 21 <= f_sctype f <= 24 -> f_seq f <> 0 ->
  session_open e1 p = true -> session_open e2 q = true ->
  pd_refresh e1 p = Ok (q, o1) -> ~ only_tx o1 -> pd_refresh e2 q = Ok (q2, o2) ->
  firstn 4 (osdp_mac (s_mac1 (sc p)) (s_mac2 (sc p)) (r_mac (sc p)) (f_covered f)) <>
  firstn 4 (osdp_mac (s_mac1 (sc q)) (s_mac2 (sc q)) (r_mac (sc q)) (f_covered f)) ->
  only_tx o2 /\ app_view q2 = app_view q /\ (seqn q = f_seq f -> sc_active (fl q2) = false).
Proof.
  intros f e1 p rest1 q o1 e2 rest2 q2 o2 R T1 T2 N1 N2 V M1 M2 SB L TY S0 O1 O2 H1 A1 H2 ND.
  assert (RQ : pd_inv q). { destruct R as (i & n & h & R). exact (runs_inv _ _ _ _ (runs_step i n h p (Refresh e1) q o1 R T1 H1)). }
  destruct (session_acts e1 p f rest1 q o1 (env_typed e1 T1) (reach_inv p R) N1 V M1 S0 SB L TY O1 H1 (or_introl A1)) as (E1 & _).
  assert (NE : f_mac f <> mac_wanted (sc q) f) by (intros E; apply ND; rewrite <- E1; exact E).
  assert (X : seq_ok (seqn q) (f_seq f) \/ ~ seq_ok (seqn q) (f_seq f)) by (unfold seq_ok; lia). destruct X as [X|X].
  - destruct (bad_mac e2 q f rest2 (env_typed e2 T2) RQ N2 V M2 X S0 ltac:(rewrite session_open_eq; exact O2) SB L TY NE) as (A & _).
    destruct (A q2 o2 H2) as (B1 & B2 & B3 & _). auto.
  - destruct (refused_sequence e2 q f rest2 (env_typed e2 T2) RQ N2 V M2 X) as (A & _). destruct (A q2 o2 H2) as (B1 & B2 & _).
    split; [auto|]. split; [auto|]. intros E. destruct X. right. left. congruence.
Qed.
Print Assumptions C51_session_partial.

(* C50_example is such a case: the number is the same, the MACs differ *)
Example C51_example :
  let f := mac_frame (sc ex_pd_sc) 101 2 [104; 0; 1; 0; 0] in
  let q := state_of (pd_refresh (ex_env 1200 [f]) ex_pd_sc) in
  next_frame (ex_env 1200 [f]) ex_pd_sc f [] /\ next_frame (ex_env 1300 [f]) q f [] /\ seqn q = f_seq f /\ f_sctype f = 21 /\
  firstn 4 (osdp_mac (s_mac1 (sc ex_pd_sc)) (s_mac2 (sc ex_pd_sc)) (r_mac (sc ex_pd_sc)) (f_covered f)) <>
  firstn 4 (osdp_mac (s_mac1 (sc q)) (s_mac2 (sc q)) (r_mac (sc q)) (f_covered f)).
Proof. cbv zeta. split; [ex_frame|]. split; [ex_frame|]. vm_compute. repeat split. discriminate. Qed.
