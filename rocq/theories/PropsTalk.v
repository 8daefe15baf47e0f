(** Property theorems C25, C26, C27: what panel and device tell each other. *)
From Verif Require Import Base ListLemmas SpecCrc Aes Rb RbProofs Types Sc Phy File Pd Cp CpCtx PdRun SpecRx SpecFrame SpecSec SpecSession SpecCmd SpecApp
  SpecPd SpecCp SpecCpRun SpecLink SpecHand SpecTalk PdTx PdStep CpInv Talk3 Talk4 Talk5 Talk6 ExPd ExCp ExLink.
From Coq Require Import ZifyBool ZifyNat.
Ltac Zify.zify_post_hook ::= Z.div_mod_to_equations.
Local Opaque aes_ecb_encrypt aes_cbc_encrypt aes_cbc_decrypt mac_of RB_SIZE osdp_mac enc1 osdp_encrypt encrypt_data.

(** C27.  After the exchange of ID and CAP the panel's interface returns the identity the device was
    set up with, in the widths of the wire, and level and item count of every capability the device
    was given, the implicit ones included.  The panel's table has 17 entries (the array type in C). *)
Theorem C27_identity : forall i n h c p e1 e2,
  pd_runs i n h p -> connected c p -> state c = SInit -> length (caps c) = 17%nat ->
  env_typed e1 -> env_typed e2 -> 256 <= e_tx e2 ->
  moves (cp_do (Update e1) c) (fun c1 => says (cp_do (Update e2) c1) (fun c2 w1 =>
  forall e3, hears e3 w1 -> says (pd_do (Refresh e3) p) (fun p1 w2 =>
  forall e4, hears e4 w2 -> moves (cp_do (Update e4) c2) (fun c3 =>
  forall e5 e6, env_typed e5 -> env_typed e6 -> 256 <= e_tx e6 ->
  moves (cp_do (Update e5) c3) (fun c4 => says (cp_do (Update e6) c4) (fun c5 w3 =>
  forall e7, hears e7 w3 -> says (pd_do (Refresh e7) p1) (fun p2 w4 =>
  forall e8, hears e8 w4 -> exists c6 o, cp_do (Update e8) c5 = Ok (c6, o) /\
  cp_get_pd_id c6 = id_wire (i_id i) /\
  forall fc, 0 < fc < 17 -> cp_get_capability c6 fc =
    match last_cap (given_caps i h) fc with
    | Some x => Some (c_comp x, c_num x)
    | None => cp_get_capability c fc
    end))))))).
Proof.
  intros i n h c p e1 e2 R [RC Ph L (QC & QP) (N1 & N2)] St C17 T1 T2 X2.
  assert (RP : pd_reach p) by (exists i, n, h; exact R).
  destruct (id_round e1 e2 c p (cp_reach_inv c RC) (reach_inv p RP) T1 T2 X2 St Ph L QC QP N1 N2) as (c1 & U1 & c2 & w1 & U2 & G1).
  exists c1. split; [exact U1|]. exists c2, w1. split; [exact U2|]. intros e3 H3. destruct (G1 e3 H3) as (p1 & w2 & V1 & G2).
  exists p1, w2. split; [exact V1|]. intros e4 H4. destruct (G2 e4 H4) as (c3 & U3 & [[I3 Ip1] L3 [Q3 Qp1] (K1 & K2 & K3)] & St3 & Ph3 & Id3 & C3 & P3).
  exists c3. split; [exact U3|]. intros e5 e6 T5 T6 X6.
  destruct (cap_round e5 e6 c3 p1 I3 Ip1 T5 T6 X6 St3 Ph3 L3 Q3 Qp1) as (c4 & U4 & c5 & w3 & U5 & G3); [unfold tx_buf_size in *; rewrite P3; exact N1|unfold tx_buf_size in *; rewrite K3; exact N2|].
  exists c4. split; [exact U4|]. exists c5, w3. split; [exact U5|]. intros e7 H7. destruct (G3 e7 H7) as (p2 & w4 & V2 & G4).
  exists p2, w4. split; [exact V2|]. intros e8 H8. destruct (G4 e8 H8) as (c6 & o & U6 & K & Ph6 & Id6 & C6).
  exists c6, o. split; [exact U6|]. destruct (runs_info i n h p R) as [RI _].
  split; [unfold cp_get_pd_id; rewrite Id6, Id3, RI; reflexivity|].
  intros fc F. pose proof (runs_caps i n h p fc R F) as RC2. unfold cp_get_capability. change CAP_SENTINEL with 17. replace ((fc <=? 0) || (fc >=? 17)) with false by lia.
  unfold cap_at. rewrite C6, C3, K2.
  destruct (caps_read (caps p) 16 1 (length (entries (caps p) 1 16)) (caps c) (Z.to_nat fc)) as [A B]; [lia|exact C17|lia|].
  destruct (last_cap (given_caps i h) fc) as [x|] eqn:LC.
  - assert (FX : c_fc x = fc) by (apply find_some in LC as [_ LC]; lia).
    rewrite A; [rewrite RC2; reflexivity|unfold declared; rewrite RC2, FX; lia|lia].
  - rewrite B; [reflexivity|]. intros [D _]. unfold declared in D. rewrite RC2 in D. cbn [c_fc] in D. lia.
Qed.
Print Assumptions C27_identity.

(* the line of ExLink, just set up; six rounds later the panel knows the device *)
Ltac ex_quiet := repeat (split; [vm_compute; first [reflexivity|repeat split; lia]|]); apply bytesb_ok; vm_compute; reflexivity.
Lemma ex_p0_runs : pd_runs (ex_info true (Some ex_key)) 4 [] ex_p0.
Proof. apply runs_start; [apply ex_info_typed; exact ex_key_ok|reflexivity]. Qed.
Lemma ex_c0_reach : cp_reach ex_c0.
Proof. change ex_c0 with (state_of (crun_from ex_cinfo_sc 4 [])). ex_crun. Qed.
Example C27_example : connected ex_c0 ex_p0 /\ state ex_c0 = SInit /\ length (caps ex_c0) = 17%nat /\
  (let '(c, p, _, _) := duo 6 1000 ex_c0 ex_p0 [] [] [] in
   cp_get_pd_id ex_c0 <> cp_get_pd_id c /\ cp_get_pd_id c = mkId 1 2 12648430 305419896 65793 /\
   map (cp_get_capability c) [2; 4; 8; 9; 10; 16; 1] =
     [Some (1, 2); Some (1, 1); Some (1, 0); Some (1, 0); Some (0, 1); Some (2, 0); Some (0, 0)]).
Proof.
  split; [|split; [reflexivity|split; [reflexivity|vm_compute; split; [discriminate|split; reflexivity]]]].
  constructor.
  - exact ex_c0_reach.
  - reflexivity.
  - split; [constructor; vm_compute; repeat split; discriminate|left]. vm_compute. repeat split; try discriminate. left. reflexivity.
  - split; ex_quiet.
  - vm_compute. split; discriminate.
Qed.

(** C26.  An event within the documented ranges that waits at the device reaches the callback of the
    panel's application at the next poll with the same fields.  What does not travel is in upto_ev:
    the bytes beyond the length and the direction of a card read. *)
Theorem C26_event : forall c p e1 e2 ev t,
  pd_reach p -> connected c p -> state c = SOnline -> rq_offline c = false -> cmdq c = [] -> no_transfer c -> e_now e1 - tstamp c > 50 ->
  160 <= tx_buf_size p -> enforce (fl p) = false \/ sc_active (fl p) = true ->
  evq p = ev :: t -> ev_in_range ev -> items_known (caps p) ev -> items_known (caps c) ev ->
  env_typed e1 -> env_typed e2 -> 256 <= e_tx e2 ->
  moves (cp_do (Update e1) c) (fun c1 => says (cp_do (Update e2) c1) (fun c2 w1 =>
  forall e3, hears e3 w1 -> in_session e3 p -> says (pd_do (Refresh e3) p) (fun p1 w2 =>
  evq p1 = t /\
  forall e4, hears e4 w2 -> e_evcb e4 = true ->
  exists c3, cp_do (Update e4) c2 = Ok (c3, [OEv (idx c) (upto_ev ev)]) /\ line c3 p1 /\ quiet c3 /\ quiet p1))).
Proof.
  intros c p e1 e2 ev t RP [RC Ph L (QC & QP) (N1 & N2)] St Of Cq NT Tm N3 EN EQ RG KP KC T1 T2 X2.
  assert (P : exists pay, event_payload (caps p) ev = Some pay /\ 1 <= zlen pay <= 133).
  { destruct ev; cbn [ev_in_range items_known event_payload] in *; try tauto.
    - replace ((format =? 0) || (format =? 1)) with true by lia. eexists. split; [reflexivity|].
      destruct RG as (_ & _ & B1 & B2 & _). cbn [app]. rewrite !zlen_cons, firstn_zlen by (unfold bit_bytes in *; lia). unfold bit_bytes. lia.
    - eexists. split; [reflexivity|]. cbn [app]. rewrite !zlen_cons, firstn_zlen by lia. lia.
    - eexists. split; [reflexivity|]. cbn [app]. rewrite !zlen_cons, firstn_zlen by lia. lia.
    - assert (BF : forall m k, 0 <= k -> zlen (bit_flags m k) = k) by (intros m k H; unfold bit_flags, zlen; rewrite map_length, seq_length; lia).
      destruct KP as [K0 K1]. destruct RG as (Ty & _ & _ & Nr & _).
      destruct (stype =? 0) eqn:S0; [rewrite K0 by lia; rewrite Z.eqb_refl; eexists; split; [reflexivity|rewrite zlen_cons, BF; lia]|].
      destruct (stype =? 1) eqn:S1; [rewrite K1 by lia; rewrite Z.eqb_refl; eexists; split; [reflexivity|rewrite zlen_cons, BF; lia]|].
      destruct (stype =? 2) eqn:S2; [eexists; split; [reflexivity|rewrite zlen_cons, BF; lia]|].
      destruct (stype =? 3) eqn:S3; [eexists; split; [reflexivity|rewrite zlen_cons, BF; lia]|lia]. }
  destruct P as (pay & P & PL).
  apply (ev_round e1 e2 c p ev t pay (cp_reach_inv c RC) (reach_inv p RP) T1 T2 X2 St Ph Of Cq NT Tm L QC QP N1); try assumption.
  split; [exact (ev_bytes _ _ _ P RG)|]. split; [lia|]. pose proof (tx_size p). split; [lia|].
  destruct (sc_active (fl p)); [|lia]. destruct (zlen pay >? 1); lia.
Qed.
Print Assumptions C26_event.

(* on the line of ExLink, in session: one event of each kind, and what the panel's application gets *)
Definition ex_said (ev : event) : list out :=
  match pd_do (Notify ev) ex_lp with
  | Ok (p, _) => let '(c, p1, xs, _) := duo 3 1380 ex_lc p [] [] [] in
      match last xs (0, []), duo 2 1380 ex_lc p [] [] [] with
      | (t, rx), (c1, _, _, _) => outs_of (cp_do (Update (ex_env t [rx])) c1)
      end
  | _ => []
  end.
Definition ex_ev_card : event := ECard 1 0 0 26 [1; 2; 3; 64].
Definition ex_ev_in : event := EStatus 1 2 2.
Definition ex_ep : pd := Eval vm_compute in set_evq [ex_ev_card] ex_lp.
Lemma ex_ep_reach : pd_reach ex_ep.
Proof.
  destruct ex_lp_reach as (i & n & h & R). exists i, n, (mkEntry ex_lp (Notify ex_ev_card) [] :: h).
  apply (runs_step i n h ex_lp (Notify ex_ev_card) ex_ep []); [exact R|split; [apply bytesb_ok; reflexivity|vm_compute; discriminate]|vm_compute; reflexivity].
Qed.
Lemma ex_step_ok p : in_step ex_lc ex_lp -> sc p = sc ex_lp -> fl p = fl ex_lp -> seqn p = seqn ex_lp -> address p = address ex_lp -> in_step ex_lc p.
Proof. intros [[A1 A2 A3 A4 A5] B C D E F G] H1 H2 H3 H4. constructor; [constructor|..]; rewrite ?H1, ?H2, ?H3, ?H4; assumption. Qed.
Lemma ex_in_step : in_step ex_lc ex_lp.
Proof.
  constructor; [constructor|..]; try (vm_compute; repeat split; first [reflexivity|discriminate]).
  repeat (constructor; [split; [reflexivity|apply bytesb_ok; vm_compute; reflexivity]|]). constructor.
Qed.
Example C26_example :
  connected ex_lc ex_ep /\ state ex_lc = SOnline /\ rq_offline ex_lc = false /\ cmdq ex_lc = [] /\ no_transfer ex_lc /\ e_now (ex_env 1380 []) - tstamp ex_lc > 50 /\
  160 <= tx_buf_size ex_ep /\ sc_active (fl ex_ep) = true /\ evq ex_ep = [ex_ev_card] /\ ev_in_range ex_ev_card /\
  ev_in_range ex_ev_in /\ items_known (caps ex_ep) ex_ev_in /\ items_known (caps ex_lc) ex_ev_in /\
  ex_said ex_ev_card = [OEv 0 ex_ev_card] /\ ex_said ex_ev_in = [OEv 0 ex_ev_in] /\
  ex_said (EKey 2 3 [49; 50; 51]) = [OEv 0 (EKey 2 3 [49; 50; 51])] /\
  ex_said (EMfgrep 12648430 7 2 [9; 200]) = [OEv 0 (EMfgrep 12648430 7 2 [9; 200])].
Proof.
  split.
  { constructor.
    - exact ex_lc_reach.
    - reflexivity.
    - split; [apply (is_ends ex_lc ex_ep), (ex_step_ok ex_ep ex_in_step); reflexivity|right; apply (ex_step_ok ex_ep ex_in_step); reflexivity].
    - split; ex_quiet.
    - vm_compute. split; discriminate. }
  do 4 (split; [reflexivity|]). split; [vm_compute; reflexivity|]. split; [vm_compute; discriminate|]. do 2 (split; [reflexivity|]).
  split. { repeat split; try (vm_compute; discriminate); try lia; try (left; reflexivity); apply bytesb_ok; reflexivity. }
  split. { cbn. repeat split; lia. } split; [cbn; split; [lia|reflexivity]|]. split; [cbn; split; [lia|reflexivity]|].
  repeat (split; [vm_compute; reflexivity|]). vm_compute; reflexivity.
Qed.

(** C26.  The direction of a card read is lost: the device announces a card read in reverse (1), the
    panel's application is told forward (0). *)
Theorem C26_direction_refuted : exists c p ev e1 e2 e3 e4 c1 c2 c3 p1 w1 w2 got,
  cp_reach c /\ pd_reach p /\ connected c p /\ evq p = [ev] /\
  cp_do (Update e1) c = Ok (c1, []) /\ cp_do (Update e2) c1 = Ok (c2, [OTx w1]) /\
  heard (e_rx e3) = w1 /\ pd_do (Refresh e3) p = Ok (p1, [OTx w2]) /\
  heard (e_rx e4) = w2 /\ cp_do (Update e4) c2 = Ok (c3, [OEv 0 got]) /\
  ev = ECard 1 1 1 26 [1; 2; 3; 64] /\ got = ECard 1 1 0 26 [1; 2; 3; 64].
Proof.
  set (ev := ECard 1 1 1 26 [1; 2; 3; 64]). pose (p := set_evq [ev] ex_lp).
  pose (r1 := cp_do (Update (ex_env 1380 [])) ex_lc). pose (r2 := cp_do (Update (ex_env 1400 [])) (state_of r1)).
  pose (r3 := pd_do (Refresh (ex_env 1400 [said (outs_of r2)])) p). pose (r4 := cp_do (Update (ex_env 1420 [said (outs_of r3)])) (state_of r2)).
  exists ex_lc, p, ev, (ex_env 1380 []), (ex_env 1400 []), (ex_env 1400 [said (outs_of r2)]), (ex_env 1420 [said (outs_of r3)]),
    (state_of r1), (state_of r2), (state_of r4), (state_of r3), (said (outs_of r2)), (said (outs_of r3)), (ECard 1 1 0 26 [1; 2; 3; 64]).
  split; [exact ex_lc_reach|]. split.
  { destruct ex_lp_reach as (i & n & h & R). exists i, n, (mkEntry ex_lp (Notify ev) [] :: h).
    apply (runs_step i n h ex_lp (Notify ev) p []); [exact R|split; [apply bytesb_ok; reflexivity|vm_compute; discriminate]|vm_compute; reflexivity]. }
  split.
  { constructor.
    - exact ex_lc_reach.
    - reflexivity.
    - split; [apply (is_ends ex_lc p), (ex_step_ok p ex_in_step); reflexivity|right; apply (ex_step_ok p ex_in_step); reflexivity].
    - split; ex_quiet.
    - vm_compute. split; discriminate. }
  repeat (split; [vm_compute; reflexivity|]). vm_compute; reflexivity.
Qed.
Print Assumptions C26_direction_refuted.

(** C25.  A command with fields in the documented ranges that waits at the panel reaches the callback
    of the device's application with the same fields, once, if the device declares the function.  What
    does not travel is in upto.  A key needs a session.  tx_buf_size of the panel: what the device
    said it can receive. *)
Theorem C25_command : forall c p e1 e2 k q,
  pd_reach p -> connected c p -> state c = SOnline -> cmdq c = k :: q -> 95 <= tx_buf_size c ->
  cmd_in_range k -> has_cb p = true -> cap_covers (caps p) k -> enforce (fl p) = false \/ sc_active (fl p) = true ->
  (forall ty n key, k = CKeyset ty n key -> sc_active (fl p) = true /\ cap_level (caps p) 9 <> 0) ->
  env_typed e1 -> env_typed e2 -> 256 <= e_tx e2 ->
  moves (cp_do (Update e1) c) (fun c1 => says (cp_do (Update e2) c1) (fun c2 w =>
  cmdq c2 = q /\
  forall e3, hears e3 w -> in_session e3 p -> answers_in_kind k (e_cb e3 0 (upto k)) ->
  exists p1 o, pd_do (Refresh e3) p = Ok (p1, o) /\ app_calls o = [upto k])).
Proof.
  intros c p e1 e2 k q RP [RC Ph L (QC & QP) (N1 & N2)] St CQ N3 RG HC CC EN KS T1 T2 X2.
  apply (cmd_round e1 e2 c p k q (cp_reach_inv c RC) (reach_inv p RP) T1 T2 X2 St Ph CQ L QC QP N3 N2 RG HC CC EN).
  intros E. destruct k; cbn [cmd_code] in E; try discriminate; [exact (KS _ _ _ eq_refl)|].
  repeat match type of E with (if ?b then _ else _) = _ => destruct b end; discriminate.
Qed.
Print Assumptions C25_command.

(* on the line of ExLink, in session, with a callback: a command of each kind, and what it gets *)
Definition ex_tp : pd := Eval vm_compute in set_has_cb true ex_lp.
Lemma ex_tp_reach : pd_reach ex_tp.
Proof.
  destruct ex_lp_reach as (i & n & h & R). exists i, n, (mkEntry ex_lp (SetCallback true) [] :: h).
  apply (runs_step i n h ex_lp (SetCallback true) ex_tp []); [exact R|exact I|vm_compute; reflexivity].
Qed.
Definition ex_told (k : cmd) : list cmd :=
  match cp_do (Send (ex_env 1330 []) k) ex_lc with
  | Ok (c, _) =>
      match cp_do (Update (ex_env 1340 [])) c with
      | Ok (c1, _) => app_calls (outs_of (pd_do (Refresh (ex_env 1360 [said (outs_of (cp_do (Update (ex_env 1360 [])) c1))])) ex_tp))
      | _ => []
      end
  | _ => []
  end.
Definition ex_led : cmd := CLed 0 0 (mkLedp 2 5 6 1 2 600) (mkLedp 1 9 8 3 0 0).
Definition ex_cmds : list cmd :=
  [COutput 1 5 4000; ex_led; CBuzzer 0 2 3 4 5; CText 0 1 0 1 1 2 [72; 105]; CComset 9 57600;
   CMfg 12648430 3 2 [4; 5]; CKeyset 1 16 (map Z.of_nat (seq 30 16)); CStatus 1 0 0].
Definition ex_tc : pd := Eval vm_compute in set_cmdq [ex_led] ex_lc.
Lemma ex_tc_reach : cp_reach ex_tc.
Proof.
  assert (E : ex_tc = state_of (crun ex_lc [Send (ex_env 1330 []) ex_led])) by (vm_compute; reflexivity). rewrite E.
  apply crun_reach3; [exact ex_lc_reach| |vm_compute; reflexivity]. apply Forall_cons; [|apply Forall_nil]. split; [apply ex_cenv_typed; reflexivity|exact I].
Qed.
Lemma ex_cmds_told : map ex_told ex_cmds = map (fun k => [k]) ex_cmds.
Proof. vm_compute. reflexivity. Qed.
Example C25_example :
  connected ex_tc ex_tp /\ state ex_tc = SOnline /\ cmdq ex_tc = [ex_led] /\ 95 <= tx_buf_size ex_tc /\ has_cb ex_tp = true /\ sc_active (fl ex_tp) = true /\
  cap_level (caps ex_tp) 9 <> 0 /\ Forall (fun k => cmd_in_range k /\ cap_covers (caps ex_tp) k /\ ex_told k = [k] /\ upto k = k) ex_cmds.
Proof.
  split.
  { constructor.
    - exact ex_tc_reach.
    - reflexivity.
    - assert (X : in_step ex_tc ex_tp) by (destruct (ex_step_ok ex_tp ex_in_step eq_refl eq_refl eq_refl eq_refl) as [[A1 A2 A3 A4 A5] B C D E F G]; constructor; [constructor|..]; assumption).
      split; [exact (is_ends _ _ X)|right; exact X].
    - split; ex_quiet.
    - vm_compute. split; discriminate. }
  do 2 (split; [reflexivity|]). split; [vm_compute; discriminate|]. do 2 (split; [reflexivity|]). split; [vm_compute; discriminate|].
  assert (H : forall l, map ex_told l = map (fun k => [k]) l -> Forall (fun k => cmd_in_range k /\ cap_covers (caps ex_tp) k /\ upto k = k) l ->
    Forall (fun k => cmd_in_range k /\ cap_covers (caps ex_tp) k /\ ex_told k = [k] /\ upto k = k) l).
  { induction l as [|k l IH]; intros A B; constructor; inversion B; subst.
    - destruct H1 as (X & Y & Z). cbn [map] in A. assert (ex_told k = [k]) by congruence. auto.
    - apply IH; [|assumption]. cbn [map] in A. congruence. }
  apply H; [exact ex_cmds_told|]. unfold ex_cmds, ex_led.
  repeat (apply Forall_cons; [split; [cbn; unfold led_in_range, byte; cbn; repeat split; try lia; try (vm_compute; discriminate); try (apply bytesb_ok; reflexivity); auto 10|split; [vm_compute; repeat split; discriminate|reflexivity]]|]).
  apply Forall_nil.
Qed.
