(** PD: which fields each phase of a refresh can touch. *)
From Verif Require Import Base ListLemmas Crc Aes Rb RbProofs Types Sc Phy File Pd
  SpecRx SpecFrame RxProofs PdRx.
From Coq Require Import ZifyBool ZifyNat.
Ltac Zify.zify_post_hook ::= Z.div_mod_to_equations.

(* fields the packet layer may change when it receives: everything else *)
Definition incore (p : pd) : pd :=
  rxcore (set_reply_id 0 (set_eph EphNone (set_sc_active false (set_use_scbkd false
    (set_seqn 0 (set_broadcast false (set_c_mac [] p))))))).

Lemma rxcore_incore p q : rxcore q = rxcore p -> incore q = incore p.
Proof.
  intros H. apply (f_equal (fun x => incore x)) in H. exact H.
Qed.

Lemma incore_seen b p : incore (pd_seen b p) = incore p.
Proof. unfold pd_seen. destruct (_ =? _), (_ =? _); reflexivity. Qed.

Lemma incore_nak c p : incore (nak c p) = incore p.
Proof. reflexivity. Qed.

Ltac dif := match goal with |- context [if ?c then _ else _] => destruct c eqn:? end.

Ltac inv_all := repeat match goal with
  | H : Ok _ = Ok _ |- _ => inv H
  | H : Some _ = Some _ |- _ => inv H
  | H : (_, _) = (_, _) |- _ => inv H
  | H : UB _ = Ok _ |- _ => discriminate H
  | H : Die _ = Ok _ |- _ => discriminate H
  | H : None = Some _ |- _ => discriminate H
  | H : Some _ = None |- _ => discriminate H
  end.

Lemma compute_mac_core c p d q : compute_mac c p d = Ok q -> c = true ->
  incore q = incore p /\ zlen d <> 0 /\
  q = set_c_mac (mac_of (s_mac1 (sc p)) (s_mac2 (sc p)) (r_mac (sc p)) d) p.
Proof.
  unfold compute_mac. destruct (zlen d =? 0) eqn:E; [discriminate|]. intros H ->. inv H.
  split; auto. split; auto. lia.
Qed.

(* what decode_packet may change *)
Lemma decode_packet_core p q r : pd_mode (fl p) = true -> decode_packet p = Ok (q, r) ->
  incore q = incore p /\
  (use_scbkd (fl q) = true -> use_scbkd (fl p) = true \/ install (fl p) = true) /\
  (sc_active (fl q) = true -> sc_active (fl p) = true) /\
  seqn q = seqn p /\ broadcast (fl q) = broadcast (fl p) /\ has_mark (fl q) = has_mark (fl p) /\
  rb q = rb p /\ plen q = plen p /\ pblen q = pblen p /\ tstamp q = tstamp p /\
  match r with
  | DData _ => reply_id q = reply_id p /\ eph q = eph p /\ sc_active (fl q) = sc_active (fl p)
  | DErr _ => True
  end.
Proof.
  intros M. unfold decode_packet. rewrite M. cbv zeta.
  destruct (ctl_scb _).
  - destruct (_ && _); [intros H; inv_all; repeat split; auto; try (left; assumption)|].
    destruct (_ || _); [intros H; inv_all; repeat split; auto; try (left; assumption)|].
    destruct (_ && _) eqn:E1; [intros H; inv_all; repeat split; auto; try (left; assumption)|].
    set (p1 := if (_ : bool) then set_use_scbkd true p else p).
    assert (C1 : incore p1 = incore p) by (unfold p1; dif; reflexivity).
    assert (U1 : use_scbkd (fl p1) = true -> use_scbkd (fl p) = true \/ install (fl p) = true).
    { unfold p1. dif; [|auto]. intros _. right.
      destruct (install (fl p)); [reflexivity|]. rewrite andb_false_r in Heqb. discriminate. }
    assert (F1 : sc_active (fl p1) = sc_active (fl p) /\ seqn p1 = seqn p /\
       broadcast (fl p1) = broadcast (fl p) /\ has_mark (fl p1) = has_mark (fl p) /\
       rb p1 = rb p /\ plen p1 = plen p /\ pblen p1 = pblen p /\ tstamp p1 = tstamp p /\
       reply_id p1 = reply_id p /\ eph p1 = eph p /\ pd_mode (fl p1) = true).
    { unfold p1. dif; repeat split; auto. }
    clearbody p1. destruct F1 as (G1 & G2 & G3 & G4 & G5 & G6 & G7 & G8 & G9 & G10 & G11).
    dif.
    + unfold decode_secure. rewrite G11. cbv zeta.
      destruct (compute_mac true p1 _) as [p2| |] eqn:CM; [|discriminate|discriminate]. cbn [bind].
      apply compute_mac_core in CM as (C2 & _ & E2); auto.
      assert (F2 : incore p2 = incore p1 /\ use_scbkd (fl p2) = use_scbkd (fl p1) /\
        sc_active (fl p2) = sc_active (fl p1) /\ seqn p2 = seqn p1 /\
        broadcast (fl p2) = broadcast (fl p1) /\ has_mark (fl p2) = has_mark (fl p1) /\
        rb p2 = rb p1 /\ plen p2 = plen p1 /\ pblen p2 = pblen p1 /\ tstamp p2 = tstamp p1 /\
        reply_id p2 = reply_id p1 /\ eph p2 = eph p1) by (rewrite E2; repeat split; auto).
      clear E2 C2. destruct F2 as (K0 & K1 & K2 & K3 & K4 & K5 & K6 & K7 & K8 & K9 & K10 & K11).
      assert (NK : forall q1 r1, (nak 6 (sc_deactivate p2), DErr (-6)) = (q1, r1) ->
        incore q1 = incore p /\
        (use_scbkd (fl q1) = true -> use_scbkd (fl p) = true \/ install (fl p) = true) /\
        (sc_active (fl q1) = true -> sc_active (fl p) = true) /\
        seqn q1 = seqn p /\ broadcast (fl q1) = broadcast (fl p) /\
        has_mark (fl q1) = has_mark (fl p) /\
        rb q1 = rb p /\ plen q1 = plen p /\ pblen q1 = pblen p /\ tstamp q1 = tstamp p /\
        match r1 with
        | DData _ => reply_id q1 = reply_id p /\ eph q1 = eph p /\
                     sc_active (fl q1) = sc_active (fl p)
        | DErr _ => True
        end).
      { intros q1 r1 X. inv X. change (incore (nak 6 (sc_deactivate p2))) with (incore p2).
        simpl. repeat split; try congruence. rewrite K1. exact U1. }
      dif; [intros H; injection H as H; apply NK; congruence|].
      dif.
      * dif; [discriminate|]. dif; [intros H; injection H as H; apply NK; congruence|].
        destruct (decrypt_data _ _ _ _) as [[d m]|];
          [|intros H; injection H as H; apply NK; congruence].
        intros H; injection H as <- <-.
        match goal with |- incore ?x = _ /\ _ => change (incore x) with (incore p2) end.
        simpl. repeat split; try congruence. rewrite K1. exact U1.
      * intros H; injection H as <- <-. repeat split; try congruence.
        -- rewrite K1; exact U1.
        -- destruct (ret_data _ _ _); auto; repeat split; congruence.
    + intros H; inv_all. rewrite C1, ?G1.
      repeat split; auto; try congruence. destruct (ret_data _ _ _); auto; repeat split; congruence.
  - destruct (sc_active (fl p)) eqn:A; intros H; inv_all; repeat split; auto; try (left; assumption).
    + rewrite A. auto.
    + destruct (ret_data _ _ _); auto.
Qed.

(* fields the command decoder never touches *)
Definition cmdcore (p : pd) : pd :=
  set_cmd_id 0 (set_reply_id 0 (set_eph EphNone (set_evq [] (set_peer_rx 0 (set_sc_tstamp 0
    (set_file None (set_sc_active false (set_cp_random [] (set_cp_crypt [] p))))))))).

(* outputs of the decoder: callbacks, no transmission *)
Definition no_tx (o : list out) : Prop := forall d, ~ In (OTx d) o.

Lemma no_tx_nil : no_tx [].
Proof. intros d []. Qed.

Lemma no_tx_cmd c : no_tx [OCmd c].
Proof. intros d [H|[]]; discriminate. Qed.

Lemma no_tx_app a b : no_tx a -> no_tx b -> no_tx (a ++ b).
Proof. intros A B d H. apply in_app_iff in H as [H|H]; [eapply A|eapply B]; eauto. Qed.

#[export] Hint Resolve no_tx_nil no_tx_cmd no_tx_app : notx.

(* the decoder changes reply and union, and makes callbacks *)
Definition touch (p q : pd) (o : list out) : Prop :=
  (exists r e, q = set_eph e (set_reply_id r p)) /\ no_tx o.

Lemma set_eta p : p = set_eph (eph p) (set_reply_id (reply_id p) p).
Proof. destruct p; reflexivity. Qed.

Lemma do_callback_touch e n p c q b c1 o : do_callback e n p c = (q, b, c1, o) ->
  (q = if b then p else nak 9 p) /\ o = [OCmd c] /\ e_cb e n c = (fst (e_cb e n c), c1) /\
  b = (fst (e_cb e n c) =? 0).
Proof.
  unfold do_callback. destruct (e_cb e n c) as [rc c2]. cbn [fst].
  destruct (rc =? 0); intros H; inv H; auto.
Qed.

Lemma do_records_touch e l : forall n p q o, do_records e n p l = (q, o) -> touch p q o.
Proof.
  induction l as [|c l IH]; intros n p q o; cbn [do_records].
  - intros H; inv H. split; [exists (reply_id q), (eph q); apply set_eta|apply no_tx_nil].
  - destruct (negb (rec_ok p c)).
    { intros H; inv H. split; [exists REPLY_NAK, (EphNak 3); reflexivity|apply no_tx_nil]. }
    destruct (do_callback e n p c) as [[[p1 b] c1] o1] eqn:E.
    apply do_callback_touch in E as (E1 & -> & _). destruct b; subst p1.
    + destruct (do_records e (S n) p l) as [p2 o2] eqn:E2. intros H; inv H.
      destruct (IH _ _ _ _ E2) as [A B]. split; auto. apply (no_tx_app [OCmd c] o2); auto. apply no_tx_cmd.
    + intros H; inv H. split; [exists REPLY_NAK, (EphNak 9); reflexivity|apply no_tx_cmd].
Qed.

Lemma file_rx_open_notx e p f ty size r o : file_rx_open e p f ty size = (r, o) -> no_tx o.
Proof.
  unfold file_rx_open. intros H.
  repeat dmatch_in H; inv H; intros d I; simpl in I; intuition discriminate.
Qed.

Lemma file_tx_decode_core e p d q b o : file_tx_decode e p d = Ok (q, b, o) ->
  (exists f, q = set_file f p) /\ no_tx o.
Proof.
  unfold file_tx_decode. destruct (file p) as [f|] eqn:F.
  2:{ intros H; inv H. split; [exists (file q); destruct q; reflexivity|apply no_tx_nil]. }
  assert (E : p = set_file (file p) p) by (destruct p; reflexivity).
  destruct (zlen d <=? FT_HDR); [intros H; inv H; split; [eauto|apply no_tx_nil]|]. cbv zeta.
  destruct (negb _); [discriminate|].
  destruct (file_rx_open _ _ _ _ _) as [[f1|] o1] eqn:O; apply file_rx_open_notx in O.
  - destruct (negb (in_progress f1)); [intros H; inv H; split; [eauto|auto]|].
    assert (NW : no_tx (o1 ++ [OFWrite (from d FT_HDR) (le32 (getb d 5) (getb d 6) (getb d 7) (getb d 8))])).
    { apply no_tx_app; auto. intros x [X|[]]; discriminate. }
    destruct (negb _); intros H; inv H; split; eauto.
  - intros H; inv H; split; eauto.
Qed.

Lemma file_tx_abort_core p q o : file_tx_abort p = (q, o) -> (exists f, q = set_file f p) /\ no_tx o.
Proof.
  assert (E : p = set_file (file p) p) by (destruct p; reflexivity).
  unfold file_tx_abort. destruct (file p); [destruct (in_progress f)|]; intros H; inv H; split;
    eauto; intros x I; simpl in I; intuition discriminate.
Qed.

Lemma file_stat_build_core e p n q l o : file_stat_build e p n = Ok (q, l, o) ->
  (exists f, q = set_file f p) /\ no_tx o.
Proof.
  assert (E : p = set_file (file p) p) by (destruct p; reflexivity).
  unfold file_stat_build. destruct (file p) as [f|] eqn:F; cbv zeta;
    [|intros H; inv H; split; [exists (file q); auto; congruence|apply no_tx_nil]].
  repeat match goal with |- context [if ?c then _ else _] =>
    lazymatch c with context [if _ then _ else _] => fail | _ => destruct c end end;
    intros H; inv H; split; eauto; intros x I; simpl in I; intuition discriminate.
Qed.

Lemma decode_command_core e p l q r o : decode_command e p l = Ok (q, r, o) ->
  cmdcore q = cmdcore p /\ (sc_active (fl q) = true -> sc_active (fl p) = true) /\ no_tx o /\
  cmd_id q = getb l 0 /\ r <> RGeneric /\ r <> RIgnore /\ r <> RNoData.
Proof.
  unfold decode_command. cbv zeta.
  set (c := getb l 0). set (d := from l 1). set (p1 := set_cmd_id c (set_reply_id 0 p)).
  assert (C1 : cmdcore p1 = cmdcore p) by reflexivity.
  assert (A1 : sc_active (fl p1) = sc_active (fl p)) by reflexivity.
  assert (I1 : cmd_id p1 = c) by reflexivity.
  assert (NK : forall n, cmdcore (nak n p1) = cmdcore p1) by reflexivity.
  destruct (_ && _).
  { destruct (cmd_name_null c); [discriminate|]. intros H; inv H. rewrite NK.
    repeat split; auto with notx; discriminate. }
  assert (S : forall p2 r2 o2, decode_switch e p1 c d = Some (Ok (p2, r2, o2)) ->
     cmdcore p2 = cmdcore p1 /\ (sc_active (fl p2) = true -> sc_active (fl p1) = true) /\
     cmd_id p2 = cmd_id p1 /\ no_tx o2 /\ r2 <> RIgnore /\ r2 <> RNoData).
  2:{ destruct (decode_switch e p1 c d) as [[[[p2 r2] o2]| |]|]; cbn [bind]; try discriminate.
      - destruct (S p2 r2 o2 eq_refl) as (S1 & S2 & S3 & S4 & S5 & S6).
        destruct r2; intros H; inv H; repeat split; auto; try congruence; try discriminate.
      - intros H; inv H. rewrite NK. repeat split; auto with notx; discriminate. }
  clearbody p1. clear C1 A1 I1 NK. intros p2 r2 o2. unfold decode_switch. cbv zeta.
  assert (BK : forall p2 r2 o2, Some (Ok (p1, RGeneric, [])) = Some (Ok (p2, r2, o2)) ->
     cmdcore p2 = cmdcore p1 /\ (sc_active (fl p2) = true -> sc_active (fl p1) = true) /\
     cmd_id p2 = cmd_id p1 /\ @no_tx o2 /\ r2 <> RIgnore /\ r2 <> RNoData).
  { intros p3 r3 o3 H; inv H. repeat split; auto with notx; discriminate. }
  assert (AK : forall r q2 r3 o3, Some (Ok (set_reply_id r p1, RNone, [])) = Some (Ok (q2, r3, o3)) ->
     cmdcore q2 = cmdcore p1 /\ (sc_active (fl q2) = true -> sc_active (fl p1) = true) /\
     cmd_id q2 = cmd_id p1 /\ @no_tx o3 /\ r3 <> RIgnore /\ r3 <> RNoData).
  { intros a q2 r3 o3 H; inv H. repeat split; auto with notx; discriminate. }
  assert (ST : forall ty rp q2 r3 o3, Some (do_status e p1 ty rp) = Some (Ok (q2, r3, o3)) ->
     cmdcore q2 = cmdcore p1 /\ (sc_active (fl q2) = true -> sc_active (fl p1) = true) /\
     cmd_id q2 = cmd_id p1 /\ @no_tx o3 /\ r3 <> RIgnore /\ r3 <> RNoData).
  { intros ty rp q2 r3 o3 H. injection H as H. unfold do_status in H.
    destruct (do_callback e 0 p1 _) as [[[p3 b] c1] o1] eqn:E.
    apply do_callback_touch in E as (E1 & -> & _). destruct b; subst p3.
    - destruct c1; inv H; repeat split; auto with notx; discriminate.
    - inv H. repeat split; auto with notx; discriminate. }
  assert (MU : forall n f q2 r3 o3, Some (do_multi e p1 n f d) = Some (Ok (q2, r3, o3)) ->
     cmdcore q2 = cmdcore p1 /\ (sc_active (fl q2) = true -> sc_active (fl p1) = true) /\
     cmd_id q2 = cmd_id p1 /\ @no_tx o3 /\ r3 <> RIgnore /\ r3 <> RNoData).
  { intros n f q2 r3 o3 H. injection H as H. unfold do_multi in H.
    destruct (negb _ || negb _); [inv H; repeat split; auto with notx; discriminate|].
    destruct (do_records e 0 p1 _) as [p3 o1] eqn:E. apply do_records_touch in E as [(a & b & E) N].
    inv H. repeat split; auto with notx; discriminate. }
  Ltac cbk E := apply do_callback_touch in E as (E & -> & _); match type of E with _ = (if ?b then _ else _) => destruct b end; subst.
  dif; [dif; [apply BK|]; destruct (evq p1) as [|ev qq]; [apply AK|];
        intros H; inv H; unfold translate_event; dif; repeat split; auto with notx; discriminate|].
  dif; [dif; [apply BK|]; dif; [discriminate|]; apply ST|].
  dif; [dif; [apply BK|]; dif; [intros H; inv H; repeat split; auto with notx; discriminate|]; apply ST|].
  dif; [dif; [apply BK|]; dif; [intros H; inv H; repeat split; auto with notx; discriminate|]; apply ST|].
  dif; [dif; [apply BK|]; apply ST|].
  dif; [dif; [apply BK|]; apply AK|].
  dif; [dif; [apply BK|]; apply AK|].
  dif; [apply MU|].
  dif; [apply MU|].
  dif; [apply MU|].
  dif. { unfold do_text. dif; [apply BK|]. cbv zeta. dif; [apply BK|].
         dif; [intros H; inv H; repeat split; auto with notx; discriminate|].
         destruct (do_callback _ _ _ _) as [[[p3 bb] c1] o1] eqn:E. cbk E; intros H; inv H;
         repeat split; auto with notx; discriminate. }
  dif. { unfold do_comset. dif; [apply BK|]. cbv zeta. dif; [apply BK|].
         destruct (do_callback _ _ _ _) as [[[p3 bb] c1] o1] eqn:E. cbk E; intros H; inv H;
         repeat split; auto with notx; discriminate. }
  dif. { unfold do_mfg. dif; [apply BK|]. cbv zeta. dif; [apply BK|].
         destruct (do_callback _ _ _ _) as [[[p3 bb] c1] o1] eqn:E. cbk E; intros H; inv H;
         repeat split; auto with notx; discriminate. }
  dif; [dif; [apply BK|]; intros H; inv H; repeat split; auto with notx; discriminate|].
  dif; [dif; [apply BK|]; intros H; inv H; repeat split; auto with notx; discriminate|].
  dif; [dif; [apply BK|]; destruct (file_tx_abort p1) as [p3 o1] eqn:E;
        apply file_tx_abort_core in E as [(f & ->) N]; intros H; inv H; repeat split; auto with notx; discriminate|].
  dif. { destruct (file_tx_decode e p1 d) as [[[p3 bb] o1]| |] eqn:E; cbn [bind]; try discriminate.
         apply file_tx_decode_core in E as [(f & ->) N]. destruct bb; intros H; inv H;
         repeat split; auto with notx; discriminate. }
  dif. { unfold do_keyset. dif; [apply BK|]. dif; [apply BK|]. cbv zeta.
         dif; [intros H; inv H; repeat split; auto with notx; discriminate|].
         dif; [intros H; inv H; repeat split; auto with notx; discriminate|].
         dif; [intros H; inv H; repeat split; auto with notx; discriminate|].
         destruct (do_callback _ _ _ _) as [[[p3 bb] c1] o1] eqn:E. cbk E.
         - destruct c1; try discriminate. destruct (take_arr _ _); cbn [bind]; try discriminate.
           intros H; inv H; repeat split; auto with notx; discriminate.
         - intros H; inv H; repeat split; auto with notx; discriminate. }
  dif. { unfold do_chlng. dif; [intros H; inv H; repeat split; auto with notx; discriminate|].
         dif; intros H; inv H; repeat split; auto with notx; discriminate. }
  dif. { unfold do_scrypt. dif; [intros H; inv H; repeat split; auto with notx; discriminate|].
         dif; [intros H; inv H; repeat split; auto with notx; discriminate|].
         dif; intros H; inv H; repeat split; auto with notx; try discriminate.
         match goal with E : sc_active (fl p1) = false |- _ => simpl; rewrite E; auto end. }
  discriminate.
Qed.
