(** The panel opens, reads and closes the file of the application in this order. *)
From Verif Require Import Base ListLemmas Crc SpecCrc CrcProofs CrcBurst Aes AesProofs Rb RbProofs
  Types Sc ScProofs Phy PhyCheck File Pd Cp CpCtx SpecRx SpecFrame SpecSec SpecCmd SpecApp MacProofs RxProofs RxFwd PdRx PdCore PhyTx
  PdReply PdStep SpecPd SpecCp CpRx CpTx CpStep CpInv CpFacts CpSum CpWire CpReply SpecOpen SpecOpenCp OpenPd.
From Coq Require Import ZifyBool ZifyNat.
Ltac Zify.zify_post_hook ::= Z.div_mod_to_equations.
Local Opaque aes_ecb_encrypt aes_cbc_encrypt aes_cbc_decrypt mac_of RB_SIZE osdp_mac enc1.

Definition nofile (o : list out) : Prop := forall x, In x o -> ~ file_call x.
Lemma nofile_nil : nofile [].
Proof. intros x []. Qed.
Lemma nofile_app a b : nofile a -> nofile b -> nofile (a ++ b).
Proof. intros A B x X. apply in_app_or in X as [X|X]; [apply A|apply B]; auto. Qed.
Lemma nofile_notify e p ty a b : nofile (notify e p ty a b).
Proof. unfold notify. destruct (_ && _); intros x X; simpl in X; intuition; subst; auto. Qed.
Lemma nofile_status e p st : nofile (notify_command_status e p st).
Proof. unfold notify_command_status. destruct (app_cmd_of p); [apply nofile_notify|apply nofile_nil]. Qed.
Lemma nofile_event e p : nofile (do_event_callback e p).
Proof. unfold do_event_callback. destruct (e_evcb e); [destruct (eph p)|]; intros x X; simpl in X; intuition; subst; auto. Qed.

Lemma puses_app e U a b x y : forall c, puses e U a x b -> puses e U b y c -> puses e U a (x ++ y) c.
Proof. intros c H. induction H; intros Y; simpl; auto. econstructor; eauto. Qed.
Lemma puses_none e U b o : nofile o -> puses e U b o b.
Proof. induction o as [|x t IH]; intros H; [constructor|]. eapply ps_cons; [apply p_other; apply H; simpl; auto|]. apply IH. intros y Y; apply H; simpl; auto. Qed.
Lemma puses_one e U b x c : puse e U b x c -> puses e U b [x] c.
Proof. intros H. eapply ps_cons; [exact H|constructor]. Qed.
Lemma puses_weak e (U V : Prop) b o c : (U -> V) -> puses e U b o c -> puses e V b o c.
Proof.
  intros W H. induction H as [|b x c o d X _ IH]; [constructor|]. eapply ps_cons; [|exact IH].
  destruct X; try (econstructor; eauto; fail).
Qed.


(* what the panel knows of the file *)
Definition tracks (b : hold) (p : pd) : Prop :=
  match b with
  | Shut => busy p = false
  | Held => exists f, file p = Some f /\ in_progress f = true /\ u32 (f_off f) = f_off f /\ f_off f <> f_size f
  | Stray => True
  end.
Definition follows (e : env) (U : Prop) (p : pd) (o : list out) (q : pd) : Prop := forall b, tracks b p -> exists c, puses e U b o c /\ tracks c q.
Lemma tracks_file b p q : file q = file p -> tracks b p -> tracks b q.
Proof. intros E. destruct b; simpl; unfold busy; rewrite ?E; auto. Qed.
Lemma follows_none e U p o q : nofile o -> file q = file p -> follows e U p o q.
Proof. intros N E b T. exists b. split; [apply puses_none; auto|eapply tracks_file; eauto]. Qed.
Lemma follows_app e U p o q o2 r : follows e U p o q -> follows e U q o2 r -> follows e U p (o ++ o2) r.
Proof. intros A B b T. destruct (A b T) as (c & X & Y). destruct (B c Y) as (d & Z & W). exists d. split; [eapply puses_app; eauto|auto]. Qed.
Lemma follows_file e U p o q r : file r = file q -> follows e U p o q -> follows e U p o r.
Proof. intros E A b T. destruct (A b T) as (c & X & Y). exists c. split; [auto|]. eapply tracks_file; eauto. Qed.
Lemma follows_from e U p o q r : file r = file p -> follows e U p o q -> follows e U r o q.
Proof. intros E A b T. apply A. eapply tracks_file; [symmetry; exact E|exact T]. Qed.
Lemma follows_weak e (U V : Prop) p o q : (U -> V) -> follows e U p o q -> follows e V p o q.
Proof. intros W A b T. destruct (A b T) as (c & X & Y). exists c. split; [eapply puses_weak; eauto|auto]. Qed.
Lemma tracks_busy p f : file p = Some f -> in_progress f = true -> ~ tracks Shut p.
Proof. intros F G T. simpl in T. unfold busy in T. rewrite F in T. congruence. Qed.

(* choosing a command *)
Lemma abort_follows e U p q o : file_tx_abort p = (q, o) -> follows e U p o q.
Proof.
  unfold file_tx_abort. destruct (file p) as [f|] eqn:F; [destruct (in_progress f) eqn:G|]; intros H; injection H as <- <-;
    try (apply follows_none; [apply nofile_nil|reflexivity]).
  intros b T. destruct b.
  - destruct (tracks_busy p f F G T).
  - exists Shut. split; [apply puses_one, p_close|reflexivity].
  - exists Stray. split; [apply puses_one, p_reclose|exact I].
Qed.

Lemma get_follows e U p q c o : file_tx_get_command e p = (q, c, o) -> follows e U p o q.
Proof.
  unfold file_tx_get_command. destruct (file p) as [f|] eqn:F.
  2: { intros H. injection H as <- <- <-. apply follows_none; [apply nofile_nil|reflexivity]. }
  pose proof (abort_follows e U p) as A. destruct (file_tx_abort p) as [p1 o1]. specialize (A p1 o1 eq_refl).
  destruct (f_state f); try (intros H; injection H as <- <- <-; apply follows_none; [apply nofile_nil|reflexivity]);
    (destruct (_ || _); [intros H; injection H as <- <- <-; exact A|]); (destruct (_ && _); [|destruct (Z.testbit _ _)]); intros H; injection H as <- <- <-;
    (apply follows_none; [apply nofile_nil|reflexivity]).
Qed.

Lemma pick_follows e U p q c o : state_get_cmd e p = Ok (q, c, o) -> follows e U p o q.
Proof.
  unfold state_get_cmd. destruct (state p); try (intros H; injection H as <- <- <-; apply follows_none; [apply nofile_nil|reflexivity]). unfold get_online_command.
  destruct (cmdq p) as [|k cq].
  - destruct (file_tx_get_command e p) as [[p1 c1] o1] eqn:F. apply (get_follows e U) in F.
    destruct (negb _); [intros X; injection X as <- <- <-; auto|]. destruct (_ >? _); intros X; injection X as <- <- <-; auto; eapply follows_file; eauto; reflexivity.
  - unfold translate_cmd. cbv zeta. destruct k; cbn [bind]; try discriminate; intros X; injection X as <- <- <-; (apply follows_none; [apply nofile_nil|reflexivity]).
Qed.

(* building a fragment *)
Lemma fragment_follows e U p m p2 l o : 60 <= m -> file_tx_build e p m = Ok (p2, l, o) -> follows e U p o p2.
Proof.
  intros M. unfold file_tx_build. destruct (file p) as [f|] eqn:F; try discriminate.
  assert (K : (m <=? FT_HDR) = false) by (change FT_HDR with 11; lia). rewrite K.
  destruct (f_state f) eqn:S; try discriminate.
  2: { intros H. injection H as <- <- <-. apply follows_none; [apply nofile_nil|reflexivity]. }
  assert (G : in_progress f = true) by (unfold in_progress; rewrite S; auto). cbv zeta. intros H b T. destruct b.
  { destruct (tracks_busy p f F G T). }
  2: { exists Stray. split; [|exact I]. destruct (e_fread e _ _) as [d|]; [destruct (_ >? _); [discriminate|]; destruct (zlen d =? 0)|]; injection H as <- <- <-; apply puses_one, p_reread. }
  destruct T as (g & E & _ & O1 & O2). rewrite F in E. injection E as <-.
  destruct (e_fread e _ _) as [d|] eqn:R.
  2: { injection H as <- <- <-. exists Shut. split; [apply puses_one, p_lost; auto|reflexivity]. }
  destruct (_ >? _); [discriminate|]. destruct (zlen d =? 0) eqn:Z0; injection H as <- <- <-.
  - exists Shut. split; [|reflexivity]. apply puses_one, p_lost. right. rewrite R. f_equal. destruct d; auto. rewrite zlen_cons in Z0. pose proof (zlen_nonneg d). lia.
  - exists Held. split.
    + apply puses_one. eapply p_read; [exact R|]. intros ->. change (zlen (@nil Z)) with 0 in Z0. lia.
    + exists (ff_set_f_len (zlen d) f). split; [reflexivity|]. split; [exact G|]. split; [exact O1|exact O2].
Qed.

Lemma build_follows e U p b m p2 l s o : 60 <= m -> cbuild_rel p p2 -> build_cmd_switch e p b m = Ok (p2, l, s, o) -> follows e U p o p2.
Proof.
  intros M BR. destruct (Z.eq_dec (cmd_id p) CMD_FILETRANSFER) as [C|C].
  - unfold build_cmd_switch. cbv zeta. rewrite C. intros H. 
    match type of H with ?a = _ => let b := eval cbv [Z.eqb Pos.eqb orb CMD_POLL CMD_LSTAT CMD_ISTAT CMD_OSTAT CMD_RSTAT CMD_ID CMD_CAP CMD_ACURXSIZE CMD_KEEPACTIVE CMD_ABORT CMD_FILETRANSFER] in a in change (b = Ok (p2, l, s, o)) in H end.
    cbv iota in H. apply bind_inv in H as ([[p1 x] o1] & F & H). apply (fragment_follows e U) in F; auto. destruct x; inv H; exact F.
  - intros H. apply follows_none.
    { revert H. unfold build_cmd_switch. cbv zeta.
      repeat match goal with |- context [if ?c then _ else _] => destruct c eqn:?; try discriminate end;
      unfold assert_len; repeat match goal with |- context [if ?c then _ else _] => destruct c eqn:?; try discriminate end;
      try (intros H; inv H; apply nofile_nil).
      - exfalso. apply C. lia.
      - destruct (build_app_cmd p m); simpl; intros H; inv H; apply nofile_nil. }
    destruct BR as [->|[(X & _)|(_ & ->)]]; [reflexivity|contradiction|reflexivity].
Qed.

Lemma sent_follows e U p p1 ok o : cmd_sent e p p1 ok o -> follows e U p o p1.
Proof.
  intros [(_ & -> & _ & ->)|(_ & p2 & pay & ss & ob & BS & M & _ & _ & BR & _ & H)]; [apply follows_none; [apply nofile_nil|reflexivity]|].
  apply (build_follows e U) in BS; auto. apply (follows_from e U _ _ _ p eq_refl) in BS.
  destruct H as [(_ & -> & _ & ->)|(d & _ & _ & _ & _ & _ & _ & _ & _ & [(_ & _ & -> & Q)|(_ & (ot & -> & SN) & ->)])]; auto.
  - destruct Q as [->|(_ & ->)]; auto. eapply follows_file; [|exact BS]. unfold put_mac. repeat match goal with |- context [if ?b then _ else _] => destruct b end; reflexivity.
  - eapply follows_app; [exact BS|]. apply follows_none.
    + destruct SN as [(-> & _)|[(k & X)|(-> & _)]]; [apply nofile_nil| |intros x X; simpl in X; intuition; subst; auto].
      destruct X as (_ & -> & _). intros x X; simpl in X; intuition; subst; auto.
    + unfold cp_macked, put_mac. repeat match goal with |- context [if ?b then _ else _] => destruct b end; reflexivity.
Qed.

(* an answer *)
Lemma u32_idem z : u32 (u32 z) = u32 z.
Proof. unfold u32. apply Z.mod_mod. lia. Qed.
Lemma stat_follows e p d q b o : file_stat_decode e p d = Ok (q, b, o) ->
  follows e (~ In (le16 (getb d 3) (getb d 4)) [1; 2; 3]) p o q.
Proof.
  unfold file_stat_decode. destruct (file p) as [f|] eqn:F.
  2: { intros H. injection H as <- <- <-. apply follows_none; [apply nofile_nil|reflexivity]. }
  destruct (in_progress f) eqn:G; cbn [negb].
  2: { intros H. injection H as <- <- <-. apply follows_none; [apply nofile_nil|reflexivity]. }
  destruct (zlen d <? FT_STAT); [intros H; injection H as <- <- <-; apply follows_none; [apply nofile_nil|reflexivity]|].
  destruct (negb (zlen d =? FT_STAT)); [discriminate|]. destruct (_ >? _); [discriminate|]. cbv zeta. intros H h T.
  destruct h.
  { destruct (tracks_busy p f F G T). }
  2: { exists Stray. split; [|exact I]. destruct (negb _); [injection H as <- <- <-; constructor|].
       assert (N : forall b : bool, puses e (~ In (le16 (getb d 3) (getb d 4)) [1; 2; 3]) Stray (if b then [OFClose] else []) Stray) by (intros [|]; [apply puses_one, p_reclose|constructor]).
       destruct (_ =? 3); [injection H as <- <- <-; apply N|]. destruct (_ =? 2); [injection H as <- <- <-; apply N|]. destruct (_ =? 1); injection H as <- <- <-; apply N. }
  destruct T as (g & E & _ & O1 & O2). rewrite F in E. injection E as <-.
  destruct (u32 (f_off f + Types.f_len f) =? f_size f) eqn:D; cbn [negb] in H.
  - assert (L : (Types.f_len f =? 0) = false).
    { destruct (Types.f_len f =? 0) eqn:Z0; auto. exfalso. apply O2. rewrite <- O1. replace (f_off f) with (f_off f + Types.f_len f) by lia. lia. }
    rewrite L in H. cbn [negb andb] in H.
    destruct (_ =? 3) eqn:S3; [injection H as <- <- <-; exists Shut; split; [apply puses_one, p_close|reflexivity]|].
    destruct (_ =? 2) eqn:S2; [injection H as <- <- <-; exists Shut; split; [apply puses_one, p_close|reflexivity]|].
    destruct (_ =? 1) eqn:S1; injection H as <- <- <-; [exists Shut; split; [apply puses_one, p_close|reflexivity]|].
    exists Stray. split; [|exact I]. apply puses_one, p_stray. simpl. lia.
  - injection H as <- <- <-. exists Held. split; [constructor|]. eexists. split; [reflexivity|]. split; [exact G|]. simpl. split; [apply u32_idem|lia].
Qed.

Lemma resp_follows e p l q r o : decode_response e p l = Ok (q, r, o) -> 1 <= zlen l ->
  follows e (nth 0 l 0 = 122 /\ ~ In (nth 4 l 0 + 256 * nth 5 l 0) [1; 2; 3]) p o q.
Proof.
  intros D L. destruct (decode_response_rel _ _ _ _ _ _ D L) as [_ _ _ _ _ _ _ a8 _ _].
  destruct (Z.eq_dec (getb l 0) 122) as [E|NE].
  2: { destruct (a8 NE) as (X & Y & ->). apply follows_none; [apply nofile_nil|]. auto. }
  unfold decode_response in D. cbv zeta in D. rewrite E in D. codes D.
  destruct (file_stat_decode _ _ _) as [[[p1 b] o1]| |] eqn:F; simpl in D; try discriminate. apply stat_follows in F.
  assert (W : follows e (nth 0 l 0 = 122 /\ ~ In (nth 4 l 0 + 256 * nth 5 l 0) [1; 2; 3]) (set_reply_id 122 p) o1 p1).
  { eapply follows_weak; [|exact F]. intros N. split; [exact E|]. destruct l as [|x l]; [destruct N; simpl; auto|exact N]. }
  destruct b; inv D; exact W.
Qed.

Lemma reply_follows e p p1 r o : cpi p -> phy_state p = PReplyWait -> reply_case e p p1 r o -> follows e (unclear e p) p o p1.
Proof.
  intros CI P H.
  assert (RX : forall x y, rxcore y = rxcore x -> file y = file x) by (intros x y R; exact (f_equal (fun z => file z) R)).
  destruct H as [k N K S|k N K C|pf r o G S F].
  - apply follows_none; [apply nofile_nil|]. apply RX, N.
  - apply follows_none; [apply nofile_nil|]. apply RX, N.
  - assert (FP : file pf = file p) by (apply RX, G). apply (follows_from e _ pf _ _ p (eq_sym FP)).
    destruct F as [B E|A B C E|A B C D E|k A B C D H1|p2 l r o A B C D H1 H2]; try (subst; apply follows_none; [apply nofile_nil|reflexivity]).
    + apply follows_none; [apply nofile_nil|].
      assert (I1 : cbinv pf) by (pose proof G as (R & W1 & _); eapply cbinv_rx; eauto; [apply (ci_b p CI)|apply W1]).
      destruct (got_full _ _ _ G) as (FU & _).
      destruct (cp_decode_packet _ _ _ I1 ltac:(destruct FU as (x & y & _); lia) H1) as (_ & DC & _). exact (f_equal (fun x => file x) DC).
    + assert (I1 : cbinv pf) by (pose proof G as (R & W1 & _); eapply cbinv_rx; eauto; [apply (ci_b p CI)|apply W1]).
      destruct (got_full _ _ _ G) as (FU & _).
      destruct (cp_decode_packet _ _ _ I1 ltac:(destruct FU as (x & y & _); lia) H1) as (_ & DC & _ & _ & _ & BL & NE & L & _).
      assert (L1 : 1 <= zlen l) by (destruct l; [congruence|]; rewrite zlen_cons; pose proof (zlen_nonneg l); lia).
      apply resp_follows in H2; auto.
      assert (F2 : file p2 = file pf) by exact (f_equal (fun x => file x) DC). apply (follows_from e _ p2 _ _ pf (eq_sym F2)).
      eapply follows_weak; [|exact H2]. intros (X & Y). exists l. split; auto. eapply got_says; eauto.
      destruct (rxcore_fields p pf ltac:(apply G)) as (a1 & a2 & a3 & a4 & a5 & a6 & a7 & a8 & a9 & a10). unfold cp_accepted. rewrite a6, a7 in *. auto.
Qed.

Lemma check_nofile e p q st o : state_check_reply e p = Ok (q, st, o) -> nofile o /\ file q = file p.
Proof.
  assert (K : forall p2 o2, keyset_complete e p = Ok (p2, o2) -> nofile o2 /\ file p2 = file p).
  { intros p2 o2. unfold keyset_complete. intros H. apply bind_inv in H as (p1 & A & H). injection H as <- <-. split; [apply nofile_notify|].
    assert (F : file p1 = file p).
    { destruct (negb _) in A; [|injection A as <-; reflexivity]. destruct (eph p) as [| |c| |]; try discriminate. destruct c; try discriminate.
      apply bind_inv in A as (d & _ & A). injection A as <-. reflexivity. }
    rewrite <- F. destruct (state _); reflexivity. }
  unfold state_check_reply. destruct (state p); try (intros H; injection H as <- <- <-; split; [apply nofile_nil|reflexivity]).
  unfold check_online_response. cbv zeta.
  repeat match goal with |- context [if ?c then _ else _] => destruct c eqn:? end; try (intros H; injection H as <- <- <-; split; [apply nofile_nil|reflexivity]).
  intros H. apply bind_inv in H as ([p2 o2] & A & H). injection H as <- <- <-. apply K; auto.
Qed.

Lemma finish_nofile e cur p ok o0 q rc o : finish_update e cur p ok o0 = Ok (q, rc, o) -> exists o1, o = o0 ++ o1 /\ nofile o1 /\ file q = file p.
Proof.
  unfold finish_update. intros H. apply bind_inv in H as ([[p1 n1] o1] & A & H).
  assert (N1 : nofile o1 /\ file p1 = file p).
  { destruct ok.
    - unfold next_ok_state in A. destruct (state p) eqn:S.
      1,3,6,7: injection A as <- <- <-; split; [apply nofile_nil|reflexivity].
      + destruct (sc_is_capable p); [|destruct (enforce _)]; injection A as <- <- <-; (split; [apply nofile_nil|reflexivity]).
      + cbv zeta in A. destruct (use_scbkd _); injection A as <- <- <-; (split; [apply nofile_notify|reflexivity]).
      + apply bind_inv in A as ([p2 o2] & A & X). injection X as <- <- <-. cbn [fst snd].
        unfold keyset_complete in A. apply bind_inv in A as (p3 & B & A). injection A as <- <-. split; [apply nofile_notify|].
        assert (F : file p3 = file p).
        { destruct (negb _) in B; [|injection B as <-; reflexivity]. destruct (eph p) as [| |c| |]; try discriminate. destruct c; try discriminate.
          apply bind_inv in B as (d & _ & B). injection B as <-. reflexivity. }
        rewrite <- F. destruct (state p3); reflexivity.
    - assert (E : next_err_state e p = (p1, n1, o1)) by congruence. clear A. unfold next_err_state in E. destruct (state p).
      1,2,4,6,7: injection E as <- <- <-; split; [apply nofile_nil|reflexivity].
      + destruct (enforce _); [|destruct (negb _)]; injection E as <- <- <-; (split; [apply nofile_nil|reflexivity]).
      + cbv zeta in E. injection E as <- <- <-. split; [apply nofile_notify|reflexivity]. }
  destruct (do_requests e p1 n1) as [[p2 n2] o2] eqn:DR.
  assert (N2 : nofile o2 /\ file p2 = file p1).
  { unfold do_requests in DR. destruct (_ || _); [|injection DR as <- <- <-; split; [apply nofile_nil|reflexivity]].
    destruct (rq_restart p1); simpl in DR; (destruct (rq_offline p1); simpl in DR); destruct (rq_event p1); simpl in DR; injection DR as <- <- <-;
      (split; [first [apply nofile_nil|apply nofile_event]|reflexivity]). }
  destruct N1 as [N1 F1], N2 as [N2 F2]. rewrite <- F1, <- F2.
  destruct (st_eqb cur n2).
  - injection H as <- _ <-. exists (o1 ++ o2). split; auto. split; [apply nofile_app; auto|reflexivity].
  - destruct (state_change e p2 n2) as [p3 o3] eqn:CH. injection H as <- _ <-. exists (o1 ++ o2 ++ o3). split; auto.
    assert (N3 : nofile o3 /\ file p3 = file p2).
    { unfold state_change in CH. destruct n2; injection CH as <- <-; (split; [try apply nofile_nil; unfold notify_sc_status, notify_pd_status; repeat apply nofile_app; apply nofile_notify|]); try reflexivity.
      unfold sc_setup. cbv zeta. repeat match goal with |- context [if ?b then _ else _] => destruct b end; reflexivity. }
    split; [repeat apply nofile_app; tauto|apply N3].
Qed.

Lemma ended_follows e U cur ok p0 p1 o1 q o : ended e cur ok p1 o1 q o -> follows e U p0 o1 p1 -> follows e U p0 o q.
Proof.
  intros (p2 & st & o2 & C & F) A. destruct (check_nofile _ _ _ _ _ C) as [N2 F2]. destruct (finish_nofile _ _ _ _ _ _ _ _ F) as (o3 & -> & N3 & F3).
  rewrite <- !app_assoc. eapply follows_app; [exact A|]. apply follows_none.
  - repeat apply nofile_app; auto. apply nofile_status.
  - rewrite F3. exact F2.
Qed.

Lemma update_follows e p q rc o : cpi p -> env_typed e -> state_update e p = Ok (q, rc, o) -> follows e (unclear e p) p o q.
Proof.
  intros CI ET H. pose proof (cpi_case e p q rc o CI ET H) as C.
  destruct C as [A B ->|p1 c o A B C ->|p1 c o1 o A B C D|p1 o A B ->|p1 o1 o A B C|A B C|p1 A B C D ->|p1 o A B C D E|p1 o A B ->|p1 r o1 o A B C D|p1 r o1 o A B C D].
  - apply follows_none; [apply nofile_nil|reflexivity].
  - apply (pick_follows e (unclear e p)) in B. eapply follows_file; [|exact B]. reflexivity.
  - apply (pick_follows e (unclear e p)) in B. destruct (finish_nofile _ _ _ _ _ _ _ _ D) as (o3 & -> & N3 & F3).
    eapply follows_app; [exact B|]. apply follows_none; auto.
  - apply (sent_follows e (unclear e p)) in B. apply (follows_from e _ _ _ _ p eq_refl) in B. eapply follows_file; [|exact B]. reflexivity.
  - eapply ended_follows; [exact C|]. apply (sent_follows e (unclear e p)) in B. apply (follows_from e _ _ _ _ p eq_refl) in B. eapply follows_file; [|exact B]. reflexivity.
  - eapply reply_follows; eauto.
  - eapply follows_file; [|eapply reply_follows; eauto]. reflexivity.
  - eapply ended_follows; [exact E|]. eapply follows_file; [|eapply reply_follows; eauto]. reflexivity.
  - eapply follows_file; [|eapply reply_follows; eauto]. reflexivity.
  - eapply ended_follows; [exact D|]. eapply follows_file; [|eapply reply_follows; eauto].
    destruct (stamped_fx e r p1) as (a & b & ->). reflexivity.
  - eapply ended_follows; [exact D|]. eapply follows_file; [|eapply reply_follows; eauto]. reflexivity.
Qed.


Lemma tx_follows e U p id flags q b o : file_tx_command e p id flags = (q, b, o) -> follows e U p o q.
Proof.
  unfold file_tx_command. destruct (file p) as [f|] eqn:F.
  2: { intros H. injection H as <- <- <-. apply follows_none; [apply nofile_nil|reflexivity]. }
  destruct (in_progress f) eqn:G.
  { destruct (Z.testbit _ _); [destruct (id =? f_id f)|]; intros H; injection H as <- <- <-; try (apply follows_none; [apply nofile_nil|reflexivity]).
    intros b0 T. exists b0. split; [constructor|]. destruct b0; auto.
    - destruct (tracks_busy p f F G T).
    - destruct T as (g & E & _ & O1 & O2). rewrite F in E. injection E as <-. exists (ff_set_f_cancel true f). auto. }
  destruct (Z.testbit _ _); [intros H; injection H as <- <- <-; apply follows_none; [apply nofile_nil|reflexivity]|].
  destruct (e_fopen e id 0) as [rc size] eqn:FO. intros H b0 T.
  assert (NH : b0 <> Held) by (intros ->; destruct T as (g & E & X & _); congruence).
  destruct (rc <? 0) eqn:R; [|destruct (size <=? 0) eqn:S]; injection H as <- <- <-.
  - exists b0. split; auto. apply puses_one, p_fail; auto. rewrite FO. simpl. lia.
  - exists b0. split; auto. apply puses_one, p_empty; auto; rewrite FO; simpl; lia.
  - exists Held. split; [apply puses_one, p_open; auto; rewrite FO; simpl; lia|]. eexists. split; [reflexivity|]. split; [reflexivity|]. simpl. split; [reflexivity|lia].
Qed.

Lemma send_follows e p c : follows e False p (snd (cp_send_command e p c)) (fst (fst (cp_send_command e p c))).
Proof.
  unfold cp_send_command. destruct (negb _); [apply follows_none; [apply nofile_nil|reflexivity]|]. cbv zeta.
  assert (Q : follows e False p (snd (if zlen (cmdq p) <? pool p then (set_cmdq (cmdq p ++ [c]) p, true, []) else (p, false, @nil out)))
     (fst (fst (if zlen (cmdq p) <? pool p then (set_cmdq (cmdq p ++ [c]) p, true, []) else (p, false, @nil out)))))
    by (destruct (_ <? _); apply follows_none; first [apply nofile_nil|reflexivity]).
  destruct c; try exact Q.
  - destruct (_ || _); [apply follows_none; [apply nofile_nil|reflexivity]|exact Q].
  - destruct (file_tx_command e p _ _) as [[q b] o] eqn:F. apply (tx_follows e False) in F. exact F.
Qed.

(* a whole run *)
Lemma panel_files k n i h p : cp_runs k n i h p -> exists b, pfiled h b /\ tracks b p.
Proof.
  intros R. induction R as [p T S|h p c q o R (b & IH & TR) T D].
  - exists Shut. split; [constructor|]. simpl. unfold busy. replace (file p) with (@None filest); auto.
    unfold new_pd in S. cbv zeta in S. destruct (i_scbk i); [|destruct (enforce _); [discriminate|]]; injection S as <-; reflexivity.
  - pose proof (cp_runs_inv _ _ _ _ _ R) as CI. destruct c; cbn [cp_do] in D.
    + apply bind_inv in D as ([[q1 rc] o1] & U & D). injection D as <- <-. cbn [fst snd].
      destruct (update_follows e p q1 rc o1 CI T U b TR) as (c & X & Y). exists c. split; auto. econstructor; eauto.
    + injection D as <- <-. destruct (send_follows e p c b TR) as (c' & X & Y). exists c'. split; auto. econstructor; eauto.
    + injection D as <- <-. exists b. split; [apply pf_other; auto; discriminate|]. eapply tracks_file; [|exact TR]. reflexivity.
    + injection D as <- <-. exists b. split; [apply pf_other; auto; discriminate|]. eapply tracks_file; [|exact TR].
      unfold cp_modify_flag. destruct other; [reflexivity|]. cbv zeta. simpl. destruct ign, inst, enf; reflexivity.
    + injection D as <- <-. exists Shut. split; [econstructor; eauto|reflexivity].
    + injection D as <- <-. exists b. split; [apply pf_other; auto; discriminate|]. eapply tracks_file; [|exact TR]. reflexivity.
Qed.
