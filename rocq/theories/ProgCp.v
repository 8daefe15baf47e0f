(** The progress that the panel reports is the one the application can reckon. *)
From Verif Require Import Base ListLemmas Crc SpecCrc CrcProofs CrcBurst Aes AesProofs Rb RbProofs
  Types Sc ScProofs Phy PhyCheck File Pd Cp CpCtx SpecRx SpecFrame SpecSec SpecCmd SpecApp MacProofs RxProofs RxFwd PdRx PdCore PhyTx
  PdReply PdStep SpecPd SpecCp CpRx CpTx CpStep CpInv CpFacts CpSum CpWire CpReply SpecOpen SpecOpenCp OpenPd OpenCp SpecProg.
From Coq Require Import ZifyBool ZifyNat.
Ltac Zify.zify_post_hook ::= Z.div_mod_to_equations.
Local Opaque aes_ecb_encrypt aes_cbc_encrypt aes_cbc_decrypt mac_of RB_SIZE osdp_mac enc1.

Lemma psteps_right e a g o g1 o2 : psteps e a g o g1 -> nofile o2 -> psteps e a g (o ++ o2) g1.
Proof.
  intros H N. induction H as [g|g x g1 o g2 X H IH]; simpl.
  - induction o2 as [|x t IH]; [constructor|]. eapply gs_cons; [apply g_other; apply N; simpl; auto|]. apply IH. intros y Y; apply N; simpl; auto.
  - eapply gs_cons; eauto.
Qed.
Lemma psteps_none e a g o : nofile o -> psteps e a g o g.
Proof. intros N. apply (psteps_right e a g [] g o); [constructor|auto]. Qed.
Lemma psteps_one e a g x g1 : pstep e a g x g1 -> psteps e a g [x] g1.
Proof. intros H. eapply gs_cons; [exact H|constructor]. Qed.
Lemma move_right e R g o g1 o2 : move e R g o g1 -> nofile o2 -> move e R g (o ++ o2) g1.
Proof. intros [a b c H|s off k l b c A B C H] N; [apply m_plain|eapply m_report; eauto]; apply psteps_right; auto. Qed.
Lemma move_weak e (R Q : list Z -> Prop) g o g1 : (forall l, R l -> Q l) -> move e R g o g1 -> move e Q g o g1.
Proof. intros W [a b c H|s off k l b c A B C H]; [apply m_plain|eapply m_report]; eauto. Qed.

(* the record of the transfer agrees with the reckoning *)
Definition agrees (g : prog) (p : pd) : Prop :=
  match g with
  | Nothing => match file p with None => True | Some f => f_state f = FIdle \/ f_state f = FKeepAlive end
  | At s o k => exists f, file p = Some f /\ (f_state f = FInprog \/ f_state f = FDone) /\ f_size f = s /\ f_off f = o /\ Types.f_len f = k /\
      0 <= o <= s /\ 0 < s < 2147483648 /\ 0 <= k < 2147483648
  end.
Definition goes (e : env) (R : list Z -> Prop) (p : pd) (o : list out) (q : pd) : Prop :=
  (file p = None <-> file q = None) /\ forall g, agrees g p -> exists g1, move e R g o g1 /\ agrees g1 q.
Lemma agrees_file g p q : file q = file p -> agrees g p -> agrees g q.
Proof. intros E. destruct g; simpl; rewrite E; auto. Qed.
Lemma goes_none e R p o q : nofile o -> file q = file p -> goes e R p o q.
Proof. intros N E. split; [rewrite E; tauto|]. intros g A. exists g. split; [apply m_plain, psteps_none; auto|eapply agrees_file; eauto]. Qed.
Lemma goes_right e R p o q o2 r : goes e R p o q -> nofile o2 -> file r = file q -> goes e R p (o ++ o2) r.
Proof. intros [S A] N E. split; [rewrite E; tauto|]. intros g T. destruct (A g T) as (c & X & Y). exists c. split; [eapply move_right; eauto|eapply agrees_file; eauto]. Qed.
Lemma goes_file e R p o q r : file r = file q -> goes e R p o q -> goes e R p o r.
Proof. intros E A. rewrite <- (app_nil_r o). eapply goes_right; eauto. apply nofile_nil. Qed.
Lemma goes_from e R p o q r : file r = file p -> goes e R p o q -> goes e R r o q.
Proof. intros E [S A]. split; [rewrite E; tauto|]. intros g T. apply A. eapply agrees_file; [symmetry; exact E|exact T]. Qed.
Lemma goes_weak e (R Q : list Z -> Prop) p o q : (forall l, R l -> Q l) -> goes e R p o q -> goes e Q p o q.
Proof. intros W [S A]. split; auto. intros g T. destruct (A g T) as (c & X & Y). exists c. split; [eapply move_weak; eauto|auto]. Qed.

(* choosing a command *)
Lemma inprog_at g p f : file p = Some f -> in_progress f = true -> agrees g p -> exists s o k, g = At s o k /\ f_size f = s /\ f_off f = o /\ Types.f_len f = k /\
      0 <= o <= s /\ 0 < s < 2147483648 /\ 0 <= k < 2147483648.
Proof.
  intros F G. unfold in_progress in G. destruct g as [|s o k]; simpl.
  - rewrite F. intros [X|X]; rewrite X in G; discriminate.
  - intros (f1 & X & _ & Y). rewrite F in X. injection X as <-. exists s, o, k. tauto.
Qed.
Lemma abort_goes e R p q o : file_tx_abort p = (q, o) -> goes e R p o q.
Proof.
  unfold file_tx_abort. destruct (file p) as [f|] eqn:F; [destruct (in_progress f) eqn:G|]; intros H; injection H as <- <-;
    try (apply goes_none; [apply nofile_nil|reflexivity]).
  split; [rewrite F; simpl; split; discriminate|]. intros g T. exists Nothing. split; [apply m_plain, psteps_one, g_abort; auto|]. simpl. auto.
Qed.

Lemma get_goes e R p q c o : file_tx_get_command e p = (q, c, o) -> goes e R p o q.
Proof.
  unfold file_tx_get_command. destruct (file p) as [f|] eqn:F.
  2: { intros H. injection H as <- <- <-. apply goes_none; [apply nofile_nil|reflexivity]. }
  pose proof (abort_goes e R p) as A. destruct (file_tx_abort p) as [p1 o1]. specialize (A p1 o1 eq_refl).
  destruct (f_state f); try (intros H; injection H as <- <- <-; apply goes_none; [apply nofile_nil|reflexivity]);
    (destruct (_ || _); [intros H; injection H as <- <- <-; exact A|]); (destruct (_ && _); [|destruct (Z.testbit _ _)]); intros H; injection H as <- <- <-;
    (apply goes_none; [apply nofile_nil|reflexivity]).
Qed.

Lemma pick_goes e R p q c o : state_get_cmd e p = Ok (q, c, o) -> goes e R p o q.
Proof.
  unfold state_get_cmd. destruct (state p); try (intros H; injection H as <- <- <-; apply goes_none; [apply nofile_nil|reflexivity]). unfold get_online_command.
  destruct (cmdq p) as [|k cq].
  - destruct (file_tx_get_command e p) as [[p1 c1] o1] eqn:F. apply (get_goes e R) in F.
    destruct (negb _); [intros X; injection X as <- <- <-; auto|]. destruct (_ >? _); intros X; injection X as <- <- <-; auto; eapply goes_file; eauto; reflexivity.
  - unfold translate_cmd. cbv zeta. destruct k; cbn [bind]; try discriminate; intros X; injection X as <- <- <-; (apply goes_none; [apply nofile_nil|reflexivity]).
Qed.

(* building a fragment *)
Lemma fragment_goes e R p m p2 l o : sized e -> 60 <= m -> file_tx_build e p m = Ok (p2, l, o) -> goes e R p o p2.
Proof.
  intros SZ M. unfold file_tx_build. destruct (file p) as [f|] eqn:F; try discriminate.
  assert (K : (m <=? FT_HDR) = false) by (change FT_HDR with 11; lia). rewrite K.
  destruct (f_state f) eqn:S; try discriminate.
  2: { intros H. injection H as <- <- <-. apply goes_none; [apply nofile_nil|reflexivity]. }
  assert (G : in_progress f = true) by (unfold in_progress; rewrite S; auto). cbv zeta. intros H. split.
  { rewrite F. destruct (e_fread e _ _) as [d|]; [destruct (_ >? _); [discriminate|]; destruct (zlen d =? 0)|]; injection H as <- <- <-; simpl; split; discriminate. }
  intros g T. destruct (inprog_at g p f F G T) as (s & i & k & -> & E1 & E2 & E3 & B1 & B2 & B3).
  destruct (e_fread e _ _) as [d|] eqn:RD.
  2: { injection H as <- <- <-. exists Nothing. split; [rewrite <- E2; apply m_plain, psteps_one, g_lost; rewrite RD; auto|]. simpl. auto. }
  destruct (_ >? _); [discriminate|]. destruct (zlen d =? 0) eqn:Z0; injection H as <- <- <-.
  - exists Nothing. split; [|simpl; auto]. rewrite <- E2. apply m_plain, psteps_one, g_lost. right. rewrite RD. f_equal. destruct d; auto. rewrite zlen_cons in Z0. pose proof (zlen_nonneg d). lia.
  - exists (At s i (zlen d)). split.
    + rewrite <- E2 in *. apply m_plain, psteps_one. eapply g_read; [exact RD|]. intros ->. change (zlen (@nil Z)) with 0 in Z0. lia.
    + exists (ff_set_f_len (zlen d) f). pose proof (proj2 SZ _ _ _ RD). pose proof (zlen_nonneg d). simpl. repeat split; auto; lia.
Qed.

Lemma build_goes e R p b m p2 l s o : sized e -> 60 <= m -> cbuild_rel p p2 -> build_cmd_switch e p b m = Ok (p2, l, s, o) -> goes e R p o p2.
Proof.
  intros SZ M BR. destruct (Z.eq_dec (cmd_id p) CMD_FILETRANSFER) as [C|C].
  - unfold build_cmd_switch. cbv zeta. rewrite C. intros H. 
    match type of H with ?a = _ => let b := eval cbv [Z.eqb Pos.eqb orb CMD_POLL CMD_LSTAT CMD_ISTAT CMD_OSTAT CMD_RSTAT CMD_ID CMD_CAP CMD_ACURXSIZE CMD_KEEPACTIVE CMD_ABORT CMD_FILETRANSFER] in a in change (b = Ok (p2, l, s, o)) in H end.
    cbv iota in H. apply bind_inv in H as ([[p1 x] o1] & F & H). apply (fragment_goes e R) in F; auto. destruct x; inv H; exact F.
  - intros H. apply goes_none.
    { revert H. unfold build_cmd_switch. cbv zeta.
      repeat match goal with |- context [if ?c then _ else _] => destruct c eqn:?; try discriminate end;
      unfold assert_len; repeat match goal with |- context [if ?c then _ else _] => destruct c eqn:?; try discriminate end;
      try (intros H; inv H; apply nofile_nil).
      - exfalso. apply C. lia.
      - destruct (build_app_cmd p m); simpl; intros H; inv H; apply nofile_nil. }
    destruct BR as [->|[(X & _)|(_ & ->)]]; [reflexivity|contradiction|reflexivity].
Qed.

Lemma sent_goes e R p p1 ok o : sized e -> cmd_sent e p p1 ok o -> goes e R p o p1.
Proof.
  intros SZ [(_ & -> & _ & ->)|(_ & p2 & pay & ss & ob & BS & M & _ & _ & BR & _ & H)]; [apply goes_none; [apply nofile_nil|reflexivity]|].
  apply (build_goes e R) in BS; auto. apply (goes_from e R _ _ _ p eq_refl) in BS.
  destruct H as [(_ & -> & _ & ->)|(d & _ & _ & _ & _ & _ & _ & _ & _ & [(_ & _ & -> & Q)|(_ & (ot & -> & SN) & ->)])]; auto.
  - destruct Q as [->|(_ & ->)]; auto. eapply goes_file; [|exact BS]. unfold put_mac. repeat match goal with |- context [if ?b then _ else _] => destruct b end; reflexivity.
  - eapply goes_right; [exact BS| |].
    + destruct SN as [(-> & _)|[(k & X)|(-> & _)]]; [apply nofile_nil| |intros x X; simpl in X; intuition; subst; auto].
      destruct X as (_ & -> & _). intros x X; simpl in X; intuition; subst; auto.
    + unfold cp_macked, put_mac. repeat match goal with |- context [if ?b then _ else _] => destruct b end; reflexivity.
Qed.

(* an answer *)
Lemma stat_goes e p l q b o : nth 0 l 0 = 122 -> file_stat_decode e p (tl l) = Ok (q, b, o) -> goes e (fun x => x = l) p o q.
Proof.
  intros L0. unfold file_stat_decode. destruct (file p) as [f|] eqn:F.
  2: { intros H. injection H as <- <- <-. apply goes_none; [apply nofile_nil|reflexivity]. }
  destruct (in_progress f) eqn:G; cbn [negb].
  2: { intros H. injection H as <- <- <-. apply goes_none; [apply nofile_nil|reflexivity]. }
  destruct (zlen _ <? FT_STAT); [intros H; injection H as <- <- <-; apply goes_none; [apply nofile_nil|reflexivity]|].
  destruct (negb (zlen _ =? FT_STAT)); [discriminate|]. destruct (_ >? _) eqn:OV; [discriminate|]. cbv zeta. intros H. split.
  { rewrite F. destruct (negb _); [injection H as <- <- <-; simpl; split; discriminate|].
    repeat (destruct (_ =? _) in H; [injection H as <- <- <-; simpl; split; discriminate|]). injection H as <- <- <-; simpl; split; discriminate. }
  intros g T. destruct (inprog_at g p f F G T) as (s & i & k & -> & E1 & E2 & E3 & B1 & B2 & B3).
  assert (U : u32 (f_off f + Types.f_len f) = i + k) by (rewrite E2, E3; unfold u32; apply Z.mod_small; lia).
  rewrite U, E1 in *. assert (LE : i + k <= s) by lia.
  assert (ST : le16 (getb (tl l) 3) (getb (tl l) 4) = status_of l).
  { unfold status_of. destruct l as [|x t]; [discriminate|]. reflexivity. }
  rewrite ST in H. unfold in_progress in G. destruct (f_state f) eqn:FS; try discriminate.
  assert (N : forall c : bool, psteps e true (advance s i k (status_of l)) (if c then [OFClose] else []) (advance s i k (status_of l)))
    by (intros [|]; [apply psteps_one, g_end; auto|constructor]).
  exists (advance s i k (status_of l)). unfold advance in *. destruct (i + k =? s) eqn:D; cbn [negb] in H.
  - destruct (status_of l =? 3) eqn:S3; cbn [andb] in *.
    + injection H as <- <- <-. split; [|simpl; auto]. eapply m_report; eauto. unfold advance. rewrite D, S3. cbn [andb]. apply N.
    + assert (M : forall c : bool, move e (fun x => x = l) (At s i k) (if c then [OFClose] else []) (At s (i + k) 0)).
      { intros c. eapply m_report; eauto. unfold advance. rewrite D, S3. cbn [andb]. apply N. }
      assert (B : 0 <= i + k <= s /\ 0 < s < 2147483648 /\ 0 <= 0 < 2147483648) by lia.
      destruct (_ =? 2); [injection H as <- <- <-; split; [apply M|]; simpl; eexists; split; [reflexivity|]; simpl; repeat split; auto; lia|].
      destruct (_ =? 1); injection H as <- <- <-; (split; [apply M|]); simpl; (eexists; split; [reflexivity|]); simpl; repeat split; auto; lia.
  - injection H as <- <- <-. cbn [andb]. split.
    + eapply m_report; eauto. unfold advance. rewrite D. cbn [andb]. constructor.
    + simpl. eexists. split; [reflexivity|]. simpl. repeat split; auto; lia.
Qed.

Lemma resp_goes e p l q r o : decode_response e p l = Ok (q, r, o) -> 1 <= zlen l -> goes e (fun x => x = l) p o q.
Proof.
  intros D L. destruct (decode_response_rel _ _ _ _ _ _ D L) as [_ _ _ _ _ _ _ a8 _ _].
  destruct (Z.eq_dec (getb l 0) 122) as [E|NE].
  2: { destruct (a8 NE) as (X & Y & ->). apply goes_none; [apply nofile_nil|]. auto. }
  unfold decode_response in D. cbv zeta in D. rewrite E in D. codes D.
  destruct (file_stat_decode _ _ _) as [[[p1 b] o1]| |] eqn:F; simpl in D; try discriminate. 
  assert (W : goes e (fun x => x = l) (set_reply_id 122 p) o1 p1).
  { destruct l as [|x t]; [discriminate|]. eapply stat_goes; [exact E|exact F]. }
  destruct b; inv D; exact W.
Qed.

Lemma reply_goes e p p1 r o : cpi p -> phy_state p = PReplyWait -> reply_case e p p1 r o -> goes e (heard_reply e p) p o p1.
Proof.
  intros CI P H.
  assert (RX : forall x y, rxcore y = rxcore x -> file y = file x) by (intros x y R; exact (f_equal (fun z => file z) R)).
  destruct H as [k N K S|k N K C|pf r o G S F].
  - apply goes_none; [apply nofile_nil|]. apply RX, N.
  - apply goes_none; [apply nofile_nil|]. apply RX, N.
  - assert (FP : file pf = file p) by (apply RX, G). apply (goes_from e _ pf _ _ p (eq_sym FP)).
    destruct F as [B E|A B C E|A B C D E|k A B C D H1|p2 l r o A B C D H1 H2]; try (subst; apply goes_none; [apply nofile_nil|reflexivity]).
    + apply goes_none; [apply nofile_nil|].
      assert (I1 : cbinv pf) by (pose proof G as (R & W1 & _); eapply cbinv_rx; eauto; [apply (ci_b p CI)|apply W1]).
      destruct (got_full _ _ _ G) as (FU & _).
      destruct (cp_decode_packet _ _ _ I1 ltac:(destruct FU as (x & y & _); lia) H1) as (_ & DC & _). exact (f_equal (fun x => file x) DC).
    + assert (I1 : cbinv pf) by (pose proof G as (R & W1 & _); eapply cbinv_rx; eauto; [apply (ci_b p CI)|apply W1]).
      destruct (got_full _ _ _ G) as (FU & _).
      destruct (cp_decode_packet _ _ _ I1 ltac:(destruct FU as (x & y & _); lia) H1) as (_ & DC & _ & _ & _ & BL & NE & L & _).
      assert (L1 : 1 <= zlen l) by (destruct l; [congruence|]; rewrite zlen_cons; pose proof (zlen_nonneg l); lia).
      apply resp_goes in H2; auto.
      assert (F2 : file p2 = file pf) by exact (f_equal (fun x => file x) DC). apply (goes_from e _ p2 _ _ pf (eq_sym F2)).
      eapply goes_weak; [|exact H2]. intros x ->. eapply got_says; eauto.
      destruct (rxcore_fields p pf ltac:(apply G)) as (a1 & a2 & a3 & a4 & a5 & a6 & a7 & a8 & a9 & a10). unfold cp_accepted. rewrite a6, a7 in *. auto.
Qed.

Lemma ended_goes e R cur ok p0 p1 o1 q o : ended e cur ok p1 o1 q o -> goes e R p0 o1 p1 -> goes e R p0 o q.
Proof.
  intros (p2 & st & o2 & C & F) A. destruct (check_nofile _ _ _ _ _ C) as [N2 F2]. destruct (finish_nofile _ _ _ _ _ _ _ _ F) as (o3 & -> & N3 & F3).
  rewrite <- !app_assoc. eapply goes_right; [exact A| |].
  - repeat apply nofile_app; auto. apply nofile_status.
  - rewrite F3. exact F2.
Qed.

Lemma update_goes e p q rc o : cpi p -> env_typed e -> sized e -> state_update e p = Ok (q, rc, o) -> goes e (heard_reply e p) p o q.
Proof.
  intros CI ET SZ H. pose proof (cpi_case e p q rc o CI ET H) as C.
  destruct C as [A B ->|p1 c o A B C ->|p1 c o1 o A B C D|p1 o A B ->|p1 o1 o A B C|A B C|p1 A B C D ->|p1 o A B C D E|p1 o A B ->|p1 r o1 o A B C D|p1 r o1 o A B C D].
  - apply goes_none; [apply nofile_nil|reflexivity].
  - apply (pick_goes e (heard_reply e p)) in B. eapply goes_file; [|exact B]. reflexivity.
  - apply (pick_goes e (heard_reply e p)) in B. destruct (finish_nofile _ _ _ _ _ _ _ _ D) as (o3 & -> & N3 & F3).
    eapply goes_right; [exact B| |]; auto.
  - eapply goes_file; [|exact (goes_from e _ _ _ _ p eq_refl (sent_goes e (heard_reply e p) _ _ _ _ SZ B))]. reflexivity.
  - eapply ended_goes; [exact C|]. eapply goes_file; [|exact (goes_from e _ _ _ _ p eq_refl (sent_goes e (heard_reply e p) _ _ _ _ SZ B))]. reflexivity.
  - eapply reply_goes; eauto.
  - eapply goes_file; [|eapply reply_goes; eauto]. reflexivity.
  - eapply ended_goes; [exact E|]. eapply goes_file; [|eapply reply_goes; eauto]. reflexivity.
  - eapply goes_file; [|eapply reply_goes; eauto]. reflexivity.
  - eapply ended_goes; [exact D|]. eapply goes_file; [|eapply reply_goes; eauto].
    destruct (stamped_fx e r p1) as (a & b & ->). reflexivity.
  - eapply ended_goes; [exact D|]. eapply goes_file; [|eapply reply_goes; eauto]. reflexivity.
Qed.

Lemma tx_goes e R p id flags q b o : sized e -> file_tx_command e p id flags = (q, b, o) -> goes e R p o q.
Proof.
  intros SZ. unfold file_tx_command. destruct (file p) as [f|] eqn:F.
  2: { intros H. injection H as <- <- <-. apply goes_none; [apply nofile_nil|reflexivity]. }
  destruct (in_progress f) eqn:G.
  { destruct (Z.testbit _ _); [destruct (id =? f_id f)|]; intros H; injection H as <- <- <-; try (apply goes_none; [apply nofile_nil|reflexivity]).
    split; [rewrite F; simpl; split; discriminate|]. intros g T. exists g. split; [apply m_plain; constructor|].
    destruct g as [|s i k]; simpl in *; [rewrite F in T; exact T|]. destruct T as (f1 & X & Y). rewrite F in X. injection X as <-. eexists. split; [reflexivity|exact Y]. }
  destruct (Z.testbit _ _); [intros H; injection H as <- <- <-; apply goes_none; [apply nofile_nil|reflexivity]|].
  pose proof (proj1 SZ id 0) as SB. destruct (e_fopen e id 0) as [rc size] eqn:FO. simpl in SB. intros H.
  destruct (rc <? 0) eqn:RC; [|destruct (size <=? 0) eqn:S]; injection H as <- <- <-.
  1, 2: split; [tauto|]; intros g T; exists g; split; auto; apply m_plain, psteps_one, g_refuse; rewrite FO; simpl; lia.
  split; [rewrite F; simpl; split; discriminate|]. intros g T. exists (At size 0 0). split.
  - apply m_plain, psteps_one. pose proof (g_open e false g id 0) as X. rewrite FO in X. apply X; simpl; lia.
  - simpl. eexists. split; [reflexivity|]. simpl. repeat split; auto; lia.
Qed.

Lemma send_goes e p c : sized e -> goes e (fun _ => False) p (snd (cp_send_command e p c)) (fst (fst (cp_send_command e p c))).
Proof.
  intros SZ. unfold cp_send_command. destruct (negb _); [apply goes_none; [apply nofile_nil|reflexivity]|]. cbv zeta.
  assert (Q : goes e (fun _ => False) p (snd (if zlen (cmdq p) <? pool p then (set_cmdq (cmdq p ++ [c]) p, true, []) else (p, false, @nil out)))
     (fst (fst (if zlen (cmdq p) <? pool p then (set_cmdq (cmdq p ++ [c]) p, true, []) else (p, false, @nil out)))))
    by (destruct (_ <? _); apply goes_none; first [apply nofile_nil|reflexivity]).
  destruct c; try exact Q.
  - destruct (_ || _); [apply goes_none; [apply nofile_nil|reflexivity]|exact Q].
  - destruct (file_tx_command e p _ _) as [[q b] o] eqn:F. apply (tx_goes e (fun _ => False)) in F; auto.
Qed.

(* a whole run *)
Lemma panel_progress k n i h p : cp_runs k n i h p -> Forall (fun x => sized_call (ce_call x)) h ->
  (registered h -> file p <> None) /\ exists g, told h g /\ agrees g p.
Proof.
  intros R. induction R as [p T S|h p c q o R IH T D]; intros Z.
  - split; [intros (x & [] & _)|]. exists Nothing. split; [constructor|]. simpl. replace (file p) with (@None filest); auto.
    unfold new_pd in S. cbv zeta in S. destruct (i_scbk i); [|destruct (enforce _); [discriminate|]]; injection S as <-; reflexivity.
  - inversion Z as [|x y Z1 Z2]; subst. destruct (IH Z2) as (RG & g & TD & AG). clear IH. simpl in Z1.
    assert (RR : c <> CpRegisterFileOps -> registered (mkCe p c o :: h) -> file p <> None).
    { intros N (x & [<-|X] & Y); [contradiction|]. apply RG. exists x. auto. }
    pose proof (cp_runs_inv _ _ _ _ _ R) as CI. destruct c; cbn [cp_do] in D.
    + apply bind_inv in D as ([[q1 rc] o1] & U & D). injection D as <- <-. cbn [fst snd].
      destruct (update_goes e p q1 rc o1 CI T Z1 U) as [X Y]. split; [intros W; apply RR in W; [tauto|discriminate]|].
      destruct (Y g AG) as (g1 & M & A1). exists g1. split; auto. econstructor; eauto.
    + injection D as <- <-. destruct (send_goes e p c Z1) as [X Y]. split; [intros W; apply RR in W; [tauto|discriminate]|].
      destruct (Y g AG) as (g1 & M & A1). exists g1. split; auto. econstructor; eauto. inversion M; subst; [auto|contradiction].
    + injection D as <- <-. split; [intros W; apply RR in W; [exact W|discriminate]|]. exists g. split; [apply t_other; auto; discriminate|]. eapply agrees_file; [|exact AG]. reflexivity.
    + injection D as <- <-. match goal with |- (registered _ -> file ?q <> None) /\ _ => assert (E : file q = file p) end.
      { unfold cp_modify_flag. destruct other; [reflexivity|]. cbv zeta. simpl. destruct ign, inst, enf; reflexivity. }
      split; [intros W; apply RR in W; [rewrite E; exact W|discriminate]|]. exists g. split; [apply t_other; auto; discriminate|]. eapply agrees_file; [exact E|exact AG].
    + injection D as <- <-. split; [discriminate|]. exists Nothing. split; [econstructor; eauto|]. simpl. auto.
    + injection D as <- <-. split; [intros W; apply RR in W; [exact W|discriminate]|]. exists g. split; [apply t_other; auto; discriminate|]. eapply agrees_file; [|exact AG]. reflexivity.
Qed.
