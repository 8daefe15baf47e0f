(** Device: identity and capability table along a history. *)
From Verif Require Import Base ListLemmas Rb RbProofs Types Sc Phy File Pd Cp CpCtx PdRun SpecRx SpecFrame SpecSec SpecSession SpecCmd SpecApp SpecPd SpecCp SpecLink
  SpecTalk PdCore PdTx PdStep PdKinds PdApp PdTrace PdHist Talk3.
From Coq Require Import ZifyBool ZifyNat.

Lemma step_info e p q o : step_kind e p q o -> pid q = pid p /\ caps q = caps p.
Proof.
  assert (N0 : forall r, near (sc_timeout e p) r -> pid r = pid p /\ caps r = caps p).
  { intros r N. destruct (near_fields _ _ N) as (F & _). destruct (timeout_fields e p) as (T & _). split; [|congruence].
    destruct N as (R & _). rewrite (f_equal (fun x => pid x) R : pid r = pid (sc_timeout e p)). unfold sc_timeout. destruct (_ && _); reflexivity. }
  intros [pr N S -> SC SA|f rest pr HF N S B RP AR QO|f rest p1 p2 c d p3 HF SQ FO RX BS FS DP BL N2 DC SC SA|
    f rest p1 p2 c d p3 r oc p4 o2 HF SQ FO RX BS FS DP BL N2 DC PR B4 RP AR QO ->].
  - destruct (N0 _ N). destruct (same_fields _ _ SC) as ((AC & _) & _). destruct (ans_fields _ _ AC) as ((_ & X & _) & (Y & _) & _). split; congruence.
  - destruct (N0 _ N). destruct AR as [AC _ _ _ _ _ _]. destruct (ans_fields _ _ AC) as ((_ & X & _) & (Y & _) & _). split; congruence.
  - destruct (N0 _ N2). destruct (same_fields _ _ SC) as ((AC & _) & _). destruct (ans_fields _ _ AC) as ((_ & X & _) & (Y & _) & _).
    destruct (cmd_fields _ _ _ _ _ _ DC) as ((_ & _ & G1 & _ & G2 & _) & _). split; congruence.
  - destruct (N0 _ N2). destruct AR as [AC _ _ _ _ _ _]. destruct (ans_fields _ _ AC) as ((_ & X & _) & (Y & _) & _).
    destruct (cmd_fields _ _ _ _ _ _ DC) as ((_ & _ & G1 & _ & G2 & _) & _).
    assert (P4 : caps p4 = caps p3 /\ pid p4 = pid p3).
    { destruct PR as [(_ & ->)|(_ & ->)]; [|split; reflexivity]. destruct (bumped_fields e p3) as (Z & _). destruct (ans_fields _ _ Z) as ((_ & X1 & _) & (Y1 & _) & _). auto. }
    destruct P4. split; congruence.
Qed.

Definition put (l cs : list capent) : list capent := fold_left (fun t c => upd (Z.to_nat (c_fc c)) c t) l cs.
Lemma set_put l : forall cs, set_caps_from l cs = put (listed_caps l) cs.
Proof.
  induction l as [|c l IH]; intros cs; [reflexivity|]. cbn [set_caps_from listed_caps]. change CAP_SENTINEL with 17.
  destruct (c_fc c <=? 0) eqn:A; [replace (0 <? c_fc c) with false by lia; reflexivity|]. replace (0 <? c_fc c) with true by lia.
  destruct (c_fc c >=? 17) eqn:B; [replace (c_fc c <? 17) with false by lia; reflexivity|]. replace (c_fc c <? 17) with true by lia. apply IH.
Qed.
Lemma listed_ok l : Forall (fun c => 0 < c_fc c < 17) (listed_caps l).
Proof. induction l as [|c l IH]; [constructor|]. cbn [listed_caps]. destruct (_ && _) eqn:A; [constructor; [lia|exact IH]|constructor]. Qed.
Lemma put_app a b cs : put (a ++ b) cs = put b (put a cs).
Proof. apply fold_left_app. Qed.
Lemma put_len l : forall cs, length (put l cs) = length cs.
Proof. induction l as [|c l IH]; intros cs; [reflexivity|]. unfold put in *. cbn [fold_left]. rewrite IH. apply upd_len. Qed.
Lemma find_app {A} (f : A -> bool) a b : find f (a ++ b) = match find f a with Some x => Some x | None => find f b end.
Proof. induction a as [|x a IH]; [reflexivity|]. cbn [app find]. destruct (f x); [reflexivity|exact IH]. Qed.
Lemma put_last fc : forall l cs, 0 < fc < 17 -> Forall (fun c => 0 < c_fc c < 17) l -> length cs = 17%nat ->
  nth (Z.to_nat fc) (put l cs) (mkCap 0 0 0) = match last_cap l fc with Some c => c | None => nth (Z.to_nat fc) cs (mkCap 0 0 0) end.
Proof.
  induction l as [|c l IH]; intros cs F A L; [reflexivity|]. inversion A; subst. unfold put. cbn [fold_left]. change (nth (Z.to_nat fc) (put l (upd (Z.to_nat (c_fc c)) c cs)) (mkCap 0 0 0) = match last_cap (c :: l) fc with Some c => c | None => nth (Z.to_nat fc) cs (mkCap 0 0 0) end). rewrite IH; [|assumption|assumption|rewrite upd_len; assumption].
  unfold last_cap. cbn [rev]. rewrite find_app. destruct (find _ (rev l)); [reflexivity|]. cbn [find]. rewrite nth_upd_cap by lia.
  destruct (c_fc c =? fc) eqn:E; [replace (Z.to_nat fc =? Z.to_nat (c_fc c))%nat with true by lia; reflexivity|].
  replace (Z.to_nat fc =? Z.to_nat (c_fc c))%nat with false by lia. reflexivity.
Qed.
Lemma given_ok i h : Forall (fun c => 0 < c_fc c < 17) (given_caps i h).
Proof.
  unfold given_caps. apply Forall_app. split; [apply listed_ok|]. apply Forall_app. split; [repeat constructor; cbn [c_fc]; lia|].
  apply Forall_flat_map. apply Forall_forall. intros en _. destruct (en_call en); try constructor. apply listed_ok.
Qed.

Lemma runs_info i n h p : pd_runs i n h p -> pid p = i_id i /\ caps p = put (given_caps i h) (repeat (mkCap 0 0 0) 17).
Proof.
  intros R. induction R as [p T S|h p c q o R [IH1 IH2] T D].
  - unfold given_caps. cbn [rev flat_map]. rewrite app_nil_r.
    assert (E : caps p = set_caps_from implicit_caps (set_caps_from (i_cap i) (caps pd_zero)) /\ pid p = i_id i).
    { unfold pd_setup in S. cbv zeta in S. destruct (i_scbk i); [|destruct (enforce _); [discriminate|]];
        apply (f_equal (fun x => match x with Some y => y | None => pd_zero end)) in S; subst p; split; reflexivity. }
    destruct E as [E1 E2]. split; [exact E2|]. rewrite E1, put_app, !set_put. reflexivity.
  - assert (G : given_caps i (mkEntry p c o :: h) = given_caps i h ++ match c with SetCaps l => listed_caps l | _ => [] end).
    { unfold given_caps. cbn [rev]. rewrite flat_map_app. cbn [flat_map en_call]. rewrite app_nil_r, !app_assoc. reflexivity. }
    rewrite G, put_app, <- IH2. clear G. destruct c.
    + destruct (step_info e p q o (run_step e i n h p q o R T D)) as [A B]. split; [congruence|exact B].
    + cbn [pd_do] in D. assert (X : q = fst (pd_notify_event ev p)) by congruence. rewrite X. unfold pd_notify_event. destruct (_ <? _); split; first [exact IH1|reflexivity].
    + cbn [pd_do] in D. assert (X : q = fst (pd_flush_events p)) by congruence. rewrite X. split; [exact IH1|reflexivity].
    + cbn [pd_do] in D. assert (X : q = pd_set_capabilities l p) by congruence. rewrite X. split; [exact IH1|]. exact (set_put l (caps p)).
    + cbn [pd_do] in D. assert (X : q = pd_set_command_callback b p) by congruence. rewrite X. split; [exact IH1|reflexivity].
    + cbn [pd_do] in D. assert (X : q = file_register_ops p) by congruence. rewrite X. split; [exact IH1|reflexivity].
Qed.
Lemma runs_caps i n h p fc : pd_runs i n h p -> 0 < fc < 17 ->
  nth (Z.to_nat fc) (caps p) (mkCap 0 0 0) = match last_cap (given_caps i h) fc with Some c => c | None => mkCap 0 0 0 end.
Proof.
  intros R F. destruct (runs_info i n h p R) as [_ ->]. rewrite (put_last fc (given_caps i h) _ F (given_ok i h)) by reflexivity.
  destruct (last_cap _ _); [reflexivity|]. destruct (nth_in_or_default (Z.to_nat fc) (repeat (mkCap 0 0 0) 17) (mkCap 0 0 0)) as [H|H]; [|exact H]. apply repeat_spec in H. exact H.
Qed.
