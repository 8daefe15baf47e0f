(** C65: invariants of the memory of a context. *)
From Verif Require Import Base ListLemmas Types Pd CpCtx Mem SpecMem.
From Coq Require Import ZifyBool ZifyNat.

Definition ol {A} (o : option A) : list A := match o with Some a => [a] | None => [] end.
Definition files (l : list ment) : list nat := flat_map (fun x => ol (me_file x)) l.
(* the blocks a context owns *)
Definition own (c : mctx) : list nat := mc_self c :: ol (mc_arr c) ++ ol (mc_lock c) ++ files (mc_pds c).

Record weak (h0 h : heap) (c : mctx) : Prop := {
  w_nd : NoDup (own c);
  w_live : forall b, In b (h_live h) <-> In b (own c) \/ In b (h_live h0);
  w_rng : forall b, In b (own c) -> (h_next h0 <= b < h_next h)%nat;
  w_h0 : heap_ok h0;
  w_arr : mc_arr c = None <-> mc_pds c = [];
  w_cur : mc_cur c = mc_arr c
}.
(* the storage of every PD lies in the array *)
Definition strong (c : mctx) : Prop := forall x, In x (mc_pds c) -> mc_arr c = Some (me_slab x) /\ forall b, In b (me_nodes x) -> b = me_slab x.

Lemma h_in_iff b h : h_in b h = true <-> In b (h_live h).
Proof. unfold h_in. rewrite existsb_exists. split; [intros (x & A & B); apply Nat.eqb_eq in B; subst; auto|intros A; exists b; split; auto; apply Nat.eqb_refl]. Qed.
Lemma use_ok b h : In b (h_live h) -> h_use b h = MOk h.
Proof. intros H. apply h_in_iff in H. unfold h_use. rewrite H. reflexivity. Qed.
Lemma use_inv b h h' : h_use b h = MOk h' -> h' = h.
Proof. unfold h_use. destruct (h_in b h); intros X; [injection X; auto|discriminate]. Qed.
Lemma use_opt_inv o h h' : h_use_opt o h = MOk h' -> h' = h.
Proof. destruct o; [apply use_inv|discriminate]. Qed.
Lemma free_ok b h : In b (h_live h) -> exists h', h_free b h = MOk h' /\ h_next h' = h_next h /\ forall x, In x (h_live h') <-> In x (h_live h) /\ x <> b.
Proof.
  intros H. pose proof (proj2 (h_in_iff b h) H) as E. unfold h_free. rewrite E. eexists. split; [reflexivity|]. split; [reflexivity|]. intros x. simpl. split.
  - intros X. apply in_remove in X. tauto.
  - intros [X Y]. apply in_in_remove; auto.
Qed.
Lemma safe_free_ok o h : (forall b, o = Some b -> In b (h_live h)) ->
  exists h', h_safe_free o h = MOk h' /\ h_next h' = h_next h /\ forall x, In x (h_live h') <-> In x (h_live h) /\ ~ In x (ol o).
Proof.
  intros H. destruct o as [b|]; simpl.
  - destruct (free_ok b h (H b eq_refl)) as (h' & A & B & C). exists h'. split; auto. split; auto. intros x. rewrite C. intuition congruence.
  - exists h. split; auto. split; auto. tauto.
Qed.
Lemma mbind_ok {A B} (r : mres A) (k : A -> mres B) y : mbind r k = MOk y -> exists x, r = MOk x /\ k x = MOk y.
Proof. destruct r; [simpl; eauto|discriminate]. Qed.

Lemma own_live h0 h c b : weak h0 h c -> In b (own c) -> In b (h_live h).
Proof. intros W I. apply (w_live _ _ _ W). auto. Qed.
Lemma in_self c : In (mc_self c) (own c). Proof. left; auto. Qed.
Lemma in_arr c a : mc_arr c = Some a -> In a (own c).
Proof. intros E. unfold own. rewrite E. simpl. auto. Qed.
Lemma in_lock c a : mc_lock c = Some a -> In a (own c).
Proof. intros E. unfold own. rewrite E. right. apply in_or_app. right. simpl. auto. Qed.
Lemma in_file c x a : In x (mc_pds c) -> me_file x = Some a -> In a (own c).
Proof. intros I E. unfold own. right. apply in_or_app. right. apply in_or_app. right. apply in_flat_map. exists x. split; auto. rewrite E. simpl. auto. Qed.

(* new entries *)
Lemma m_new_facts arr l q : m_new arr l = Some q -> length q = length l /\ forall x, In x q -> me_slab x = arr /\ me_nodes x = [] /\ me_file x = None.
Proof.
  revert q. induction l as [|i l IH]; intros q H; cbn [m_new] in H; [injection H as <-; split; [auto|intros x []]|].
  assert (E : exists r, m_new arr l = Some r /\ q = mkMent arr [] None (i_chan i) :: r).
  { destruct (i_scbk i); destruct (enforce (public_flags (i_flags i))); destruct (m_new arr l) as [r|]; try discriminate H; injection H as <-; eauto. }
  destruct E as (r & E & ->). destruct (IH r E) as (L & F). split; [simpl; congruence|]. intros x [<-|X]; auto.
Qed.
Lemma files_app a b : files (a ++ b) = files a ++ files b.
Proof. unfold files. apply flat_map_app. Qed.
Lemma files_none q : (forall x, In x q -> me_file x = None) -> files q = [].
Proof. induction q as [|x q IH]; intros H; simpl; auto. rewrite (H x (or_introl eq_refl)). simpl. apply IH. intros; apply H; right; auto. Qed.

(* teardown *)
Lemma free_files_ok a l : forall h, In a (h_live h) -> ~ In a (files l) -> NoDup (files l) -> incl (files l) (h_live h) ->
  exists h', m_free_files (Some a) l h = MOk h' /\ forall x, In x (h_live h') <-> In x (h_live h) /\ ~ In x (files l).
Proof.
  induction l as [|x l IH]; intros h A N D I; simpl; [exists h; split; auto; tauto|].
  rewrite (use_ok a h A). cbn [mbind]. change (files (x :: l)) with (ol (me_file x) ++ files l) in *.
  assert (F : forall b, me_file x = Some b -> In b (h_live h)) by (intros b E; apply I; rewrite E; left; auto).
  destruct (safe_free_ok (me_file x) h F) as (h1 & E & _ & L). rewrite E. cbn [mbind].
  destruct (IH h1) as (h' & E2 & L2).
  - apply L. split; auto. intros X. apply N. apply in_or_app. auto.
  - intros X. apply N. apply in_or_app. auto.
  - destruct (me_file x); simpl in D; [inversion D; auto|auto].
  - intros b B. apply L. split; [apply I; apply in_or_app; auto|]. intros X. destruct (me_file x) as [y|]; simpl in X; [|auto]. destruct X as [<-|[]]. simpl in D. inversion D; auto.
  - exists h'. split; auto. intros b. rewrite L2, L, in_app_iff. tauto.
Qed.

Lemma teardown_ok h0 h c : weak h0 h c -> exists h', m_teardown h c = MOk h' /\ same_blocks h0 h'.
Proof.
  intros W. pose proof W as [ND LV RG H0 AR CU]. unfold m_teardown.
  rewrite (use_ok _ h (own_live _ _ _ _ W (in_self c))). cbn [mbind].
  assert (FF : exists h1, m_free_files (mc_arr c) (mc_pds c) h = MOk h1 /\ forall x, In x (h_live h1) <-> In x (h_live h) /\ ~ In x (files (mc_pds c))).
  { destruct (mc_arr c) as [a|] eqn:E.
    - unfold own in ND. rewrite E in ND. simpl in ND. inversion ND as [|? ? N1 N2]; subst. inversion N2 as [|? ? N3 N4]; subst.
      apply free_files_ok.
      + apply (own_live _ _ _ _ W). apply in_arr; auto.
      + intros X. apply N3. apply in_or_app. auto.
      + clear - N4. induction (ol (mc_lock c)); simpl in *; auto. inversion N4; auto.
      + intros b B. apply (own_live _ _ _ _ W). unfold own. right. apply in_or_app. right. apply in_or_app. auto.
    - rewrite (proj1 AR eq_refl). exists h. split; [reflexivity|]. intros x. simpl. tauto. }
  destruct FF as (h1 & E1 & L1). rewrite E1. cbn [mbind].
  unfold own in ND, LV. assert (ND2 := ND). inversion ND2 as [|? ? N1 N2]; subst.
  destruct (safe_free_ok (mc_arr c) h1) as (h2 & E2 & _ & L2).
  { intros b E. apply L1. split; [apply LV; left; right; rewrite E; left; auto|]. intros X. rewrite E in N2. simpl in N2. inversion N2 as [|? ? N3 N4]; subst. apply N3. apply in_or_app. auto. }
  rewrite E2. cbn [mbind].
  destruct (safe_free_ok (mc_lock c) h2) as (h3 & E3 & _ & L3).
  { intros b E. apply L2. rewrite L1. assert (N5 : ~ In b (files (mc_pds c))).
    { intros X. rewrite E in N2. clear - N2 X. induction (ol (mc_arr c)) as [|y t IH]; simpl in *; [inversion N2; auto|inversion N2; auto]. }
    assert (N6 : ~ In b (ol (mc_arr c))).
    { intros X. rewrite E in N2. destruct (mc_arr c) as [a|]; simpl in *; [|auto]. destruct X as [<-|[]]. inversion N2 as [|? ? N3 N4]; subst. apply N3. left. auto. }
    split; auto. split; auto. apply LV. left. right. apply in_or_app. right. rewrite E. left. auto. }
  rewrite E3. cbn [mbind].
  assert (NS : ~ In (mc_self c) (ol (mc_arr c)) /\ ~ In (mc_self c) (ol (mc_lock c)) /\ ~ In (mc_self c) (files (mc_pds c))).
  { repeat split; intros X; apply N1; apply in_or_app; [auto|right; apply in_or_app; auto|right; apply in_or_app; auto]. }
  destruct (free_ok (mc_self c) h3) as (h4 & E4 & _ & L4).
  { apply L3. rewrite L2, L1. split; [split; [split; [apply LV; left; left; auto|]|]|]; tauto. }
  exists h4. split; [exact E4|]. intros b. rewrite L4, L3, L2, L1, LV. cbn [In]. rewrite !in_app_iff.
  split.
  - intros B. assert (NB : ~ In b (own c)) by (intros X; pose proof (RG b X); pose proof (H0 b B); lia).
    unfold own in NB. cbn [In] in NB. rewrite !in_app_iff in NB. assert (b <> mc_self c) by (intros ->; tauto). tauto.
  - intros X. assert (mc_self c <> b) by (intros <-; tauto). tauto.
Qed.

(* allocation *)
Lemma alloc_some h h' b : h_alloc true h = (h', b) -> b = Some (h_next h) /\ h_next h' = S (h_next h) /\ forall x, In x (h_live h') <-> x = h_next h \/ In x (h_live h).
Proof. unfold h_alloc. intros X. injection X as <- <-. repeat split; simpl; intuition. Qed.

Lemma add_cases h0 h c ok1 ok2 l : weak h0 h c -> l <> [] ->
  (m_add ok1 ok2 l h c = MBad Overrun /\ 126 < zlen (mc_pds c) + zlen l) \/
  exists h' c' b, m_add ok1 ok2 l h c = MOk (h', c', b) /\ weak h0 h' c' /\ (b = false -> c' = c) /\
    (b = true -> exists q arr, m_new arr l = Some q /\ mc_pds c' = mc_pds c ++ q /\ mc_arr c' = Some arr /\ forall a, mc_arr c = Some a -> ~ In a (h_live h')).
Proof.
  intros W NE. pose proof W as [ND LV RG H0 AR CU]. unfold m_add.
  rewrite (use_ok _ h (own_live _ _ _ _ W (in_self c))). cbn [mbind].
  destruct ok1; [|right; exists h, c, false; cbn [h_alloc]; split; [reflexivity|]; split; [exact W|]; split; [auto|discriminate]].
  destruct (h_alloc true h) as [h1 o1] eqn:A1. destruct (alloc_some _ _ _ A1) as (-> & X1 & L1). set (arr := h_next h) in *.
  assert (FR : ~ In arr (own c)) by (intros X; pose proof (RG _ X); unfold arr in *; lia).
  assert (F0 : ~ In arr (h_live h0)).
  { intros X. assert (In arr (h_live h)) by (apply LV; auto). pose proof (H0 _ X). pose proof (RG _ (in_self c)). unfold arr in *. lia. }
  assert (U : (match mc_arr c with Some old => h_use old h1 | None => MOk h1 end) = MOk h1).
  { destruct (mc_arr c) as [a|] eqn:E; auto. apply use_ok. apply L1. right. apply (own_live _ _ _ _ W). apply in_arr; auto. }
  rewrite U. cbn [mbind]. clear U.
  assert (FAIL : forall h2, (forall x, In x (h_live h2) <-> In x (h_live h1)) -> h_next h2 = h_next h1 -> exists h', mbind (h_free arr h2) (fun h3 => MOk (h3, c, false)) = MOk (h', c, false) /\ weak h0 h' c).
  { intros h2 L2 X2. destruct (free_ok arr h2) as (h3 & E3 & X3 & L3); [apply L2, L1; auto|]. exists h3. rewrite E3. split; [reflexivity|].
    constructor; auto.
    - intros b. rewrite L3, L2, L1, LV. split; [intuition|]. intros B. split; [right; exact B|]. intros ->. destruct B; auto.
    - intros b B. pose proof (RG b B). lia. }
  assert (FAIL' : forall h2, (forall x, In x (h_live h2) <-> In x (h_live h1)) -> h_next h2 = h_next h1 -> 
     exists h' c' b, mbind (h_free arr h2) (fun h3 => MOk (h3, c, false)) = MOk (h', c', b) /\ weak h0 h' c' /\ (b = false -> c' = c) /\
    (b = true -> exists q arr, m_new arr l = Some q /\ mc_pds c' = mc_pds c ++ q /\ mc_arr c' = Some arr /\ forall a, mc_arr c = Some a -> ~ In a (h_live h'))).
  { intros h2 L2 X2. destruct (FAIL h2 L2 X2) as (h' & E & W'). exists h', c, false. split; [exact E|]. split; [exact W'|]. split; [auto|discriminate]. }
  destruct (m_new arr l) as [q|] eqn:Q; [|right; apply FAIL'; [intros; tauto|auto]].
  destruct (m_new_facts _ _ _ Q) as (LQ & FQ).
  assert (ZQ : zlen (mc_pds c ++ q) = zlen (mc_pds c) + zlen l) by (rewrite zlen_app; unfold zlen; lia).
  destruct (zlen (mc_pds c ++ q) >? 126) eqn:Z; [left; split; [reflexivity|lia]|]. right.
  assert (NQ : mc_pds c ++ q <> []) by (intros X; apply app_eq_nil in X as [_ X]; subst q; destruct l; [auto|discriminate]).
  (* the locks *)
  assert (DONE : forall h2 lock, (forall x, In x (h_live h2) <-> In x (ol lock) \/ In x (h_live h1)) -> (h_next h1 <= h_next h2)%nat ->
     (forall b, lock = Some b -> b = h_next h1 /\ h_next h2 = S (h_next h1)) ->
     exists h' c' b, mbind (h_safe_free (mc_lock c) h2) (fun h3 => mbind (if zlen (mc_pds c) =? 0 then MOk h3 else h_safe_free (mc_arr c) h3) (fun h4 =>
        MOk (h4, mkMctx (mc_self c) (Some arr) (Some arr) lock (mc_pds c ++ q), true))) = MOk (h', c', b) /\ weak h0 h' c' /\ (b = false -> c' = c) /\
      (b = true -> exists q arr, m_new arr l = Some q /\ mc_pds c' = mc_pds c ++ q /\ mc_arr c' = Some arr /\ forall a, mc_arr c = Some a -> ~ In a (h_live h'))).
  { intros h2 lock L2 X2 LK.
    destruct (safe_free_ok (mc_lock c) h2) as (h3 & E3 & X3 & L3).
    { intros b E. apply L2. right. apply L1. right. apply (own_live _ _ _ _ W). apply in_lock; auto. }
    rewrite E3. cbn [mbind].
    assert (NN : NoDup (own c)) by exact ND. unfold own in NN. inversion NN as [|? ? N1 N2]; subst.
    assert (D1 : forall b, mc_arr c = Some b -> ~ In b (ol (mc_lock c)) /\ ~ In b (files (mc_pds c)) /\ b <> mc_self c).
    { intros b E. rewrite E in N1, N2. simpl in N1, N2. inversion N2 as [|? ? N3 N4]; subst. rewrite in_app_iff in N3. intuition. }
    assert (O4 : exists h4, (if zlen (mc_pds c) =? 0 then MOk h3 else h_safe_free (mc_arr c) h3) = MOk h4 /\ h_next h4 = h_next h3 /\
       forall x, In x (h_live h4) <-> In x (h_live h3) /\ ~ In x (ol (mc_arr c))).
    { destruct (zlen (mc_pds c) =? 0) eqn:Z0.
      - exists h3. split; [reflexivity|]. split; [reflexivity|]. assert (PN : mc_pds c = []) by (destruct (mc_pds c); [auto|unfold zlen in Z0; simpl in Z0; lia]).
        rewrite (proj2 AR PN). simpl. tauto.
      - apply safe_free_ok. intros b E. apply L3. split; [|apply (D1 b E)]. apply L2. right. apply L1. right. apply (own_live _ _ _ _ W). apply in_arr; auto. }
    destruct O4 as (h4 & E4 & X4 & L4). rewrite E4. cbn [mbind]. eexists _, _, _. split; [reflexivity|].
    assert (OW : own (mkMctx (mc_self c) (Some arr) (Some arr) lock (mc_pds c ++ q)) = mc_self c :: arr :: ol lock ++ files (mc_pds c)).
    { unfold own. simpl. rewrite files_app, (files_none q), app_nil_r; [reflexivity|]. intros x X. apply (FQ x X). }
    split; [|split; [discriminate|]].
    - assert (NF : NoDup (files (mc_pds c))) by (clear - N2; induction (ol (mc_arr c)); simpl in N2; [induction (ol (mc_lock c)); simpl in N2; [auto|inversion N2; auto]|inversion N2; auto]).
      assert (LKF : forall b, lock = Some b -> ~ In b (own c) /\ b <> arr).
      { intros b E. destruct (LK b E) as (-> & _). split; [|unfold arr; lia]. intros X. pose proof (RG _ X). lia. }
      constructor.
      + rewrite OW. assert (NA : ~ In arr (ol lock ++ files (mc_pds c))).
        { rewrite in_app_iff. intros [X|X]; [destruct lock as [b|]; simpl in X; [|auto]; destruct X as [->|[]]; destruct (LKF arr eq_refl); auto|].
          apply FR. unfold own. right. rewrite !in_app_iff. auto. }
        constructor.
        * cbn [In]. rewrite in_app_iff. intros [X|[X|X]].
          { apply FR. rewrite X. apply in_self. }
          { destruct lock as [b|]; simpl in X; [|auto]. destruct X as [->|[]]. destruct (LKF _ eq_refl) as (Y & _). apply Y, in_self. }
          { apply N1. rewrite !in_app_iff. auto. }
        * constructor; [exact NA|]. destruct lock as [b|]; simpl; [|exact NF]. constructor; [|exact NF]. intros X. destruct (LKF b eq_refl) as (Y & _). apply Y. unfold own. right. rewrite !in_app_iff. auto.
      + intros b. rewrite OW. rewrite L4, L3, L2, L1, LV. unfold own. cbn [In]. rewrite !in_app_iff. fold arr.
        assert (B0 : forall y, In y (own c) -> ~ In y (h_live h0)) by (intros y Y1 Y2; pose proof (RG _ Y1); pose proof (H0 _ Y2); lia).
        assert (S1 : ~ In (mc_self c) (ol (mc_lock c)) /\ ~ In (mc_self c) (ol (mc_arr c))) by (split; intros X; apply N1; rewrite !in_app_iff; auto).
        assert (F1 : forall y, In y (files (mc_pds c)) -> ~ In y (ol (mc_lock c)) /\ ~ In y (ol (mc_arr c))).
        { intros y Y. split; intros X.
          - destruct (mc_lock c) as [z|]; simpl in X; [|auto]. destruct X as [->|[]]. clear - N2 Y. induction (ol (mc_arr c)) as [|u v IH]; simpl in N2; inversion N2; auto.
          - destruct (mc_arr c) as [z|]; simpl in X; [|auto]. destruct X as [->|[]]. destruct (D1 y eq_refl) as (_ & Z1 & _). auto. }
        assert (A2 : ~ In arr (ol (mc_lock c)) /\ ~ In arr (ol (mc_arr c))) by (split; intros X; apply FR; unfold own; right; rewrite !in_app_iff; auto).
        assert (K2 : forall y, In y (ol lock) -> ~ In y (ol (mc_lock c)) /\ ~ In y (ol (mc_arr c))).
        { intros y Y. destruct lock as [z|]; simpl in Y; [|tauto]. destruct Y as [->|[]]. destruct (LKF y eq_refl) as (Y & _). split; intros X; apply Y; unfold own; right; rewrite !in_app_iff; auto. }
        assert (H2 : forall y, In y (h_live h0) -> ~ In y (ol (mc_lock c)) /\ ~ In y (ol (mc_arr c))).
        { intros y Y. split; intros X; apply (B0 y); auto; unfold own; right; rewrite !in_app_iff; auto. }
        specialize (F1 b). specialize (K2 b). specialize (H2 b). split.
        * intuition.
        * intros [[<-|[<-|[X|X]]]|X]; tauto.
      + rewrite OW. intros b B. cbn [In] in B. rewrite in_app_iff in B. rewrite X4, X3. destruct B as [<-|[<-|[B|B]]].
        * pose proof (RG _ (in_self c)). lia.
        * pose proof (RG _ (in_self c)). unfold arr. lia.
        * destruct lock as [z|]; simpl in B; [|tauto]. destruct B as [->|[]]. destruct (LK b eq_refl) as (-> & Y). pose proof (RG _ (in_self c)). lia.
        * assert (In b (own c)) by (unfold own; right; rewrite !in_app_iff; auto). pose proof (RG b H). lia.
      + exact H0.
      + cbn [mc_arr mc_pds]. split; [discriminate|]. intros X. destruct (NQ X).
      + reflexivity.
    - intros _. exists q, arr. split; [exact Q|]. split; [reflexivity|]. split; [reflexivity|]. intros a E X. apply L4 in X as [_ X]. apply X. rewrite E. left. auto. }
  destruct (m_shared (mc_pds c ++ q)) eqn:SH.
  - destruct ok2.
    + destruct (h_alloc true h1) as [h2 o2] eqn:A2. destruct (alloc_some _ _ _ A2) as (-> & X2 & L2). cbn [andb]. apply DONE.
      * intros x. rewrite L2. simpl. intuition.
      * lia.
      * intros b E. injection E as <-. auto.
    + cbn [h_alloc andb]. apply FAIL'; [intros; tauto|reflexivity].
  - cbn [andb]. apply DONE; [intros x; simpl; tauto|lia|discriminate].
Qed.

(* replacing an entry *)
Lemma set_split {A} (l : list A) i x : nth_error l i = Some x ->
  exists l1 l2, l = l1 ++ x :: l2 /\ forall y, firstn i l ++ y :: skipn (S i) l = l1 ++ y :: l2.
Proof.
  intros H. destruct (nth_error_split l i H) as (l1 & l2 & -> & L). exists l1, l2. split; auto. intros y.
  rewrite <- L. rewrite firstn_app, Nat.sub_diag, firstn_all. simpl firstn. rewrite app_nil_r. f_equal. f_equal.
  rewrite skipn_app. replace (S (length l1) - length l1)%nat with 1%nat by lia. rewrite skipn_all2 by lia. reflexivity.
Qed.

Lemma weak_set h0 h c i x y : weak h0 h c -> nth_error (mc_pds c) i = Some x -> me_file y = me_file x -> weak h0 h (m_set i y c).
Proof.
  intros [ND LV RG H0 AR CU] N E. destruct (set_split _ _ _ N) as (l1 & l2 & EL & ES).
  assert (OW : own (m_set i y c) = own c). { unfold own, m_set. cbn [mc_self mc_arr mc_lock mc_pds]. rewrite ES, EL, !files_app. simpl. rewrite E. reflexivity. }
  constructor; rewrite ?OW; auto.
  cbn [m_set mc_arr mc_pds]. rewrite AR. rewrite ES, EL. split; intros X; destruct l1; discriminate.
Qed.
Lemma strong_set c i x y : strong c -> nth_error (mc_pds c) i = Some x -> me_slab y = me_slab x -> (forall b, In b (me_nodes y) -> In b (me_nodes x) \/ b = me_slab x) -> strong (m_set i y c).
Proof.
  intros S N E F z Z. destruct (set_split _ _ _ N) as (l1 & l2 & EL & ES). cbn [m_set mc_arr mc_pds] in *. rewrite ES in Z.
  assert (IX : In x (mc_pds c)) by (eapply nth_error_In; eauto). destruct (S x IX) as (S1 & S2).
  apply in_app_or in Z as [Z|[<-|Z]].
  - apply S. rewrite EL. apply in_or_app. auto.
  - rewrite E. split; auto. intros b B. destruct (F b B); auto.
  - apply S. rewrite EL. apply in_or_app. right. right. auto.
Qed.

(* what a call does to the invariants, and that it ends when the storage is in place *)
Definition shape (c : mctx) := (length (mc_pds c), mc_arr c, mc_lock c).
Definition keeps (h0 h : heap) (c : mctx) (r : mres (heap * mctx)) : Prop :=
  (forall h' c', r = MOk (h', c') -> weak h0 h' c' /\ (strong c -> strong c') /\ shape c' = shape c) /\
  (strong c -> exists h' c', r = MOk (h', c')).
Lemma keeps_same h0 h c : weak h0 h c -> keeps h0 h c (MOk (h, c)).
Proof. intros W. split; [intros h' c' E; injection E as <- <-; auto|eauto]. Qed.
Lemma keeps_use h0 h c b r : (strong c -> In b (h_live h)) -> (forall h', h' = h -> keeps h0 h c (r h')) -> keeps h0 h c (mbind (h_use b h) r).
Proof.
  intros B K. split.
  - intros h' c' E. apply mbind_ok in E as (h1 & U & E). apply use_inv in U as U1. exact (proj1 (K h1 U1) h' c' E).
  - intros S. rewrite (use_ok b h (B S)). cbn [mbind]. exact (proj2 (K h eq_refl) S).
Qed.
Lemma keeps_set h0 h c i x y : weak h0 h c -> nth_error (mc_pds c) i = Some x -> me_file y = me_file x -> me_slab y = me_slab x ->
  (forall b, In b (me_nodes y) -> In b (me_nodes x) \/ b = me_slab x) -> keeps h0 h c (MOk (h, m_set i y c)).
Proof.
  intros W N F S B. split; [intros h' c' E; injection E as <- <-|eauto]. split; [eapply weak_set; eauto|]. split; [intros T; eapply strong_set; eauto|].
  destruct (set_split _ _ _ N) as (l1 & l2 & EL & ES). unfold shape. cbn [m_set mc_pds mc_arr mc_lock]. rewrite ES, EL, !app_length. reflexivity.
Qed.

Lemma keeps_with h0 h c i k : weak h0 h c -> (forall h' x a, h' = h -> nth_error (mc_pds c) i = Some x -> mc_arr c = Some a -> keeps h0 h c (k h' x)) -> keeps h0 h c (m_with i h c k).
Proof.
  intros W K. unfold m_with. apply keeps_use; [intros _; apply (own_live _ _ _ _ W), in_self|]. intros h1 ->.
  destruct (nth_error (mc_pds c) i) as [x|] eqn:N; [|apply keeps_same; auto].
  destruct (mc_arr c) as [a|] eqn:A.
  - unfold h_use_opt. apply keeps_use; [intros _; apply (own_live _ _ _ _ W), in_arr; auto|]. intros h1 ->. apply (K h x a); auto.
  - apply (w_arr _ _ _ W) in A. rewrite A in N. destruct i; discriminate.
Qed.

Lemma slab_live h0 h c i x : weak h0 h c -> strong c -> nth_error (mc_pds c) i = Some x -> In (me_slab x) (h_live h).
Proof. intros W S N. apply (own_live _ _ _ _ W), in_arr. apply (S x). eapply nth_error_In; eauto. Qed.
Lemma node_live h0 h c i x b : weak h0 h c -> strong c -> nth_error (mc_pds c) i = Some x -> In b (me_nodes x) -> In b (h_live h).
Proof. intros W S N B. destruct (S x) as (_ & X); [eapply nth_error_In; eauto|]. rewrite (X b B). eapply slab_live; eauto. Qed.

Lemma put_keeps h0 h c room i : weak h0 h c -> keeps h0 h c (m_put room i h c).
Proof.
  intros W. apply keeps_with; auto. intros h1 x a -> N A. apply keeps_use; [intros S; eapply slab_live; eauto|]. intros h1 ->.
  destruct room; [|apply keeps_same; auto].
  assert (T : keeps h0 h c (MOk (h, m_set i (mkMent (me_slab x) (me_nodes x ++ [me_slab x]) (me_file x) (me_chan x)) c))).
  { eapply keeps_set; eauto. intros b B. cbn [me_nodes] in B. apply in_app_or in B as [B|[B|[]]]; auto. }
  destruct (rev (me_nodes x)) as [|b t] eqn:R; [exact T|]. apply keeps_use; [|intros h1 ->; exact T].
  intros S. eapply node_live; eauto. apply in_rev. rewrite R. left. auto.
Qed.

Lemma take_keeps h0 h c i : weak h0 h c -> keeps h0 h c (m_take i h c).
Proof.
  intros W. apply keeps_with; auto. intros h1 x a -> N A. destruct (me_nodes x) as [|b t] eqn:E; [apply keeps_same; auto|].
  apply keeps_use; [intros S; eapply node_live; eauto; rewrite E; left; auto|]. intros h1 ->.
  apply keeps_use; [intros S; eapply slab_live; eauto|]. intros h1 ->. eapply keeps_set; eauto. intros y Y. left. rewrite E. right. auto.
Qed.

Lemma register_keeps h0 h c ok i : weak h0 h c -> keeps h0 h c (m_register ok i h c).
Proof.
  intros W. apply keeps_with; auto. intros h1 x a -> N A. destruct (me_file x) as [b|] eqn:F.
  { apply keeps_use; [|intros h1 ->; apply keeps_same; auto]. intros _. apply (own_live _ _ _ _ W). eapply in_file; eauto. eapply nth_error_In; eauto. }
  destruct ok; [|apply keeps_same; auto]. destruct (h_alloc true h) as [h1 o] eqn:E. destruct (alloc_some _ _ _ E) as (-> & X & L).
  rewrite (use_ok (h_next h) h1) by (apply L; auto). cbn [mbind].
  split; [intros h' c' Q; injection Q as <- <-|eauto].
  destruct (set_split _ _ _ N) as (l1 & l2 & EL & ES). pose proof W as [ND LV RG H0 AR CU]. set (y := mkMent _ _ _ _) in *. set (b := h_next h) in *.
  assert (NB : ~ In b (own c)) by (intros Y; pose proof (RG _ Y); unfold b in *; lia).
  assert (OW : exists u v, own c = u ++ v /\ own (m_set i y c) = u ++ b :: v).
  { exists (mc_self c :: ol (mc_arr c) ++ ol (mc_lock c) ++ files l1), (files l2). unfold own, m_set. cbn [mc_self mc_arr mc_lock mc_pds]. rewrite ES, EL, !files_app. simpl. rewrite F. simpl.
    rewrite <- !app_assoc. auto. }
  destruct OW as (u & v & O1 & O2).
  assert (OI : forall z, In z (own (m_set i y c)) <-> z = b \/ In z (own c)). { intros z. rewrite O1, O2, !in_app_iff. simpl. intuition. }
  split; [|split].
  - constructor.
    + rewrite O2. apply (NoDup_Add (a := b) (l := u ++ v)); [apply Add_app|]. rewrite <- O1. auto.
    + intros z. rewrite L, LV, OI. fold b. tauto.
    + intros z Z. apply OI in Z as [->|Z]; [pose proof (RG _ (in_self c)); unfold b; lia|pose proof (RG z Z); lia].
    + exact H0.
    + cbn [m_set mc_arr mc_pds]. rewrite AR, ES, EL. split; intros Y; destruct l1; discriminate.
    + exact CU.
  - intros S. eapply strong_set; eauto.
  - unfold shape. cbn [m_set mc_pds mc_arr mc_lock]. rewrite ES, EL, !app_length. reflexivity.
Qed.

Lemma serve_keeps h0 h c i b : weak h0 h c -> (i < length (mc_pds c))%nat -> keeps h0 h c (m_serve i b h c).
Proof.
  intros W LI. unfold m_serve. pose proof (w_cur _ _ _ W) as CU. destruct (mc_arr c) as [a|] eqn:A.
  2:{ apply (w_arr _ _ _ W) in A. rewrite A in LI. simpl in LI. lia. }
  rewrite CU. unfold h_use_opt at 1. apply keeps_use; [intros _; apply (own_live _ _ _ _ W), in_arr; auto|]. intros h1 ->.
  assert (T : keeps h0 h c (m_with i h c (fun h x => mbind (match me_file x with Some b => h_use b h | None => MOk h end) (fun h => if b then m_take i h c else MOk (h, c))))).
  { apply keeps_with; auto. intros h1 x a' -> N A'. 
    assert (T : keeps h0 h c (if b then m_take i h c else MOk (h, c))) by (destruct b; [apply take_keeps; auto|apply keeps_same; auto]).
    destruct (me_file x) as [f|] eqn:F; [|exact T]. apply keeps_use; [|intros h1 ->; exact T].
    intros _. apply (own_live _ _ _ _ W). eapply in_file; eauto. eapply nth_error_In; eauto. }
  destruct (mc_lock c) as [k|] eqn:K; [|exact T]. apply keeps_use; [|intros h1 ->; exact T]. intros _. apply (own_live _ _ _ _ W), in_lock; auto.
Qed.

Lemma keeps_seq h0 h c r k : keeps h0 h c r -> (forall h' c', weak h0 h' c' -> keeps h0 h' c' (k (h', c'))) -> keeps h0 h c (mbind r k).
Proof.
  intros [K1 K2] N. split.
  - intros h' c' E. apply mbind_ok in E as ([h1 c1] & E1 & E). destruct (K1 h1 c1 E1) as (W & S & L). destruct (N h1 c1 W) as [N1 _]. destruct (N1 h' c' E) as (X & Y & Z). split; auto. split; [auto|congruence].
  - intros S. destruct (K2 S) as (h1 & c1 & E1). destruct (K1 h1 c1 E1) as (W & S1 & L). destruct (N h1 c1 W) as [_ N2]. rewrite E1. cbn [mbind]. auto.
Qed.

Lemma refresh_keeps h0 l : forall h c, weak h0 h c -> keeps h0 h c (m_refresh l h c).
Proof.
  induction l as [|[i b] l IH]; intros h c W; cbn [m_refresh]; [apply keeps_same; auto|].
  destruct (Nat.ltb i (length (mc_pds c))) eqn:L; [|auto]. apply keeps_seq; [apply serve_keeps; auto; apply Nat.ltb_lt; auto|]. intros h' c' W'. apply IH; auto.
Qed.
Lemma flush_keeps h0 n i : forall h c, weak h0 h c -> keeps h0 h c (m_flush n i h c).
Proof.
  induction n as [|n IH]; intros h c W; cbn [m_flush]; [apply keeps_same; auto|]. apply keeps_seq; [apply take_keeps; auto|]. intros h' c' W'. apply IH; auto.
Qed.

Definition is_add (k : mcall) : bool := match k with MAdd _ _ _ => true | _ => false end.
Lemma call_keeps h0 h c k : weak h0 h c -> is_add k = false -> keeps h0 h c (m_call k h c).
Proof. intros W A. destruct k; try discriminate; cbn [m_call]; auto using put_keeps, flush_keeps, register_keeps, refresh_keeps. Qed.

(* any calls: what is allocated stays accounted for *)
Lemma calls_weak h0 l : forall h c h' c', weak h0 h c -> real_adds l -> m_calls l h c = MOk (h', c') -> weak h0 h' c'.
Proof.
  induction l as [|k l IH]; intros h c h' c' W R E; cbn [m_calls] in E; [injection E as <- <-; auto|].
  inversion R as [|? ? R1 R2]; subst. apply mbind_ok in E as ([h1 c1] & E1 & E). apply (IH h1 c1); auto.
  destruct (is_add k) eqn:A; [|exact (proj1 (proj1 (call_keeps h0 h c k W A) h1 c1 E1))].
  destruct k; try discriminate. cbn [m_call] in E1. destruct (add_cases h0 h c ok1 ok2 l0 W R1) as [(X & _)|(h2 & c2 & b & X & W2 & _)]; rewrite X in E1; [discriminate|].
  cbn [mbind fst] in E1. injection E1 as <- <-. exact W2.
Qed.

Lemma add_first h0 h c ok1 ok2 l : weak h0 h c -> mc_pds c = [] -> l <> [] -> zlen l <= 126 ->
  exists h' c' b, m_add ok1 ok2 l h c = MOk (h', c', b) /\ weak h0 h' c' /\ strong c' /\ (b = true -> mc_pds c' <> []) /\ (b = false -> c' = c).
Proof.
  intros W P N L. destruct (add_cases h0 h c ok1 ok2 l W N) as [(_ & X)|(h1 & c1 & b & X & W1 & B0 & B1)]; [rewrite P in X; unfold zlen in *; simpl in X; lia|].
  exists h1, c1, b. split; auto. split; auto. destruct b.
  - destruct (B1 eq_refl) as (q & arr & Q & P1 & A1 & _). rewrite P in P1. simpl in P1. destruct (m_new_facts _ _ _ Q) as (LQ & F). split; [|split; [|discriminate]].
    + intros x IX. rewrite P1 in IX. destruct (F x IX) as (-> & Y & _). split; auto. rewrite Y. intros b [].
    + intros _ X1. rewrite P1 in X1. rewrite X1 in LQ. destruct l; [auto|discriminate].
  - rewrite (B0 eq_refl). split; [|split; [discriminate|auto]]. intros x IX. rewrite P in IX. destruct IX.
Qed.

(* additions only while there are no PDs: nothing goes wrong *)
Lemma calls_strong h0 l : forall h c, weak h0 h c -> strong c -> first_adds l h c -> exists h' c', m_calls l h c = MOk (h', c') /\ weak h0 h' c' /\ strong c'.
Proof.
  induction l as [|k l IH]; intros h c W S F; cbn [m_calls]; [eauto|]. cbn [first_adds] in F. destruct F as (F1 & F2).
  destruct (is_add k) eqn:A.
  - destruct k; try discriminate. destruct F1 as (P & N & L). cbn [m_call] in *. destruct (add_first h0 h c ok1 ok2 l0 W P N L) as (h1 & c1 & b & X & W1 & S1 & _).
    rewrite X in *. cbn [mbind fst snd] in *. auto.
  - destruct (call_keeps h0 h c k W A) as [K1 K2]. destruct (K2 S) as (h1 & c1 & X). destruct (K1 h1 c1 X) as (W1 & S1 & _). rewrite X in *. cbn [mbind fst snd] in *. auto.
Qed.

Lemma fresh_weak h h1 self : heap_ok h -> h_alloc true h = (h1, Some self) -> weak h h1 (mkMctx self None None None []).
Proof.
  intros H E. destruct (alloc_some _ _ _ E) as (X & Y & L). injection X as ->. constructor; simpl.
  - constructor; [intros []|constructor].
  - intros b. rewrite L. simpl. intuition.
  - intros b [<-|[]]. lia.
  - exact H.
  - tauto.
  - reflexivity.
Qed.

Lemma setup_ok h ok0 ok1 ok2 l : heap_ok h -> zlen l <= 126 -> exists h' o, m_setup ok0 ok1 ok2 l h = MOk (h', o) /\
  match o with None => same_blocks h h' | Some c => weak h h' c /\ strong c /\ (l <> [] -> mc_pds c <> []) end.
Proof.
  intros H L. unfold m_setup. destruct ok0; [|exists h, None; split; [reflexivity|]; intros b; tauto].
  destruct (h_alloc true h) as [h1 o] eqn:E. destruct (alloc_some _ _ _ E) as (-> & _). pose proof (fresh_weak _ _ _ H E) as W.
  destruct l as [|x l]; [do 2 eexists; split; [reflexivity|]; split; [exact W|]; split; [intros y []|congruence]|].
  destruct (add_first h h1 _ ok1 ok2 (x :: l) W eq_refl) as (h2 & c2 & b & X & W2 & S2 & B1 & B2); [discriminate|exact L|].
  rewrite X. cbn [mbind]. destruct b; [exists h2, (Some c2); split; [reflexivity|]; split; [exact W2|]; split; [exact S2|intros _; auto]|].
  destruct (teardown_ok _ _ _ W2) as (h3 & T & Q). exists h3, None. split; [|exact Q]. cbv iota beta. change (mbind (m_teardown h2 c2) (fun h => MOk (h, @None mctx)) = MOk (h3, None)). rewrite T. reflexivity.
Qed.

(* a PD is added to a context that has some: the storage of those is gone *)
Lemma add_breaks h0 h c ok1 ok2 l h' c' room i : weak h0 h c -> strong c -> l <> [] -> m_add ok1 ok2 l h c = MOk (h', c', true) -> (i < length (mc_pds c))%nat ->
  m_put room i h' c' = MBad UsedFreed.
Proof.
  intros W S N E LI. destruct (add_cases h0 h c ok1 ok2 l W N) as [(X & _)|(h1 & c1 & b & X & W1 & B0 & B1)]; rewrite X in E; [discriminate|]. injection E as <- <- ->.
  destruct (B1 eq_refl) as (q & arr & Q & P1 & A1 & G).
  destruct (nth_error (mc_pds c) i) as [x|] eqn:NX; [|apply nth_error_None in NX; lia].
  unfold m_put, m_with. rewrite (use_ok _ h1) by (apply (own_live _ _ _ _ W1), in_self). cbn [mbind].
  rewrite P1, nth_error_app1, NX, A1 by auto. unfold h_use_opt. rewrite (use_ok arr h1) by (apply (own_live _ _ _ _ W1), in_arr; auto). cbn [mbind].
  destruct (S x) as (SX & _); [eapply nth_error_In; eauto|]. pose proof (G _ SX) as D.
  unfold h_use. destruct (h_in (me_slab x) h1) eqn:HI; [apply h_in_iff in HI; tauto|]. reflexivity.
Qed.

(* a device *)
Lemma pd_teardown_ok h0 h c a : weak h0 h c -> mc_arr c = Some a -> mc_lock c = None -> exists h', m_pd_teardown h c = MOk h' /\ same_blocks h0 h'.
Proof.
  intros W A K. destruct (teardown_ok h0 h c W) as (h' & T & Q). exists h'. split; [|exact Q]. revert T. unfold m_pd_teardown, m_teardown.
  rewrite (use_ok (mc_self c) h) by (apply (own_live _ _ _ _ W), in_self). cbn [mbind]. rewrite A, K. unfold h_use_opt at 1. rewrite (use_ok a h) by (apply (own_live _ _ _ _ W), in_arr; auto). cbn [mbind h_safe_free].
  auto.
Qed.
Lemma pd_setup_ok h ok0 i : heap_ok h -> exists h' o, m_pd_setup ok0 true i h = MOk (h', o) /\
  match o with None => same_blocks h h' | Some c => weak h h' c /\ strong c /\ mc_lock c = None /\ exists a, mc_arr c = Some a end.
Proof.
  intros H. unfold m_pd_setup. destruct ok0; [|exists h, None; split; [reflexivity|]; intros b; tauto].
  destruct (h_alloc true h) as [h1 o1] eqn:E1. destruct (alloc_some _ _ _ E1) as (-> & X1 & L1).
  destruct (h_alloc true h1) as [h2 o2] eqn:E2. destruct (alloc_some _ _ _ E2) as (-> & X2 & L2).
  set (c := mkMctx _ _ _ _ _).
  assert (W : weak h h2 c).
  { constructor; unfold own; simpl.
    - constructor; [simpl; intros [X|[]]; lia|]. constructor; [intros []|constructor].
    - intros b. rewrite L2, L1. simpl. intuition.
    - intros b [<-|[<-|[]]]; lia.
    - exact H.
    - split; discriminate.
    - reflexivity. }
  assert (T : exists h' , m_pd_teardown h2 c = MOk h' /\ same_blocks h h') by (eapply pd_teardown_ok; [exact W|reflexivity|reflexivity]).
  assert (OKC : weak h h2 c /\ strong c /\ mc_lock c = None /\ exists a, mc_arr c = Some a).
  { split; [exact W|]. split; [|split; [reflexivity|eexists; reflexivity]]. intros x [<-|[]]. split; [reflexivity|]. intros b []. }
  destruct T as (h3 & T & Q).
  destruct (i_scbk i); [do 2 eexists; split; [reflexivity|exact OKC]|].
  destruct (enforce (public_flags (i_flags i))); [|do 2 eexists; split; [reflexivity|exact OKC]].
  rewrite T. cbn [mbind]. do 2 eexists. split; [reflexivity|exact Q].
Qed.

Lemma calls_shape h0 l : forall h c h' c', weak h0 h c -> strong c -> mc_pds c <> [] -> first_adds l h c -> m_calls l h c = MOk (h', c') -> shape c' = shape c.
Proof.
  induction l as [|k l IH]; intros h c h' c' W S P F E; cbn [m_calls first_adds] in *; [injection E as <- <-; auto|]. destruct F as (F1 & F2).
  destruct (is_add k) eqn:A; [destruct k; try discriminate; tauto|]. destruct (call_keeps h0 h c k W A) as [K1 _].
  apply mbind_ok in E as ([h1 c1] & X & E). destruct (K1 h1 c1 X) as (W1 & S1 & L1). rewrite X in F2. cbn [fst snd] in *.
  rewrite (IH h1 c1 h' c'); auto. intros Y. unfold shape in L1. rewrite Y in L1. destruct (mc_pds c); [auto|discriminate].
Qed.

(* the model of the protocol adds the same PDs *)
Lemma new_agree arr blocks l : forall i, match m_new arr l, new_pds i blocks l with
  | Some q, Some p => map me_chan q = map chan_id p /\ length p = length l | None, None => True | _, _ => False end.
Proof.
  induction l as [|x l IH]; intros i; [simpl; auto|]. specialize (IH (i + 1)). cbn [m_new new_pds]. unfold new_pd.
  set (p := set_chan_id _ _). change (enforce (fl p)) with (enforce (public_flags (i_flags x))).
  destruct (i_scbk x); destruct (enforce (public_flags (i_flags x))); destruct (m_new arr l), (new_pds (i + 1) blocks l); try tauto; destruct IH as (A & B); simpl; rewrite A, B; auto.
Qed.
Lemma shared_chan l : map chan_id (mark_shared l) = map chan_id l.
Proof. unfold mark_shared. rewrite map_map. apply map_ext. intros p. destruct (Nat.ltb _ _); reflexivity. Qed.
Lemma add_agree h m h' m' b blocks l c : m_add true true l h m = MOk (h', m', b) -> l <> [] -> map me_chan (mc_pds m) = map chan_id (c_pds c) -> 
  exists c', cp_add_pd blocks l c = Ok (c', b) /\ map me_chan (mc_pds m') = map chan_id (c_pds c') /\ (b = true -> (mc_lock m' = None <-> c_lock c' = [])).
Proof.
  intros E NE CH. unfold m_add in E. apply mbind_ok in E as (h1 & _ & E). cbn [h_alloc] in E. apply mbind_ok in E as (h2 & _ & E).
  pose proof (new_agree (h_next h1) blocks l 0) as A. unfold cp_add_pd. destruct l as [|x0 l0]; [tauto|]. set (l := x0 :: l0) in *.
  destruct (m_new (h_next h1) l) as [q|] eqn:Q, (new_pds 0 blocks l) as [p|]; try tauto.
  2:{ apply mbind_ok in E as (h3 & _ & E). injection E as <- <- <-. exists c. split; [reflexivity|]. split; [exact CH|discriminate]. }
  destruct A as (A & LP). destruct (m_new_facts _ _ _ Q) as (LQ & _).
  assert (CC : map me_chan (mc_pds m ++ q) = map chan_id (c_pds c ++ p)) by (rewrite !map_app; congruence).
  assert (ZZ : zlen (mc_pds m ++ q) = zlen (c_pds c ++ p)) by (unfold zlen; rewrite <- (map_length me_chan), CC, map_length; reflexivity).
  destruct (zlen (mc_pds m ++ q) >? 126) eqn:Z; [discriminate|]. unfold detect_topology. rewrite <- ZZ, Z. cbn [bind].
  assert (SH : m_shared (mc_pds m ++ q) = negb (zlen (nodup Z.eq_dec (map chan_id (c_pds c ++ p))) =? zlen (c_pds c ++ p))) by (unfold m_shared; rewrite CC, ZZ; reflexivity).
  eexists. assert (BT : b = true /\ mc_pds m' = mc_pds m ++ q /\ (mc_lock m' = None <-> m_shared (mc_pds m ++ q) = false)).
  { destruct (m_shared (mc_pds m ++ q)); cbn [h_alloc andb] in E; apply mbind_ok in E as (h3 & _ & E); apply mbind_ok in E as (h4 & _ & E); injection E as <- <- <-; simpl; repeat split; congruence. }
  destruct BT as (-> & P & K). split; [reflexivity|]. cbn [c_pds c_lock]. rewrite shared_chan. split; [congruence|]. intros _. rewrite K, SH, <- ZZ.
  destruct (zlen (nodup Z.eq_dec (map chan_id (c_pds c ++ p))) =? zlen (mc_pds m ++ q)); simpl; split; intros X; try discriminate; auto.
  exfalso. destruct (c_pds c ++ p) as [|y t] eqn:Y; [|discriminate]. apply app_eq_nil in Y as [_ ->]. discriminate LP.
Qed.
