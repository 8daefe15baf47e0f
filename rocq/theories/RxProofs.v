(** The receive path: which frame is taken out of the byte stream, and what is left untouched. *)
From Verif Require Import Base ListLemmas Crc Aes Rb RbProofs Types Sc Phy SpecRx.
From Coq Require Import ZifyBool ZifyNat.
Ltac Zify.zify_post_hook ::= Z.div_mod_to_equations.

Lemma channel_receive_spec : forall chunks r t, rb_wf r -> 0 <= t ->
  let sp := (RB_SIZE - 1 - length (rb_contents r))%nat in
  let acc := firstn sp (heard chunks) in
  let r1 := fst (channel_receive chunks r t) in
  let n := snd (channel_receive chunks r t) in
  rb_wf r1 /\ rb_contents r1 = rb_contents r ++ acc /\
  n = if Nat.leb (length (heard chunks)) sp then t + zlen (heard chunks) else -1.
Proof.
  induction chunks as [|c0 cs IH]; intros r t W T; cbn [channel_receive heard].
  - rewrite firstn_nil, app_nil_r. simpl. split; auto. split; auto. rewrite zlen_nil. lia.
  - set (c := firstn 64 c0) in *. cbv zeta.
    destruct (zlen c =? 0) eqn:E0.
    + assert (c = []) by (destruct c; auto; rewrite zlen_cons in E0; pose proof (zlen_nonneg c); lia).
      rewrite H. cbn [length Nat.eqb]. rewrite firstn_nil, app_nil_r. simpl. rewrite zlen_nil.
      repeat split; try apply W; auto. lia.
    + pose proof (rb_push_buf_spec c r W) as X. cbv zeta in X.
      destruct (rb_push_buf r c) as [r1 n] eqn:E1. cbn [fst snd] in X.
      destruct X as (W1 & Hn & Hc).
      set (sp := (RB_SIZE - 1 - length (rb_contents r))%nat) in *.
      destruct (Nat.le_gt_cases (length c) sp) as [L|L].
      * rewrite firstn_all2 in Hn, Hc by lia. rewrite Hn, Z.eqb_refl. cbn [negb].
        destruct (zlen c =? 64) eqn:E2.
        { assert (Nat.eqb (length c) 64 = true) as -> by (apply Nat.eqb_eq; unfold zlen in E2; lia).
          assert (T1 : 0 <= t + zlen c) by (pose proof (zlen_nonneg c); lia).
          specialize (IH r1 (t + zlen c) W1 T1).
          cbv zeta in IH. destruct IH as (A & B & C). split; [exact A|].
          rewrite Hc in B, C. rewrite app_length in B, C.
          replace (RB_SIZE - 1 - (length (rb_contents r) + length c))%nat
            with (sp - length c)%nat in B, C by (unfold sp; lia).
          split.
          - rewrite B, <- app_assoc. f_equal. rewrite firstn_app.
            rewrite (firstn_all2 c) by lia. reflexivity.
          - rewrite C. rewrite app_length, zlen_app.
            destruct (Nat.leb_spec (length (heard cs)) (sp - length c));
              destruct (Nat.leb_spec (length c + length (heard cs)) sp); lia. }
        { assert (Nat.eqb (length c) 64 = false) as -> by (apply Nat.eqb_neq; unfold zlen in E2; lia).
          cbn [fst snd]. split; auto. split.
          - rewrite firstn_all2 by lia. auto.
          - destruct (Nat.leb_spec (length c) sp); lia. }
      * assert (Hz : zlen (firstn sp c) <> zlen c) by (unfold zlen; rewrite firstn_length; lia).
        rewrite Hn. destruct (zlen (firstn sp c) =? zlen c) eqn:E2; [lia|]. cbn [negb fst snd].
        split; auto. destruct (Nat.eqb (length c) 64).
        -- split.
           ++ rewrite Hc. f_equal. rewrite firstn_app.
              replace (sp - length c)%nat with 0%nat by lia. rewrite firstn_O, app_nil_r; auto.
           ++ rewrite app_length. destruct (Nat.leb_spec (length c + length (heard cs)) sp); lia.
        -- split; auto. destruct (Nat.leb_spec (length c) sp); lia.
Qed.

(* the bytes received and not yet consumed *)
Definition pending (p : pd) : list Z :=
  firstn (Z.to_nat (pblen p)) (pbuf p) ++ rb_contents (rb p).

(* the pending bytes once the channel was read *)
Definition arrived (e : env) (p : pd) : list Z :=
  pending p ++ firstn (RB_SIZE - 1 - length (rb_contents (rb p))) (heard (e_rx e)).

(* the buffers are what C declares them to be *)
Definition rx_base (p : pd) : Prop :=
  rb_wf (rb p) /\ bytes (rb_contents (rb p)) /\ length (pbuf p) = 256%nat /\ bytes (pbuf p).

(* fill level: no header yet, or a checked header and at most as many bytes as it announces *)
Definition rx_fill (p : pd) : Prop :=
  (plen p = 0 /\ 0 <= pblen p <= 5) \/
  (6 <= plen p <= 257 /\ 5 <= pblen p <= Z.min 256 (plen p) /\
   check_header_bytes p = inr (plen p)).

Definition rx_wf (p : pd) : Prop := rx_base p /\ rx_fill p.

(* everything that receiving bytes never touches *)
Definition rxcore (p : pd) : pd :=
  set_has_mark false (set_rb rb_init (set_tstamp 0 (set_pblen 0 (set_plen 0 (set_pbuf [] p))))).

(* the first start byte, with the bytes before and after it *)
Fixpoint split_som (l : list Z) : option (list Z * list Z) :=
  match l with
  | [] => None
  | b :: t => if b =? 83 then Some ([], t)
              else match split_som t with
                   | None => None
                   | Some (n, r) => Some (b :: n, r)
                   end
  end.

Lemma split_som_some l n r : split_som l = Some (n, r) -> l = n ++ 83 :: r /\ ~ In 83 n.
Proof.
  revert n r; induction l as [|b t IH]; simpl; [discriminate|]. intros n r.
  destruct (b =? 83) eqn:E.
  - intros H; inv H. apply Z.eqb_eq in E; subst. auto.
  - destruct (split_som t) as [[n1 r1]|] eqn:S; [|discriminate]. intros H; inv H.
    destruct (IH _ _ eq_refl) as [-> N]. split; auto.
    intros [X|X]; [lia|auto].
Qed.

Lemma split_som_none l : split_som l = None -> ~ In 83 l.
Proof.
  induction l as [|b t IH]; simpl; auto. destruct (b =? 83) eqn:E; [discriminate|].
  destruct (split_som t) as [[? ?]|]; [discriminate|]. intros _ [X|X]; [lia|]. apply IH; auto.
Qed.

Lemma split_som_app n r : ~ In 83 n -> split_som (n ++ 83 :: r) = Some (n, r).
Proof.
  induction n as [|b t IH]; simpl; auto. intros H.
  destruct (b =? 83) eqn:E; [exfalso; apply H; left; lia|].
  rewrite IH; auto.
Qed.

Definition started (m : bool) (p : pd) : pd :=
  if m then set_has_mark true (set_pblen 2 (set_pbuf (blit (pbuf p) 0 [PKT_MARK; PKT_SOM]) p))
  else set_has_mark false (set_pblen 1 (set_pbuf (blit (pbuf p) 0 [PKT_SOM]) p)).

Lemma scan_spec fuel : forall prev p, rb_wf (rb p) -> (length (rb_contents (rb p)) < fuel)%nat ->
  match split_som (rb_contents (rb p)) with
  | None => exists r, scan fuel prev p = Ok (set_rb r p, false) /\ rb_wf r /\ rb_contents r = []
  | Some (n, rest) => exists r,
      scan fuel prev p = Ok (started (last (prev :: n) 0 =? PKT_MARK) (set_rb r p), true) /\
      rb_wf r /\ rb_contents r = rest
  end.
Proof.
  induction fuel as [|f IH]; intros prev p W L; [lia|]. cbn [scan].
  pose proof (rb_pop_spec (rb p) W) as X.
  destruct (rb_contents (rb p)) as [|b q] eqn:E.
  - rewrite X. cbn [split_som]. eauto.
  - destruct X as (r1 & -> & W1 & Hc). cbn [split_som].
    change (b =? PKT_SOM) with (b =? 83). destruct (b =? 83) eqn:Eb.
    + exists r1. cbn [last]. split; [|auto]. unfold started. destruct (prev =? PKT_MARK); auto.
    + specialize (IH b (set_rb r1 p) W1). simpl rb in IH. rewrite Hc in IH.
      simpl length in L. specialize (IH ltac:(lia)).
      destruct (split_som q) as [[n rest]|].
      * destruct IH as (r & A & B & C). exists r. split; auto.
      * destruct IH as (r & A & B & C). exists r. split; auto.
Qed.

Lemma collect_spec n p : rb_wf (rb p) -> length (pbuf p) = 256%nat -> 0 <= pblen p <= 256 ->
  let l := firstn (Z.to_nat n) (rb_contents (rb p)) in
  if pblen p + zlen l >? PBUF_SIZE then collect n p = UB OobWrite
  else exists r, collect n p = Ok (set_pblen (pblen p + zlen l)
                   (set_pbuf (blit (pbuf p) (pblen p) l) (set_rb r p))) /\
       rb_wf r /\ rb_contents r = skipn (Z.to_nat n) (rb_contents (rb p)).
Proof.
  intros W L B. cbv zeta. unfold collect.
  pose proof (rb_pop_buf_spec (Z.to_nat n) (rb p) W) as X. cbv zeta in X.
  destruct (rb_pop_buf (rb p) (Z.to_nat n)) as [r1 l1]. cbn [fst snd] in X.
  destruct X as (W1 & -> & Hc).
  destruct (pblen p + zlen (firstn (Z.to_nat n) (rb_contents (rb p))) >? PBUF_SIZE); auto.
  exists r1. auto.
Qed.

Lemma firstn_blit_end dst off src : 0 <= off -> off + zlen src <= zlen dst ->
  firstn (Z.to_nat (off + zlen src)) (blit dst off src) = firstn (Z.to_nat off) dst ++ src.
Proof.
  intros. unfold blit. rewrite app_assoc. apply firstn_app_exact.
  rewrite app_length, firstn_length. unfold zlen in *. lia.
Qed.

(* collect moves bytes from the ring buffer to the packet buffer and loses none *)
Lemma collect_ok n p q : rb_wf (rb p) -> length (pbuf p) = 256%nat -> 0 <= pblen p <= 256 ->
  collect n p = Ok q ->
  pending q = pending p /\ rxcore q = rxcore p /\ rb_wf (rb q) /\ length (pbuf q) = 256%nat /\
  pblen q = pblen p + Z.min (Z.max 0 n) (zlen (rb_contents (rb p))) /\ pblen q <= 256 /\
  rb_contents (rb q) = skipn (Z.to_nat n) (rb_contents (rb p)) /\
  plen q = plen p /\ fl q = fl p /\ tstamp q = tstamp p /\
  firstn (Z.to_nat (pblen p)) (pbuf q) = firstn (Z.to_nat (pblen p)) (pbuf p).
Proof.
  intros W L B H. pose proof (collect_spec n p W L B) as X. cbv zeta in X.
  set (l := firstn (Z.to_nat n) (rb_contents (rb p))) in *.
  assert (Hl : zlen l = Z.min (Z.max 0 n) (zlen (rb_contents (rb p)))).
  { unfold l, zlen. rewrite firstn_length. lia. }
  destruct (pblen p + zlen l >? PBUF_SIZE) eqn:E; [congruence|].
  destruct X as (r & X & W1 & Hc). rewrite H in X. injection X as ->.
  unfold PBUF_SIZE in E.
  assert (zlen (pbuf p) = 256) by (unfold zlen; lia).
  split; [|split; [|split; [|split; [|split; [|split; [|split; [|split]]]]]]].
  - unfold pending. simpl. rewrite firstn_blit_end by lia. rewrite Hc. unfold l.
    rewrite <- app_assoc. now rewrite firstn_skipn.
  - reflexivity.
  - exact W1.
  - simpl. rewrite blit_length; auto; lia.
  - simpl. lia.
  - simpl. lia.
  - simpl. auto.
  - reflexivity.
  - simpl. repeat split; auto. apply firstn_blit_before; lia.
Qed.

Lemma rxcore_started m p : rxcore (started m p) = rxcore p.
Proof. destruct m; reflexivity. Qed.

Lemma rb_contents_lt r : rb_wf r -> (length (rb_contents r) < RB_SIZE)%nat.
Proof. intros. rewrite rb_contents_length. apply rb_count_lt; auto. Qed.

Lemma bytes_heard cs : Forall bytes cs -> bytes (heard cs).
Proof.
  induction 1; cbn [heard]; [apply Forall_nil|]. cbv zeta.
  destruct (Nat.eqb _ 64); [apply bytes_app; split; auto|]; apply bytes_firstn; auto.
Qed.

Lemma pending_split p : rx_base p -> 0 <= pblen p <= 256 ->
  pending p = sub (pbuf p) 0 (pblen p) ++ rb_contents (rb p).
Proof. reflexivity. Qed.

(* reading of the channel (first lines of osdp_phy_check_packet) *)
Definition listen (e : env) (p : pd) : pd :=
  let (r1, got) := channel_receive (e_rx e) (rb p) 0 in
  let p1 := set_rb r1 p in
  if pd_mode (fl p1) && (pblen p1 =? 0) && (got >? 0) then set_tstamp (e_now e) p1 else p1.

Lemma listen_spec e p : rx_base p -> Forall bytes (e_rx e) ->
  let q := listen e p in
  rx_base q /\ rxcore q = rxcore p /\ pbuf q = pbuf p /\ pblen q = pblen p /\ plen q = plen p /\
  fl q = fl p /\ pending q = arrived e p /\ (tstamp q = tstamp p \/ tstamp q = e_now e).
Proof.
  intros (W & Bc & L & Bb) He. cbv zeta. unfold listen.
  pose proof (channel_receive_spec (e_rx e) (rb p) 0 W ltac:(lia)) as X. cbv zeta in X.
  destruct (channel_receive (e_rx e) (rb p) 0) as [r1 got]. cbn [fst snd] in X.
  destruct X as (W1 & C1 & _).
  assert (B1 : bytes (rb_contents r1)).
  { rewrite C1. apply bytes_app; split; auto. apply bytes_firstn, bytes_heard; auto. }
  cbv zeta.
  destruct (pd_mode _ && _ && _); unfold rx_base, pending, arrived; simpl;
    rewrite C1; unfold pending; rewrite <- ?app_assoc; repeat split; auto; try apply W1;
    rewrite <- C1; auto.
Qed.

Lemma rx_base_collect n p q : rx_base p -> 0 <= pblen p <= 256 -> collect n p = Ok q -> rx_base q.
Proof.
  intros (W & Bc & L & Bb) B H. pose proof (collect_ok n p q W L B H) as (A1 & A2 & A3 & A4 & A5 & A6 & A7 & _).
  split; auto. split; [rewrite A7; apply bytes_skipn; auto|]. split; auto.
  pose proof (collect_spec n p W L B) as X. cbv zeta in X.
  destruct (_ >? PBUF_SIZE); [congruence|]. destruct X as (r & X & _). rewrite H in X.
  injection X as ->. simpl. apply bytes_blit; auto. apply bytes_firstn; auto.
Qed.

Lemma started_base m p : rx_base p -> rx_base (started m p).
Proof.
  intros (W & Bc & L & Bb).
  assert (X : forall l, zlen l <= 256 -> bytes l -> rx_base (set_pbuf (blit (pbuf p) 0 l) p)).
  { intros l Hl Hb. unfold rx_base; simpl. split; auto. split; auto. split.
    - rewrite blit_length; auto; try lia. unfold zlen in *; lia.
    - apply bytes_blit; auto. }
  destruct m; [destruct (X [PKT_MARK; PKT_SOM]) as (A & B & C & D)|destruct (X [PKT_SOM]) as (A & B & C & D)];
    try (unfold zlen; simpl length; lia);
    try (bytes_cons; unfold byte, PKT_MARK, PKT_SOM; lia);
    unfold rx_base; simpl in *; auto.
Qed.

Lemma started_pending m p : rx_base p ->
  pending (started m p) = (if m then [255] else []) ++ 83 :: rb_contents (rb p).
Proof.
  intros _. destruct m; reflexivity.
Qed.

(* a packet that has begun: what is in the packet buffer starts with (mark and) start byte *)
Definition rx_sync (p : pd) : Prop :=
  0 < pblen p -> mark_len p < pblen p /\
  exists t, pending p = (if has_mark (fl p) then [255] else []) ++ 83 :: t.

Lemma started_sync m p : rx_base p -> rx_sync (started m p).
Proof.
  intros B _. pose proof (started_pending m p B) as X. destruct m; (split; [unfold mark_len; simpl; lia|]); exists (rb_contents (rb p)); exact X.
Qed.

Lemma sync_collect n p q : rb_wf (rb p) -> length (pbuf p) = 256%nat -> 0 <= pblen p <= 256 -> 0 < pblen p ->
  collect n p = Ok q -> rx_sync p -> rx_sync q.
Proof.
  intros W L R P C S _. pose proof (collect_ok _ _ _ W L R C) as (A1 & A2 & A3 & A4 & A5 & A6 & A7 & A8 & A9 & A10 & A11).
  destruct (S P) as (S1 & t & S2). unfold mark_len in *. rewrite A9, A1. pose proof (zlen_nonneg (rb_contents (rb p))).
  split; [lia|]. eauto.
Qed.

Definition hdr_res (q : pd) (r : pkterr + Z) : Prop :=
  match r with
  | inl KNoData => pblen q = 0 /\ pending q = []
  | inl KWait => 0 < pblen q < 5 /\ rb_contents (rb q) = []
  | _ => pblen q = 5 /\ check_header_bytes q = r
  end.

Lemma check_header_bytes_err p k : check_header_bytes p = inl k -> k = KFmt \/ k = KSkip.
Proof.
  unfold check_header_bytes. cbv zeta.
  repeat match goal with |- context [if ?c then _ else _] => destruct c end; intros H; inv H; auto.
Qed.

Lemma check_header_bytes_range p n : rx_base p -> check_header_bytes p = inr n ->
  6 <= n <= 257 /\ mark_len p + 6 <= n <= mark_len p + 256.
Proof.
  intros (_ & _ & _ & B) H. unfold check_header_bytes in H. cbv zeta in H.
  destruct (negb _); [discriminate|]. destruct (_ || _); [discriminate|].
  destruct (_ || _) eqn:E; [discriminate|]. injection H as <-.
  unfold PBUF_SIZE, mark_len in *. destruct (has_mark (fl p)); lia.
Qed.

Lemma check_header_ok p : rx_base p -> plen p = 0 -> 0 <= pblen p <= 5 ->
  exists q r, check_header p = Ok (q, r) /\
  rx_base q /\ rxcore q = rxcore p /\ plen q = 0 /\ 0 <= pblen q <= 5 /\ hdr_res q r /\
  tstamp q = tstamp p /\ (rx_sync p -> rx_sync q) /\
  exists noise, pending p = noise ++ pending q /\ ~ In 83 noise /\ (0 < pblen p -> noise = []).
Proof.
  intros Hb Hp Hn. unfold check_header.
  assert (X : exists p1 f, (if pblen p =? 0 then scan (S RB_SIZE) 0 p else Ok (p, true)) = Ok (p1, f) /\
     rx_base p1 /\ rxcore p1 = rxcore p /\ plen p1 = 0 /\ tstamp p1 = tstamp p /\ (rx_sync p -> rx_sync p1) /\
     (if f then 0 < pblen p1 <= 5 else pblen p1 = 0 /\ pending p1 = []) /\
     exists noise, pending p = noise ++ pending p1 /\ ~ In 83 noise /\ (0 < pblen p -> noise = [])).
  { destruct (pblen p =? 0) eqn:E0.
    - pose proof Hb as (W & Bc & L & Bb).
      pose proof (scan_spec (S RB_SIZE) 0 p W) as S.
      pose proof (rb_contents_lt _ W) as Lt. specialize (S ltac:(lia)).
      assert (Hpend : pending p = rb_contents (rb p)).
      { unfold pending. replace (pblen p) with 0 by lia. reflexivity. }
      destruct (split_som (rb_contents (rb p))) as [[n rest]|] eqn:Es.
      + destruct S as (r & S & W1 & C1). apply split_som_some in Es as [Es Ns].
        set (m := last (0 :: n) 0 =? PKT_MARK) in *.
        assert (Hb1 : rx_base (set_rb r p)).
        { unfold rx_base; simpl. split; auto. split; auto. rewrite C1.
          rewrite Es in Bc. apply bytes_app in Bc as [_ Bc]. apply Forall_cons_iff in Bc; tauto. }
        exists (started m (set_rb r p)), true. split; auto.
        split; [apply started_base; auto|]. split; [rewrite rxcore_started; reflexivity|].
        split; [destruct m; exact Hp|]. split; [destruct m; reflexivity|]. split; [intros _; apply started_sync; auto|].
        split; [destruct m; simpl; lia|].
        rewrite started_pending by auto. simpl rb. rewrite C1, Hpend, Es.
        assert (M : m = true -> exists n1, n = n1 ++ [255]).
        { unfold m. destruct n as [|x n] using rev_ind; [simpl; discriminate|].
          change (0 :: n ++ [x]) with ((0 :: n) ++ [x]). rewrite last_last.
          unfold PKT_MARK. intros Hx. exists n. f_equal. f_equal. lia. }
        destruct m.
        * destruct (M eq_refl) as (n1 & ->). exists n1. rewrite <- app_assoc. split; auto.
          split; [intros I; apply Ns, in_app_iff; auto|lia].
        * exists n. split; auto. split; auto. lia.
      + destruct S as (r & S & W1 & C1). apply split_som_none in Es.
        exists (set_rb r p), false. split; auto. split; [unfold rx_base; simpl; rewrite C1; repeat split; auto; try apply W1; apply Forall_nil|].
        split; [reflexivity|]. split; [exact Hp|]. split; [reflexivity|]. split; [intros _ Hx; simpl in Hx; lia|].
        assert (Z0 : pending (set_rb r p) = []).
        { unfold pending; simpl. replace (pblen p) with 0 by lia. rewrite C1. reflexivity. }
        split; [split; [simpl; lia|exact Z0]|].
        exists (rb_contents (rb p)). rewrite Z0, app_nil_r. split; auto. split; auto. lia.
    - exists p, true. split; auto. split; auto. split; auto. split; auto. split; auto. split; auto.
      split; [lia|]. exists []. auto. }
  destruct X as (p1 & f & -> & B1 & C1 & P1 & T1 & Y1 & F1 & noise & N1 & N2 & N3). cbn [bind].
  destruct f.
  - pose proof B1 as (W & Bc & L & Bb).
    assert (R : 0 <= pblen p1 <= 256) by lia.
    pose proof (collect_spec (5 - pblen p1) p1 W L R) as S. cbv zeta in S.
    set (l := firstn (Z.to_nat (5 - pblen p1)) (rb_contents (rb p1))) in *.
    assert (Hl : zlen l <= 5 - pblen p1) by (unfold l, zlen; rewrite firstn_length; lia).
    destruct (pblen p1 + zlen l >? PBUF_SIZE) eqn:E; [unfold PBUF_SIZE in E; lia|].
    destruct S as (r & S & W1 & Hc). set (q := set_pblen _ _) in S.
    rewrite S. cbn [bind].
    pose proof (collect_ok _ _ _ W L R S) as (A1 & A2 & A3 & A4 & A5 & A6 & A7 & A8 & A9 & A10 & _).
    assert (Bq : rx_base q) by (eapply rx_base_collect; eauto).
    assert (G : exists noise, pending p = noise ++ pending q /\ ~ In 83 noise /\ (0 < pblen p -> noise = [])).
    { exists noise. rewrite A1. auto. }
    pose proof (zlen_nonneg (rb_contents (rb p1))) as Zc.
    assert (Yq : rx_sync p -> rx_sync q) by (intros Y; apply (sync_collect _ p1 q W L R ltac:(lia) S (Y1 Y))).
    destruct (pblen q <? 5) eqn:E5.
    + exists q, (inl KWait). split; auto. split; auto. split; [congruence|]. split; [congruence|].
      split; [lia|]. split; [|split; [congruence|split; auto]].
      split; [lia|]. rewrite A7. apply skipn_all2. unfold zlen in *. lia.
    + exists q, (check_header_bytes q). split; auto. split; auto. split; [congruence|].
      split; [congruence|]. split; [lia|]. split; [|split; [congruence|split; auto]].
      unfold hdr_res. destruct (check_header_bytes q) as [k|n] eqn:Ek.
      * destruct (check_header_bytes_err _ _ Ek); subst k; split; auto; lia.
      * split; auto; lia.
  - exists p1, (inl KNoData). split; auto. split; auto. split; auto. split; auto. split; [lia|].
    split; [exact F1|]. split; auto. split; auto. exists noise. auto.
Qed.

(* the frame that lies in the packet buffer *)
Definition frame_of (p : pd) : list Z := sub (pbuf p) (mark_len p) (plen p - mark_len p).

Lemma testbit_div a n : 0 <= n -> Z.testbit a n = (a / 2 ^ n mod 2 =? 1).
Proof.
  intros. pose proof (Z.testbit_spec' a n ltac:(lia)) as X. rewrite <- X.
  destruct (Z.testbit a n); reflexivity.
Qed.

Lemma mark_len_cases p : mark_len p = 0 \/ mark_len p = 1.
Proof. unfold mark_len; destruct (has_mark _); auto. Qed.

Lemma getb_sub l o n i : 0 <= o -> 0 <= i < n -> getb (sub l o n) i = getb l (o + i).
Proof.
  intros. unfold getb, sub. rewrite nth_firstn by lia. rewrite nth_skipn. f_equal. lia.
Qed.

Lemma zlen_sub {A} (l : list A) o n : 0 <= o -> 0 <= n -> o + n <= zlen l -> zlen (sub l o n) = n.
Proof. unfold sub, zlen; intros. rewrite firstn_length, skipn_length. lia. Qed.

Lemma header_shape p n : rx_base p -> check_header_bytes p = inr n -> n <= 256 -> plen p = n ->
  f_shape (negb (pd_mode (fl p))) (frame_of p) /\ zlen (frame_of p) = plen p - mark_len p.
Proof.
  intros Hb H N P. pose proof (check_header_bytes_range p n Hb H) as R.
  destruct Hb as (_ & _ & L & B).
  pose proof (mark_len_cases p) as M.
  assert (Z : zlen (frame_of p) = plen p - mark_len p).
  { apply zlen_sub; unfold zlen; lia. }
  split; auto. unfold f_shape. rewrite Z.
  assert (G : forall i, (i < 6)%nat -> nth i (frame_of p) 0 = getb (pbuf p) (mark_len p + Z.of_nat i)).
  { intros i Hi. rewrite <- (getb_sub (pbuf p) (mark_len p) (plen p - mark_len p)) by lia.
    unfold getb, frame_of. rewrite Nat2Z.id. reflexivity. }
  unfold f_reply, f_len. rewrite !G by lia.
  change (Z.of_nat 0) with 0; change (Z.of_nat 1) with 1; change (Z.of_nat 2) with 2;
  change (Z.of_nat 3) with 3.
  unfold check_header_bytes in H. cbv zeta in H.
  destruct (negb (getb (pbuf p) (mark_len p + 0) =? PKT_SOM)) eqn:E1; [discriminate|].
  unfold PKT_SOM in E1.
  pose proof (bytes_getb (pbuf p) (mark_len p + 1) B) as B1. unfold byte in B1.
  rewrite (testbit_div (getb (pbuf p) (mark_len p + 1)) 7) in H by lia.
  change (2 ^ 7) with 128 in H.
  destruct (_ || _) eqn:E2 in H; [discriminate|].
  destruct (_ || _) eqn:E3 in H; [discriminate|]. injection H as H. unfold PBUF_SIZE in E3.
  split; [lia|]. split; [|lia].
  destruct (pd_mode (fl p)); cbn [negb andb orb] in *; lia.
Qed.

Lemma frame_in_pending p : rx_base p -> pblen p = plen p -> 6 <= plen p <= 256 ->
  exists mk, pending p = mk ++ frame_of p ++ rb_contents (rb p) /\ zlen mk = mark_len p /\
  mk = firstn (Z.to_nat (mark_len p)) (pbuf p).
Proof.
  intros (_ & _ & L & B) E R. pose proof (mark_len_cases p) as M.
  exists (firstn (Z.to_nat (mark_len p)) (pbuf p)). split; [|split; [|auto]].
  - unfold pending, frame_of, sub. rewrite app_assoc. f_equal. rewrite E.
    replace (Z.to_nat (plen p)) with (Z.to_nat (mark_len p) + Z.to_nat (plen p - mark_len p))%nat by lia.
    rewrite <- (firstn_skipn (Z.to_nat (mark_len p)) (pbuf p)) at 1.
    rewrite firstn_app, firstn_length, L.
    rewrite (firstn_all2 (n:=Z.to_nat (mark_len p) + _)) by (rewrite firstn_length; lia).
    f_equal. f_equal. lia.
  - unfold zlen. rewrite firstn_length. lia.
Qed.

(* no complete frame: nothing but the receive buffers changes *)
Definition no_frame (e : env) (p q : pd) (k : pkterr) : Prop :=
  rxcore q = rxcore p /\ rx_wf q /\ (tstamp q = tstamp p \/ tstamp q = e_now e) /\
  (exists noise, arrived e p = noise ++ pending q /\ ~ In 83 noise /\ (0 < pblen p -> noise = [])) /\
  match k with
  | KNoData => pending q = [] /\ plen q = 0
  | KWait => 0 < pblen q /\ rb_contents (rb q) = [] /\ (plen q = 0 /\ pblen q < 5 \/ pblen q < plen q)
  | KFmt | KSkip => pblen q = 5 /\ plen q = 0
  | _ => False
  end.

(* a complete frame lies in the packet buffer of q *)
Definition got_frame (e : env) (p q : pd) : Prop :=
  rxcore q = rxcore p /\ rx_wf q /\ (tstamp q = tstamp p \/ tstamp q = e_now e) /\
  pblen q = plen q /\ 6 <= plen q <= 256 /\
  (exists noise mk, arrived e p = noise ++ mk ++ frame_of q ++ rb_contents (rb q) /\
     zlen mk = mark_len q /\ ~ In 83 noise /\ (0 < pblen p -> noise = [])) /\
  f_shape (negb (pd_mode (fl p))) (frame_of q) /\ zlen (frame_of q) = plen q - mark_len q.

Lemma rxcore_pd_mode p q : rxcore q = rxcore p -> pd_mode (fl q) = pd_mode (fl p).
Proof. intros H. apply (f_equal (fun x => pd_mode (fl x))) in H. exact H. Qed.

Lemma check_header_bytes_ext p q : fl q = fl p -> firstn 5 (pbuf q) = firstn 5 (pbuf p) ->
  check_header_bytes q = check_header_bytes p.
Proof.
  intros F H. unfold check_header_bytes, mark_len. rewrite F.
  assert (G : forall i, 0 <= i < 5 -> getb (pbuf q) i = getb (pbuf p) i).
  { intros i Hi. unfold getb. rewrite <- (nth_firstn 5 (Z.to_nat i) (pbuf q)) by lia.
    rewrite H. apply nth_firstn; lia. }
  cbv zeta. rewrite !G by (destruct (has_mark (fl p)); lia). reflexivity.
Qed.

Lemma firstn_le {A} n m (a b : list A) : (n <= m)%nat -> firstn m a = firstn m b -> firstn n a = firstn n b.
Proof.
  intros L H. apply (f_equal (firstn n)) in H. rewrite !firstn_firstn in H.
  rewrite (Nat.min_l n m) in H by lia. auto.
Qed.

Lemma check_packet_cases e p : rx_wf p -> Forall bytes (e_rx e) ->
  (check_packet e p = UB OobWrite /\
   exists q, rxcore q = rxcore p /\ plen q = 257 /\ has_mark (fl q) = true /\
             check_header_bytes q = inr 257 /\ pblen q <= 256 /\
             (exists noise, arrived e p = noise ++ pending q /\ 257 <= zlen (pending q) /\ ~ In 83 noise /\ (0 < pblen p -> noise = [])) /\
             (rx_sync p -> rx_sync q) /\ 5 <= pblen q /\ rx_base q) \/
  (exists q k, check_packet e p = Ok (q, k) /\ no_frame e p q k /\ (rx_sync p -> rx_sync q) /\
     (k = KFmt \/ k = KSkip -> check_header_bytes q = inl k)) \/
  (exists q, check_packet e p = Ok (check_packet_bytes q (frame_of q)) /\ got_frame e p q /\ (rx_sync p -> rx_sync q) /\
     exists noise, arrived e p = noise ++ pending q /\ ~ In 83 noise /\ (0 < pblen p -> noise = [])).
Proof.
  intros [Hb Hf] He. pose proof (listen_spec e p Hb He) as X. cbv zeta in X.
  assert (U : check_packet e p = check_packet e p) by reflexivity.
  unfold check_packet at 2 in U. unfold listen in X.
  destruct (channel_receive (e_rx e) (rb p) 0) as [r1 got]. cbv zeta in X.
  rewrite U. clear U. cbv zeta.
  set (p2 := if pd_mode (fl (set_rb r1 p)) && _ && _ then _ else _) in *.
  destruct X as (B2 & C2 & E1 & E2 & E3 & E4 & E5 & T2). clearbody p2.
  assert (Y2 : rx_sync p -> rx_sync p2).
  { intros Y P. rewrite E2 in P. destruct (Y P) as (Y1 & t & Y3). unfold mark_len in *. rewrite E4, E2, E5. split; [auto|].
    unfold arrived. rewrite Y3. exists (t ++ firstn (RB_SIZE - 1 - length (rb_contents (rb p))) (heard (e_rx e))).
    rewrite <- app_assoc. reflexivity. }
  (* header *)
  assert (H : (exists q k, (if plen p2 =? 0 then
             do r <- check_header p2 ;
             match r with
             | (p3, inl er) => Ok (p3, Some er)
             | (p3, inr n) => Ok (set_plen n p3, None)
             end else Ok (p2, None)) = Ok (q, Some k) /\ no_frame e p q k /\ (rx_sync p -> rx_sync q) /\
     (k = KFmt \/ k = KSkip -> check_header_bytes q = inl k)) \/
     (exists q, (if plen p2 =? 0 then
             do r <- check_header p2 ;
             match r with
             | (p3, inl er) => Ok (p3, Some er)
             | (p3, inr n) => Ok (set_plen n p3, None)
             end else Ok (p2, None)) = Ok (q, None) /\
        rx_base q /\ rxcore q = rxcore p /\ (tstamp q = tstamp p \/ tstamp q = e_now e) /\
        (exists noise, arrived e p = noise ++ pending q /\ ~ In 83 noise /\ (0 < pblen p -> noise = [])) /\
        6 <= plen q <= 257 /\ 5 <= pblen q <= Z.min 256 (plen q) /\ check_header_bytes q = inr (plen q) /\ (rx_sync p -> rx_sync q))).
  { destruct Hf as [[F1 F2]|(F1 & F2 & F3)].
    - assert (plen p2 =? 0 = true) as -> by lia.
      destruct (check_header_ok p2 B2 ltac:(lia) ltac:(lia))
        as (q & r & R & Bq & Cq & Pq & Nq & Hr & Tq & Yq & noise & N1 & N2 & N3).
      rewrite R. cbn [bind].
      assert (NN : exists noise, arrived e p = noise ++ pending q /\ ~ In 83 noise /\ (0 < pblen p -> noise = [])).
      { exists noise. rewrite <- E5, N1. split; auto. split; auto. intros; apply N3; lia. }
      assert (TT : tstamp q = tstamp p \/ tstamp q = e_now e) by (destruct T2; [left|right]; congruence).
      destruct r as [k|n].
      + assert (HH : k = KFmt \/ k = KSkip -> check_header_bytes q = inl k).
        { intros [->| ->]; apply Hr. }
        left. exists q, k. split; auto. split; [|auto]. unfold no_frame. split; [congruence|].
        split; [split; auto; left; lia|]. split; auto. split; auto.
        unfold hdr_res in Hr. destruct k; try (destruct Hr as [? Hr]; apply check_header_bytes_err in Hr; destruct Hr; discriminate).
        * split; [tauto|lia].
        * destruct Hr. repeat split; auto; try lia.
        * split; [tauto|lia].
        * destruct Hr; split; auto; lia.
      + right. destruct Hr as [Hr1 Hr2]. pose proof (check_header_bytes_range q n Bq Hr2) as Rg.
        exists (set_plen n q). split; auto. split; [exact Bq|]. split; [rewrite <- C2, <- Cq; reflexivity|].
        split; [exact TT|]. split; [exact NN|]. simpl plen. simpl pblen. split; [lia|]. split; [lia|].
        split; [exact Hr2|]. intros Y. exact (Yq (Y2 Y)).
    - assert (plen p2 =? 0 = false) as -> by lia. right. exists p2. split; auto. split; auto.
      split; auto. split; auto. split; [exists []; rewrite E5; auto|]. split; [lia|]. split; [lia|].
      split; [|auto]. rewrite E3, <- F3. apply check_header_bytes_ext; auto. now rewrite E1. }
  destruct H as [(q & k & -> & H)|(q & -> & Bq & Cq & Tq & NN & Rq & Fq & Hq & Yq)]; cbn [bind].
  { right; left. eauto. }
  pose proof Bq as (W & Bc & L & Bb).
  assert (R : 0 <= pblen q <= 256) by lia.
  pose proof (collect_spec (plen q - pblen q) q W L R) as S. cbv zeta in S.
  set (l := firstn (Z.to_nat (plen q - pblen q)) (rb_contents (rb q))) in *.
  assert (Hl : zlen l = Z.min (plen q - pblen q) (zlen (rb_contents (rb q)))).
  { unfold l, zlen. rewrite firstn_length. lia. }
  pose proof (zlen_nonneg (rb_contents (rb q))) as Zc.
  destruct (pblen q + zlen l >? PBUF_SIZE) eqn:E.
  { unfold PBUF_SIZE in E. rewrite S. cbn [bind]. left. split; auto. exists q.
    pose proof (check_header_bytes_range q _ Bq Hq) as Rg.
    assert (P7 : plen q = 257) by lia.
    split; auto. split; auto. split; [unfold mark_len in Rg; destruct (has_mark (fl q)); [auto|lia]|].
    split; [congruence|]. split; [lia|]. destruct NN as (noise & N1 & N2). split; [|split; [auto|split; [lia|auto]]]. exists noise. split; auto. split; auto.
    unfold pending. rewrite zlen_app. unfold zlen at 1. rewrite firstn_length. lia. }
  destruct S as (r & S & W1 & Hc). set (p4 := set_pblen _ _) in S.
  rewrite S. cbn [bind].
  pose proof (collect_ok _ _ _ W L R S) as (A1 & A2 & A3 & A4 & A5 & A6 & A7 & A8 & A9 & A10 & A11).
  assert (B4 : rx_base p4) by (eapply rx_base_collect; eauto).
  assert (H4 : check_header_bytes p4 = inr (plen p4)).
  { rewrite A8, <- Hq. apply check_header_bytes_ext; auto. eapply firstn_le; [|exact A11]. lia. }
  unfold PBUF_SIZE in E.
  assert (N4 : exists noise, arrived e p = noise ++ pending p4 /\ ~ In 83 noise /\ (0 < pblen p -> noise = [])).
  { rewrite A1. exact NN. }
  assert (Y4 : rx_sync p -> rx_sync p4) by (intros Y; apply (sync_collect _ q p4 W L R ltac:(lia) S (Yq Y))).
  assert (T4 : tstamp p4 = tstamp p \/ tstamp p4 = e_now e) by (rewrite A10; exact Tq).
  assert (W4 : rx_wf p4).
  { split; auto. right. rewrite A8 in *. split; [lia|]. split; [lia|]. auto. }
  clearbody p4. right.
  destruct (pblen p4 =? plen p4) eqn:E4'; cbn [negb].
  - right. exists p4. split; auto. split; [|auto].
    assert (P4 : 6 <= plen p4 <= 256) by lia.
    unfold got_frame. split; [congruence|]. split; auto. split; auto. split; [lia|]. split; [lia|].
    split.
    + destruct N4 as (noise & N1 & N2 & N3).
      destruct (frame_in_pending p4 B4 ltac:(lia) P4) as (mk & M1 & M2 & _).
      exists noise, mk. rewrite N1, M1. auto.
    + assert (pd_mode (fl p) = pd_mode (fl p4)) as ->
        by (symmetry; apply rxcore_pd_mode; congruence).
      apply (header_shape p4 (plen p4)); auto; lia.
  - left. exists p4, KWait. split; auto. split; [|split; [auto|intros [X|X]; discriminate]]. unfold no_frame. split; [congruence|]. split; auto. split; auto.
    split; auto. split; [lia|]. split; [|right; lia]. rewrite A7. apply skipn_all2. unfold zlen in *. lia.
Qed.
