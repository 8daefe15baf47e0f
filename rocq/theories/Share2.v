(** Several devices on one line: all stations together. *)
From Verif Require Import Base ListLemmas Crc SpecCrc CrcProofs CrcBurst Aes AesProofs Rb RbProofs
  Types Sc ScProofs Phy PhyCheck File Pd Cp PdRun SpecRx SpecFrame SpecSec SpecSession SpecCmd SpecApp SpecPd SpecLink RxProofs RxFwd PdRx PdCore PhyTx PdTx PdReply
  PdStep PdWire PdFwd PdSpeak PdSec PdApp PdTrace PdHist PdHist2 MacProofs WireSec CpCtx SpecCp SpecCpRun CpTx CpRx CpStep CpInv CpEdge CpFacts CpSum CpWire CpFwd Chunk Trip ChunkRun LinkProofs LinkStep CpSend SpecTalk Hand Line Talk Talk2 Talk3 Talk4 Talk5 PdPlain PdRefuse SpecLost Lost Lost2 SpecHand SpecRun Run1 Run2 Run3 SpecBus Bus Keys SpecRun SpecShare Share.
From Coq Require Import ZifyBool ZifyNat.
Ltac Zify.zify_post_hook ::= Z.div_mod_to_equations.
Local Opaque aes_ecb_encrypt aes_cbc_encrypt aes_cbc_decrypt mac_of RB_SIZE osdp_mac enc1 osdp_encrypt encrypt_data cap_entries.

Lemma spread_same i s w : forall b s0, nth_error b i = Some s0 -> nth_error (spread i s w b) i = Some s.
Proof. induction i as [|i IH]; intros [|t b] s0 H; try discriminate; cbn [spread nth_error] in *; [reflexivity|exact (IH b s0 H)]. Qed.
Lemma spread_other i s w : forall b j, j <> i -> nth_error (spread i s w b) j = option_map (overhear w) (nth_error b j).
Proof.
  induction i as [|i IH]; intros [|t b] [|j] N; try reflexivity; cbn [spread nth_error option_map]; [contradiction| |].
  - apply nth_error_map.
  - apply IH. intros ->. apply N. reflexivity.
Qed.
Lemma spread_length i s w : forall b, length (spread i s w b) = length b.
Proof. induction i as [|i IH]; intros [|t b]; cbn [spread length]; [reflexivity|rewrite map_length; reflexivity|reflexivity|rewrite IH; reflexivity]. Qed.

Lemma balance_trans s0 s s' fc fe fc' fe' l l' o o' :
  balance s0 s [] [] fc fe l o -> balance s s' fc fe fc' fe' l' o' -> balance s0 s' [] [] fc' fe' (l ++ l') (o ++ o').
Proof.
  intros (C & E & A) (C2 & E2 & A2). cbn [app] in *.
  assert (X1 : cmds_of (l ++ l') = cmds_of l ++ cmds_of l') by apply flat_map_app. assert (X2 : events_of (l ++ l') = events_of l ++ events_of l') by apply flat_map_app.
  assert (X3 : app_calls (o ++ o') = app_calls o ++ app_calls o') by apply flat_map_app. assert (X4 : told_events (o ++ o') = told_events o ++ told_events o') by apply flat_map_app.
  split; [|split; [|congruence]]; cbn [app]; rewrite ?X1, ?X2, ?X3, ?X4.
  - rewrite <- app_assoc, C2, map_app, app_assoc, app_assoc. rewrite <- (app_assoc (app_calls o)), C, <- map_app, <- app_assoc. reflexivity.
  - rewrite <- app_assoc, E2, map_app, app_assoc, app_assoc. rewrite <- (app_assoc (told_events o)), E, <- map_app, <- app_assoc. reflexivity.
Qed.
Lemma overhear_kept w s p0 fc fe : kept s p0 fc fe -> benign (address p0) w -> silent s \/ w = [] -> kept (overhear w s) p0 fc fe.
Proof.
  intros [U R SD PH B K] BW IW. constructor; cbn [overhear st_net st_ear]; try assumption.
  - rewrite app_assoc. apply benign_app; assumption.
  - destruct IW as [I| ->]; [left; exact I|]. destruct K as [K|[K1 [K2 K3]]]; [left; exact K|right]. split; [exact K1|]. split; [|exact K3]. cbn [overhear st_ear]. rewrite K2. reflexivity.
Qed.
Lemma kept_address s p0 fc fe : kept s p0 fc fe -> address p0 = address (n_p (st_net s)).
Proof. intros K. destruct (undisturbed_view _ _ (kp_un _ _ _ _ K)) as ((v & _) & _). symmetry. exact v. Qed.

Lemma silent_dec s : silent s \/ ~ silent s.
Proof. unfold silent. destruct (phy_state (n_c (st_net s))); auto; right; intros [H|H]; discriminate. Qed.

Record good (b t : list station) (l : list deed) (tr : list (nat * list out)) : Prop := {
  gd_len : length t = length b;
  gd_each : forall i s0 s, nth_error b i = Some s0 -> nth_error t i = Some s ->
    exists p0 fc fe, kept s p0 fc fe /\ address (n_p (st_net s)) = address (n_p (st_net s0)) /\ balance s0 s [] [] fc fe (acts_at i l) (seen_at i tr);
  gd_one : forall i j s u, i <> j -> nth_error t i = Some s -> nth_error t j = Some u -> silent s \/ silent u
}.

(* one station changes, the others hear w *)
Lemma good_spread b t l tr d i s s' w o : all_at_work b -> good b t l tr -> nth_error t i = Some s ->
  (forall j, acts_at j (l ++ [d]) = if (j =? i)%nat then acts_at i l ++ acts_at i [d] else acts_at j l) ->
  (forall p0 fc fe, kept s p0 fc fe -> exists p1 fc' fe', kept s' p1 fc' fe' /\ balance s s' fc fe fc' fe' (acts_at i [d]) o) ->
  address (n_p (st_net s')) = address (n_p (st_net s)) ->
  (w = [] \/ forall j u, j <> i -> nth_error t j = Some u -> silent u) ->
  (forall a, a <> address (n_p (st_net s)) -> benign a w) ->
  (silent s -> ~ silent s' -> forall j u, j <> i -> nth_error t j = Some u -> silent u) ->
  good b (spread i s' w t) (l ++ [d]) (tr ++ [(i, o)]).
Proof.
  intros [AW ND] [GL GE GO] NI LA ST AD WI WB ID. constructor.
  - rewrite spread_length. exact GL.
  - intros j s0 u B T. destruct (Nat.eq_dec j i) as [->|NE].
    + rewrite (spread_same i s' w t s NI) in T. injection T as <-. destruct (GE i s0 s B NI) as (p0 & fc & fe & KP & A & BL).
      destruct (ST p0 fc fe KP) as (p1 & fc' & fe' & KP' & BL'). exists p1, fc', fe'. split; [exact KP'|]. split; [congruence|].
      rewrite LA, Nat.eqb_refl. unfold seen_at. rewrite flat_map_app. cbn [flat_map fst snd]. rewrite Nat.eqb_refl, app_nil_r. exact (balance_trans _ _ _ _ _ _ _ _ _ _ _ BL BL').
    + rewrite (spread_other i s' w t j NE) in T. destruct (nth_error t j) as [v|] eqn:TJ; [|discriminate]. cbn [option_map] in T. injection T as <-.
      destruct (GE j s0 v B TJ) as (p0 & fc & fe & KP & A & BL). exists p0, fc, fe.
      assert (NA : address p0 <> address (n_p (st_net s))).
      { rewrite (kept_address _ _ _ _ KP), A. destruct (nth_error b i) as [si|] eqn:BI.
        - destruct (GE i si s BI NI) as (_ & _ & _ & _ & AI & _). rewrite AI. intros X. apply NE.
          apply (proj1 (NoDup_nth_error _) ND); [rewrite map_length; apply nth_error_Some; rewrite B; discriminate|]. rewrite !nth_error_map, B, BI. cbn [option_map]. rewrite X. reflexivity.
        - exfalso. apply nth_error_None in BI. assert (X : nth_error t i <> None) by (rewrite NI; discriminate). apply nth_error_Some in X. lia. }
      split; [apply overhear_kept; [exact KP|exact (WB _ NA)|destruct WI as [->|WI]; [right; reflexivity|left; exact (WI j v NE TJ)]]|].
      split; [exact A|]. rewrite LA. apply Nat.eqb_neq in NE. rewrite NE. unfold seen_at. rewrite flat_map_app. cbn [flat_map fst snd].
      rewrite Nat.eqb_sym, NE, !app_nil_r. exact BL.
  - assert (IOH : forall v, silent v -> silent (overhear w v)) by (intros v H; exact H).
    assert (ONE : forall j u, j <> i -> nth_error (spread i s' w t) j = Some u -> silent s' \/ silent u).
    { intros j u NE T. rewrite (spread_other i s' w t j NE) in T. destruct (nth_error t j) as [v|] eqn:TJ; [|discriminate]. cbn [option_map] in T. injection T as <-.
      destruct (GO i j s v ltac:(intros X; apply NE; symmetry; exact X) NI TJ) as [I|I]; [|right; apply IOH; exact I].
      destruct (silent_dec s') as [P|P]; [left; exact P|right; apply IOH; exact (ID I P j v NE TJ)]. }
    intros j k u v NE TJ TK. destruct (Nat.eq_dec j i) as [->|NJ].
    + rewrite (spread_same i s' w t s NI) in TJ. injection TJ as <-. apply (ONE k v); [intros X; apply NE; symmetry; exact X|exact TK].
    + destruct (Nat.eq_dec k i) as [->|NK].
      * rewrite (spread_same i s' w t s NI) in TK. injection TK as <-. destruct (ONE j u NJ TJ); auto.
      * rewrite (spread_other i s' w t j NJ) in TJ. rewrite (spread_other i s' w t k NK) in TK.
        destruct (nth_error t j) as [u0|] eqn:TJ0; [|discriminate]. destruct (nth_error t k) as [v0|] eqn:TK0; [|discriminate]. cbn [option_map] in TJ, TK. injection TJ as <-. injection TK as <-.
        destruct (GO j k u0 v0 NE TJ0 TK0) as [I|I]; [left|right]; apply IOH; exact I.
Qed.

Lemma acts_step j l i a : acts_at j (l ++ [DAct i a]) = if (j =? i)%nat then acts_at i l ++ acts_at i [DAct i a] else acts_at j l.
Proof.
  unfold acts_at. rewrite flat_map_app. cbn [flat_map]. rewrite Nat.eqb_refl, !app_nil_r. destruct (j =? i)%nat eqn:E; [apply Nat.eqb_eq in E; subst; rewrite Nat.eqb_refl; reflexivity|].
  rewrite Nat.eqb_sym, E, app_nil_r. reflexivity.
Qed.
Lemma acts_one i a : acts_at i [DAct i a] = [a].
Proof. unfold acts_at. cbn [flat_map]. rewrite Nat.eqb_refl. reflexivity. Qed.
Lemma acts_listen j l i e : acts_at j (l ++ [DListen i e]) = if (j =? i)%nat then acts_at i l ++ acts_at i [DListen i e] else acts_at j l.
Proof. unfold acts_at. rewrite flat_map_app. cbn [flat_map]. rewrite !app_nil_r. destruct (j =? i)%nat eqn:E; [apply Nat.eqb_eq in E; subst|]; reflexivity. Qed.

Lemma good_step b t l tr d t1 i o : all_at_work b -> good b t l tr -> does t d t1 i o -> (from_device d -> one_start (on_wire o)) -> good b t1 (l ++ [d]) (tr ++ [(i, o)]).
Proof.
  intros AW G DO OS. destruct DO as [i a s n o NI [AL MA] AC|i e s rest q o NI ID IT EAR D].
  - assert (TI : exists s0, nth_error b i = Some s0).
    { destruct (nth_error b i) as [s0|] eqn:BI; [exists s0; reflexivity|]. exfalso. apply nth_error_None in BI. assert (X : nth_error t i <> None) by (rewrite NI; discriminate). apply nth_error_Some in X. rewrite (gd_len _ _ _ _ G) in X. lia. }
    destruct TI as (s0 & BI). destruct (gd_each _ _ _ _ G i s0 s BI NI) as (p0 & fc & fe & KP & _ & _).
    destruct a as [e|e|ev|e k].
    + destruct MA as [CU OTH]. apply (good_spread b t l tr (DAct i (AUpdate e)) i s); try assumption.
      * intros j. apply acts_step.
      * intros p1 f1 f2 K1. rewrite acts_one. destruct (st_update s p1 f1 f2 e n o K1 CU AL AC) as (p2 & fc' & fe' & K2 & _ & BL & _). exists p2, fc', fe'. auto.
      * destruct (st_update s p0 fc fe e n o KP CU AL AC) as (p2 & fc' & fe' & _ & NP & _). cbn [st_net]. rewrite NP. reflexivity.
      * right. exact OTH.
      * destruct (st_update s p0 fc fe e n o KP CU AL AC) as (p2 & fc' & fe' & _ & _ & _ & WB). exact WB.
      * intros _ _. exact OTH.
    + destruct (st_refresh s p0 fc fe e n o KP MA AL AC) as (fc' & fe' & _ & NC & NA & _ & SI & WB).
      apply (good_spread b t l tr (DAct i (ARefresh e)) i s); try assumption.
      * intros j. apply acts_step.
      * intros p1 f1 f2 K1. rewrite acts_one. destruct (st_refresh s p1 f1 f2 e n o K1 MA AL AC) as (g1 & g2 & K2 & _ & _ & BL & _). exists (n_p n), g1, g2. auto.
      * destruct (silent_dec s) as [P|P]; [left; exact (SI P)|right]; intros j u NE TJ;
          (destruct (gd_one _ _ _ _ G i j s u ltac:(intros X; apply NE; symmetry; exact X) NI TJ) as [I|I]; [contradiction|exact I]).
      * intros a _. apply WB. apply OS. exact Logic.I.
      * intros I N. exfalso. apply N. unfold silent in *. cbn [st_net]. rewrite NC. exact I.
    + destruct (st_notify s p0 fc fe ev n o KP AL AC) as (p9 & fc' & fe' & _ & NC & NA & _ & SI). apply (good_spread b t l tr (DAct i (ANotify ev)) i s); try assumption.
      * intros j. apply acts_step.
      * intros p1 f1 f2 K1. rewrite acts_one. destruct (st_notify s p1 f1 f2 ev n o K1 AL AC) as (p2 & g1 & g2 & K2 & _ & _ & BL & _). exists p2, g1, g2. auto.
      * left. exact SI.
      * intros a _. rewrite SI. apply bn_nil.
      * intros I N. exfalso. apply N. unfold silent in *. cbn [st_net]. rewrite NC. exact I.
    + destruct (st_send s p0 fc fe e k n o KP AL AC) as (fc' & fe' & _ & PC & NP & _ & SI). apply (good_spread b t l tr (DAct i (ASend e k)) i s); try assumption.
      * intros j. apply acts_step.
      * intros p1 f1 f2 K1. rewrite acts_one. destruct (st_send s p1 f1 f2 e k n o K1 AL AC) as (g1 & g2 & K2 & _ & _ & BL & _). exists p1, g1, g2. auto.
      * cbn [st_net]. rewrite NP. reflexivity.
      * left. exact SI.
      * intros a _. rewrite SI. apply bn_nil.
      * intros I N. exfalso. apply N. unfold silent in *. cbn [st_net]. rewrite PC. exact I.
  - assert (TI : exists s0, nth_error b i = Some s0).
    { destruct (nth_error b i) as [s0|] eqn:BI; [exists s0; reflexivity|]. exfalso. apply nth_error_None in BI. assert (X : nth_error t i <> None) by (rewrite NI; discriminate). apply nth_error_Some in X. rewrite (gd_len _ _ _ _ G) in X. lia. }
    destruct TI as (s0 & BI). destruct (gd_each _ _ _ _ G i s0 s BI NI) as (p0 & fc & fe & KP & _ & _).
    destruct (st_listen s p0 fc fe e rest q o KP ID IT EAR D) as (_ & NA & _ & SI).
    apply (good_spread b t l tr (DListen i e) i s); try assumption.
    + intros j. apply acts_listen.
    + intros p1 f1 f2 K1. destruct (st_listen s p1 f1 f2 e rest q o K1 ID IT EAR D) as (K2 & _ & BL & _). exists p1, f1, f2. auto.
    + left. rewrite SI. reflexivity.
    + intros a _. rewrite SI. apply bn_nil.
    + intros _ N. exfalso. apply N. exact ID.
Qed.

Lemma good_start b : all_at_work b -> good b b [] [].
Proof.
  intros [AW ND]. constructor; [reflexivity| |].
  - intros i s0 s B T. rewrite B in T. injection T as <-. pose proof (proj1 (Forall_forall _ _) AW s0 (nth_error_In _ _ B)) as [BG EAR]. cbv beta in BG, EAR.
    destruct (begins_steady (st_net s0) BG) as [S P]. exists (n_p (st_net s0)), [], []. split; [|split; [reflexivity|]].
    + constructor.
      * apply undisturbed_refl.
      * apply S.
      * exact S.
      * unfold base. destruct (st_net s0). exact P.
      * rewrite (quiet_pending _ (proj2 (sd_quiet _ _ S))), EAR. apply bn_nil.
      * right. split; [reflexivity|]. split; [exact EAR|exact (quiet_pending _ (proj2 (sd_quiet _ _ S)))].
    + unfold balance. cbn [acts_at seen_at app_calls told_events flat_map app cmds_of events_of]. rewrite !app_nil_r. repeat split; reflexivity.
  - intros i j s u _ B _. left. left. pose proof (proj1 (Forall_forall _ _) AW s (nth_error_In _ _ B)) as [[A _] _]. exact (cn_idle _ _ (aw_conn _ _ A)).
Qed.

Theorem shared_all b l t tr : all_at_work b -> shared b l t tr -> good b t l tr.
Proof. intros AW R. induction R as [|l t tr d t1 i o R IH DO OS]; [exact (good_start b AW)|]. exact (good_step b t l tr d t1 i o AW IH DO OS). Qed.
