(** Packets that arrive in pieces. *)
From Verif Require Import Base ListLemmas Crc SpecCrc CrcProofs CrcBurst Aes AesProofs Rb RbProofs
  Types Sc ScProofs Phy PhyCheck File Pd SpecRx SpecFrame SpecPd SpecLink RxProofs RxFwd PdRx.
From Coq Require Import ZifyBool ZifyNat.
Ltac Zify.zify_post_hook ::= Z.div_mod_to_equations.
Local Opaque aes_ecb_encrypt aes_cbc_encrypt aes_cbc_decrypt mac_of RB_SIZE.

(* the header decides as soon as it is there *)
Lemma check_header_pre q f more rest : rx_base q -> 5 <= pblen q <= 256 ->
  pending q ++ more = (if has_mark (fl q) then [255] else []) ++ f ++ rest ->
  f_shape (negb (pd_mode (fl q))) f ->
  check_header_bytes q = inr (zlen f + mark_len q).
Proof.
  intros (_ & _ & L & B) R P (F0 & F1 & F2 & F3).
  assert (G : forall i, 0 <= i < 4 -> getb (pbuf q) (mark_len q + i) = nth (Z.to_nat i) f 0).
  { intros i Hi. unfold getb.
    assert (M : mark_len q = if has_mark (fl q) then 1 else 0) by reflexivity.
    rewrite <- (nth_firstn (Z.to_nat (pblen q)) (Z.to_nat (mark_len q + i)) (pbuf q)) by (destruct (has_mark (fl q)); lia).
    rewrite <- (app_nth1 _ (rb_contents (rb q) ++ more)) by (rewrite firstn_length; destruct (has_mark (fl q)); lia).
    rewrite app_assoc. fold (pending q). rewrite P. rewrite M. destruct (has_mark (fl q)).
    - rewrite app_nth2 by (simpl; lia). simpl length. rewrite app_nth1 by (unfold zlen in *; lia). f_equal. lia.
    - simpl app. rewrite app_nth1 by (unfold zlen in *; lia). reflexivity. }
  unfold check_header_bytes. cbv zeta. rewrite !G by lia.
  change (Z.to_nat 0) with 0%nat. change (Z.to_nat 1) with 1%nat. change (Z.to_nat 2) with 2%nat. change (Z.to_nat 3) with 3%nat.
  rewrite F0. change (83 =? PKT_SOM) with true. cbn [negb].
  assert (T : Z.testbit (nth 1 f 0) 7 = negb (pd_mode (fl q))).
  { unfold f_reply in F1. rewrite <- F1. rewrite testbit_div by lia. change (2 ^ 7) with 128.
    assert (Bq : byte (nth 1 f 0)).
    { change 1%nat with (Z.to_nat 1). rewrite <- (G 1) by lia. apply nth_byte; auto. }
    unfold byte in Bq. lia. }
  rewrite T. unfold f_len in F2. unfold PBUF_SIZE.
  assert (((negb (pd_mode (fl q)) && negb (negb (pd_mode (fl q)))) || (pd_mode (fl q) && negb (pd_mode (fl q)))) = false) as ->
    by (destruct (pd_mode (fl q)); reflexivity).
  assert (((nth 3 f 0 * 256 + nth 2 f 0 >? 256) || (nth 3 f 0 * 256 + nth 2 f 0 <? 6)) = false) as -> by lia.
  f_equal. lia.
Qed.

(* the beginning of a frame, or nothing of it yet *)
Lemma partial_step e p noise mk s r f : rx_wf p -> rx_sync p -> Forall bytes (e_rx e) ->
  arrived e p = noise ++ mk ++ s -> ~ In 83 noise -> mk = [] \/ mk = [255] -> f = s ++ r -> r <> [] ->
  f_shape (negb (pd_mode (fl p))) f -> zlen f <= 255 ->
  exists q k, check_packet e p = Ok (q, k) /\ no_frame e p q k /\ rx_sync q /\
    ((s = [] /\ k = KNoData /\ pending q = []) \/
     (s <> [] /\ k = KWait /\ exists mk', (mk' = [] \/ mk' = [255]) /\ pending q = mk' ++ s)).
Proof.
  intros W Y He A N M Ef Nr F L.
  destruct (shape_som _ _ F) as (ft & Eft).
  assert (NM : ~ In 83 mk) by (destruct M; subst mk; simpl; intuition lia).
  assert (LR : 0 < zlen r) by (destruct r; [congruence|rewrite zlen_cons; pose proof (zlen_nonneg r); lia]).
  assert (LF : zlen f = zlen s + zlen r) by (rewrite Ef; apply zlen_app).
  assert (SS : s = [] \/ exists t, s = 83 :: t /\ ft = t ++ r).
  { destruct s as [|x t]; [left; reflexivity|right; exists t]. rewrite Ef in Eft. cbn [app] in Eft. injection Eft as -> E. auto. }
  assert (K0 : forall noise' q, rx_sync q -> 0 < pblen q -> arrived e p = noise' ++ pending q -> ~ In 83 noise' ->
     s <> [] /\ pending q = (if has_mark (fl q) then [255] else []) ++ s).
  { intros noise' q S P E N'. destruct (S P) as (S1 & t & S2). rewrite A, S2 in E. destruct SS as [-> | (t1 & -> & _)].
    - exfalso. rewrite app_nil_r in E. assert (IN : In 83 (noise ++ mk)) by (rewrite E; apply in_app_iff; right; apply in_app_iff; right; left; reflexivity).
      apply in_app_iff in IN as [IN|IN]; contradiction.
    - split; [discriminate|]. apply first_som in E as [E _]; auto using mark_no_som. rewrite S2. congruence. }
  assert (K : forall noise' q, rxcore q = rxcore p -> rx_sync q -> 0 < pblen q -> arrived e p = noise' ++ pending q -> ~ In 83 noise' ->
     pending q ++ r = (if has_mark (fl q) then [255] else []) ++ f ++ [] /\ f_shape (negb (pd_mode (fl q))) f).
  { intros noise' q C S P E N'. destruct (K0 noise' q S P E N') as (_ & K1).
    split; [|rewrite (rxcore_pd_mode p q C); exact F]. rewrite K1, Ef, app_nil_r, app_assoc. reflexivity. }
  destruct (check_packet_cases e p W He) as
    [(X & q & C & P & HM & H & Pq & (noise' & E & LE & N' & _) & S & P5 & Bq)|[(q & k & X & G & S & HK)|(q & X & G & S & noise' & E & N' & _)]].
  - exfalso. destruct (K0 noise' q (S Y) ltac:(lia) E N') as (_ & K1). rewrite K1, HM, zlen_app in LE. change (zlen [255]) with 1 in LE. lia.
  - exists q, k. split; [exact X|]. split; [exact G|]. split; [exact (S Y)|]. destruct G as (C & W2 & T & (noise' & E & N' & _) & G).
    assert (W3 : rx_base q) by apply W2. destruct k; try contradiction.
    + exfalso. destruct (K noise' q C (S Y) ltac:(lia) E N') as [K1 K2].
      rewrite (check_header_pre q f r [] W3 ltac:(lia) K1 K2) in HK. specialize (HK (or_introl eq_refl)). discriminate.
    + right. destruct G as (G1 & G2 & G3). destruct (K0 noise' q (S Y) G1 E N') as (K1 & K2). split; [exact K1|]. split; [reflexivity|].
      exists (if has_mark (fl q) then [255] else []). split; [destruct (has_mark (fl q)); auto|exact K2].
    + exfalso. destruct (K noise' q C (S Y) ltac:(lia) E N') as [K1 K2].
      rewrite (check_header_pre q f r [] W3 ltac:(lia) K1 K2) in HK. specialize (HK (or_intror eq_refl)). discriminate.
    + left. destruct G as [G1 _]. split; [|auto]. destruct SS as [SS | (t & SS & _)]; [exact SS|]. exfalso. rewrite G1, app_nil_r in E. rewrite <- E, A, SS in N'.
      apply N'. apply in_app_iff. right. apply in_app_iff. right. left. reflexivity.
  - exfalso. pose proof G as (C & W2 & T & E1 & E2 & _ & G1 & G2).
    destruct (K noise' q C (S Y) ltac:(lia) E N') as [K1 K2]. destruct (K0 noise' q (S Y) ltac:(lia) E N') as (_ & K3).
    assert (H : zlen f + mark_len q = plen q).
    { destruct W2 as [B [F1|(_ & F2 & F3)]]; [lia|]. rewrite (check_header_pre q f r [] B ltac:(lia) K1 K2) in F3. congruence. }
    assert (PL : pblen q <= zlen (pending q)).
    { unfold pending. rewrite zlen_app. unfold zlen at 1. rewrite firstn_length. destruct W2 as ((_ & _ & LB & _) & _). rewrite LB. pose proof (zlen_nonneg (rb_contents (rb q))). lia. }
    rewrite K3, zlen_app in PL. assert (ML : zlen (if has_mark (fl q) then [255] else []) = mark_len q) by (unfold mark_len; destruct (has_mark (fl q)); reflexivity). lia.
Qed.

Lemma prefix_cases (a t n mk f rest : list Z) : a ++ t = n ++ mk ++ f ++ rest -> (length mk <= 1)%nat -> (length a < length (n ++ mk ++ f))%nat ->
  (exists n2, n = a ++ n2 /\ t = n2 ++ mk ++ f ++ rest) \/
  (exists s r, f = s ++ r /\ r <> [] /\ a = n ++ mk ++ s /\ t = r ++ rest).
Proof.
  intros E M L. destruct (app_eq_app a t n (mk ++ f ++ rest) E) as (l & [(A & B) | (A & B)]).
  - (* a = n ++ l, mk ++ f ++ rest = l ++ t *)
    destruct l as [|x l]; [left; exists []; rewrite A, app_nil_r in *; split; [rewrite app_nil_r; reflexivity|symmetry; exact B]|]. right.
    destruct mk as [|y mk]; [|destruct mk; [|simpl in M; lia]].
    + cbn [app] in *. destruct (app_eq_app f rest (x :: l) t B) as (m & [(C & D) | (C & D)]).
      * exists (x :: l), m. split; [exact C|]. split; [|split; [exact A|exact D]]. intros ->. rewrite app_nil_r in C. rewrite A, C, !app_length in L. lia.
      * exfalso. rewrite A, C, !app_length in L. lia.
    + cbn [app] in *. injection B as <- B. destruct (app_eq_app f rest l t B) as (m & [(C & D) | (C & D)]).
      * exists l, m. split; [exact C|]. split; [|split; [exact A|exact D]]. intros ->. rewrite app_nil_r in C. rewrite A, C in L. rewrite !app_length in L. simpl in L. lia.
      * exfalso. rewrite A, C in L. rewrite !app_length in L. simpl in L. rewrite app_length in L. lia.
  - left. exists l. auto.
Qed.

(* the bytes held and the bytes to come make up noise, mark, frame and more; the frame is not complete *)
Definition ahead (p : pd) (t f rest : list Z) : Prop :=
  exists noise mk, pending p ++ t = noise ++ mk ++ f ++ rest /\ ~ In 83 noise /\ (mk = [] \/ mk = [255]).

Lemma arrived_all e p : fits_ring e -> rb_contents (rb p) = [] -> arrived e p = pending p ++ heard (e_rx e).
Proof. intros F R. unfold arrived. rewrite R. unfold fits_ring in F. rewrite firstn_all2; [reflexivity|]. simpl length. lia. Qed.

(* one call that does not complete the frame *)
Lemma ahead_step e p t f rest : rx_wf p -> rx_sync p -> rb_contents (rb p) = [] -> chunk_ok e -> f_shape (negb (pd_mode (fl p))) f -> zlen f <= 255 ->
  ahead p (heard (e_rx e) ++ t) f rest -> (length rest < length t)%nat ->
  exists q k, check_packet e p = Ok (q, k) /\ (k = KWait \/ k = KNoData) /\ no_frame e p q k /\ rx_sync q /\ rb_contents (rb q) = [] /\ ahead q t f rest /\ (k = KNoData -> pblen q = 0).
Proof.
  intros W Y R (B & FR) F L (noise & mk & A & N & M) LT.
  assert (AR : arrived e p = pending p ++ heard (e_rx e)) by (apply arrived_all; auto). rewrite app_assoc, <- AR in A.
  assert (LM : (length mk <= 1)%nat) by (destruct M; subst mk; simpl; lia).
  assert (LA : (length (arrived e p) < length (noise ++ mk ++ f))%nat).
  { apply (f_equal (@length Z)) in A. rewrite !app_length in A. rewrite !app_length. lia. }
  destruct (prefix_cases _ _ _ _ _ _ A LM LA) as [(n2 & A1 & A2) | (s & r & A1 & A2 & A3 & A4)].
  - assert (N1 : ~ In 83 (arrived e p)) by (intros X; apply N; rewrite A1; apply in_app_iff; auto).
    assert (N2 : ~ In 83 n2) by (intros X; apply N; rewrite A1; apply in_app_iff; auto).
    assert (NF : f <> []) by (destruct F as (_ & _ & _ & F); intros ->; change (zlen []) with 0 in F; lia).
    destruct (partial_step e p (arrived e p) [] [] f f W Y B) as (q & k & Q1 & Q2 & Q3 & Q4); auto; [rewrite !app_nil_r; reflexivity|].
    destruct Q4 as [(_ & -> & Q5) | (Q4 & _)]; [|congruence]. exists q, KNoData. split; [exact Q1|]. split; [auto|]. split; [exact Q2|]. split; [exact Q3|].
    assert (RB0 : rb_contents (rb q) = []) by (unfold pending in Q5; apply app_eq_nil in Q5; apply Q5).
    split; [exact RB0|]. split.
    + exists n2, mk. rewrite Q5. auto.
    + intros _. destruct (Z_lt_le_dec 0 (pblen q)) as [X|X]; [destruct (Q3 X) as (_ & t1 & Y1); rewrite Q5 in Y1; destruct (has_mark (fl q)); discriminate|].
      destruct Q2 as (_ & (_ & [WF|WF]) & _); lia.
  - destruct (partial_step e p noise mk s r f W Y B A3 N M A1 A2 F L) as (q & k & Q1 & Q2 & Q3 & Q4). exists q, k. split; [exact Q1|].
    destruct Q4 as [(-> & -> & Q5) | (Q4 & -> & mk' & Q5 & Q6)].
    + split; [auto|]. split; [exact Q2|]. split; [exact Q3|].
      assert (RB0 : rb_contents (rb q) = []) by (unfold pending in Q5; apply app_eq_nil in Q5; apply Q5).
      split; [exact RB0|]. split.
      * exists [], []. rewrite Q5, A4, A1. simpl. auto.
      * intros _. destruct (Z_lt_le_dec 0 (pblen q)) as [X|X]; [destruct (Q3 X) as (_ & t1 & Y1); rewrite Q5 in Y1; destruct (has_mark (fl q)); discriminate|].
        destruct Q2 as (_ & (_ & [WF|WF]) & _); lia.
    + split; [auto|]. split; [exact Q2|]. split; [exact Q3|]. destruct Q2 as (_ & _ & _ & _ & _ & Q7 & _). split; [exact Q7|]. split; [|discriminate].
      exists [], mk'. rewrite Q6, A4, A1, <- !app_assoc. simpl. auto.
Qed.

(* any number of calls *)
Lemma ahead_wait es : forall p t f rest, rx_wf p -> rx_sync p -> rb_contents (rb p) = [] -> Forall chunk_ok es -> f_shape (negb (pd_mode (fl p))) f -> zlen f <= 255 ->
  ahead p (stream es ++ t) f rest -> (length rest < length t)%nat ->
  exists q, waited p es q /\ rxcore q = rxcore p /\ rx_wf q /\ rx_sync q /\ rb_contents (rb q) = [] /\ ahead q t f rest.
Proof.
  induction es as [|e es IH]; intros p t f rest W Y R C F L A LT.
  - exists p. split; [constructor|]. auto.
  - inversion C as [|? ? C1 C2]; subst. unfold stream in A. cbn [map concat] in A. fold (stream es) in A. rewrite <- app_assoc in A.
    destruct (ahead_step e p (stream es ++ t) f rest W Y R C1 F L A) as (q & k & Q1 & Q2 & Q3 & Q4 & Q5 & Q6 & _); [rewrite app_length; lia|].
    pose proof Q3 as (QC & QW & _). assert (F2 : f_shape (negb (pd_mode (fl q))) f) by (rewrite (rxcore_pd_mode p q QC); exact F).
    destruct (IH q t f rest QW Q4 Q5 C2 F2 L Q6 LT) as (r & R1 & R2 & R3). exists r. split; [exact (wt_cons p e q k es r Q1 Q2 R1)|]. split; [congruence|exact R3].
Qed.

(* the call that completes the frame *)
Lemma ahead_last e p f rest : rx_wf p -> rx_sync p -> rb_contents (rb p) = [] -> chunk_ok e -> f_shape (negb (pd_mode (fl p))) f -> zlen f <= 255 ->
  ahead p (heard (e_rx e)) f rest ->
  exists noise mk, arrived e p = noise ++ mk ++ f ++ rest /\ ~ In 83 noise /\ (mk = [] \/ mk = [255]).
Proof. intros W Y R (B & FR) F L (noise & mk & A & N & M). exists noise, mk. rewrite (arrived_all e p FR R). auto. Qed.
