(** PD: the invariant holds in every run. *)
From Verif Require Import Base ListLemmas Crc SpecCrc CrcProofs CrcBurst Aes AesProofs Rb RbProofs
  Types Sc ScProofs Phy PhyCheck File Pd SpecRx SpecFrame RxProofs RxFwd PdRx PdCore PhyTx PdTx PdReply
  PdStep SpecPd.
From Coq Require Import ZifyBool ZifyNat.
Ltac Zify.zify_post_hook ::= Z.div_mod_to_equations.
Local Opaque aes_ecb_encrypt aes_cbc_encrypt aes_cbc_decrypt mac_of.

Lemma env_typed e : call_typed (Refresh e) -> env_ok e.
Proof. intros (A & B & C). constructor; auto. Qed.

Lemma upd_length {A} i v (l : list A) : length (upd i v l) = length l.
Proof. revert i. induction l as [|x l IH]; intros [|i]; simpl; auto. Qed.

Lemma Forall_upd {A} (P : A -> Prop) v : forall l i, P v -> Forall P l -> Forall P (upd i v l).
Proof.
  induction l as [|x l IH]; intros [|i] Hv H; simpl; auto; inv H; constructor; auto.
Qed.

Lemma set_caps_from_ok l : forall cs, Forall cap_typed l -> Forall cap_typed cs ->
  Forall cap_typed (set_caps_from l cs) /\ length (set_caps_from l cs) = length cs.
Proof.
  induction l as [|c l IH]; intros cs H1 H2; cbn [set_caps_from]; auto.
  inv H1. destruct (c_fc c <=? 0); auto. destruct (c_fc c >=? CAP_SENTINEL); auto.
  destruct (IH (upd (Z.to_nat (c_fc c)) c cs)) as [A B]; auto using Forall_upd.
  split; auto. rewrite B. apply upd_length.
Qed.

Lemma blk_zeros16 : blk (zeros 16).
Proof. split; [reflexivity|apply bytes_zeros]. Qed.

Lemma r8_zeros : r8 (zeros 8).
Proof. split; [reflexivity|apply bytes_zeros]. Qed.

Lemma zero_sc k : blk k -> sc_wf (mkSc k (zeros 16) (zeros 16) (zeros 16) (zeros 16) (zeros 16) (zeros 8) (zeros 8)
       (zeros 8) (zeros 16) (zeros 16)).
Proof.
  intros K. pose proof blk_zeros16. pose proof r8_zeros. unfold sc_wf, sc_keys_ok. simpl. tauto.
Qed.

Lemma setup_inv i n p : info_typed i -> pd_setup i n = Some p -> pd_inv p.
Proof.
  intros (Hc & Hk) H. unfold pd_setup in H. cbv zeta in H.
  assert (C0 : Forall cap_typed (caps pd_zero)).
  { change (Forall cap_typed (repeat (mkCap 0 0 0) 17)). repeat (constructor; [split; unfold byte; simpl; lia|]). constructor. }
  destruct (set_caps_from_ok (i_cap i) (caps pd_zero) Hc C0) as [C1 L1].
  assert (CI : Forall cap_typed implicit_caps).
  { unfold implicit_caps. repeat (constructor; [split; unfold byte; simpl; lia|]). constructor. }
  destruct (set_caps_from_ok implicit_caps _ CI C1) as [C2 L2].
  rewrite L1 in L2. change (length (caps pd_zero)) with 17%nat in L2.
  set (cs := set_caps_from implicit_caps (set_caps_from (i_cap i) (caps pd_zero))) in *. clearbody cs.
  assert (RB : rx_base pd_zero).
  { split; [apply rb_init_wf|]. split; [constructor|]. split; [reflexivity|apply bytes_zeros]. }
  assert (G : forall q, pd_mode (fl q) = true -> skip_seq (fl q) = false -> sc_capable (fl q) = true -> sc_disabled (fl q) = false ->
     use_scbkd (fl q) = false -> seqn q = -1 -> caps q = cs -> evq q = [] -> sc_wf (sc q) ->
     pbuf q = zeros 256 -> rb q = rb_init -> eph q = EphNone -> reply_id q = 0 -> plen q = 0 -> pblen q = 0 -> pd_inv q).
  { intros q A1 A2 A3 A4 A5 A6 A7 A8 A9 A10 A11 A12 A13 A14 A15. constructor; [constructor; auto; try congruence| |].
    - unfold rx_base. rewrite A10, A11. exact RB.
    - lia.
    - apply mk_typed; rewrite ?A13, ?A12, ?A7, ?A10; auto; [unfold byte; lia|exact I|apply bytes_zeros].
    - rewrite A8. constructor.
    - left. lia.
    - intros X. lia. }
  destruct (i_scbk i) as [k|].
  - injection H as <-. apply G; try reflexivity. apply zero_sc. exact Hk.
  - destruct (enforce _); [discriminate|]. injection H as <-. apply G; try reflexivity. apply zero_sc. apply blk_zeros16.
Qed.

Lemma sync_same p q : pblen q = pblen p -> pbuf q = pbuf p -> rb q = rb p -> fl q = fl p -> rx_sync p -> rx_sync q.
Proof.
  intros A B C D S. unfold rx_sync, pending, mark_len in *. rewrite A, B, C, D. exact S.
Qed.

Lemma do_inv c p q o : call_typed c -> pd_inv p -> pd_do c p = Ok (q, o) -> pd_inv q.
Proof.
  intros T I H. destruct c as [e|ev| |l|b|]; simpl in H.
  - eapply refresh_inv; eauto using env_typed.
  - inv H. unfold pd_notify_event. dif; auto. destruct I as [[A B C D E F G H I] J K].
    constructor; [constructor; auto|exact J|exact K]. simpl. apply Forall_app. split; auto.
  - inv H. destruct I as [[A B C D E F G H I] J K]. constructor; [constructor; auto|exact J|exact K]. constructor.
  - inv H. destruct I as [[A B C D E F G H I] J K]. destruct E as (E1 & E2 & E3 & E4 & E5 & E6).
    destruct (set_caps_from_ok l (caps p) T E3) as [X Y].
    constructor; [constructor; auto|exact J|exact K]; simpl; try lia. apply mk_typed; auto.
  - inv H. destruct I as [[A B C D E F G H I] J K]. constructor; [constructor; auto|exact J|exact K].
  - inv H. destruct I as [[A B C D E F G H I] J K]. constructor; [constructor; auto|exact J|exact K].
Qed.

Lemma runs_inv i n h p : pd_runs i n h p -> pd_inv p.
Proof. intros R. induction R; eauto using setup_inv, do_inv. Qed.

Lemma reach_inv p : pd_reach p -> pd_inv p.
Proof. intros (i & n & h & R). eauto using runs_inv. Qed.
