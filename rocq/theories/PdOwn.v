(** PD: which base key a session stands on, and when a packet of a session is executed. *)
From Verif Require Import Base ListLemmas Crc SpecCrc CrcProofs CrcBurst Aes AesProofs Rb RbProofs
  Types Sc ScProofs Phy PhyCheck File Pd SpecRx SpecFrame SpecSec SpecCmd SpecApp MacProofs RxProofs RxFwd PdRx PdCore PhyTx PdTx PdReply
  PdStep PdWire PdFwd SpecPd PdRun PdSpeak PdPlain PdSec PdRefuse PdFacts PdKinds PdCase PdApp PdTrace PdHist PdHist2.
From Coq Require Import ZifyBool ZifyNat.
Ltac Zify.zify_post_hook ::= Z.div_mod_to_equations.
Local Opaque aes_ecb_encrypt aes_cbc_encrypt aes_cbc_decrypt mac_of RB_SIZE osdp_mac enc1 cap_entries.

(* k is a session key made from a base key that the device held at some time in h *)
Definition own_key (h : list entry) (k : list Z) : Prop :=
  exists en rnd, In en h /\ k = enc1 (scbk (sc (en_pd en))) (session_block 1 130 rnd).
(* no session key has been made in h *)
Definition unkeyed (h : list entry) : Prop := Forall (fun en => s_enc (sc (en_pd en)) = zeros 16) h.
(* the session was opened in h by a cryptogram under k: in the call en0, by sixteen bytes received in en *)
Definition opened_by (h : list entry) : Prop :=
  exists h2 en0 h1 en x k r, h = h2 ++ en0 :: h1 /\ In en (en0 :: h1) /\ scrypt_in en x /\ x = enc1 k r /\ zlen r <= 16 /\
    (own_key (en0 :: h1) k \/ (k = zeros 16 /\ unkeyed (en0 :: h1))).

Lemma own_more a h k : own_key h k -> own_key (a :: h) k.
Proof. intros (en & r & A & B). exists en, r. split; auto. right. auto. Qed.
Lemma opened_more a h : opened_by h -> opened_by (a :: h).
Proof. intros (h2 & en0 & h1 & X). exists (a :: h2), en0, h1. destruct X as (en & x & k & r & -> & X). exists en, x, k, r. auto. Qed.

Definition key_inv (h : list entry) (p : pd) : Prop :=
  install (fl p) = false /\ (own_key h (s_enc (sc p)) \/ (s_enc (sc p) = zeros 16 /\ unkeyed h)) /\ (sc_active (fl p) = true -> opened_by h).

Lemma key_runs i n h p k0 : i_scbk i = Some k0 -> install (i_flags i) = false -> pd_runs i n h p -> key_inv h p.
Proof.
  intros SK NI R. induction R as [p T S|h p c q o R IH T D].
  - destruct (setup_fresh i n p S) as ((_ & _ & _ & A & _) & _ & _ & B & (C & _)). destruct (B k0 SK) as (_ & B2).
    split; [congruence|]. split; [right; split; [auto|constructor]|congruence].
  - destruct IH as (I1 & I2 & I3). destruct (other_call _ _ _ _ D) as [(e & ->)|(O & _)].
    + pose proof (runs_inv i n h p R) as PI.
      destruct (dflt_step e p q o PI (run_step e i n h p q o R T D) I1) as (N1 & N2).
      assert (K : own_key (mkEntry p (Refresh e) o :: h) (s_enc (sc q)) \/ (s_enc (sc q) = zeros 16 /\ unkeyed (mkEntry p (Refresh e) o :: h))).
      { destruct N2 as [E|(rnd & E & _)].
        - destruct I2 as [I2|(I2 & U)]; [left; rewrite E; apply own_more; auto|right; split; [congruence|constructor; auto]].
        - left. exists (mkEntry p (Refresh e) o), rnd. split; [left; auto|exact E]. }
      split; [auto|]. split; [exact K|]. intros A.
      destruct (scr_step e i n h p q o R T D (scr_runs i n h p R)) as (_ & X). destruct (X A) as [Y|(C & en & IN & SI)].
      * apply opened_more, I3. unfold session_open in Y. apply Bool.andb_true_iff in Y. apply Y.
      * exists [], (mkEntry p (Refresh e) o), h, en, (cp_crypt (sc q)), (s_enc (sc q)), (firstn 8 (pd_random (sc q)) ++ firstn 8 (cp_random (sc q))).
        split; [reflexivity|]. split; [auto|]. split; [auto|]. split; [auto|]. split; [|exact K].
        unfold zlen. rewrite app_length, !firstn_length. lia.
    + destruct (other_fields _ _ O) as ((_ & _ & O3 & O4 & _) & _). unfold key_inv. rewrite O3, O4. split; [auto|]. split.
      * destruct I2 as [I2|(I2 & U)]; [left; apply own_more; auto|right; split; [auto|constructor; auto]].
      * intros A. apply opened_more. auto.
Qed.

(** * C50 *)
Lemma session_acts e p f rest q o : env_ok e -> pd_inv p -> next_frame e p f rest -> f_intact f -> f_mine (address p) f ->
  f_seq f <> 0 -> f_scb f = true -> 7 <= zlen f -> 21 <= f_sctype f <= 24 -> session_open e p = true ->
  pd_refresh e p = Ok (q, o) -> ~ only_tx o \/ app_view q <> app_view p ->
  f_mac f = firstn 4 (osdp_mac (s_mac1 (sc p)) (s_mac2 (sc p)) (r_mac (sc p)) (f_covered f)) /\ seq_ok (seqn p) (f_seq f).
Proof.
  intros K I N V M S0 SB L TY SO H AC.
  assert (SE : seq_ok (seqn p) (f_seq f)).
  { assert (X : seq_ok (seqn p) (f_seq f) \/ ~ seq_ok (seqn p) (f_seq f)) by (unfold seq_ok; lia). destruct X as [X|X]; auto. exfalso.
    destruct (refused_sequence e p f rest K I N V M X) as (A & _). destruct (A q o H) as (A1 & A2 & _). destruct AC; contradiction. }
  split; auto. destruct (list_eq_dec Z.eq_dec (f_mac f) (mac_wanted (sc p) f)) as [E|E]; [exact E|exfalso].
  destruct (bad_mac e p f rest K I N V M SE S0 ltac:(rewrite session_open_eq; exact SO) SB L TY E) as (A & _).
  destruct (A q o H) as (A1 & A2 & _). destruct AC; contradiction.
Qed.
