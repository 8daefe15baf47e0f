(** Which random number a panel uses in a handshake. *)
From Verif Require Import Base ListLemmas Crc SpecCrc Aes Rb RbProofs Types Sc Phy File Pd Cp CpCtx SpecRx SpecFrame SpecSec SpecSession SpecReply SpecAuth PdReply PdStep
  SpecPd SpecCp SpecCpRun CpStep CpInv CpSum CpHist ExPd ExCp DrawnCp.
From Coq Require Import ZifyBool ZifyNat.
Local Opaque RB_SIZE.

(** C74 (part that holds).  Whatever an entry transmits while it challenges the device is the challenge, or a first part of
    it if the channel took no more, and its eight bytes are those that the random number generator delivered in the refresh
    in which this challenge state was entered; the entry was in the handshake ever since. *)
Theorem C74_challenge_partial : forall k n i h p e q o d,
  cp_runs k n i h p -> cp_call_typed (Update e) -> cp_do (Update e) p = Ok (q, o) -> state p = SChlng -> In (OTx d) o ->
  exists h2 en h1 e0 m, h = h2 ++ en :: h1 /\ ce_call en = Update e0 /\ state (ce_pd en) <> SChlng /\
    Forall (fun x => state (ce_pd x) = SChlng \/ state (ce_pd x) = SScrypt) h2 /\
    d = firstn m (255 :: handshake_frame (address p mod 128) (seq_next (seqn p)) 17 (if use_scbkd (fl p) then 0 else 1)
                           (118 :: firstn 8 (e_rand e0 ++ repeat 0 8))).
Proof.
  intros k n i h p e q o d R T D S IN. destruct (cp_do_update e p q o D) as (rc & U).
  destruct (chlng_upd e p q rc o d (cp_runs_inv _ _ _ _ _ R) T U IN S) as (m & W).
  destruct (drawn_runs k n i h p R) as (h2 & en & h1 & e0 & H1 & H2 & H3 & H4 & H5). { rewrite S. reflexivity. }
  exists h2, en, h1, e0, m. split; [exact H1|]. split; [exact H2|]. split; [exact H3|]. split.
  - eapply Forall_impl; [|exact H5]. intros x (X & _). destruct (state (ce_pd x)); try discriminate; auto.
  - rewrite H4 in W. exact W.
Qed.
Print Assumptions C74_challenge_partial.

(** The number with which the cryptogram of the device is judged and the session keys are made (see C08) is that one too. *)
Theorem C74_kept_partial : forall k n i h p,
  cp_runs k n i h p -> state p = SScrypt ->
  exists h2 en h1 e0, h = h2 ++ en :: h1 /\ ce_call en = Update e0 /\ state (ce_pd en) <> SChlng /\
    cp_random (sc p) = firstn 8 (e_rand e0 ++ repeat 0 8) /\
    Forall (fun x => (state (ce_pd x) = SChlng \/ state (ce_pd x) = SScrypt) /\ cp_random (sc (ce_pd x)) = cp_random (sc p)) h2.
Proof.
  intros k n i h p R S.
  destruct (drawn_runs k n i h p R) as (h2 & en & h1 & e0 & H1 & H2 & H3 & H4 & H5). { rewrite S. reflexivity. }
  exists h2, en, h1, e0. split; [exact H1|]. split; [exact H2|]. split; [exact H3|]. split; [exact H4|].
  eapply Forall_impl; [|exact H5]. intros x (X & Y). split; [|congruence]. destruct (state (ce_pd x)); try discriminate; auto.
Qed.
Print Assumptions C74_kept_partial.

(* a generator that delivers something else *)
Definition ex_env_rnd (r : list Z) (now : Z) (rx : list (list Z)) : env :=
  mkEnv now rx 1000 r (fun _ c => (0, c)) true (fun _ n => (0, n)) (fun _ _ => None) (fun d _ => zlen d) 0.
Lemma ex_env_rnd_typed r now rx : bytesb r = true -> forallb bytesb rx = true -> env_typed (ex_env_rnd r now rx).
Proof.
  intros B H. split; [|split; [apply bytesb_ok; exact B|intros n off d X; discriminate]].
  apply Forall_forall. intros x Hx. rewrite forallb_forall in H. apply bytesb_ok; auto.
Qed.
Definition exch_rnd (r : list Z) (t : Z) (x : list (list Z)) : list cp_call :=
  [Update (ex_env_rnd r t []); Update (ex_env_rnd r t []); Update (ex_env_rnd r (t + 10) x)].
Definition ex_open : pd := state_of (crun_from (ex_cinfo false false false false (Some ex_key)) 4 (exch 1000 [reply 0 ex_pdid] ++ exch 1100 [reply 1 ex_pdcap])).

Example C74_example :
  let r := crun ex_open (exch_rnd [31; 32; 33; 34; 35; 36; 37; 38] 1200 [ex_ccrypt 2 ex_key 1]) in
  state ex_open = SChlng /\ state (state_of r) = SScrypt /\
  outs_of r = [OTx (255 :: handshake_frame 101 2 17 1 [118; 11; 12; 13; 14; 15; 16; 17; 18])].
Proof. vm_compute. auto. Qed.

(** C74 is false: after a failed challenge the device is challenged again with the default key, and this second handshake
    uses the number of the first one although the generator has others by now. *)
Theorem C74_fresh_refuted : exists p cs q o a n1 n2 b1 b2 rnd,
  cp_reach p /\ Forall cp_call_typed cs /\ crun p cs = Ok (q, o) /\
  cs = exch_rnd [31; 32; 33; 34; 35; 36; 37; 38] 1200 [reply 2 [65; 5]] ++ exch_rnd [41; 42; 43; 44; 45; 46; 47; 48] 1300 [] /\
  b1 <> b2 /\
  o = [OTx (255 :: handshake_frame a n1 17 b1 (118 :: rnd)); OTx (255 :: handshake_frame a n2 17 b2 (118 :: rnd))].
Proof.
  exists ex_open. do 3 eexists. exists 101, 2, 3, 1, 0, [11; 12; 13; 14; 15; 16; 17; 18].
  split; [|split; [|split; [|split; [reflexivity|split; [discriminate|]]]]].
  - unfold ex_open. ex_crun.
  - repeat apply Forall_cons; try apply Forall_nil; apply ex_env_rnd_typed; vm_compute; reflexivity.
  - apply (ok_eq (crun _ _)); vm_compute; reflexivity.
  - vm_compute. reflexivity.
Qed.
Print Assumptions C74_fresh_refuted.
