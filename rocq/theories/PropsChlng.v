(** For which challenges a device makes session keys, and with which random number. *)
From Verif Require Import Base ListLemmas Crc SpecCrc Aes Rb RbProofs Types Sc Phy File Pd SpecRx SpecFrame SpecSec SpecReply PdReply PdStep
  SpecPd SpecApp PdRun PdRefuse PdKinds PdTrace PdHist2 ExPd PropsPd2 SpecHeard HeardPd ChlngPd.
From Coq Require Import ZifyBool ZifyNat.
Local Opaque RB_SIZE.

(** C75 (part that holds).  A refresh of a device leaves the session keys and its own random number as they are, or the
    number becomes the one that the generator delivers in this very refresh and the encryption key is made from the base key (or the
    default key) and the eight bytes of a CHLNG that this device received, now or earlier. *)
Theorem C75_keys_partial : forall i n h p e q o,
  pd_runs i n h p -> call_typed (Refresh e) -> pd_refresh e p = Ok (q, o) ->
  (s_enc (sc q) = s_enc (sc p) /\ s_mac1 (sc q) = s_mac1 (sc p) /\ s_mac2 (sc q) = s_mac2 (sc p) /\ pd_random (sc q) = pd_random (sc p)) \/
  (pd_random (sc q) = firstn 8 (e_rand e ++ repeat 0 8) /\
   exists en e1 x base, In en (mkEntry p (Refresh e) o :: h) /\ en_call en = Refresh e1 /\ heard_command e1 (en_pd en) (118 :: x) /\ zlen x = 8 /\
     (base = scbk (sc p) \/ base = scbk_default) /\ s_enc (sc q) = enc1 base (session_block 1 130 x)).
Proof.
  intros i n h p e q o R T H. destruct (chl_step e i n h p q o R T H (chl_runs i n h p R)) as (_ & [X|(A & (en & IN & e1 & C & D & E) & base & B1 & B2)]).
  - left. unfold sess_of in X. injection X as X1 X2 X3 X4. exact (conj X1 (conj X2 (conj X3 X4))).
  - right. split; [exact A|]. exists en, e1, (cp_random (sc q)), base. exact (conj IN (conj C (conj D (conj E (conj B1 B2))))).
Qed.
Print Assumptions C75_keys_partial.

(* a generator that delivers something else *)
Definition ex_env_rn (r : list Z) (now : Z) (rx : list (list Z)) : env :=
  mkEnv now rx 1000 r (fun _ c => (0, c)) true (fun _ n => (0, n)) (fun _ _ => None) (fun d _ => zlen d) 0.
Lemma ex_env_rn_typed r now rx : bytesb r = true -> forallb bytesb rx = true -> call_typed (Refresh (ex_env_rn r now rx)).
Proof.
  intros B H. split; [|split; [apply bytesb_ok; exact B|intros n x Hx; exact Hx]].
  apply Forall_forall. intros x Hx. rewrite forallb_forall in H. apply bytesb_ok; auto.
Qed.
Definition ex_challenged : pd := state_of (run_from (ex_info true (Some ex_key)) 4 (ex_start ++ [Refresh (ex_env 1000 [ex_chlng])])).
Lemma ex_challenged_reach : pd_reach ex_challenged.
Proof.
  apply run_reach; [apply ex_info_typed; exact ex_key_ok| |vm_compute; reflexivity].
  repeat apply Forall_cons; try apply Forall_nil; first [exact I|ex_typed].
Qed.

Example C75_example :
  pd_random (sc ex_pd_enf) = repeat 0 8 /\ pd_random (sc ex_challenged) = [11; 12; 13; 14; 15; 16; 17; 18] /\
  s_enc (sc ex_pd_enf) = repeat 0 16 /\ s_enc (sc ex_challenged) = enc1 ex_key (session_block 1 130 (cp_random (sc ex_challenged))) /\
  sub ex_chlng 8 9 = 118 :: cp_random (sc ex_challenged).
Proof. vm_compute. auto 10. Qed.

(** C75 is false: the packet that makes a device draw a new number and answer need not be a challenge.  After a challenge, a
    packet with number 0 whose security block is too short draws another CCRYPT from the device; the number that the panel
    has been sent is lost. *)
Theorem C75_unasked_refuted : exists p e q o,
  pd_reach p /\ call_typed (Refresh e) /\ e_rx e = [short_block 101 0] /\ pd_refresh e p = Ok (q, o) /\
  pd_random (sc p) = [11; 12; 13; 14; 15; 16; 17; 18] /\ pd_random (sc q) = [31; 32; 33; 34; 35; 36; 37; 38] /\ length o = 1%nat.
Proof.
  exists ex_challenged, (ex_env_rn [31; 32; 33; 34; 35; 36; 37; 38] 1200 [short_block 101 0]). do 2 eexists.
  split; [exact ex_challenged_reach|]. split; [apply ex_env_rn_typed; vm_compute; reflexivity|]. split; [reflexivity|]. split; [ex_run|]. vm_compute. auto.
Qed.
Print Assumptions C75_unasked_refuted.
