(** Concrete peripheral devices and packets, used in the examples beside the theorems. *)
From Verif Require Import Base ListLemmas SpecCrc Aes Rb RbProofs Types Sc Phy File Pd SpecRx SpecFrame RxProofs PdRx PdFwd SpecPd.

Definition bytesb (l : list Z) : bool := forallb (fun b => (0 <=? b) && (b <? 256)) l.
Lemma bytesb_ok l : bytesb l = true -> bytes l.
Proof. intros H. apply Forall_forall. intros x Hx. unfold bytesb in H. rewrite forallb_forall in H. specialize (H x Hx). unfold byte. lia. Qed.

(* an application that accepts every command; the line accepts every packet *)
Definition ex_env (now : Z) (rx : list (list Z)) : env :=
  mkEnv now rx 1000 [11; 12; 13; 14; 15; 16; 17; 18] (fun _ c => (0, c)) true (fun _ n => (0, n)) (fun _ _ => None)
    (fun d _ => zlen d) 0.
(* one that refuses every command *)
Definition ex_env_no (now : Z) (rx : list (list Z)) : env :=
  mkEnv now rx 1000 [11; 12; 13; 14; 15; 16; 17; 18] (fun _ c => (-1, c)) true (fun _ n => (0, n)) (fun _ _ => None)
    (fun d _ => zlen d) 0.
Lemma ex_env_typed now rx : forallb bytesb rx = true -> call_typed (Refresh (ex_env now rx)).
Proof.
  intros H. split.
  - apply Forall_forall. intros x Hx. rewrite forallb_forall in H. apply bytesb_ok; auto.
  - split; [apply bytesb_ok; reflexivity|]. intros n x Hx. exact Hx.
Qed.
Lemma ex_env_no_typed now rx : forallb bytesb rx = true -> call_typed (Refresh (ex_env_no now rx)).
Proof.
  intros H. split.
  - apply Forall_forall. intros x Hx. rewrite forallb_forall in H. apply bytesb_ok; auto.
  - split; [apply bytesb_ok; reflexivity|]. intros n x Hx. exact Hx.
Qed.

(* device 101: two outputs, one LED, a buzzer, a text display *)
Definition ex_flags (enf inst : bool) : flagset :=
  mkFlags false false false false false false false false false false enf inst false false false.
Definition ex_caps : list capent := [mkCap 2 1 2; mkCap 4 1 1; mkCap 5 1 1; mkCap 6 1 1].
Definition ex_key : list Z := map Z.of_nat (seq 100 16).
Definition ex_info (enf : bool) (key : option (list Z)) : pdinfo :=
  mkInfo 9600 101 (ex_flags enf false) (mkId 1 2 12648430 305419896 65793) ex_caps key 0.

(* calls in a row *)
Fixpoint run (p : pd) (cs : list pd_call) : res (pd * list out) :=
  match cs with
  | [] => Ok (p, [])
  | c :: t => bind (pd_do c p) (fun x => bind (run (fst x) t) (fun y => Ok (fst y, snd x ++ snd y)))
  end.
Definition run_from (i : pdinfo) (n : Z) (cs : list pd_call) : res (pd * list out) :=
  match pd_setup i n with Some p => run p cs | None => UB AppContract end.
Definition state_of (r : res (pd * list out)) : pd := match r with Ok (p, _) => p | _ => pd_zero end.
Definition outs_of (r : res (pd * list out)) : list out := match r with Ok (_, o) => o | _ => [] end.
Definition is_ok {A} (r : res A) : bool := match r with Ok _ => true | _ => false end.

Lemma run_runs i n cs : forall h p, pd_runs i n h p -> Forall call_typed cs -> forall q o, run p cs = Ok (q, o) ->
  exists h2, pd_runs i n (h2 ++ h) q.
Proof.
  induction cs as [|c t IH]; intros h p R T q o H; simpl in H.
  - inversion H; subst. exists []. exact R.
  - destruct (pd_do c p) as [[p1 o1]| |] eqn:D; try discriminate. simpl in H.
    inversion T; subst. pose proof (runs_step i n h p c p1 o1 R H2 D) as R1.
    destruct (run p1 t) as [[p2 o2]| |] eqn:E; try discriminate. simpl in H. inversion H; subst.
    destruct (IH _ _ R1 H3 _ _ E) as (h2 & X). exists (h2 ++ [mkEntry p c o1]). rewrite <- app_assoc. exact X.
Qed.

Lemma run_reach i n cs : info_typed i -> Forall call_typed cs -> is_ok (run_from i n cs) = true ->
  pd_reach (state_of (run_from i n cs)).
Proof.
  intros T1 T2 H. unfold run_from in *. destruct (pd_setup i n) as [p|] eqn:S; [|discriminate].
  destruct (run p cs) as [[q o]| |] eqn:E; try discriminate.
  destruct (run_runs i n cs [] p (runs_start i n p T1 S) T2 q o E) as (h & X). simpl. exists i, n, (h ++ []). exact X.
Qed.

Lemma ex_info_typed enf key : match key with Some k => length k = 16%nat /\ bytes k | None => True end -> info_typed (ex_info enf key).
Proof.
  intros H. split; [|exact H]. simpl. repeat apply Forall_cons; try apply Forall_nil; split; simpl; unfold byte; lia.
Qed.
Lemma ex_key_ok : length ex_key = 16%nat /\ bytes ex_key.
Proof. split; [reflexivity|apply bytesb_ok; reflexivity]. Qed.

(* next_frame, decided *)
Lemma next_frame_test e p mk f rest : (mk = [] \/ mk = [255]) ->
  eqb_bytes (arrived e p) (mk ++ f ++ rest) = true ->
  (nth 0 f 0 =? 83) && negb (f_reply f) && (f_len f =? zlen f) && (6 <=? zlen f) && (zlen f <=? 255) = true ->
  next_frame e p f rest.
Proof.
  intros M A H. unfold next_frame, f_shape. repeat (apply andb_true_iff in H; destruct H as [H ?]).
  split; [|split; [lia|]].
  - split; [lia|]. split; [destruct (f_reply f); auto; discriminate|]. lia.
  - exists [], mk. split; [|split; auto].
    clear -A. revert A. generalize (arrived e p). intros l. simpl.
    revert l. generalize (mk ++ f ++ rest). intros m l. revert m. induction l as [|x l IH]; intros [|y m] H; simpl in H; try discriminate; auto.
    apply andb_true_iff in H. destruct H as [H1 H2]. apply IH in H2. f_equal; auto. lia.
Qed.
Lemma intact_test f : bytesb f = true -> (6 <=? zlen f) = true -> match check_crc f with Some _ => true | None => false end = true -> f_intact f.
Proof.
  intros H1 H2 H3. pose proof (check_crc_intact f (bytesb_ok f H1) ltac:(lia)) as X.
  destruct (check_crc f); [apply X|discriminate].
Qed.

(* device 101 after setup (with callback), without and with a key *)
Definition ex_start : list pd_call := [SetCallback true].
Definition ex_pd : pd := state_of (run_from (ex_info false None) 4 ex_start).
Definition ex_pd_enf : pd := state_of (run_from (ex_info true (Some ex_key)) 4 ex_start).
Lemma ex_pd_reach : pd_reach ex_pd.
Proof.
  apply run_reach; [apply ex_info_typed; exact I| |reflexivity]. repeat apply Forall_cons; try apply Forall_nil; exact I.
Qed.
Lemma ex_pd_enf_reach : pd_reach ex_pd_enf.
Proof.
  apply run_reach; [apply ex_info_typed; exact ex_key_ok| |reflexivity]. repeat apply Forall_cons; try apply Forall_nil; exact I.
Qed.

(* a command packet with a security block: addr, number, block type and block data, payload *)
Definition scb_frame (addr seq ty : Z) (blk pay : list Z) : list Z :=
  with_crc (header addr (zlen blk + zlen pay + 9) (12 + seq) ++ [2 + zlen blk; ty] ++ blk ++ pay).

(* a genuine handshake with device 101 that holds ex_key: challenge, then the right cryptogram *)
Definition ex_cp_rnd : list Z := [1; 2; 3; 4; 5; 6; 7; 8].
Definition ex_chlng : list Z := scb_frame 101 0 17 [1] (118 :: ex_cp_rnd).
Definition ex_pd_rnd : list Z := [11; 12; 13; 14; 15; 16; 17; 18].
Definition ex_scrypt : list Z :=
  Eval vm_compute in
  scb_frame 101 1 19 [1] (119 :: aes_ecb_encrypt (aes_ecb_encrypt ex_key (session_block 1 130 ex_cp_rnd)) (ex_pd_rnd ++ ex_cp_rnd)).
Definition ex_hs : list pd_call := [SetCallback true; Refresh (ex_env 1000 [ex_chlng]); Refresh (ex_env 1100 [ex_scrypt])].
Definition ex_pd_sc : pd := Eval vm_compute in state_of (run_from (ex_info true (Some ex_key)) 4 ex_hs).
Lemma ex_pd_sc_reach : pd_reach ex_pd_sc /\ sc_active (fl ex_pd_sc) = true.
Proof.
  assert (E : ex_pd_sc = state_of (run_from (ex_info true (Some ex_key)) 4 ex_hs)) by (vm_compute; reflexivity).
  split; [|reflexivity]. rewrite E. apply run_reach; [apply ex_info_typed; exact ex_key_ok| |vm_compute; reflexivity].
  repeat apply Forall_cons; try apply Forall_nil; try exact I; apply ex_env_typed; vm_compute; reflexivity.
Qed.
