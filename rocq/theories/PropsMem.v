(** Property theorem C65: the memory of a context, from set-up to teardown. *)
From Verif Require Import Base ListLemmas Types Pd CpCtx Mem SpecMem MemProofs.

(** C65 (panel).  Whatever memory calls fail: osdp_cp_setup ends, and leaves nothing behind when it returns
    NULL.  After that the application may make any calls in any order, as long as it adds PDs only while there are
    none: no block is used that is not allocated, none is freed twice, and after osdp_cp_teardown the blocks in use
    are those from before osdp_cp_setup. *)
Theorem C65_panel_partial : forall h ok0 ok1 ok2 l, heap_ok h -> zlen l <= 126 ->
  exists h1 o, m_setup ok0 ok1 ok2 l h = MOk (h1, o) /\
  match o with
  | None => same_blocks h h1
  | Some c => forall calls, first_adds calls h1 c ->
      exists h2 c2 h3, m_calls calls h1 c = MOk (h2, c2) /\ m_teardown h2 c2 = MOk h3 /\ same_blocks h h3
  end.
Proof.
  intros h ok0 ok1 ok2 l H L. destruct (setup_ok h ok0 ok1 ok2 l H L) as (h1 & o & E & X). exists h1, o. split; [exact E|].
  destruct o as [c|]; [|exact X]. destruct X as (W & S & _). intros calls F.
  destruct (calls_strong h calls h1 c W S F) as (h2 & c2 & E2 & W2 & _). destruct (teardown_ok h h2 c2 W2) as (h3 & T & Q). eauto 6.
Qed.
Print Assumptions C65_panel_partial.

(** C65 (no leak).  With additions at any time: if nothing goes wrong in the calls, nothing goes wrong in the
    teardown, and no block is left. *)
Theorem C65_released : forall h ok0 ok1 ok2 l h1 c calls h2 c2, heap_ok h -> zlen l <= 126 ->
  m_setup ok0 ok1 ok2 l h = MOk (h1, Some c) -> real_adds calls -> m_calls calls h1 c = MOk (h2, c2) ->
  exists h3, m_teardown h2 c2 = MOk h3 /\ same_blocks h h3.
Proof.
  intros h ok0 ok1 ok2 l h1 c calls h2 c2 H L E R C. destruct (setup_ok h ok0 ok1 ok2 l H L) as (h1' & o & E' & X). rewrite E in E'. injection E' as <- <-.
  destruct X as (W & _). apply (teardown_ok h h2 c2). eapply calls_weak; eauto.
Qed.
Print Assumptions C65_released.

(** C65 is false when PDs are added to a panel that has some: every later command for every one of the old PDs is
    written to the array that was freed. *)
Theorem C65_add_refuted : forall h ok0 ok1 ok2 l h1 c calls h2 c2 ok1' ok2' l' h3 c3 room i, heap_ok h -> zlen l <= 126 ->
  m_setup ok0 ok1 ok2 l h = MOk (h1, Some c) -> first_adds calls h1 c -> m_calls calls h1 c = MOk (h2, c2) ->
  l' <> [] -> m_add ok1' ok2' l' h2 c2 = MOk (h3, c3, true) -> (i < length (mc_pds c2))%nat ->
  m_put room i h3 c3 = MBad UsedFreed.
Proof.
  intros h ok0 ok1 ok2 l h1 c calls h2 c2 ok1' ok2' l' h3 c3 room i H L E F C N A I.
  destruct (setup_ok h ok0 ok1 ok2 l H L) as (h1' & o & E' & X). rewrite E in E'. injection E' as <- <-. destruct X as (W & S & _).
  destruct (calls_strong h calls h1 c W S F) as (h2' & c2' & E2 & W2 & S2). rewrite C in E2. injection E2 as <- <-.
  eapply add_breaks; eauto.
Qed.
Print Assumptions C65_add_refuted.

(** C65 (device).  The same for osdp_pd_setup and osdp_pd_teardown, if the second block is allocated. *)
Theorem C65_device_partial : forall h ok0 i, heap_ok h ->
  exists h1 o, m_pd_setup ok0 true i h = MOk (h1, o) /\
  match o with
  | None => same_blocks h h1
  | Some c => forall calls, first_adds calls h1 c ->
      exists h2 c2 h3, m_calls calls h1 c = MOk (h2, c2) /\ m_pd_teardown h2 c2 = MOk h3 /\ same_blocks h h3
  end.
Proof.
  intros h ok0 i H. destruct (pd_setup_ok h ok0 i H) as (h1 & o & E & X). exists h1, o. split; [exact E|].
  destruct o as [c|]; [|exact X]. destruct X as (W & S & K & a & A). intros calls F.
  assert (P : mc_pds c <> []) by (intros Y; apply (w_arr _ _ _ W) in Y; congruence).
  destruct (calls_strong h calls h1 c W S F) as (h2 & c2 & E2 & W2 & _). pose proof (calls_shape h calls h1 c h2 c2 W S P F E2) as SH. unfold shape in SH. injection SH as _ SA SK.
  destruct (pd_teardown_ok h h2 c2 a W2) as (h3 & T & Q); [congruence|congruence|]. eauto 6.
Qed.
Print Assumptions C65_device_partial.

(** C65 is false for a device when there is memory for the context and none for the PD structure: the clean-up reads
    through a null pointer. *)
Theorem C65_setup_refuted : forall h i, m_pd_setup true false i h = MBad NullUsed.
Proof.
  intros h i. unfold m_pd_setup, m_pd_teardown, h_use, h_in. cbn. rewrite Nat.eqb_refl. reflexivity.
Qed.
Print Assumptions C65_setup_refuted.

(** The memory model follows the model of the other properties: when there is memory, PDs are added exactly when they are
    there, with the same channels, and with locks exactly when there are some there. *)
Theorem C65_agrees : forall h m h' m' b blocks l c, m_add true true l h m = MOk (h', m', b) -> l <> [] -> map me_chan (mc_pds m) = map chan_id (c_pds c) ->
  exists c', cp_add_pd blocks l c = Ok (c', b) /\ map me_chan (mc_pds m') = map chan_id (c_pds c') /\ (b = true -> (mc_lock m' = None <-> c_lock c' = [])).
Proof. exact add_agree. Qed.
Print Assumptions C65_agrees.

(* two PDs on one line, commands for both, a file context, a refresh that takes one of them; nothing is left of it; and a third
   PD, after which a command for the first one is fatal *)
Definition ex_mi (chan : Z) : pdinfo := mkInfo 9600 101 (fl pd_zero) (mkId 0 0 0 0 0) [] None chan.
Definition ex_mh : heap := mkHeap 7 [2%nat; 5%nat].
Definition ex_mcalls : list mcall := [MPut true 0; MPut true 0; MRegister true 1; MPut true 1; MRefresh [(0%nat, true); (1%nat, false)]; MFlush 3 1].
Example C65_example :
  heap_ok ex_mh /\
  exists h1 c h2 c2, m_setup true true true [ex_mi 1; ex_mi 1] ex_mh = MOk (h1, Some c) /\ first_adds ex_mcalls h1 c /\ m_calls ex_mcalls h1 c = MOk (h2, c2) /\
    h_live h2 = [10; 9; 8; 7; 2; 5]%nat /\ map me_nodes (mc_pds c2) = [[8]; []]%nat /\ (exists h3, m_teardown h2 c2 = MOk h3 /\ h_live h3 = [2; 5]%nat) /\
    exists h3 c3, m_add true true [ex_mi 2] h2 c2 = MOk (h3, c3, true) /\ m_put true 0 h3 c3 = MBad UsedFreed.
Proof.
  split; [intros b [<-|[<-|[]]]; simpl; repeat constructor|]. do 4 eexists. split; [vm_compute; reflexivity|]. split; [vm_compute; tauto|]. split; [vm_compute; reflexivity|].
  split; [reflexivity|]. split; [reflexivity|]. split; [eexists; split; [vm_compute; reflexivity|reflexivity]|]. do 2 eexists. split; vm_compute; reflexivity.
Qed.
