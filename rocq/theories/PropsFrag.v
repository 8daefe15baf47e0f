(** C42, the part that holds: what a device writes is what a received fragment says, whether it was sent once
    or several times. *)
From Verif Require Import Base ListLemmas Crc SpecCrc Aes Rb RbProofs Types Sc Phy File Pd Cp CpCtx SpecRx SpecFrame SpecSec SpecPd SpecCp SpecCpRun SpecLink SpecHand SpecTalk
  RxProofs PdRun PdPlain PdFwd PdSec PdKinds SpecFile SpecFrag Frag ExPd ExCp ExLink PropsPd2 PropsFile.
Local Opaque RB_SIZE.

(** C42 (part that holds).  Every write that a refresh of the device asks its application for comes from a
    packet for this device that was received in the same refresh: the data and the offset are those of the
    fragment that the packet carries, in clear or enciphered. *)
Theorem C42_write_partial : forall e p q o d i,
  pd_reach p -> call_typed (Refresh e) -> pd_refresh e p = Ok (q, o) -> In (d, i) (writes o) ->
  exists f rest pay, heard_frame e p f rest /\ says_to e p f pay /\ fragment pay d i.
Proof. intros e p q o d i R T H W. exact (refresh_write e p q o d i (PdRun.env_typed e T) (reach_inv p R) H W). Qed.
Print Assumptions C42_write_partial.

(** C42 (part that holds).  If all fragments that the device ever received, in any order, repeated or not,
    are pieces of one file, then it never writes a byte of the file to a wrong place.
    (What fails is the end: the device may declare the file complete too early, C42_repeat_refuted.) *)
Theorem C42_bytes_partial : forall ip n h p data,
  pd_runs ip n h p ->
  (forall en e f rest pay d i, In en h -> en_call en = Refresh e -> heard_frame e (en_pd en) f rest ->
     says_to e (en_pd en) f pay -> fragment pay d i -> in_file data d i) ->
  forall en d i, In en h -> In (d, i) (writes (en_out en)) -> in_file data d i.
Proof.
  intros ip n h p data R A. induction R as [|h p c q o R IH T D]; intros en d i HI W; [destruct HI|]. destruct HI as [<-|HI].
  - cbn [en_out] in W. destruct c as [e| | | | |]; try (cbn [pd_do] in D; injection D as _ <-; destruct W).
    assert (RP : pd_reach p) by (exists ip, n, h; exact R).
    destruct (C42_write_partial e p q o d i RP T D W) as (f & rest & pay & HF & SY & FR).
    exact (A (mkEntry p (Refresh e) o) e f rest pay d i (or_introl eq_refl) eq_refl HF SY FR).
  - exact (IH (fun en e f rest pay d i X => A en e f rest pay d i (or_intror X)) en d i HI W).
Qed.
Print Assumptions C42_bytes_partial.

(* --- example: the first twenty bytes of a file of forty arrive twice --- *)
Lemma only_frame e p f rest g : arrived e p = g -> nth 0 g 0 = 83 -> ~ In 83 (tl g) -> SpecRx.f_len g = zlen g -> 6 <= zlen g -> heard_frame e p f rest -> f = g.
Proof.
  intros A G0 NI GL GS ((noise & mk & E & NN & MK) & (F0 & _ & FL & F6) & _). rewrite A in E.
  assert (N0 : noise = []). { destruct noise as [|x t]; [reflexivity|]. exfalso. apply NN. left. rewrite E in G0. exact G0. }
  subst noise. cbn [app] in E. destruct f as [|f0 f]; [discriminate F0|]. cbn [nth] in F0. subst f0.
  destruct MK as [-> |M1].
  - cbn [app] in E. assert (LE : SpecRx.f_len g = SpecRx.f_len (83 :: f)).
    { rewrite E. destruct f as [|a [|b [|c t]]]; unfold zlen in F6; cbn [length] in F6; try lia. reflexivity. }
    rewrite GL, FL, E in LE. unfold zlen in LE. cbn [length] in LE. rewrite app_length in LE. assert (R0 : rest = []) by (destruct rest; [reflexivity|cbn [length] in LE; lia]).
    subst rest. rewrite app_nil_r in E. symmetry. exact E.
  - exfalso. destruct mk as [|m [|m2 mt]]; unfold zlen in M1; cbn [length] in M1; try lia. apply NI. rewrite E. cbn [app tl]. left. reflexivity.
Qed.
Definition ex_data : list Z := map Z.of_nat (seq 10 40).
Definition ex_frag : list Z := [124; 3; 40; 0; 0; 0; 0; 0; 0; 0; 20; 0] ++ firstn 20 ex_data.
Definition ex_g0 : pd := Eval vm_compute in match pd_setup (ex_info false None) 4 with Some p => p | None => pd_zero end.
Definition ex_g1 : pd := Eval vm_compute in set_has_cb true ex_g0.
Definition ex_g2 : pd := Eval vm_compute in state_of (pd_do RegisterFileOps ex_g1).
Definition ex_ge (k : Z) : env := ex_env (1000 + 100 * k) [plain_frame 101 k ex_frag].
Definition ex_g3 : pd := Eval vm_compute in state_of (pd_do (Refresh (ex_ge 0)) ex_g2).
Definition ex_g4 : pd := Eval vm_compute in state_of (pd_do (Refresh (ex_ge 1)) ex_g3).
Definition ex_gh : list entry :=
  [mkEntry ex_g3 (Refresh (ex_ge 1)) (outs_of (pd_do (Refresh (ex_ge 1)) ex_g3)); mkEntry ex_g2 (Refresh (ex_ge 0)) (outs_of (pd_do (Refresh (ex_ge 0)) ex_g2));
   mkEntry ex_g1 RegisterFileOps []; mkEntry ex_g0 (SetCallback true) []].
Lemma ex_ge_typed k : k = 0 \/ k = 1 -> call_typed (Refresh (ex_ge k)).
Proof.
  intros [-> | ->]; apply ex_env_typed; vm_compute; reflexivity.
Qed.
Example C42_bytes_example :
  pd_runs (ex_info false None) 4 ex_gh ex_g4 /\
  (forall en e f rest pay d i, In en ex_gh -> en_call en = Refresh e -> heard_frame e (en_pd en) f rest ->
     says_to e (en_pd en) f pay -> fragment pay d i -> in_file ex_data d i) /\
  flat_map (fun en => writes (en_out en)) ex_gh = [(firstn 20 ex_data, 0); (firstn 20 ex_data, 0)].
Proof.
  split; [|split].
  - unfold ex_gh. repeat (eapply runs_step; [|first [exact Logic.I|apply ex_ge_typed; auto]|vm_compute; reflexivity]).
    apply runs_start; [apply ex_info_typed; exact I|vm_compute; reflexivity].
  - assert (G : forall k p f rest, k = 0 \/ k = 1 -> arrived (ex_ge k) p = plain_frame 101 k ex_frag -> heard_frame (ex_ge k) p f rest ->
      forall pay d i, says_to (ex_ge k) p f pay -> fragment pay d i -> in_file ex_data d i).
    { intros k p f rest K A HF pay d i SY.
      assert (E : f = plain_frame 101 k ex_frag).
      { apply (only_frame (ex_ge k) p f rest _ A); auto; destruct K as [-> | ->]; try (vm_compute; first [reflexivity|discriminate]);
          intros X; vm_compute in X; repeat destruct X as [X|X]; try discriminate X; contradiction. }
      assert (S0 : f_scb f = false) by (destruct K as [-> | ->]; subst f; vm_compute; reflexivity).
      destruct SY as [_ PY _|Y|? ? ? Y]; [|congruence|congruence].
      assert (P0 : pay = ex_frag) by (rewrite PY; destruct K as [-> | ->]; subst f; vm_compute; reflexivity). clear PY.
      rewrite P0. intros (_ & -> & -> & _). vm_compute. reflexivity. }
    intros en e f rest pay d i [<-|[<-|[<-|[<-|[]]]]] EC HF SY; cbn [en_call en_pd] in EC, HF, SY; try discriminate EC; injection EC as <-; refine (G _ _ f rest _ _ HF pay d i SY); auto; vm_compute; reflexivity.
  - vm_compute. reflexivity.
Qed.
