(** Proofs about the ring buffer model: refinement to a bounded list queue. *)
From Verif Require Import Base ListLemmas Rb.

Lemma RB_SIZE_gt1 : (1 < RB_SIZE)%nat.
Proof. unfold RB_SIZE; apply Nat.ltb_lt; reflexivity. Qed.

Local Opaque RB_SIZE.

Definition rb_wf (r : rbuf) : Prop :=
  (rb_head r < RB_SIZE /\ rb_tail r < RB_SIZE)%nat /\ length (rb_buf r) = RB_SIZE.

(* position k places after i, with wrap around *)
Definition ridx (i k : nat) : nat :=
  if Nat.ltb (i + k) RB_SIZE then (i + k)%nat else (i + k - RB_SIZE)%nat.

Definition rb_count (r : rbuf) : nat :=
  if Nat.leb (rb_tail r) (rb_head r) then (rb_head r - rb_tail r)%nat
  else (rb_head r + RB_SIZE - rb_tail r)%nat.

(* the unread bytes, oldest first *)
Definition rb_contents (r : rbuf) : list Z :=
  map (fun k => nth (ridx (rb_tail r) k) (rb_buf r) 0) (seq 0 (rb_count r)).

Lemma rb_contents_length r : length (rb_contents r) = rb_count r.
Proof. unfold rb_contents; rewrite map_length, seq_length; auto. Qed.

Lemma rb_init_wf : rb_wf rb_init.
Proof.
  unfold rb_wf, rb_init; simpl rb_head; simpl rb_tail; simpl rb_buf.
  rewrite length_zeros. pose proof RB_SIZE_gt1. repeat split; lia.
Qed.

Lemma rb_init_contents : rb_contents rb_init = [].
Proof. reflexivity. Qed.

Lemma rb_next_cases i : (i < RB_SIZE)%nat ->
  (rb_next i = S i /\ (S i < RB_SIZE)%nat) \/ (rb_next i = 0%nat /\ S i = RB_SIZE).
Proof.
  intros. unfold rb_next. destruct (Nat.leb RB_SIZE (i + 1)) eqn:E.
  - apply Nat.leb_le in E. right; lia.
  - apply Nat.leb_gt in E. left; lia.
Qed.

Lemma ridx_tail_count r : rb_wf r -> ridx (rb_tail r) (rb_count r) = rb_head r.
Proof.
  intros [[H1 H2] H3]. unfold ridx, rb_count.
  destruct (Nat.leb_spec (rb_tail r) (rb_head r));
    destruct (Nat.ltb_spec (rb_tail r + (rb_head r - rb_tail r)) RB_SIZE); try lia;
  destruct (Nat.ltb_spec (rb_tail r + (rb_head r + RB_SIZE - rb_tail r)) RB_SIZE); lia.
Qed.

Lemma rb_count_lt r : rb_wf r -> (rb_count r < RB_SIZE)%nat.
Proof.
  intros [[H1 H2] H3]. unfold rb_count. destruct (Nat.leb_spec (rb_tail r) (rb_head r)); lia.
Qed.

Lemma rb_push_spec r b : rb_wf r ->
  let r' := fst (rb_push r b) in
  rb_wf r' /\
  if Nat.eqb (rb_count r) (RB_SIZE - 1)
  then rb_push r b = (r, false)
  else snd (rb_push r b) = true /\ rb_contents r' = rb_contents r ++ [b].
Proof.
  intros W. pose proof W as [[H1 H2] H3]. pose proof (ridx_tail_count r W) as HT.
  unfold rb_push.
  destruct (Nat.eqb_spec (rb_next (rb_head r)) (rb_tail r)) as [E|E]; simpl.
  - split; auto.
    assert (rb_count r = RB_SIZE - 1)%nat as ->.
    { unfold rb_count. destruct (rb_next_cases _ H1) as [[Hn ?]|[Hn ?]]; rewrite Hn in E;
      destruct (Nat.leb_spec (rb_tail r) (rb_head r)); lia. }
    now rewrite Nat.eqb_refl.
  - split.
    { unfold rb_wf; simpl. rewrite upd_length.
      destruct (rb_next_cases _ H1) as [[Hn ?]|[Hn ?]]; rewrite Hn; repeat split; lia. }
    assert (Hc : rb_count (mkRb (rb_next (rb_head r)) (rb_tail r) (upd (rb_head r) b (rb_buf r)))
                 = S (rb_count r)).
    { unfold rb_count; simpl.
      destruct (rb_next_cases _ H1) as [[Hn ?]|[Hn ?]]; rewrite Hn in *;
      destruct (Nat.leb_spec (rb_tail r) (rb_head r));
      [destruct (Nat.leb_spec (rb_tail r) (S (rb_head r)))
      |destruct (Nat.leb_spec (rb_tail r) (S (rb_head r)))
      |destruct (Nat.leb_spec (rb_tail r) 0)|destruct (Nat.leb_spec (rb_tail r) 0)]; lia. }
    destruct (Nat.eqb_spec (rb_count r) (RB_SIZE - 1)) as [E2|E2].
    + exfalso. assert (W2 : rb_wf (mkRb (rb_next (rb_head r)) (rb_tail r) (upd (rb_head r) b (rb_buf r)))).
      { unfold rb_wf; simpl. rewrite upd_length.
        destruct (rb_next_cases _ H1) as [[Hn ?]|[Hn ?]]; rewrite Hn; repeat split; lia. }
      apply rb_count_lt in W2. rewrite Hc in W2. lia.
    + split; auto. unfold rb_contents. rewrite Hc.
      rewrite seq_S, map_app. simpl rb_tail; simpl rb_buf. f_equal.
      * apply map_ext_in. intros k Hk. apply in_seq in Hk.
        apply nth_upd_other. rewrite <- HT. unfold ridx.
        pose proof (rb_count_lt r W).
        destruct (Nat.ltb_spec (rb_tail r + rb_count r) RB_SIZE);
        destruct (Nat.ltb_spec (rb_tail r + k) RB_SIZE); lia.
      * simpl. rewrite HT. f_equal. apply nth_upd_same. lia.
Qed.

Lemma rb_pop_spec r : rb_wf r ->
  match rb_contents r with
  | [] => rb_pop r = (r, None)
  | b :: q => exists r', rb_pop r = (r', Some b) /\ rb_wf r' /\ rb_contents r' = q
  end.
Proof.
  intros W. pose proof W as [[H1 H2] H3].
  unfold rb_pop. destruct (Nat.eqb_spec (rb_head r) (rb_tail r)) as [E|E].
  - unfold rb_contents, rb_count. rewrite E, Nat.leb_refl, Nat.sub_diag. reflexivity.
  - assert (Hc : exists n, rb_count r = S n /\
       rb_count (mkRb (rb_head r) (rb_next (rb_tail r)) (rb_buf r)) = n).
    { eexists; split; [|reflexivity]. unfold rb_count; simpl.
      destruct (rb_next_cases _ H2) as [[Hn ?]|[Hn ?]]; rewrite Hn in *;
      destruct (Nat.leb_spec (rb_tail r) (rb_head r));
      [destruct (Nat.leb_spec (S (rb_tail r)) (rb_head r))
      |destruct (Nat.leb_spec (S (rb_tail r)) (rb_head r))
      |destruct (Nat.leb_spec 0 (rb_head r))|destruct (Nat.leb_spec 0 (rb_head r))]; lia. }
    destruct Hc as (n & Hc & Hn). unfold rb_contents. rewrite Hc. simpl seq. simpl map.
    assert (Hr0 : ridx (rb_tail r) 0 = rb_tail r).
    { unfold ridx. rewrite Nat.add_0_r. destruct (Nat.ltb_spec (rb_tail r) RB_SIZE); lia. }
    rewrite Hr0.
    eexists; split; [reflexivity|]. split.
    + unfold rb_wf; simpl.
      destruct (rb_next_cases _ H2) as [[Hx ?]|[Hx ?]]; rewrite Hx; repeat split; lia.
    + rewrite Hn. simpl rb_tail; simpl rb_buf. rewrite <- seq_shift, map_map.
      apply map_ext_in. intros k Hk. apply in_seq in Hk. f_equal. unfold ridx.
      pose proof (rb_count_lt r W).
      destruct (rb_next_cases _ H2) as [[Hx ?]|[Hx ?]]; rewrite Hx;
      [destruct (Nat.ltb_spec (S (rb_tail r) + k) RB_SIZE)
      |destruct (Nat.ltb_spec (0 + k) RB_SIZE)];
      destruct (Nat.ltb_spec (rb_tail r + S k) RB_SIZE); lia.
Qed.

Lemma rb_push_buf_spec l : forall r, rb_wf r ->
  let acc := firstn (RB_SIZE - 1 - length (rb_contents r)) l in
  let r' := fst (rb_push_buf r l) in
  rb_wf r' /\ snd (rb_push_buf r l) = zlen acc /\ rb_contents r' = rb_contents r ++ acc.
Proof.
  induction l as [|b l IH]; intros r W acc r'.
  - subst acc r'. rewrite firstn_nil, app_nil_r. simpl. auto.
  - pose proof (rb_push_spec r b W) as [W1 H]. subst acc r'. simpl rb_push_buf.
    pose proof (rb_count_lt r W) as Hlt.
    rewrite <- rb_contents_length in H.
    rewrite <- (rb_contents_length r) in Hlt.
    destruct (Nat.eqb_spec (length (rb_contents r)) (RB_SIZE - 1)) as [E|E].
    + rewrite H. replace (RB_SIZE - 1 - length (rb_contents r))%nat with 0%nat by lia.
      simpl. rewrite app_nil_r. auto.
    + destruct H as [Hok Hc]. destruct (rb_push r b) as [r1 ok]. simpl in *. subst ok.
      specialize (IH r1 W1). cbv zeta in IH. rewrite Hc, app_length in IH. simpl length in IH.
      destruct (rb_push_buf r1 l) as [r2 n]. simpl in *.
      destruct IH as (W2 & Hn & Hc2).
      replace (RB_SIZE - 1 - length (rb_contents r))%nat
        with (S (RB_SIZE - 1 - (length (rb_contents r) + 1))) by lia.
      simpl firstn. split; [auto|]. split.
      * rewrite zlen_cons, Hn. reflexivity.
      * rewrite Hc2, <- app_assoc. reflexivity.
Qed.

Lemma rb_pop_buf_spec n : forall r, rb_wf r ->
  let r' := fst (rb_pop_buf r n) in
  rb_wf r' /\ snd (rb_pop_buf r n) = firstn n (rb_contents r) /\
  rb_contents r' = skipn n (rb_contents r).
Proof.
  induction n as [|n IH]; intros r W r'; subst r'.
  - simpl. auto.
  - pose proof (rb_pop_spec r W) as H. simpl rb_pop_buf.
    destruct (rb_contents r) as [|b q] eqn:E.
    + rewrite H. simpl. rewrite E. auto.
    + destruct H as (r1 & -> & W1 & Hq). specialize (IH r1 W1). cbv zeta in IH.
      destruct (rb_pop_buf r1 n) as [r2 t]. simpl in *. rewrite Hq in IH.
      destruct IH as (? & -> & ->). auto.
Qed.

From Verif Require Import SpecQueue.

(* The calls on the modelled buffer. *)
Definition rb_do (r : rbuf) (c : rb_call) : rbuf * rb_seen :=
  match c with
  | CallPush b => let (r1, ok) := rb_push r b in (r1, SeenAccepted (if ok then 1 else 0))
  | CallPushBuf l => let (r1, n) := rb_push_buf r l in (r1, SeenAccepted n)
  | CallPop => let (r1, b) := rb_pop r in
               (r1, SeenBytes (match b with Some x => [x] | None => [] end))
  | CallPopBuf n => let (r1, l) := rb_pop_buf r n in (r1, SeenBytes l)
  end.

Fixpoint rb_run (r : rbuf) (cs : list rb_call) : rbuf * list rb_seen :=
  match cs with
  | [] => (r, [])
  | c :: t => let (r1, s) := rb_do r c in let (r2, ss) := rb_run r1 t in (r2, s :: ss)
  end.

Lemma q_cap_size : q_cap = (RB_SIZE - 1)%nat.
Proof. reflexivity. Qed.

Lemma rb_do_refines r c : rb_wf r ->
  rb_wf (fst (rb_do r c)) /\
  q_call (rb_contents r) c = (rb_contents (fst (rb_do r c)), snd (rb_do r c)).
Proof.
  intros W. destruct c as [b|l| |n]; simpl; unfold q_in; rewrite ?q_cap_size.
  - pose proof (rb_push_spec r b W) as [W1 H]. pose proof (rb_count_lt r W) as Hlt.
    rewrite <- rb_contents_length in H, Hlt.
    destruct (Nat.eqb_spec (length (rb_contents r)) (RB_SIZE - 1)) as [E|E].
    + rewrite H. simpl. split; auto.
      replace (RB_SIZE - 1 - length (rb_contents r))%nat with 0%nat by lia. simpl.
      now rewrite app_nil_r.
    + destruct H as [Hok Hc]. destruct (rb_push r b) as [r1 ok]. simpl in *. subst ok.
      split; auto.
      replace (RB_SIZE - 1 - length (rb_contents r))%nat
        with (S (RB_SIZE - 1 - (length (rb_contents r) + 1))) by lia.
      simpl. rewrite firstn_nil, Hc. reflexivity.
  - pose proof (rb_push_buf_spec l r W) as (W1 & Hn & Hc).
    destruct (rb_push_buf r l) as [r1 n]. simpl in *. split; auto. now rewrite Hn, Hc.
  - pose proof (rb_pop_spec r W) as H. destruct (rb_contents r) as [|b q] eqn:E.
    + rewrite H. simpl. rewrite E. auto.
    + destruct H as (r1 & -> & W1 & Hq). simpl. rewrite Hq. auto.
  - pose proof (rb_pop_buf_spec n r W) as (W1 & Hn & Hc).
    destruct (rb_pop_buf r n) as [r1 l]. simpl in *. split; auto. now rewrite Hn, Hc.
Qed.

Lemma rb_run_refines cs : forall r, rb_wf r ->
  rb_wf (fst (rb_run r cs)) /\
  q_run (rb_contents r) cs = (rb_contents (fst (rb_run r cs)), snd (rb_run r cs)).
Proof.
  induction cs as [|c cs IH]; intros r W; simpl; auto.
  pose proof (rb_do_refines r c W) as [W1 H]. rewrite H.
  destruct (rb_do r c) as [r1 s]. simpl in *. specialize (IH r1 W1).
  destruct IH as [W2 H2]. rewrite H2. destruct (rb_run r1 cs). simpl in *. auto.
Qed.

(* facts about the specification itself *)
Lemma firstn_zlen_firstn {A} n (l : list A) : firstn (Z.to_nat (zlen (firstn n l))) l = firstn n l.
Proof.
  unfold zlen. rewrite Nat2Z.id, firstn_length. revert n.
  induction l; intros [|n]; simpl; auto. f_equal; auto.
Qed.

Lemma q_run_conserves cs : forall q,
  let (q', ss) := q_run q cs in given ss ++ q' = q ++ taken cs ss.
Proof.
  induction cs as [|c cs IH]; intros q; simpl; [now rewrite app_nil_r|].
  destruct c as [b|l| |n]; simpl q_call; cbv beta iota;
  match goal with |- context [q_run ?x cs] => specialize (IH x); destruct (q_run x cs) as [q2 ss] end.
  - cbn [given taken]. rewrite IH. unfold q_in. rewrite firstn_zlen_firstn, app_assoc. reflexivity.
  - cbn [given taken]. rewrite IH. unfold q_in. rewrite firstn_zlen_firstn, app_assoc. reflexivity.
  - cbn [given taken]. rewrite <- app_assoc, IH, app_assoc.
    change (match q with [] => [] | a :: _ => [a] end) with (firstn 1 q).
    change (match q with [] => [] | _ :: l => l end) with (skipn 1 q).
    now rewrite firstn_skipn.
  - cbn [given taken]. now rewrite <- app_assoc, IH, app_assoc, firstn_skipn.
Qed.

(* C01, first part: observational equivalence with the bounded queue *)
Lemma rb_fifo cs : forall r, rb_wf r ->
  snd (rb_run r cs) = snd (q_run (rb_contents r) cs).
Proof. intros r W. destruct (rb_run_refines cs r W) as [_ ->]. reflexivity. Qed.

(* the bytes handed out are a prefix of the bytes pending at the start followed by those taken in *)
Lemma rb_conserves cs r : rb_wf r ->
  let (r', ss) := rb_run r cs in
  given ss ++ rb_contents r' = rb_contents r ++ taken cs ss.
Proof.
  intros W. destruct (rb_run_refines cs r W) as [_ H].
  pose proof (q_run_conserves cs (rb_contents r)) as Hc. rewrite H in Hc.
  destruct (rb_run r cs). exact Hc.
Qed.

(* refusal: a push is refused exactly when 511 bytes are pending, and then nothing changes *)
Lemma rb_full_refuses r b : rb_wf r ->
  (snd (rb_push r b) = false <-> length (rb_contents r) = q_cap) /\
  (snd (rb_push r b) = false -> fst (rb_push r b) = r).
Proof.
  intros W. pose proof (rb_push_spec r b W) as [W1 H]. rewrite <- rb_contents_length in H.
  rewrite q_cap_size.
  destruct (Nat.eqb_spec (length (rb_contents r)) (RB_SIZE - 1)) as [E|E].
  - rewrite H. simpl. tauto.
  - destruct H as [H _]. rewrite H. split; [split; intros; congruence|congruence].
Qed.

(* nothing is refused as long as everything pending plus offered fits *)
Lemma q_all_taken cs : forall q, (length q + length (offered cs) <= q_cap)%nat ->
  taken cs (snd (q_run q cs)) = offered cs.
Proof.
  induction cs as [|c cs IH]; intros q H; simpl; auto.
  destruct c as [b|l| |n]; simpl q_call; simpl offered in H; cbv beta iota.
  - specialize (IH (q ++ q_in q [b])).
    assert (E : q_in q [b] = [b]).
    { unfold q_in. apply firstn_all2. simpl length in *. lia. }
    rewrite E in *. destruct (q_run (q ++ [b]) cs) as [q2 ss]. simpl in *.
    rewrite IH; [reflexivity|]. rewrite app_length; simpl; lia.
  - specialize (IH (q ++ q_in q l)).
    assert (E : q_in q l = l).
    { unfold q_in. apply firstn_all2. rewrite app_length in H. lia. }
    rewrite E in *. destruct (q_run (q ++ l) cs) as [q2 ss]. simpl in *.
    rewrite IH; [|rewrite app_length in *; lia].
    unfold zlen. rewrite Nat2Z.id, firstn_all. reflexivity.
  - specialize (IH (skipn 1 q)). change (match q with [] => [] | _ :: l => l end) with (skipn 1 q).
    destruct (q_run (skipn 1 q) cs) as [q2 ss]. simpl in *. apply IH. 
    change (match q with [] => [] | _ :: l => l end) with (skipn 1 q).
    rewrite skipn_length. lia.
  - specialize (IH (skipn n q)). destruct (q_run (skipn n q) cs) as [q2 ss]. simpl in *.
    apply IH. rewrite skipn_length. lia.
Qed.
