(** What C65 asks of the memory of a context. *)
From Verif Require Import Base Types Pd CpCtx Mem.

(* the blocks in use are the same *)
Definition same_blocks (h h' : heap) : Prop := forall b, In b (h_live h) <-> In b (h_live h').
(* no block is in use that was not yet given out *)
Definition heap_ok (h : heap) : Prop := forall b, In b (h_live h) -> (b < h_next h)%nat.
(* PDs are added only while there are none, at least one and at most 126 *)
Fixpoint first_adds (l : list mcall) (h : heap) (c : mctx) : Prop :=
  match l with
  | [] => True
  | k :: t =>
      match k with MAdd _ _ x => mc_pds c = [] /\ x <> [] /\ zlen x <= 126 | _ => True end /\
      match m_call k h c with MOk x => first_adds t (fst x) (snd x) | MBad _ => True end
  end.
(* an addition names at least one PD *)
Definition real_adds (l : list mcall) : Prop := Forall (fun k => match k with MAdd _ _ x => x <> [] | _ => True end) l.
