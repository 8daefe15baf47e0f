(** Several devices on one line: the panel at work with each of them (SpecRun), and each device hears what goes
    on between the panel and the others. *)
From Verif Require Import Base Rb RbProofs Types Phy Pd Cp CpCtx SpecRx SpecFrame RxProofs SpecPd SpecCp SpecLink SpecApp SpecTalk SpecHand SpecLost SpecRun SpecBus.

(* a panel entry with its device, and what others put on the line that the device has not heard yet *)
Record station := mkStation { st_net : net; st_ear : list Z }.

Inductive deed :=
| DAct (i : nat) (a : action)   (* something happens at pair i *)
| DListen (i : nat) (e : env).  (* osdp_pd_refresh of device i, with traffic of others *)

(* station i becomes s, and w is heard by all the others *)
Definition overhear (w : list Z) (t : station) : station := mkStation (st_net t) (st_ear t ++ w).
Fixpoint spread (i : nat) (s : station) (w : list Z) (b : list station) : list station :=
  match b with
  | [] => []
  | t :: b => match i with O => s :: map (overhear w) b | S i => overhear w t :: spread i s w b end
  end.

Definition idle (t : station) : Prop := phy_state (n_c (st_net t)) = PIdle.
(* nothing is on the line for this device or from it: no exchange, or one that was prepared but not sent yet *)
Definition silent (t : station) : Prop := phy_state (n_c (st_net t)) = PIdle \/ phy_state (n_c (st_net t)) = PSend.
(* the device has dealt with all that others put on the line *)
Definition caught_up (t : station) : Prop := st_ear t = [] /\ pending (n_p (st_net t)) = [].
(* a start byte is the only one *)
Definition one_start (w : list Z) : Prop := forall u v, w = u ++ 83 :: v -> ~ In 83 v.

(* Nothing is lost (allowed, SpecRun).  The panel turns to one device at a time (the channel lock, C36), and
   sends to one that is done with what went before; a device hears its packets when it is done with what went
   before. *)
Definition may_act (b : list station) (i : nat) (s : station) (a : action) : Prop :=
  allowed (st_net s) a /\
  match a with
  | AUpdate _ => (caught_up s \/ idle s) /\ forall j t, j <> i -> nth_error b j = Some t -> silent t
  | ARefresh _ => caught_up s
  | _ => True
  end.

(* one step, at station i, with what is seen *)
Inductive does (b : list station) : deed -> list station -> nat -> list out -> Prop :=
| do_act i a s n o : nth_error b i = Some s -> may_act b i s a -> act a (st_net s) = Ok (n, o) ->
    does b (DAct i a) (spread i (mkStation n (st_ear s)) (on_wire o) b) i o
| do_listen i e s rest q o : nth_error b i = Some s -> silent s -> in_time e (n_p (st_net s)) -> st_ear s = heard (e_rx e) ++ rest ->
    pd_do (Refresh e) (n_p (st_net s)) = Ok (q, o) ->
    does b (DListen i e) (spread i (mkStation (mkNet (n_c (st_net s)) q (n_at (st_net s)) (to_p (st_net s)) (to_c (st_net s) ++ on_wire o)) rest) (on_wire o) b) i o.

(* a run: what was done, and what was seen where; devices put no packets with a second start byte on the line *)
Definition from_device (d : deed) : Prop := match d with DAct _ (ARefresh _) | DListen _ _ => True | _ => False end.
Inductive shared (b : list station) : list deed -> list station -> list (nat * list out) -> Prop :=
| sh_nil : shared b [] b []
| sh_snoc l t tr d t1 i o : shared b l t tr -> does t d t1 i o -> (from_device d -> one_start (on_wire o)) -> shared b (l ++ [d]) t1 (tr ++ [(i, o)]).

(* what happened at station i *)
Definition acts_at (i : nat) (l : list deed) : list action := flat_map (fun d => match d with DAct j a => if (j =? i)%nat then [a] else [] | DListen _ _ => [] end) l.
Definition seen_at (i : nat) (tr : list (nat * list out)) : list out := flat_map (fun x => if (fst x =? i)%nat then snd x else []) tr.

(* all at work, each with an address of its own, and the line is silent *)
Definition all_at_work (b : list station) : Prop :=
  Forall (fun s => begins (st_net s) /\ st_ear s = []) b /\ NoDup (map (fun s => address (n_p (st_net s))) b).
