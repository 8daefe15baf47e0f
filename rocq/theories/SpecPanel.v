(** Several devices on one line, and the panel as a whole: what is handed in and refreshed is the panel, which
    turns to its entries one after the other under the lock of the channel. *)
From Verif Require Import Base Rb RbProofs Types Phy Pd Cp CpCtx SpecRx SpecFrame RxProofs SpecPd SpecCp SpecCtx SpecLink SpecApp SpecTalk SpecHand SpecLost SpecRun SpecBus SpecRun SpecShare.

(* the panel after a turn at entry i: it goes on to the next entry, or the refresh is over *)
Definition after (b : bool) (c : ctx) (i : nat) : ctx := if b then mkCtx (c_pds c) (next_cur c i) (c_nchan c) (c_lock c) else c.

(* turns of the panel, with what was seen *)
Inductive turned (c : ctx) : list (nat * list out) -> ctx -> Prop :=
| td_nil : turned c [] c
| td_snoc tr m e d b o : turned c tr m -> refresh_pd e m (c_cur m) = Ok (d, b, o) -> turned c (tr ++ [(c_cur m, o)]) (after b d (c_cur m)).

(* another entry on the channel of entry i waits for a reply *)
Definition held (m : ctx) (i : nat) : Prop := exists p j, nth_error (c_pds m) i = Some p /\ j <> i /\ waits m j (chan_id p).

(* A run of the panel and the devices: what was done, and what was seen where.  A turn of the panel reads the
   line if no other entry on the channel waits; then it is as in SpecShare, but nothing is assumed about the
   other entries.  Devices are as in SpecShare. *)
Inductive panel_run (m0 : ctx) (b0 : list station) : list deed -> ctx -> list station -> list (nat * list out) -> Prop :=
| pr_start : panel_run m0 b0 [] m0 b0 []
| pr_turn l m t tr e d b o s n :
    panel_run m0 b0 l m t tr -> refresh_pd e m (c_cur m) = Ok (d, b, o) -> ~ held m (c_cur m) ->
    nth_error t (c_cur m) = Some s -> caught_up s \/ idle s -> allowed (st_net s) (AUpdate e) -> act (AUpdate e) (st_net s) = Ok (n, o) ->
    panel_run m0 b0 (l ++ [DAct (c_cur m) (AUpdate e)]) (after b d (c_cur m)) (spread (c_cur m) (mkStation n (st_ear s)) (on_wire o) t) (tr ++ [(c_cur m, o)])
| pr_passed l m t tr e d b o :
    panel_run m0 b0 l m t tr -> refresh_pd e m (c_cur m) = Ok (d, b, o) -> env_typed e -> held m (c_cur m) ->
    panel_run m0 b0 l (after b d (c_cur m)) t tr
| pr_send l m t tr i e k d o s n :
    panel_run m0 b0 l m t tr -> ctx_do (CxOn i (Send e k)) m = Ok (d, [(i, o)]) ->
    nth_error t i = Some s -> allowed (st_net s) (ASend e k) -> act (ASend e k) (st_net s) = Ok (n, o) ->
    panel_run m0 b0 (l ++ [DAct i (ASend e k)]) d (spread i (mkStation n (st_ear s)) (on_wire o) t) (tr ++ [(i, o)])
| pr_device l m t tr x t1 i o :
    panel_run m0 b0 l m t tr -> match x with DAct _ (ARefresh _) | DAct _ (ANotify _) | DListen _ _ => True | _ => False end ->
    does t x t1 i o -> (from_device x -> one_start (on_wire o)) ->
    panel_run m0 b0 (l ++ [x]) m t1 (tr ++ [(i, o)]).

(* one panel, its entries all on one channel, at work with a device each *)
Definition panel_at_work (m : ctx) (b : list station) : Prop :=
  (exists blocks l h, ctx_runs blocks l h m /\ Forall fixed h) /\
  (exists ch, ch <> 0 /\ Forall (fun p => chan_id p = ch) (c_pds m)) /\
  c_pds m = map (fun s => n_c (st_net s)) b /\ all_at_work b.
