(** The memory of a context: which blocks are allocated, freed and used by set-up, the addition of PDs, the
    calls that use the storage for commands and events, and teardown.  The protocol is left out: which commands
    a refresh takes from a queue is a parameter of the call, so that every behaviour is covered.

    The slab and the queue are in the submodule utils, which is empty in the checkout.  Assumed of them, from
    their use in osdp_cp.c:55-115 and osdp_pd.c:83-140: slab_init keeps the pointer to the blob it is given (as
    the struct at osdp_common.h:346-351 does), slab_alloc and slab_free work on that blob, an element of a
    queue is linked through the node inside the block that slab_alloc gave. *)
From Verif Require Import Base Types Pd CpCtx.

(* outcomes that C leaves undefined, and the array of 126 channels overrun (osdp_cp.c:1355) *)
Inductive mbad := UsedFreed | FreedTwice | NullUsed | Overrun.
Inductive mres (A : Type) := MOk (a : A) | MBad (b : mbad).
Arguments MOk {A}. Arguments MBad {A}.
Definition mbind {A B} (r : mres A) (k : A -> mres B) : mres B := match r with MOk a => k a | MBad b => MBad b end.

(* malloc: blocks are numbered in the order of allocation, numbers are not used again *)
Record heap := mkHeap { h_next : nat; h_live : list nat }.
Definition h_in (b : nat) (h : heap) : bool := existsb (Nat.eqb b) (h_live h).
(* calloc, as at osdp_cp.c:1399; [ok] tells if there is memory *)
Definition h_alloc (ok : bool) (h : heap) : heap * option nat :=
  if ok then (mkHeap (S (h_next h)) (h_next h :: h_live h), Some (h_next h)) else (h, None).
(* a read or write in block b *)
Definition h_use (b : nat) (h : heap) : mres heap := if h_in b h then MOk h else MBad UsedFreed.
(* free, as at osdp_cp.c:1457 *)
Definition h_free (b : nat) (h : heap) : mres heap :=
  if h_in b h then MOk (mkHeap (h_next h) (remove Nat.eq_dec b (h_live h))) else MBad FreedTwice.
(* osdp_common.h:119-121 safe_free *)
Definition h_safe_free (o : option nat) (h : heap) : mres heap := match o with Some b => h_free b h | None => MOk h end.
(* use of a pointer that may be null *)
Definition h_use_opt (o : option nat) (h : heap) : mres heap := match o with Some b => h_use b h | None => MBad NullUsed end.

(* osdp_common.h:382-439 struct osdp_pd: the block its slab works on, the blocks in which the queued elements lie,
   the file context, the channel *)
Record ment := mkMent { me_slab : nat; me_nodes : list nat; me_file : option nat; me_chan : Z }.
(* osdp_common.h:441-452 struct osdp: the block it lies in, the block _current_pd points into, the array of
   PDs, the channel locks *)
Record mctx := mkMctx { mc_self : nat; mc_cur : option nat; mc_arr : option nat; mc_lock : option nat; mc_pds : list ment }.

(* osdp_cp.c:1409-1436: the entries made for the info list in array [arr]; None: SCBK missing *)
Fixpoint m_new (arr : nat) (l : list pdinfo) : option (list ment) :=
  match l with
  | [] => Some []
  | x :: t =>
      match i_scbk x, enforce (public_flags (i_flags x)), m_new arr t with
      | None, true, _ => None
      | _, _, None => None
      | _, _, Some q => Some (mkMent arr [] None (i_chan x) :: q)
      end
  end.

(* osdp_cp.c:1372-1379: channel locks are needed when two PDs are on one channel *)
Definition m_shared (l : list ment) : bool :=
  negb (zlen (nodup Z.eq_dec (map me_chan l)) =? zlen l).

(* osdp_cp.c:1387-1466 cp_add_pd; the boolean is "return value 0".  [ok1]: memory for the array, [ok2]: for the locks. *)
Definition m_add (ok1 ok2 : bool) (l : list pdinfo) (h : heap) (c : mctx) : mres (heap * mctx * bool) :=
  mbind (h_use (mc_self c) h) (fun h =>
  match h_alloc ok1 h with
  | (h, None) => MOk (h, c, false)
  | (h, Some arr) =>
      mbind (match mc_arr c with Some old => h_use old h | None => MOk h end) (fun h =>
      let fail h := mbind (h_free arr h) (fun h => MOk (h, c, false)) in
      match m_new arr l with
      | None => fail h
      | Some q =>
          let pds := mc_pds c ++ q in
          if zlen pds >? 126 then MBad Overrun
          else
            let (h, lock) := if m_shared pds then h_alloc ok2 h else (h, None) in
            if m_shared pds && (match lock with None => true | Some _ => false end) then fail h
            else
              mbind (h_safe_free (mc_lock c) h) (fun h =>
              mbind (if zlen (mc_pds c) =? 0 then MOk h else h_safe_free (mc_arr c) h) (fun h =>
              MOk (h, mkMctx (mc_self c) (Some arr) (Some arr) lock pds, true)))
      end)
  end).

(* osdp_cp.c:1519-1524: the file contexts *)
Fixpoint m_free_files (arr : option nat) (l : list ment) (h : heap) : mres heap :=
  match l with
  | [] => MOk h
  | x :: t => mbind (h_use_opt arr h) (fun h => mbind (h_safe_free (me_file x) h) (m_free_files arr t))
  end.
(* osdp_cp.c:1512-1529 osdp_cp_teardown *)
Definition m_teardown (h : heap) (c : mctx) : mres heap :=
  mbind (h_use (mc_self c) h) (fun h =>
  mbind (m_free_files (mc_arr c) (mc_pds c) h) (fun h =>
  mbind (h_safe_free (mc_arr c) h) (fun h =>
  mbind (h_safe_free (mc_lock c) h) (fun h => h_free (mc_self c) h)))).

(* osdp_cp.c:1470-1493 osdp_cp_setup; None: it returned NULL *)
Definition m_setup (ok0 ok1 ok2 : bool) (l : list pdinfo) (h : heap) : mres (heap * option mctx) :=
  match h_alloc ok0 h with
  | (h, None) => MOk (h, None)
  | (h, Some self) =>
      let c := mkMctx self None None None [] in
      match l with
      | [] => MOk (h, Some c)
      | _ =>
          mbind (m_add ok1 ok2 l h c) (fun x =>
          match x with
          | (h, c, true) => MOk (h, Some c)
          | (h, c, false) => mbind (m_teardown h c) (fun h => MOk (h, None))
          end)
      end
  end.

(* osdp_pd.c:1169-1183 osdp_pd_teardown *)
Definition m_pd_teardown (h : heap) (c : mctx) : mres heap :=
  mbind (h_use (mc_self c) h) (fun h =>
  mbind (h_use_opt (mc_arr c) h) (fun h =>
  mbind (m_free_files (mc_arr c) (mc_pds c) h) (fun h =>
  mbind (h_safe_free (mc_arr c) h) (fun h => h_free (mc_self c) h)))).

(* osdp_pd.c:1082-1167 osdp_pd_setup; the structure is one entry *)
Definition m_pd_setup (ok0 ok1 : bool) (i : pdinfo) (h : heap) : mres (heap * option mctx) :=
  match h_alloc ok0 h with
  | (h, None) => MOk (h, None)
  | (h, Some self) =>
      match h_alloc ok1 h with
      | (h, None) => mbind (m_pd_teardown h (mkMctx self None None None [])) (fun h => MOk (h, None))
      | (h, Some pd) =>
          let c := mkMctx self (Some pd) (Some pd) None [mkMent pd [] None (i_chan i)] in
          match i_scbk i, enforce (public_flags (i_flags i)) with
          | None, true => mbind (m_pd_teardown h c) (fun h => MOk (h, None))
          | _, _ => MOk (h, Some c)
          end
      end
  end.

(* the entry with number i is replaced *)
Definition m_set (i : nat) (x : ment) (c : mctx) : mctx :=
  mkMctx (mc_self c) (mc_cur c) (mc_arr c) (mc_lock c) (firstn i (mc_pds c) ++ x :: skipn (S i) (mc_pds c)).

(* osdp_common.h:169-176: a call for PD i; nothing happens when there is none *)
Definition m_with (i : nat) (h : heap) (c : mctx) (k : heap -> ment -> mres (heap * mctx)) : mres (heap * mctx) :=
  mbind (h_use (mc_self c) h) (fun h =>
  match nth_error (mc_pds c) i with
  | None => MOk (h, c)
  | Some x => mbind (h_use_opt (mc_arr c) h) (fun h => k h x)
  end).

(* osdp_cp.c:75-85, 95-101 and 1579-1585, osdp_pd.c:100-109, 119-125 and 1217-1224: a block is taken from the slab, written, and
   linked behind the last one; [room]: the slab has a free block *)
Definition m_put (room : bool) (i : nat) (h : heap) (c : mctx) : mres (heap * mctx) :=
  m_with i h c (fun h x =>
    mbind (h_use (me_slab x) h) (fun h =>
    if room then
      mbind (match rev (me_nodes x) with b :: _ => h_use b h | [] => MOk h end) (fun h =>
      MOk (h, m_set i (mkMent (me_slab x) (me_nodes x ++ [me_slab x]) (me_file x) (me_chan x)) c))
    else MOk (h, c))).

(* osdp_cp.c:87-93, 103-114 and 929-931, osdp_pd.c:111-117, 127-138 and 304-307: the first element is unlinked, read and
   given back to the slab *)
Definition m_take (i : nat) (h : heap) (c : mctx) : mres (heap * mctx) :=
  m_with i h c (fun h x =>
    match me_nodes x with
    | [] => MOk (h, c)
    | b :: t =>
        mbind (h_use b h) (fun h => mbind (h_use (me_slab x) h) (fun h =>
        MOk (h, m_set i (mkMent (me_slab x) t (me_file x) (me_chan x)) c)))
    end).

(* osdp_cp.c:1321-1347 cp_refresh and osdp_cp.c:116-150, for the current PD: the locks when there are any, the file context when
   there is one, and a queued element or not *)
Definition m_serve (i : nat) (takes : bool) (h : heap) (c : mctx) : mres (heap * mctx) :=
  mbind (h_use_opt (mc_cur c) h) (fun h =>
  mbind (match mc_lock c with Some b => h_use b h | None => MOk h end) (fun h =>
  m_with i h c (fun h x =>
    mbind (match me_file x with Some b => h_use b h | None => MOk h end) (fun h =>
    if takes then m_take i h c else MOk (h, c))))).

(* osdp_cp.c:1531-1550 osdp_cp_refresh and osdp_pd.c:1185-1191 osdp_pd_refresh: PDs served one after the other *)
Fixpoint m_refresh (l : list (nat * bool)) (h : heap) (c : mctx) : mres (heap * mctx) :=
  match l with
  | [] => MOk (h, c)
  | (i, b) :: t => if Nat.ltb i (length (mc_pds c)) then mbind (m_serve i b h c) (fun x => m_refresh t (fst x) (snd x)) else m_refresh t h c
  end.

(* osdp_cp.c:1588-1600 osdp_cp_flush_commands and osdp_pd.c:1227-1240 osdp_pd_flush_events *)
Fixpoint m_flush (n : nat) (i : nat) (h : heap) (c : mctx) : mres (heap * mctx) :=
  match n with O => MOk (h, c) | S n => mbind (m_take i h c) (fun x => m_flush n i (fst x) (snd x)) end.

(* osdp_file.c:420-437 osdp_file_register_ops *)
Definition m_register (ok : bool) (i : nat) (h : heap) (c : mctx) : mres (heap * mctx) :=
  m_with i h c (fun h x =>
    match me_file x with
    | Some b => mbind (h_use b h) (fun h => MOk (h, c))
    | None =>
        match h_alloc ok h with
        | (h, None) => MOk (h, c)
        | (h, Some b) => mbind (h_use b h) (fun h => MOk (h, m_set i (mkMent (me_slab x) (me_nodes x) (Some b) (me_chan x)) c))
        end
    end).

(* the calls of the application between set-up and teardown *)
Inductive mcall :=
| MAdd (ok1 ok2 : bool) (l : list pdinfo)      (* osdp_cp.c:1495 *)
| MPut (room : bool) (i : nat)                 (* osdp_cp.c:1560, osdp_pd.c:1211 *)
| MFlush (n i : nat)                           (* osdp_cp.c:1588, osdp_pd.c:1227 *)
| MRegister (ok : bool) (i : nat)              (* osdp_file.c:420 *)
| MRefresh (l : list (nat * bool)).            (* osdp_cp.c:1531, osdp_pd.c:1185 *)

(* one of them; adding no PD stops at the assertion of osdp_cp.c:1498 and is left out here *)
Definition m_call (k : mcall) (h : heap) (c : mctx) : mres (heap * mctx) :=
  match k with
  | MAdd ok1 ok2 l => mbind (m_add ok1 ok2 l h c) (fun x => MOk (fst x))
  | MPut room i => m_put room i h c
  | MFlush n i => m_flush n i h c
  | MRegister ok i => m_register ok i h c
  | MRefresh l => m_refresh l h c
  end.

(* a sequence of calls (osdp_cp.c:1470-1600) *)
Fixpoint m_calls (l : list mcall) (h : heap) (c : mctx) : mres (heap * mctx) :=
  match l with [] => MOk (h, c) | k :: t => mbind (m_call k h c) (fun x => m_calls t (fst x) (snd x)) end.
