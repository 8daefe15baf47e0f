(** The progress of a file transfer, as the application of the control panel can reckon it from the calls of its own
    file functions and from the answers on the line. *)
From Verif Require Import Base Types Phy File Pd Cp CpCtx SpecPd SpecCp SpecOpen CpReply.

(* nothing to tell, or a file of the given size, of which off bytes have been acknowledged and the next pend bytes
   have been read *)
Inductive prog := Nothing | At (size off pend : Z).

(* the progress after the acknowledgement of what has been read; status 3 at the end: the device wants to be kept
   busy, which counts as no transfer *)
Definition advance (size off pend status : Z) : prog :=
  if (off + pend =? size) && (status =? 3) then Nothing else At size (off + pend) 0.

(* one call of a file function; acked: in this update an acknowledgement was handled *)
Inductive pstep (e : env) (acked : bool) : prog -> out -> prog -> Prop :=
| g_open g id n : 0 <= fst (e_fopen e id n) -> 0 < snd (e_fopen e id n) -> pstep e acked g (OFOpen id n) (At (snd (e_fopen e id n)) 0 0)
| g_refuse g id n : fst (e_fopen e id n) < 0 \/ snd (e_fopen e id n) <= 0 -> pstep e acked g (OFOpen id n) g
| g_read s o k n d : e_fread e n o = Some d -> d <> [] -> pstep e acked (At s o k) (OFRead n o) (At s o (zlen d))
| g_lost s o k n : e_fread e n o = None \/ e_fread e n o = Some [] -> pstep e acked (At s o k) (OFRead n o) Nothing
| g_end g : acked = true -> pstep e acked g OFClose g
| g_abort g : acked = false -> pstep e acked g OFClose Nothing
| g_other g x : ~ file_call x -> pstep e acked g x g.

Inductive psteps (e : env) (acked : bool) : prog -> list out -> prog -> Prop :=
| gs_nil g : psteps e acked g [] g
| gs_cons g x g1 o g2 : pstep e acked g x g1 -> psteps e acked g1 o g2 -> psteps e acked g (x :: o) g2.

(* R l: an answer l arrives.  Its first byte is the code of a status report (122), then come a byte of flags, two bytes
   of delay and two bytes of status. *)
Definition status_of (l : list Z) : Z := nth 4 l 0 + 256 * nth 5 l 0.
Inductive move (e : env) (R : list Z -> Prop) : prog -> list out -> prog -> Prop :=
| m_plain g o g1 : psteps e false g o g1 -> move e R g o g1
| m_report s off k l o g1 : R l -> nth 0 l 0 = 122 -> off + k <= s -> psteps e true (advance s off k (status_of l)) o g1 ->
    move e R (At s off k) o g1.

(* a whole history (latest first) *)
Inductive told : list cp_entry -> prog -> Prop :=
| t_start : told [] Nothing
| t_update h p e o g g1 : told h g -> move e (heard_reply e p) g o g1 -> told (mkCe p (Update e) o :: h) g1
| t_send h p e c o g g1 : told h g -> psteps e false g o g1 -> told (mkCe p (Send e c) o :: h) g1
| t_register h p g : told h g -> told (mkCe p CpRegisterFileOps [] :: h) Nothing
| t_other h p k g : told h g -> (forall e, k <> Update e) -> (forall e c, k <> Send e c) -> k <> CpRegisterFileOps ->
    told (mkCe p k [] :: h) g.

(* sizes and numbers of bytes given by the file functions fit an int *)
Definition sized (e : env) : Prop :=
  (forall id n, snd (e_fopen e id n) < 2147483648) /\ (forall n off d, e_fread e n off = Some d -> zlen d < 2147483648).
Definition sized_call (c : cp_call) : Prop := match c with Update e | Send e _ => sized e | _ => True end.
(* the application has registered file functions *)
Definition registered (h : list cp_entry) : Prop := exists x, In x h /\ ce_call x = CpRegisterFileOps.
