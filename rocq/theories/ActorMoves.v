(** The steps of the actor as sequences of small moves; [reach] collects what can
    be reached by them, so that invariants are proved move by move. *)
From stdpp Require Import base list gmap.
From Verif Require Import Base Prog ActorModel ActorSpec.
Open Scope N_scope.
Local Open Scope prog_scope.

(** What the vote of a plugin says. *)
Definition ready (p : plug) (s : astore) : bool :=
  match p with
  | PLc => negb (has_linking s)
  | PRg => bool_decide (x_dm s = ∅) && negb (has_registering s)
  | PRs => negb (has_any s)
  | PSt => bool_decide (x_trk s = 0%nat)
  | _ => true
  end.
Definition done (p : plug) (s : astore) : bool :=
  match p with
  | PRs => negb (has_any s)
  | PRg => bool_decide (x_dm s = ∅)
  | PLc => bool_decide (x_sv s = ∅)
  | PLs => bool_decide (x_cl s = ∅)
  | PLife => negb (x_pts s)
  | PSt => true
  end.
Definition del_all (l : list N) (m : gmap N task) : gmap N task := foldl (fun m n => delete n m) m l.
Definition set_addr (t : task) (a : N) : task := Task (t_delayed t) (t_oponly t) (t_st t) (Some a).
Definition set_tst (t : task) (x : tstate) : task := Task (t_delayed t) (t_oponly t) x (t_addr t).
Definition w_req (s : astore) (q : query) : astore := w_next (w_pend s (<[x_next s := q]> (x_pend s))) (x_next s + 1).

Section moves.
(** [D]: the usage discipline is kept. *)
Context (D : Prop).

Inductive move (s : astore) : list aev -> astore -> Prop :=
(* links to servers *)
| MLink a o cb : x_sv s !! a = None ->
    move s [EvLink a o (x_next s)] (w_sv (w_req (w_i s (updp (x_i s) PLc true)) (QLink a)) (<[a := SRec cb (SLinking (x_next s))]> (x_sv s)))
| MLinkErr a : is_Some (x_sv s !! a) -> move s [EvLinkResp a false] (w_sv s (delete a (x_sv s)))
| MLinkUp a cb : is_Some (x_sv s !! a) -> move s [EvLinkResp a true] (w_sv s (<[a := SRec cb SOperational]> (x_sv s)))
| MUnlinkReply a : is_Some (x_sv s !! a) -> move s [EvUnlinkReply a] (w_sv s (delete a (x_sv s)))
| MLeave a p : is_Some (x_sv s !! a) -> (forall id q, p !! id = Some q -> x_pend s !! id = Some q) ->
    move s [EvNotify a] (w_sv (w_pend s p) (delete a (x_sv s)))
| MQueue l : move s [] (w_uq s l)
| MDoShutdown : move s [EvDoShutdown] s
(* names *)
| MLking : move s [] (w_lking s true)
| MLinked : move s [] (w_lking (w_lked s true) false)
| MRegister n : (D -> x_st s = AInitializing /\ x_i s PRg = true) -> x_rm s !! n = None -> x_lked s = false ->
    move s [EvRegister n] (w_rm s (<[n := RRegistering]> (x_rm s)))
| MDiscover n t : (D -> x_st s = AInitializing /\ x_i s PRg = true) -> x_dm s !! n = None -> x_lked s = false -> t_addr t = None ->
    move s [EvDiscover n] (w_dm s (<[n := t]> (x_dm s)))
| MRegReq n : x_lked s = true -> move s [EvReg n (x_next s)] (w_req s (QReg n))
| MDiscReq n t (d : bool) : x_lked s = true -> x_dm s !! n = Some t ->
    move s [if d then EvPromise n (x_next s) else EvDisc n (x_next s)] (w_req (w_dm s (<[n := set_tst t TDiscovering]> (x_dm s))) (QDisc n))
| MRegOk n : is_Some (x_rm s !! n) -> move s [EvRegResp n true] (w_rm s (<[n := ROperational]> (x_rm s)))
| MRegErr n : x_ireq s = true -> is_Some (x_rm s !! n) ->
    move s [EvRegResp n false; EvInitErr PRg] (w_rm s (delete n (x_rm s)))
| MDiscOk n t a : x_dm s !! n = Some t -> x_lked s = true ->
    move s [EvDiscResp n (Some a)] (w_dm s (<[n := set_addr t a]> (x_dm s)))
| MDiscErr n a l : l = [n] \/ x_al s !! a = Some l -> (x_st s = AInitializing -> x_ireq s = true) ->
    move s (EvDiscResp n None :: if bool_decide (x_st s = AInitializing) then [EvInitErr PRg] else []) (w_dm s (del_all l (x_dm s)))
| MAlias a l n t : l = [] \/ x_al s !! a = Some l -> x_dm s !! n = Some t -> t_addr t = Some a ->
    move s [] (w_al s (<[a := l ++ [n]]> (x_al s)))
| MPost l : (x_st s = AInitializing -> exists a, x_al s !! a = Some l) -> move s [] (w_dm s (del_all l (x_dm s)))
| MCancel n t : x_dm s !! n = Some t -> move s [EvCancel n] (w_dm s (<[n := set_tst t TCancelling]> (x_dm s)))
| MDereg (e : list aev) : x_st s = AShuttingDown -> NoDup e ->
    (forall x, x ∈ e <-> exists n, x = EvDereg n /\ x_rm s !! n = Some ROperational) ->
    move s e (w_rm s ∅)
| MAlClear : move s [] (w_al s ∅)
(* resources *)
| MAcquire i : move s [EvAcquire i]
    (w_d (w_i (w_res s (<[i := held s i + 1]> (x_res s)))
       (if bool_decide (x_st s = AInitializing) then updp (x_i s) PRs true else x_i s))
       (if negb (bool_decide (x_st s = AInitializing)) && (rank AOperational <=? rank (x_st s)) then updp (x_d s) PRs true else x_d s))
| MRelease i : 0 < held s i -> move s [EvRelease i] (w_res s (<[i := held s i - 1]> (x_res s)))
(* starter *)
| MTrack n : move s [] (w_trk s n)
| MConf p : move s [] (w_conf s (updp (x_conf s) p true))
| MStarterOff : x_trk s = 0%nat -> move s [] (w_i s (updp (x_i s) PSt false))
| MSubOff : move s [] (w_sub s false)
| MStart : x_st s = AInitialized -> move s [EvState AInitialized AOperational] (w_st s AOperational)
| MAnswer c r : x_st s = AOperational -> x_cl s !! c = Some (CPending r) ->
    move s [EvLinkAns c r LOk] (w_cl s (<[c := COperational]> (x_cl s)))
| MStarted : (forall c r, x_cl s !! c <> Some (CPending r)) -> move s [] (w_s s false)
(* initialization *)
| MInitReq : move s [EvInitReq] (w_ireq s true)
| MProg b : move s [] (w_prog s b)
| MInitVote p (b : bool) : x_st s = AInitializing -> ready p s = b ->
    move s [EvInitVote p b] (if b then w_i s (updp (x_i s) p false) else s)
| MInitOk : x_st s = AInitializing -> x_ireq s = true -> (D -> ready PLc s = true /\ ready PRg s = true /\ ready PRs s = true) ->
    move s [EvInitOk; EvState AInitializing AInitialized] (w_st (w_ireq s false) AInitialized)
| MInitErr : x_ireq s = true -> move s [EvInitErr PRg] s
| MInitFail : x_ireq s = true -> move s [EvInitErr PLc] (w_ireq s false)
(* clients *)
| MRefuse c r o : rank AOperational < rank (x_st s) -> move s [EvLinkReq c r o; EvLinkAns c r LNotLinkable] s
| MAlready c r o : rank (x_st s) <= rank AOperational -> is_Some (x_cl s !! c) -> move s [EvLinkReq c r o; EvLinkAns c r LAlready] s
| MPend c r : rank (x_st s) < rank AOperational -> x_cl s !! c = None ->
    move s [EvLinkReq c r true] (w_s (w_cl s (<[c := CPending r]> (x_cl s))) true)
| MAccept c r o : rank (x_st s) <= rank AOperational -> (o = true -> x_st s = AOperational) -> x_cl s !! c = None ->
    move s [EvLinkReq c r o; EvLinkAns c r LOk] (w_cl s (<[c := COperational]> (x_cl s)))
| MAsk c : x_cl s !! c = Some COperational ->
    move s [EvUnlinkReq c (x_next s)] (w_cl (w_req s (QUnlink c)) (<[c := CUnlinking (x_next s)]> (x_cl s)))
| MNoClient c : x_cl s !! c = None -> move s [EvGotNotify c] s
| MGone c p : is_Some (x_cl s !! c) -> (forall id q, p !! id = Some q -> x_pend s !! id = Some q) ->
    move s [EvGotNotify c] (w_cl (w_pend s p) (delete c (x_cl s)))
| MUnlinked c : is_Some (x_cl s !! c) -> move s [EvUnlinkOk c] (w_cl s (delete c (x_cl s)))
| MShutErr : x_sreq s = true -> move s [EvShutErr] s
(* shutdown *)
| MDown : rank (x_st s) < rank AShuttingDown ->
    move s [EvState (x_st s) AShuttingDown] (w_st (w_sreq s true) AShuttingDown)
| MDownVote p (b : bool) : x_st s = AShuttingDown -> done p s = b ->
    (p = PLs \/ p = PLc /\ b = false -> forall c, x_cl s !! c <> Some COperational) ->
    (p = PRg -> x_rm s = ∅) ->
    move s [EvShutVote p b] (if b then w_d s (updp (x_d s) p false) else s)
| MFinish : x_st s = AShuttingDown -> (forall p, p ∈ shutdown_order -> x_d s p = false) ->
    move s ((if x_sreq s then [EvShutOk] else []) ++ [EvState AShuttingDown AShutDown]) (w_st (w_pend (w_sreq s false) ∅) AShutDown)
| MPts : move s [] (w_pts s false)
(* requests *)
| MPendDel id : move s [] (w_pend s (delete id (x_pend s)))
| MTimeout id q : x_pend s !! id = Some q -> move s [] (w_late (w_pend s (delete id (x_pend s))) (x_late s ++ [q]))
| MLate q l : x_late s = q :: l -> move s [] (w_late s l).

Inductive reach : astore -> list aev -> Prop :=
| reach_init : reach ainit []
| reach_move s ev e s' : reach s ev -> move s e s' -> reach s' (ev ++ e).

Lemma reach_nil s ev s' : reach s ev -> move s [] s' -> reach s' ev.
Proof. intros H1 H2. rewrite <- (app_nil_r ev). by eapply reach_move. Qed.
(** An invariant of the moves. *)
Lemma reach_inv (I : astore -> list aev -> Prop) :
  I ainit [] -> (forall s ev e s', reach s ev -> I s ev -> move s e s' -> I s' (ev ++ e)) -> forall s ev, reach s ev -> I s ev.
Proof. intros H0 H s ev Hr. induction Hr; eauto. Qed.
End moves.
