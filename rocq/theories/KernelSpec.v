(** What is claimed about the messaging core, in terms of the trace only (and
    of the queues for pending messages). *)
From stdpp Require Import base list gmap.
From Verif Require Import Base SubsModel KernelModel.

Section Spec.
  Variable aloc : N -> N.

  (** Does message [m] travel from source [k] to locality [d]? *)
  Definition between (k : src) (d : N) (m : msg) : bool :=
    bool_decide (m_src m = k) && N.eqb (aloc (m_addr m)) d.

  Definition sent_of (e : kevent) : option msg := match e with ESent m => Some m | _ => None end.
  Definition disp_at (d : N) (e : kevent) : option msg :=
    match e with EDisp l m _ _ => if N.eqb l d then Some m else None | _ => None end.
  (** Everything taken from the queue of [l]: dispatched or handed over. *)
  Definition pop_at (d : N) (e : kevent) : option msg :=
    match e with
    | EDisp l m _ _ => if N.eqb l d then Some m else None
    | EMove l m => if N.eqb l d then Some m else None
    | _ => None
    end.

  (** Messages sent from [k] to addresses of [d], in the order of sending. *)
  Definition sents (k : src) (d : N) (ev : list kevent) : list msg :=
    List.filter (between k d) (omap sent_of ev).
  (** Messages from [k] handed to the subscribers in [d], in that order. *)
  Definition disps (k : src) (d : N) (ev : list kevent) : list msg :=
    List.filter (between k d) (omap (disp_at d) ev).
  Definition pops (d : N) (ev : list kevent) : list msg := omap (pop_at d) ev.

  (** The locality whose queue a message of this source starts in. *)
  Definition home (k : src) : option N :=
    match k with SLoc l => Some l | SFwd l => Some l | SExt _ => None | SCall _ => None end.

  (** Messages under way from [k] to [d]: in the queue of [d], in its inbound
      queue, and still in the sender's queue. *)
  Definition pending (k : src) (d : N) (w : world) : list msg :=
    List.filter (between k d) (w_queue w d) ++ List.filter (between k d) (w_inb w d) ++
    match home k with
    | Some s => if N.eqb s d then [] else List.filter (between k d) (w_queue w s)
    | None => []
    end.

  (** Second hops made from message [u]. *)
  Definition hops (u : N) (ev : list kevent) : list msg :=
    List.filter (fun m => bool_decide (m_root m = Some u) &&
                          match m_src m with SLoc _ => true | _ => false end) (omap sent_of ev).
  Definition routed_ends (u : N) (ev : list kevent) : list msg :=
    omap (fun e => match e with EEnd _ m true => if N.eqb (m_uid m) u then Some m else None | _ => None end) ev.
End Spec.
