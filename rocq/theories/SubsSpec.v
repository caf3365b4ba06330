(** Independent specification of subscriptions: the list of live
    subscriptions, in the order in which they were made. *)
From stdpp Require Import base list gmap.
From Verif Require Import Base SubsModel.

Record sub := Sub {
  su_id : N; su_addr : N; su_mtype : N; su_actor : N; su_core : N
}.

Section Spec.
  Variable addr_in : N -> bool.
  Variable actor_in : N -> bool.

  (** Subscribing adds at the end, unsubscribing removes that subscription,
      tagging is invisible.  Subscriptions to addresses of other localities do
      not belong to this map. *)
  Definition spec_step (l : list sub) (e : sev) : list sub :=
    match e with
    | (Subscribe act m a, Some (core, id)) =>
        if addr_in a then l ++ [Sub id a m act core] else l
    | (Forget id, _) => List.filter (fun u => negb (N.eqb (su_id u) id)) l
    | _ => l
    end.

  Definition live (tr : list sev) : list sub := fold_left spec_step tr [].

  (** Who must get a message of type [m] sent to [a]: the subscribed actors of
      other localities, then the own ones, each in subscription order. *)
  Definition matching (a m : N) (internal : bool) (u : sub) : bool :=
    N.eqb (su_addr u) a && N.eqb (su_mtype u) m && Bool.eqb (actor_in (su_actor u)) internal.

  Definition expected (l : list sub) (a m : N) : list sub :=
    List.filter (matching a m false) l ++ List.filter (matching a m true) l.

  (** What identifies a recipient: the actor and the user method object. *)
  Definition view (h : handler) : N * N := (h_actor h, h_core h).
  Definition sview (u : sub) : N * N := (su_actor u, su_core u).

  (** Operations that respect the ownership protocol: only a live subscription is
      forgotten or tagged (or one on a foreign address, known to this map). *)
  Definition known (s : subs) (id : N) : Prop :=
    exists i, sb_heap s !! id = Some i.

  Definition live_id (s : subs) (id : N) : Prop :=
    exists i, sb_heap s !! id = Some i /\
      (i_intaddr i = true -> exists l, sb_infos s !! i_addr i = Some l /\ In id l).

  Definition sop_ok (s : subs) (o : sop) : Prop :=
    match o with
    | Subscribe _ _ _ => True
    | Forget id => live_id s id
    | Tag id _ => live_id s id
    end.
End Spec.
