(** What is claimed about requests, in terms of the trace. *)
From stdpp Require Import base list gmap.
From Verif Require Import Base RequestsModel.

(** Outcome messages given to the requester of request [u]. *)
Definition is_outcome (u : N) (e : revent) : bool :=
  match e with
  | EResp v _ _ _ => N.eqb v u
  | ETimeout v _ _ => N.eqb v u
  | _ => false
  end.
Definition outcomes (u : N) (ev : list revent) : list revent := List.filter (is_outcome u) ev.
Definition is_req (u : N) (e : revent) : bool := match e with EReq v => N.eqb v u | _ => false end.
Definition is_cancel (u : N) (e : revent) : bool := match e with ECancel v => N.eqb v u | _ => false end.

(** Operations which take a new identifier. *)
Definition is_alloc (o : rop) : bool := match o with OBuild _ _ _ | OStart _ => true | _ => false end.
Definition allocs (ops : list rop) : N := N.of_nat (length (List.filter is_alloc ops)).

(** Request [u] waits for its outcome in supervisor [s] under [id]. *)
Definition outstanding (st : rstate) (u s id : N) (c : curry) : Prop :=
  r_map st !! (s, id) = Some c /\ q_uid c = u.

(** Disciplined use: only actors which did not finish make requests and start
    timers, with a supervisor that did not finish either; only existing timers
    are cancelled; *)
Definition alive (asup : N -> N) (st : rstate) (a : N) : Prop := a ∉ r_fin st /\ asup a ∉ r_fin st.

Definition rop_ok (asup : N -> N) (st : rstate) (o : rop) : Prop :=
  match o with
  | OBuild a _ _ => alive asup st a
  | OSendReq id => match r_built st !! id with Some b => alive asup st (b_actor b) | None => True end
  | OStart a => alive asup st a
  | OCancel a id => is_Some (r_timers st !! (a, id))
  | _ => True
  end.

(** The requester an event is meant for. *)
Definition source_of (e : revent) : option N :=
  match e with
  | EResp _ _ _ a => Some a
  | ETimeout _ _ a => Some a
  | EUser a _ _ => Some a
  | _ => None
  end.
