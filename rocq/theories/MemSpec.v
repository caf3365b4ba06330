(** What the statements about pointers and counters (MemProps.v) speak about. *)
From stdpp Require Import base list gmap.
From Verif Require Import Base MemModel.
Open Scope N_scope.

(** [o] is allocated; its destructor has not begun. *)
Definition allocated (s : mem) (o : N) : Prop := is_Some (heap s !! o).
Definition alive (s : mem) (o : N) : Prop := exists b, heap s !! o = Some b /\ o_cnt b <> 0.
(** A pointer to [o] is in [c]. *)
Definition holds (s : mem) (c : cell) (o : N) : Prop := (c, Some o) ∈ ptrs s.
(** How many pointers lead to [o]. *)
Definition pointers (o : N) (l : list entry) : nat := length (filter (fun e => e.2 = Some o) l).
(** The objects which were freed. *)
Definition freed (ev : list mev) : list N := (fun e => match e with VFreed o _ => o end) <$> ev.
(** No thread is inside a function or a destructor. *)
Definition idle (s : mem) : Prop := dying s = [] /\ forall t, prog s t = [].

(** What an operation reaches by a plain reference, not through a counted pointer: places
    inside other objects, and objects. *)
Definition src_cells (x : src) : list cell := match x with SFrom c _ => [c] | _ => [] end.
Definition src_raws (x : src) : list N := match x with SRaw o => [o] | _ => [] end.
Definition places (i : instr) : list cell :=
  match i with
  | IMake _ _ _ inner => concat (src_cells <$> inner)
  | ICopy c _ | IDetach c _ _ | IPop c _ | IMove _ c _ | IErase c _ => [c]
  | IAdopt _ p => [CField p FChild]
  | IPush _ p | IFetch p _ | IDrain p => [CIn p]
  | IRoute _ p => [CQueue p]
  | _ => []
  end.
Definition objects (i : instr) : list N := match i with IMake _ _ _ inner => concat (src_raws <$> inner) | _ => [] end.
(** The rule: what is reached by a plain reference is alive. *)
Definition mrule (s : mem) (o : mop) : Prop :=
  match o with
  | MGo t =>
      match current t (dying s), prog s t with
      | Some (o, PRoute, _), _ => forall m p l, due s o = Some (m, p, l) -> alive s p
      | None, i :: _ => (forall c, c ∈ places i -> forall p, MemModel.owner c = Some p -> alive s p) /\ (forall p, p ∈ objects i -> alive s p)
      | _, _ => True
      end
  | _ => True
  end.

(** Places of an actor which may point back to it: all but the list of its children. *)
Definition back (f : fld) : bool := match f with FInner | FChild => false | _ => true end.
(** What is kept: something a variable, a user, a context, a queue or a member other than
    the contents of a message and the list of children points to; what that is made of,
    and its children. *)
Inductive kept (s : mem) : N -> Prop :=
| kept_root c o : holds s c o -> (forall p, c <> CField p FInner) -> (forall p, c <> CField p FChild) -> kept s o
| kept_in p f o : holds s (CField p f) o -> back f = false -> kept s p -> kept s o.

(** Thread [t] is inside a function or a destructor. *)
Definition busy (s : mem) (t : N) : Prop := prog s t <> [] \/ current t (dying s) <> None.
(** What the threads [ts] have still to do at most: the operations of their functions, the
    pointers which may be released, the destructors which are under way. *)
Definition weight (i : instr) : nat :=
  match i with
  | INew _ | ICopy _ _ | IDetach _ _ _ => 6
  | IMake _ _ _ inner => 6 + 5 * length inner
  | _ => 1
  end.
Definition rest (p : phase) : nat := match p with PDrain => 4 | PRoute => 3 | PMembers => 2 | PFree => 1 end.
Definition sum (l : list nat) : nat := foldr Nat.add 0%nat l.
Definition work (ts : list N) (s : mem) : nat :=
  (sum ((fun t => sum (weight <$> prog s t)) <$> ts) + 5 * length (ptrs s) + sum ((fun x => rest x.2) <$> dying s))%nat.
(** A step of one of the threads, which is inside a function or a destructor. *)
Definition goes (ts : list N) (s : mem) (o : mop) : Prop :=
  match o with MGo t => t ∈ ts /\ busy s t | MCall _ _ => False end.
