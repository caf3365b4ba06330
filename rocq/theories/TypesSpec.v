(** Vocabulary of C70. *)
From stdpp Require Import base list gmap.
From Verif Require Import Base TypesModel.
Open Scope N_scope.

(** What compilers, loaders and programs see to anyhow: a module is loaded once at a time, its
    texts are at places where there is nothing, once for each type; a variable is initialised
    once; what is used is loaded; a module is unloaded only when its handlers are gone. *)
Definition sane (s : tstate) (o : top) : Prop :=
  match o with
  | OLoad m l => (forall t, t_names s !! (m, t) = None) /\ NoDup l.*1 /\ NoDup l.*2 /\ forall t p, (t, p) ∈ l -> p <> 0 /\ t_mem s !! p = None
  | OInit m t => is_Some (t_names s !! (m, t)) /\ t_vars s !! (m, t) = None
  | OMake m t | OSub m t => is_Some (t_names s !! (m, t))
  | ODeliver k => (k < length (t_msgs s))%nat
  | OUnload m => forall m' t key, (m', t, key) ∈ t_hs s -> m' <> m
  end.
(** Messages and handlers are made only after the variable has been initialised. *)
Definition after_init (s : tstate) (o : top) : Prop :=
  match o with OMake m t | OSub m t => is_Some (t_vars s !! (m, t)) | _ => True end.
(** Only modules are unloaded which were not the first with any of their names. *)
Definition not_first (s : tstate) (o : top) : Prop :=
  match o with OUnload m => forall n p x, (n, p) ∈ t_map s -> t_mem s !! p = Some x -> x.1 <> m | _ => True end.
Definition careful (s : tstate) (o : top) : Prop := sane s o /\ after_init s o /\ not_first s o.

(** Who should be called: the handlers of the type, in order. *)
Definition wanted (s : tstate) (t : N) : list tev := omap (fun '(m, t', _) => if decide (t' = t) then Some (ECalled m t') else None) (t_hs s).
