(** Vocabulary of C59: names, who holds them, and what is under way. *)
From stdpp Require Import base list gmap strings.
From Verif Require Import Base Prog RegistryModel ActorModel ActorSpec NetModel NetSpec NamesModel.
Open Scope N_scope.

(** The actor [n] holds the name [m], in its own eyes: it was told that the name is
    registered, and has not given it back. *)
Definition holds (y : names) (n m : N) : Prop := ActorSpec.registered m (trace (y_net y) n).
(** To whom the registry maps a name. *)
Definition owner (y : names) (k : name) : option addr := RegistryModel.registered (y_reg y) !! k.
Definition listed (nm : N -> string) (y : names) (n m : N) : Prop := owner y (nm m) = Some n.
(** Nothing is under way between [n] and the registry. *)
Definition settled (y : names) (n : N) : Prop := y_to y n = [] /\ y_from y n = [].
(** The request [id] of [n] is open. *)
Definition waits (y : names) (n id : N) (q : query) : Prop :=
  match w_act (y_net y) !! n with Some nd => x_pend (w_s nd) !! id = Some q /\ x_st (w_s nd) <> AShutDown | None => False end.
(** The answer that [m] is registered came when [n] was not interested any more. *)
Definition lost_answer (nm : N -> string) (ev : list yev) (n m : N) : Prop := exists q, YDrop n (RegOk q) ∈ ev /\ rr_name q = nm m.
(** A promise of a name was asked for, and given up later. *)
Definition withdrawn (t : list aev) (id : N) : Prop :=
  exists t1 m t2 t3, t = t1 ++ EvPromise m id :: t2 ++ EvCancel m :: t3 /\ forall i, EvPromise m i ∉ t2.
(** The rules of C57, for everything the actors do; those about answers of the registry
    matter when the answer is taken. *)
Definition yrule (cfg : N -> plug -> list uact) (ra : N) (unl : N -> bool) (y : names) (o : yop) : Prop :=
  match o with
  | YNet o => nrule cfg ra unl (y_net y) o
  | YServe _ => True
  | YReply n =>
      match y_from y n with
      | r :: _ => open (y_net y) n (number r) = true -> nrule cfg ra unl (y_net y) (NLocal n (OResp (number r) (payload r)))
      | [] => True
      end
  end.
Global Instance yrule_dec cfg ra unl y o : Decision (yrule cfg ra unl y o).
Proof. destruct o as [o|p|n]; cbn; repeat case_match; apply _. Defined.
