(** Vocabulary of C16. *)
From stdpp Require Import base list gmap.
From Verif Require Import Base FltkWakeModel.
Open Scope Z_scope.

(** The FLTK thread has nothing to do: no callback pending, none running. *)
Definition idle (s : kstate) : Prop := k_sched s = [] /\ k_run s = None.

(** All messages of the schedule go to context 0: there is one context. *)
Definition single (ops : list kop) : Prop := forall t c m, In (KPush t c m) ops -> c = 0%N.

Fixpoint kpushed (c : N) (s : kstate) (ops : list kop) : list N :=
  match ops with
  | [] => []
  | o :: rest =>
      let tl := match kstep s o with Ok (s', _) => kpushed c s' rest | _ => [] end in
      match o with
      | KPush t c' m =>
          if bool_decide (k_enq s !! t = None) && N.eqb c' c then m :: tl else tl
      | _ => tl
      end
  end.

Definition kdispatched (c : N) (ev : list kevent) : list N :=
  omap (fun '(KDispatched c' m) => if N.eqb c' c then Some m else None) ev.
