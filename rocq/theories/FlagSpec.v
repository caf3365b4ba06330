(** Counting what happens to the flag. *)
From stdpp Require Import base list gmap.
From Verif Require Import Base FlagModel.

Definition poll_timers (s : fstate) : list N :=
  map fst (List.filter (fun p : N * tk => match p.2 with KPoll => true | _ => false end) (map_to_list (f_timers s))).
Fixpoint polls (ev : list fevent) : list bool :=
  match ev with
  | [] => []
  | EPoll b :: ev' => b :: polls ev'
  | _ :: ev' => polls ev'
  end.
Definition count (p : fevent -> bool) (ev : list fevent) : nat := length (List.filter p ev).
Definition is_trigger (e : fevent) : bool := match e with ETrigger => true | _ => false end.
Definition is_arm (e : fevent) : bool := match e with EArm _ => true | _ => false end.
(** The flag was seen set. *)
Definition seen (ev : list fevent) : bool := existsb (fun b => b) (polls ev).
