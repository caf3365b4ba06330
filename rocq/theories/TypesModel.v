(** Model of the types of messages at run time: how the pointers are made by which messages and
    handlers are matched, with several modules (the program and its shared libraries), each
    with its own variables and its own texts of type names.

    Code:
    - src/rotor/message.cpp 10-25 (register_type: a map from the text of the name to the pointer
      of the first text with it), include/rotor/message.h 78-115 (message_type, a static variable
      of each type which is initialised by register_type; the constructor of a message
      copies it into type_index);
    - include/rotor/handler.h 243-261 (call: compare type_index with message_type, then
      static_cast; message_type), src/rotor/subscription.cpp 25-44 (the key of a subscription
      is message_type at that moment), 62-71 (get_recipients: found by type_index).

    A pointer is a number, 0 is null.  Texts of names are numbers too, in a memory which maps
    pointers to texts.  Calling a handler with a message of another type is [Crash] (the
    static_cast is undefined then); so is reading a text which is not there any more.

    Simplifications:
    - one address: only types decide who is called;
    - unequal texts have unequal hash codes, and the map compares texts only if the codes,
      which it has kept, are equal (libstdc++);
    - variables of one type in two modules are two variables (hidden visibility, DLLs); with
      common variables there are just fewer of them;
    - modules are loaded and unloaded by one thread. *)
From stdpp Require Import base list gmap.
From Verif Require Import Base.
Open Scope N_scope.

Section types.
Context (name : N -> N).   (* the text of the name of a type *)

Record tstate := TSt {
  t_mem : gmap N (N * N);           (* texts which are loaded, with their module *)
  t_names : gmap (N * N) N;         (* module, type -> where its text is *)
  t_map : list (N * N);             (* type_map: hash code (the text as it was), pointer *)
  t_vars : gmap (N * N) N;          (* message_type; none: not initialised yet, null *)
  t_msgs : list (N * N);            (* messages: type, type_index *)
  t_hs : list (N * N * N) }.        (* handlers: module, type, key of the subscription *)
Definition tinit : tstate := TSt ∅ ∅ [] ∅ [] [].
Inductive top :=
| OLoad (m : N) (l : list (N * N))  (* types of a module and where their texts are *)
| OInit (m t : N)                   (* the static variable is initialised *)
| OMake (m t : N)                   (* a message is made *)
| OSub (m t : N)                    (* a handler is subscribed *)
| ODeliver (k : nat)                (* the k-th message is delivered *)
| OUnload (m : N).
Inductive tev := ECalled (m t : N) | EMade (ptr : N).

(** type_map.find *)
Fixpoint find (mem : gmap N (N * N)) (l : list (N * N)) (n : N) : res (option N) :=
  match l with
  | [] => Ok None
  | (h, p) :: l' =>
      if bool_decide (h = n) then
        match mem !! p with
        | None => Crash
        | Some (_, n') => if bool_decide (n' = n) then Ok (Some p) else find mem l' n
        end
      else find mem l' n
  end.
Definition register (s : tstate) (p : N) : res (list (N * N) * N) :=
  match t_mem s !! p with
  | None => Crash
  | Some (_, n) => rbind (find (t_mem s) (t_map s) n) (fun r =>
      match r with Some q => Ok (t_map s, q) | None => Ok (t_map s ++ [(n, p)], p) end)
  end.
Definition var (s : tstate) (m t : N) : N := default 0 (t_vars s !! (m, t)).
(** delivery to the handlers of the key *)
Fixpoint calls (s : tstate) (t p : N) (l : list (N * N * N)) : res (list tev) :=
  match l with
  | [] => Ok []
  | (m, t', key) :: l' =>
      if bool_decide (key = p) && bool_decide (var s m t' = p) then
        if bool_decide (t' = t) then rbind (calls s t p l') (fun e => Ok (ECalled m t' :: e)) else Crash
      else calls s t p l'
  end.
Definition load (s : tstate) (m : N) (l : list (N * N)) : tstate :=
  foldl (fun s '(t, p) => TSt (<[p := (m, name t)]> (t_mem s)) (<[(m, t) := p]> (t_names s)) (t_map s) (t_vars s) (t_msgs s) (t_hs s)) s l.
Definition unload (s : tstate) (m : N) : tstate :=
  TSt (filter (fun '(_, x) => x.1 <> m) (t_mem s)) (filter (fun '(x, _) => x.1 <> m) (t_names s)) (t_map s)
      (filter (fun '(x, _) => x.1 <> m) (t_vars s)) (t_msgs s) (t_hs s).
Definition step (s : tstate) (o : top) : res (tstate * list tev) :=
  match o with
  | OLoad m l => Ok (load s m l, [])
  | OInit m t =>
      match t_names s !! (m, t) with
      | None => Crash
      | Some p => rbind (register s p) (fun '(l, q) => Ok (TSt (t_mem s) (t_names s) l (<[(m, t) := q]> (t_vars s)) (t_msgs s) (t_hs s), []))
      end
  | OMake m t => Ok (TSt (t_mem s) (t_names s) (t_map s) (t_vars s) (t_msgs s ++ [(t, var s m t)]) (t_hs s), [EMade (var s m t)])
  | OSub m t => Ok (TSt (t_mem s) (t_names s) (t_map s) (t_vars s) (t_msgs s) (t_hs s ++ [(m, t, var s m t)]), [])
  | ODeliver k =>
      match t_msgs s !! k with
      | None => Crash
      | Some (t, p) => rbind (calls s t p (t_hs s)) (fun e => Ok (s, e))
      end
  | OUnload m => Ok (unload s m, [])
  end.
End types.
