(** The stringifier of a system context, and the supervisors which point to it.

    Sources:
    - src/rotor/system_context.cpp 43-50 (destructor), 52-57 (get_stringifier),
      59-61 (make_stringifier);
    - include/rotor/system_context.h 78-79 (the members supervisor and stringifier);
    - include/rotor/supervisor.h 351-365 (create_supervisor);
    - src/rotor/supervisor.cpp 53-55 (do_initialize sets the context and activates the
      plugins);
    - src/rotor/plugin/child_manager.cpp 176-178 (create_child: a child is initialized
      with the context of its supervisor);
    - src/rotor/plugin/delivery.cpp 28-37 (activate keeps a plain pointer to the
      stringifier), 114-124 (dump_message uses it).

    Supervisors of one context may run in several threads; neither member of the context
    is guarded.  The threads interleave between reading a member, making an object,
    assigning a member and reading it again.

    Simplifications:
    - reads and writes of pointers are atomic and seen at once by all threads;
    - the other plugins and the actors which are no supervisors are left out; only a
      supervisor whose delivery plugin is active creates children (the child manager
      comes after it in the list, include/rotor/supervisor.h 76-86);
    - the destruction of the context is one step; objects are numbered and their memory
      is not used again;
    - a second root is refused without std::terminate (on_error may be overridden). *)
From stdpp Require Import base list gmap.
From Verif Require Import Base.
Open Scope N_scope.

(** For whom get_stringifier is called: the delivery plugin of a supervisor, or a user. *)
Definition who := option N.
Inductive pc :=
| PIdle
| PRoot (a : N)                (* create_supervisor: before the test *)
| PRootSet (a : N)             (* the test found no supervisor *)
| PGet (w : who)               (* get_stringifier: before the test *)
| PMake (w : who)              (* the test found no stringifier *)
| PSet (w : who) (o : N)       (* a new stringifier, not yet assigned *)
| PRet (w : who).              (* before return *stringifier *)
Record ctx := Ctx {
  c_sup : option N;            (* system_context_t::supervisor *)
  c_str : option N;            (* system_context_t::stringifier *)
  c_live : gset N;             (* stringifiers which are not destroyed *)
  c_next : N;
  c_ptr : gmap N (option N);   (* supervisors, and what their delivery plugin points to once it is active *)
  c_pc : gmap N pc;
  c_dead : bool }.             (* the context is destroyed *)
Inductive xop :=
| OpRoot (th a : N)
| OpChild (th p a : N)         (* supervisor [p] creates a child supervisor [a] *)
| OpUser (th : N)              (* a user calls get_stringifier *)
| OpStep (th : N)
| OpDeliver (a : N)            (* the delivery plugin prints a message *)
| OpDestroy.
Inductive xev := EMade (o : N) | EFreed (o : N) | EGot (w : who) (o : N) | ERefused (a : N) | EPrinted (a : N).

Definition at_pc (s : ctx) (th : N) : pc := default PIdle (c_pc s !! th).
Definition go (s : ctx) (th : N) (p : pc) : ctx := Ctx (c_sup s) (c_str s) (c_live s) (c_next s) (c_ptr s) (<[th := p]> (c_pc s)) (c_dead s).
Definition set_sup (s : ctx) (a : N) : ctx := Ctx (Some a) (c_str s) (c_live s) (c_next s) (c_ptr s) (c_pc s) (c_dead s).
Definition set_ptr (s : ctx) (a : N) (x : option N) : ctx := Ctx (c_sup s) (c_str s) (c_live s) (c_next s) (<[a := x]> (c_ptr s)) (c_pc s) (c_dead s).
Definition make (s : ctx) : ctx := Ctx (c_sup s) (c_str s) (c_live s ∪ {[c_next s]}) (c_next s + 1) (c_ptr s) (c_pc s) (c_dead s).
(** Assignment of a unique_ptr destroys what it owned. *)
Definition assign (s : ctx) (o : N) : ctx * list xev :=
  match c_str s with
  | None => (Ctx (c_sup s) (Some o) (c_live s) (c_next s) (c_ptr s) (c_pc s) (c_dead s), [])
  | Some o' => (Ctx (c_sup s) (Some o) (c_live s ∖ {[o']}) (c_next s) (c_ptr s) (c_pc s) (c_dead s), [EFreed o'])
  end.
Definition active (s : ctx) (a : N) : bool := match c_ptr s !! a with Some (Some _) => true | _ => false end.

Definition advance (s : ctx) (th : N) : res (ctx * list xev) :=
  match at_pc s th with
  | PIdle => Ok (s, [])
  | PRoot a => match c_sup s with Some _ => Ok (go s th PIdle, [ERefused a]) | None => Ok (go s th (PRootSet a), []) end
  | PRootSet a => Ok (go (set_ptr (set_sup s a) a None) th (PGet (Some a)), [])
  | PGet w => match c_str s with Some _ => Ok (go s th (PRet w), []) | None => Ok (go s th (PMake w), []) end
  | PMake w => Ok (go (make s) th (PSet w (c_next s)), [EMade (c_next s)])
  | PSet w o => let '(s1, e) := assign s o in Ok (go s1 th (PRet w), e)
  | PRet w =>
      match c_str s with
      | None => Crash
      | Some o => Ok (go (match w with Some a => set_ptr s a (Some o) | None => s end) th PIdle, [EGot w o])
      end
  end.
Definition xstep (s : ctx) (o : xop) : res (ctx * list xev) :=
  match o with
  | OpRoot th a => match at_pc s th with PIdle => Ok (go s th (PRoot a), []) | _ => Ok (s, []) end
  | OpChild th p a =>
      match at_pc s th with
      | PIdle => if active s p then Ok (go (set_ptr s a None) th (PGet (Some a)), []) else Ok (s, [])
      | _ => Ok (s, [])
      end
  | OpUser th => match at_pc s th with PIdle => Ok (go s th (PGet None), []) | _ => Ok (s, []) end
  | OpStep th => advance s th
  | OpDeliver a =>
      match c_ptr s !! a with
      | Some (Some o) => if decide (o ∈ c_live s) then Ok (s, [EPrinted a]) else Crash
      | _ => Ok (s, [])
      end
  | OpDestroy =>
      Ok (Ctx None None (match c_str s with Some o => c_live s ∖ {[o]} | None => c_live s end) (c_next s) (c_ptr s) (c_pc s) true,
          match c_str s with Some o => [EFreed o] | None => [] end)
  end.
Definition xinit : ctx := Ctx None None ∅ 1 ∅ ∅ false.
