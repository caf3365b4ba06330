(** Independent specification of the registry: a name -> address map (a plain
    function) and the list of unanswered promises.  There is no reverse index
    here. *)
From stdpp Require Import base gmap list strings.
From Verif Require Import Base RegistryModel.

Definition bindings := name -> option addr.

Definition bind_upd (b : bindings) (n : name) (v : option addr) : bindings :=
  fun m => if decide (m = n) then v else b m.

(** The binding of a name after a history, oldest message first: the last
    successful registration which was not revoked. *)
Definition bstep (b : bindings) (o : rop) : bindings :=
  match o with
  | Reg r => match b (rr_name r) with
             | Some _ => b
             | None => bind_upd b (rr_name r) (Some (rr_addr r))
             end
  | Dereg a => fun n => if decide (b n = Some a) then None else b n
  | DeregService n => bind_upd b n None
  | _ => b
  end.
Definition binding (h : list rop) : bindings := fold_left bstep h (fun _ => None).

(** What one message does to bindings and pending promises, and what is sent. *)
Inductive reg_spec (b : bindings) (pend : list disc_req) :
  rop -> bindings -> list disc_req -> list rout -> Prop :=
| S_reg_dup r a : b (rr_name r) = Some a ->
    reg_spec b pend (Reg r) b pend [RegAlreadyRegistered r]
| S_reg_new r : b (rr_name r) = None ->
    reg_spec b pend (Reg r) (bind_upd b (rr_name r) (Some (rr_addr r)))
      (filter (fun p => dr_name p <> rr_name r) pend)
      (RegOk r :: ((fun p => PromFound p (rr_addr r)) <$> filter (fun p => dr_name p = rr_name r) pend))
| S_dereg a :
    reg_spec b pend (Dereg a) (fun n => if decide (b n = Some a) then None else b n) pend []
| S_dereg_service n :
    reg_spec b pend (DeregService n) (bind_upd b n None) pend []
| S_disc_found d a : b (dr_name d) = Some a ->
    reg_spec b pend (Discover d) b pend [DiscFound d a]
| S_disc_unknown d : b (dr_name d) = None ->
    reg_spec b pend (Discover d) b pend [DiscUnknown d]
| S_prom_found d a : b (dr_name d) = Some a ->
    reg_spec b pend (Promise d) b pend [PromFound d a]
| S_prom_wait d : b (dr_name d) = None ->
    reg_spec b pend (Promise d) b (pend ++ [d]) []
| S_cancel_none id src :
    (forall p, p ∈ pend -> ~ (dr_id p = id /\ dr_origin p = src)) ->
    reg_spec b pend (Cancel id src) b pend []
| S_cancel l1 p l2 id src :
    pend = l1 ++ p :: l2 -> dr_id p = id -> dr_origin p = src ->
    (forall q, q ∈ l2 -> ~ (dr_id q = id /\ dr_origin q = src)) ->
    reg_spec b pend (Cancel id src) b (l1 ++ l2) [PromCancelled p].

Inductive reg_trace : bindings -> list disc_req -> list rop -> bindings -> list disc_req -> list rout -> Prop :=
| T_nil b pend : reg_trace b pend [] b pend []
| T_cons b pend o b1 pend1 e1 ops b2 pend2 e2 :
    reg_spec b pend o b1 pend1 e1 ->
    reg_trace b1 pend1 ops b2 pend2 e2 ->
    reg_trace b pend (o :: ops) b2 pend2 (e1 ++ e2).

(** Promise ledger: how often a promise was made, and how often answered. *)
Definition is_promise (d : disc_req) (o : rop) : bool :=
  match o with Promise d' => bool_decide (d' = d) | _ => false end.
Definition is_answer (d : disc_req) (e : rout) : bool :=
  match e with
  | PromFound d' _ => bool_decide (d' = d)
  | PromCancelled d' => bool_decide (d' = d)
  | _ => false
  end.
Definition count {A} (f : A -> bool) (l : list A) : nat := length (List.filter f l).
