(** C71: texts of messages, and the delivery which prints them. *)
From stdpp Require Import base list strings.
From Coq Require Import Ascii.
From Verif Require Import Base DumpModel DumpSpec DumpProofs.

(** Both chains know each kind, once: there is no branch which is never taken. *)
Theorem C71_chains : (forall k, k ∈ visit_chain) /\ NoDup visit_chain /\ (forall k, k ∈ level_chain.*1) /\ NoDup level_chain.*1.
Proof. exact (conj visit_all (conj visit_once (conj level_all level_once))). Qed.
(** The text tells the kind, however pointers, numbers and names are written. *)
Theorem C71_kind wp wn wt m m' : flat wp wn wt (stringify m) = flat wp wn wt (stringify m') -> kind_of m = kind_of m'.
Proof. exact (flat_kind wp wn wt m m'). Qed.
Theorem C71_end m : exists l, stringify m = l ++ [W " => "; TPtr (addr_of m)].
Proof. exact (stringify_end m). Qed.
(** A forwarded message is shown whole. *)
Theorem C71_nested m actor addr : stringify (MCall m actor addr) = W "r::handler_call {" :: stringify m ++ [W "} @ "; TPtr actor; W " => "; TPtr addr].
Proof. cbn [stringify]. rewrite all_visited. cbn [app addr_of]. by rewrite <- app_assoc. Qed.
Theorem C71_braces m : written "{" (stringify m) = written "}" (stringify m).
Proof. exact (braces m). Qed.
Theorem C71_quotes m : ~ asks_registration m -> Nat.even (written "'" (stringify m)) = true.
Proof. exact (quotes m). Qed.
Theorem C71_quotes_refuted : exists m, Nat.even (written "'" (stringify m)) = false.
Proof. exists (MRegReq 1 2 3 4). vm_compute. reflexivity. Qed.

(** Levels: messages of users have level 0, those of rotor 1 to 20. *)
Theorem C71_levels m : (0 <= level m <= 20)%Z /\ (level m = 0%Z <-> kind_of m = None).
Proof. exact (conj (level_20 m) (level_user m)). Qed.
Theorem C71_dump env p m : dump env p m <> [] <-> exists th, env = Some th /\ (level m <= th)%Z.
Proof.
  unfold dump. destruct env as [th|]; [|split; [done|by intros (? & ? & _)]]. destruct (bool_decide_reflect (level m <= th)%Z) as [H|H].
  - split; [eauto|done].
  - split; [done|]. intros (th' & [= <-] & H'). done.
Qed.
Theorem C71_more p m th th' : (th <= th')%Z -> dump (Some th) p m <> [] -> dump (Some th') p m = dump (Some th) p m.
Proof. exact (dump_more p m th th'). Qed.

(** The delivery which prints does the same as the plain one, for all handlers: same queue, same calls and
    forwarded messages in the same order, same number. *)
Theorem C71_same env local recipients does holds n q :
  (process true env local recipients does holds n q).1.1 = (process false env local recipients does holds n q).1.1 /\
  filter (fun e => ~ printed e) (process true env local recipients does holds n q).1.2 = (process false env local recipients does holds n q).1.2 /\
  (process true env local recipients does holds n q).2 = (process false env local recipients does holds n q).2.
Proof. exact (process_same env local recipients does holds n q). Qed.
(** And prints a message of this locality at most once: before its handlers are called if there are some
    for its address and type, as discarded if there are none; not if there are none and it goes on to
    a second address. *)
Theorem C71_prints local recipients does holds th q : (level (q_msg q) <= th)%Z -> local (addr_of (q_msg q)) = true ->
  filter printed (one true (Some th) local recipients does holds q).2 =
  match recipients (q_msg q), q_route q with
  | Some _, _ => map EPrint (dump (Some th) ">> " (q_msg q))
  | None, None => map EPrint (dump (Some th) "<DISCARDED> " (q_msg q))
  | None, Some _ => []
  end.
Proof. exact (one_prints (Some th) local recipients does holds th q eq_refl). Qed.
Theorem C71_first local recipients does holds th q hs : (level (q_msg q) <= th)%Z -> local (addr_of (q_msg q)) = true -> recipients (q_msg q) = Some hs ->
  exists t, (one true (Some th) local recipients does holds q).2 = EPrint t :: map (fun h => ECall h (q_msg q)) hs.
Proof.
  intros Hl Hloc Hr. unfold one, dump. rewrite Hloc, Hr, bool_decide_true by done. cbn. destruct (q_route q); cbn; [destruct (existsb _ hs)|]; rewrite ?app_nil_r; eauto.
Qed.

Example C71_example : dump (Some 20%Z) ">> " (MCall (MUser 7 1) 5 2) = [[W ">> "; W "{"; TNum 20; W "} "; W "r::handler_call {"; W "[?] "; TName 7; W " => "; TPtr 1; W "} @ "; TPtr 5; W " => "; TPtr 2]].
Proof. vm_compute. reflexivity. Qed.
Example C71_run_example : process true (Some 0%Z) (fun a => bool_decide (a = 1%N)) (fun m => match m with MUser 7 _ => Some [3%N] | _ => None end)
    (fun h m => [QM (MUser 8 2) None; QM (MUser 9 1) None]) (fun _ _ => false) 10 [QM (MUser 7 1) (Some (MStart 1))] =
  ([], [EPrint [W ">> "; W "{"; TNum 0; W "} "; W "[?] "; TName 7; W " => "; TPtr 1]; ECall 3 (MUser 7 1); EEnqueue (MUser 8 2); EPrint [W "<DISCARDED> "; W "{"; TNum 0; W "} "; W "[?] "; TName 9; W " => "; TPtr 1]], 1).
Proof. vm_compute. reflexivity. Qed.

Print Assumptions C71_chains.
Print Assumptions C71_kind.
Print Assumptions C71_end.
Print Assumptions C71_nested.
Print Assumptions C71_braces.
Print Assumptions C71_quotes.
Print Assumptions C71_quotes_refuted.
Print Assumptions C71_levels.
Print Assumptions C71_dump.
Print Assumptions C71_more.
Print Assumptions C71_same.
Print Assumptions C71_prints.
Print Assumptions C71_first.
