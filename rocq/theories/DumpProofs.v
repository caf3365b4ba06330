(** Proofs for C71. *)
From stdpp Require Import base list strings.
From Coq Require Import Ascii.
From Verif Require Import Base DumpModel DumpSpec.

Lemma all_visited m : visited m = match m with MUser _ _ => false | _ => true end.
Proof. destruct m; reflexivity. Qed.
Lemma visit_all k : k ∈ visit_chain.
Proof. apply (bool_decide_unpack _). destruct k; vm_compute; exact I. Qed.
Lemma visit_once : NoDup visit_chain.
Proof. apply (bool_decide_unpack _). vm_compute. exact I. Qed.
Lemma level_once : NoDup level_chain.*1.
Proof. apply (bool_decide_unpack _). vm_compute. exact I. Qed.
Lemma level_all k : k ∈ level_chain.*1.
Proof. apply (bool_decide_unpack _). destruct k; vm_compute; exact I. Qed.
Lemma level_kind k : (0 < first_level level_chain k <= 20)%Z.
Proof. destruct k; vm_compute; split; congruence. Qed.
Lemma level_user m : level m = 0%Z <-> kind_of m = None.
Proof. unfold level. destruct (kind_of m) as [k|]; [|done]. pose proof (level_kind k). split; [lia|done]. Qed.
Lemma level_20 m : (0 <= level m <= 20)%Z.
Proof. unfold level. destruct (kind_of m) as [k|]; [|lia]. pose proof (level_kind k). lia. Qed.

(** The first word. *)
Definition head_word (k : option kind) : string :=
  match k with
  | None => "[?] " | Some KUnsub => "r::unsubscription " | Some KUnsubExt => "r::unsubscription_external " | Some KSub => "r::subscription " | Some KSubExt => "r::external_subscription "
  | Some KCommit => "r::commit_unsubscription " | Some KCall => "r::handler_call {" | Some KInitReq => "r::init_request #" | Some KInitRes => "r::init_response #"
  | Some KStart => "r::start_trigger @ " | Some KTrigger => "r::shutdown_trigger @ " | Some KShutReq => "r::shutdown_request # " | Some KShutRes => "r::shutdown_response # "
  | Some KCreate => "r::create_actor @ " | Some KSpawn => "r::spawn_actor @{ " | Some KRegReq => "r::registration_request # " | Some KRegRes => "r::registration_response # "
  | Some KDeregNotify => "r::deregistration_notify @ " | Some KDeregService => "r::deregistration_service '" | Some KDiscReq => "r::discovery_request '" | Some KDiscRes => "r::discovery_response '"
  | Some KPromise => "r::discovery_promise '" | Some KFuture => "r::discovery_future '" | Some KCancel => "r::discovery_cancel @ " | Some KLinkReq => "r::link_request @ " | Some KLinkRes => "r::link_response @ "
  | Some KUnlinkNotify => "r::unlink_notify @ " | Some KUnlinkReq => "r::unlink_request @ " | Some KUnlinkRes => "r::unlink_response @ "
  end%string.
Lemma stringify_head m : exists l, stringify m = W (head_word (kind_of m)) :: l.
Proof. destruct m; cbn [stringify]; rewrite all_visited; eexists; reflexivity. Qed.
Fixpoint prefixb (a b : string) : bool := match a, b with EmptyString, _ => true | String x a', String y b' => bool_decide (x = y) && prefixb a' b' | _, _ => false end.
Lemma heads_differ k k' : prefixb (head_word k) (head_word k') = bool_decide (k = k').
Proof. destruct k as [[]|], k' as [[]|]; vm_compute; reflexivity. Qed.
Lemma common_prefix a b x y : String.append a x = String.append b y -> prefixb a b = true \/ prefixb b a = true.
Proof.
  revert b. induction a as [|c a IH]; intros b; [by left|]. destruct b as [|d b]; [by right|]. cbn. intros [= -> H]. rewrite bool_decide_true by done. cbn. by apply IH.
Qed.
Lemma flat_kind wp wn wt m m' : flat wp wn wt (stringify m) = flat wp wn wt (stringify m') -> kind_of m = kind_of m'.
Proof.
  destruct (stringify_head m) as [l ->], (stringify_head m') as [l' ->]. cbn. intros [H|H]%common_prefix; rewrite heads_differ in H; by apply bool_decide_eq_true in H.
Qed.
Lemma stringify_end m : exists l, stringify m = l ++ [W " => "; TPtr (addr_of m)].
Proof. destruct m; cbn [stringify]; eexists; reflexivity. Qed.

(** Counting. *)
Lemma written_app c l l' : written c (l ++ l') = (written c l + written c l')%nat.
Proof. unfold written. rewrite map_app. apply list_sum_app. Qed.
Lemma written_call c m actor addr : written c (stringify (MCall m actor addr)) = (written c [W "r::handler_call {"] + written c (stringify m) + written c [W "} @ "; W " => "])%nat.
Proof.
  cbn [stringify]. rewrite all_visited. change (W "r::handler_call {" :: stringify m ++ [W "} @ "; TPtr actor]) with ([W "r::handler_call {"] ++ stringify m ++ [W "} @ "; TPtr actor]).
  rewrite !written_app. unfold written. cbn -[count]. lia.
Qed.
Lemma braces m : written "{" (stringify m) = written "}" (stringify m).
Proof.
  induction m; cbn [stringify]; rewrite all_visited; try (destruct p as [[] ? ?]); try (destruct ee); try (destruct reason); try (destruct res); try (vm_compute; reflexivity).
  change (written "{" (stringify (MCall m actor addr)) = written "}" (stringify (MCall m actor addr))). rewrite !written_call, IHm.
  change (written "{" [W "r::handler_call {"]) with 1%nat. change (written "}" [W "r::handler_call {"]) with 0%nat. change (written "{" [W "} @ "; W " => "]) with 0%nat. change (written "}" [W "} @ "; W " => "]) with 1%nat. lia.
Qed.
Lemma quotes m : ~ asks_registration m -> Nat.even (written "'" (stringify m)) = true.
Proof.
  induction m; intros Ha; cbn [stringify]; rewrite all_visited; try (destruct p as [[] ? ?]); try (destruct ee); try (destruct reason); try (destruct res); try (vm_compute; reflexivity); [|by destruct Ha].
  change (Nat.even (written "'" (stringify (MCall m actor addr))) = true). rewrite written_call.
  change (written "'" [W "r::handler_call {"]) with 0%nat. change (written "'" [W "} @ "; W " => "]) with 0%nat. rewrite Nat.add_0_r. by apply IHm.
Qed.

(** Dumps and the two deliveries. *)
Lemma dump_more p m th th' : (th <= th')%Z -> dump (Some th) p m <> [] -> dump (Some th') p m = dump (Some th) p m.
Proof. intros H. unfold dump. case_bool_decide; [|done]. intros _. rewrite bool_decide_true by lia. done. Qed.
Lemma no_print l : filter (fun e => ~ printed e) (map EPrint l) = [].
Proof. induction l as [|t l IH]; [done|]. cbn [map]. rewrite filter_cons_False; [done|]. intros H. by apply H. Qed.
Section process.
Context (env : option Z) (local : N -> bool) (recipients : msg -> option (list N)) (does : N -> msg -> list qmsg) (holds : N -> msg -> bool).
Lemma one_same q : (one true env local recipients does holds q).1 = (one false env local recipients does holds q).1 /\
  filter (fun e => ~ printed e) (one true env local recipients does holds q).2 = (one false env local recipients does holds q).2.
Proof.
  assert (HC : forall l, filter (fun e => ~ printed e) (map (fun h => ECall h (q_msg q)) l) = map (fun h => ECall h (q_msg q)) l).
  { induction l as [|h l IH]; [done|]. cbn [map]. rewrite filter_cons_True by (by intros []). by rewrite IH. }
  unfold one. destruct (local _); [|done]. destruct (recipients (q_msg q)) as [hs|]; cbn; destruct (q_route q) as [m'|]; cbn; try destruct (existsb _ hs); cbn; rewrite ?app_nil_r, ?filter_app, ?no_print, ?HC, ?app_nil_r; done.
Qed.
Lemma process_same n q : (process true env local recipients does holds n q).1.1 = (process false env local recipients does holds n q).1.1 /\
  filter (fun e => ~ printed e) (process true env local recipients does holds n q).1.2 = (process false env local recipients does holds n q).1.2 /\
  (process true env local recipients does holds n q).2 = (process false env local recipients does holds n q).2.
Proof.
  revert q. induction n as [|n IH]; intros q; [by destruct q|]. destruct q as [|x q]; [done|]. cbn. destruct (one_same x) as [H1 H2].
  destruct (one true _ _ _ _ _ x) as [new e]. destruct (one false _ _ _ _ _ x) as [new' e']. cbn in H1, H2. subst new' e'.
  destruct (IH (q ++ new)) as (G1 & G2 & G3). destruct (process true _ _ _ _ _ n (q ++ new)) as [[r f] k], (process false _ _ _ _ _ n (q ++ new)) as [[r' f'] k']. cbn in *. subst. rewrite filter_app. done.
Qed.
Lemma plain_silent q : filter printed (one false env local recipients does holds q).2 = [].
Proof.
  assert (HC : forall l, filter printed (map (fun h => ECall h (q_msg q)) l) = []) by (induction l as [|h l IH]; [done|]; cbn [map]; by rewrite filter_cons_False by (by intros [])).
  unfold one. destruct (local _); [|done]. destruct (recipients (q_msg q)) as [hs|]; cbn; destruct (q_route q) as [m'|]; cbn; try destruct (existsb _ hs); cbn; rewrite ?app_nil_r; by rewrite ?HC.
Qed.
(** What is printed of a message. *)
Lemma one_prints th q : env = Some th -> (level (q_msg q) <= th)%Z -> local (addr_of (q_msg q)) = true ->
  filter printed (one true env local recipients does holds q).2 =
  match recipients (q_msg q), q_route q with
  | Some _, _ => map EPrint (dump env ">> " (q_msg q))
  | None, None => map EPrint (dump env "<DISCARDED> " (q_msg q))
  | None, Some _ => []
  end.
Proof.
  intros He Hl Hloc. assert (HC : forall l, filter printed (map (fun h => ECall h (q_msg q)) l) = []) by (induction l as [|h l IH]; [done|]; cbn [map]; by rewrite filter_cons_False by (by intros [])).
  assert (HP : forall l, filter printed (map EPrint l) = map EPrint l) by (induction l as [|h l IH]; [done|]; cbn [map]; by rewrite filter_cons_True, IH).
  unfold one. rewrite Hloc. destruct (recipients (q_msg q)) as [hs|]; cbn; destruct (q_route q) as [m'|]; cbn; try destruct (existsb _ hs); cbn; rewrite ?app_nil_r, ?filter_app, ?HC, ?HP, ?app_nil_r; done.
Qed.
End process.
