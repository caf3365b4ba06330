(** A client and a server: what their states, and the messages between them, can be. *)
From stdpp Require Import base list gmap.
From Verif Require Import Base Prog ActorModel NetModel NetViews.
Open Scope N_scope.

Global Instance lk_eq_dec : EqDecision lk.
Proof. solve_decision. Defined.

(** [σ]: the server, seen by the client; [κ]: the client, seen by the server; [u]: the
    messages to the server, [d]: those to the client; [got]: the client was asked to unlink;
    [k]: by which request; [off]: the client shuts down. *)
Inductive pinv (σ : lk) (κ : option cstate) (u d : list wmsg) (got : Prop) (k : N) (off : Prop) : Prop :=
| PIdle : σ = LkNo -> κ = None -> u = [] -> d = [] -> pinv σ κ u d got k off
| PAsked id o : σ = LkIng id -> κ = None -> u = [WLinkReq id o] -> d = [] -> ~ got -> pinv σ κ u d got k off
| PRefused id x : σ = LkIng id -> κ = None -> u = [] -> d = [WLinkAns id x] -> x <> LOk -> ~ got -> pinv σ κ u d got k off
| PLost id : σ = LkIng id -> κ = None -> u = [] -> d = [] -> ~ got -> pinv σ κ u d got k off
| PWaits id : σ = LkIng id -> κ = Some (CPending id) -> u = [] -> d = [] -> ~ got -> pinv σ κ u d got k off
| PGranted id : σ = LkIng id -> κ = Some COperational -> u = [] -> d = [WLinkAns id LOk] -> ~ got -> pinv σ κ u d got k off
| PRecalled id q : σ = LkIng id -> κ = Some (CUnlinking q) -> u = [] -> d = [WLinkAns id LOk; WUnlinkReq q] -> ~ got -> pinv σ κ u d got k off
| PLinked : σ = LkUp -> κ = Some COperational -> u = [] -> d = [] -> ~ got -> pinv σ κ u d got k off
| PLeaving q : σ = LkUp -> κ = Some (CUnlinking q) -> u = [] -> d = [WUnlinkReq q] -> ~ got -> pinv σ κ u d got k off
| PHeld : σ = LkUp -> κ = Some (CUnlinking k) -> u = [] -> d = [] -> got -> pinv σ κ u d got k off
| PReplied q : σ = LkNo -> κ = Some (CUnlinking q) -> u = [WUnlinkRep q] -> d = [] -> got -> pinv σ κ u d got k off
| PLeft1 id o : off -> σ = LkNo -> κ = None -> u = [WLinkReq id o; WNotify] -> d = [] -> pinv σ κ u d got k off
| PLeft2 : off -> σ = LkNo -> u = [WNotify] -> pinv σ κ u d got k off
| PLeft3 : off -> σ = LkNo -> κ = None -> u = [] -> pinv σ κ u d got k off.

Ltac pcase H := destruct H as [E1 E2 E3 E4|? ? E1 E2 E3 E4 Eg|? ? E1 E2 E3 E4 Ex Eg|? E1 E2 E3 E4 Eg|? E1 E2 E3 E4 Eg|? E1 E2 E3 E4 Eg|? ? E1 E2 E3 E4 Eg|E1 E2 E3 E4 Eg|? E1 E2 E3 E4 Eg|E1 E2 E3 E4 Eg|? E1 E2 E3 E4 Eg|? ? Eo E1 E2 E3 E4|Eo E1 E3|Eo E1 E2 E3]; subst.

Section pair.
Context (κ : option cstate) (u d : list wmsg) (got got' : Prop) (k : N) (off off' : Prop) (Hoff : off -> off').

Lemma pinv_same σ : pinv σ κ u d got k off -> (got <-> got') -> pinv σ κ u d got' k off'.
Proof.
  intros H Hg. pcase H; [by apply PIdle|eapply PAsked|eapply PRefused|eapply PLost|eapply PWaits|eapply PGranted|eapply PRecalled|eapply PLinked|eapply PLeaving|eapply PHeld|eapply PReplied|eapply PLeft1|eapply PLeft2|eapply PLeft3]; eauto; tauto.
Qed.
(** ** The client does something *)
Lemma pinv_link σ id p : pinv σ κ u d got k off -> σ = LkNo -> ~ off -> (got <-> got') -> ~ got' -> pinv (LkIng id) κ (u ++ [WLinkReq id p]) d got' k off'.
Proof. intros H Hs Ho Hg Hg'. pcase H; try done; [by eapply PAsked|tauto]. Qed.
Lemma pinv_leave σ : pinv σ κ u d got k off -> σ <> LkNo -> off' -> pinv LkNo κ (u ++ [WNotify]) d got' k off'.
Proof. intros H Hs Ho. pcase H; try done; first [by eapply PLeft1|by apply PLeft2]. Qed.
Lemma pinv_reply σ : pinv σ κ u d got k off -> σ <> LkNo -> got -> got' -> pinv LkNo κ (u ++ [WUnlinkRep k]) d got' k off'.
Proof. intros H Hs Hg Hg'. pcase H; try done. by eapply PReplied. Qed.
(** ** The client gets an answer to its link request *)
Lemma pinv_answer σ id x : pinv σ κ u (WLinkAns id x :: d) got k off -> σ <> LkNo -> (got <-> got') ->
  σ = LkIng id /\ pinv (match x with LOk => LkUp | _ => LkNo end) κ u d got' k off'.
Proof.
  intros H Hs Hg. pcase H; try done; match goal with E : WLinkAns _ _ :: _ = _ |- _ => injection E as -> -> ? end; subst; (split; [done|]).
  - destruct x0; try done; by apply PIdle.
  - apply PLinked; try done. tauto.
  - eapply PLeaving; try done. tauto.
Qed.
Lemma pinv_drop_dn m σ k' : pinv σ κ u (m :: d) got k off -> σ = LkNo -> pinv σ κ u d got' k' off'.
Proof. intros H Hs. pcase H; try done; [apply PLeft2|apply PLeft3]; auto. Qed.
Lemma pinv_drop_dn' m σ : pinv σ κ u (m :: d) got k off -> σ = LkNo -> off.
Proof. intros H Hs. pcase H; try done. Qed.
(** ** The client is asked to unlink *)
Lemma pinv_unlink q σ : pinv σ κ u (WUnlinkReq q :: d) got k off -> σ <> LkNo -> σ = LkUp /\ κ = Some (CUnlinking q) /\ u = [] /\ d = [] /\ ~ got.
Proof. intros H Hs. pcase H; try done. by injection E4 as -> ->. Qed.
(** ** The server does something *)
Lemma pinv_start σ r : pinv σ κ u d got k off -> κ = Some (CPending r) -> pinv σ (Some COperational) u (d ++ [WLinkAns r LOk]) got k off.
Proof. intros H Hk. pcase H; try done. - injection Hk as ->. by eapply PGranted. - by apply PLeft2. Qed.
Lemma pinv_ask σ q : pinv σ κ u d got k off -> κ = Some COperational -> pinv σ (Some (CUnlinking q)) u (d ++ [WUnlinkReq q]) got k off.
Proof. intros H Hk. pcase H; try done. - by eapply PRecalled. - by eapply PLeaving. - by apply PLeft2. Qed.
End pair.
(** ** The server gets a message *)
Lemma pinv_req σ κ u d got k off id o κ' d' : pinv σ κ (WLinkReq id o :: u) d got k off ->
  (κ = None -> d' = [] /\ κ' = None \/ (exists x, d' = [WLinkAns id x] /\ x <> LOk) /\ κ' = None \/ d' = [] /\ κ' = Some (CPending id) \/ d' = [WLinkAns id LOk] /\ κ' = Some COperational) ->
  pinv σ κ' u (d ++ d') got k off.
Proof.
  intros H Hr. pcase H; try done.
  - injection E3 as -> -> ->. destruct (Hr eq_refl) as [[-> ->]|[[(x & -> & Hx) ->]|[[-> ->]|[-> ->]]]]; [by eapply PLost|by eapply PRefused|by eapply PWaits|by eapply PGranted].
  - injection E3 as -> -> ->. by apply PLeft2.
Qed.
Lemma pinv_req_none σ κ u d got k off id o : pinv σ κ (WLinkReq id o :: u) d got k off -> κ = None.
Proof. intros H. pcase H; done. Qed.
Lemma pinv_notified σ κ u d got k off d' : pinv σ κ (WNotify :: u) d got k off -> pinv σ None u (d ++ d') got k off.
Proof. intros H. pcase H; try done. injection E3 as ->. by apply PLeft3. Qed.
Lemma pinv_replied σ κ u d got k off q : pinv σ κ (WUnlinkRep q :: u) d got k off -> κ = Some (CUnlinking q) /\ pinv σ None u d got k off.
Proof. intros H. pcase H; try done. injection E3 as -> ->. split; [done|]. by apply PIdle. Qed.
