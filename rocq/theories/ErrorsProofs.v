From Coq Require Import ZArith String List Lia.
From Verif Require Import ErrorsModel ErrorsSpec.
Import ListNotations.
Local Open Scope string_scope.

Fixpoint err_ind' (P : err -> Prop) (H0 : forall c ec r, P (Err c ec None r))
  (H1 : forall c ec n r, P n -> P (Err c ec (Some n) r)) (e : err) : P e :=
  match e with
  | Err c ec None r => H0 c ec r
  | Err c ec (Some n) r => H1 c ec n r (err_ind' P H0 H1 n)
  end.

Lemma root_walk e : root e = walk e.
Proof. destruct e as [c ec [n|] r]; reflexivity. Qed.

Lemma chain_cons e : exists l, chain e = e :: l.
Proof. destruct e as [c ec [n|] r]; simpl; eauto. Qed.

Lemma root_last e d : last (chain e) d = root e.
Proof.
  rewrite root_walk. revert d. induction e as [c ec r|c ec n r IH] using err_ind'; intros d; [reflexivity|].
  specialize (IH d). simpl in *. destruct (chain_cons n) as [l E]. rewrite E in *. exact IH.
Qed.

Lemma root_no_next e : e_next (root e) = None.
Proof. rewrite root_walk. induction e as [c ec r|c ec n r IH] using err_ind'; [reflexivity|exact IH]. Qed.

Lemma root_wrap c ec r e : root (make_error c ec (Some e) r) = root e.
Proof. rewrite (root_walk e). reflexivity. Qed.

Lemma root_wraps o e : wraps o e -> root o = root e.
Proof.
  induction 1 as [|c ec r o e H IH]; [reflexivity|]. rewrite <- IH. apply (root_wrap c ec r o).
Qed.

Lemma app_nil_r_s s : s ++ "" = s.
Proof. induction s; simpl; congruence. Qed.
Lemma app_assoc_s a b c : (a ++ b) ++ c = a ++ b ++ c.
Proof. induction a; simpl; congruence. Qed.

Lemma concat_cons x y l : String.concat " <- " (x :: y :: l) = x ++ " <- " ++ String.concat " <- " (y :: l).
Proof. reflexivity. Qed.

Lemma message_plain e : message false e = describe e.
Proof.
  unfold describe. induction e as [c ec r|c ec n r IH] using err_ind'.
  - simpl. unfold element. simpl. destruct r; now rewrite !app_nil_r_s.
  - simpl chain. destruct (chain_cons n) as [l E]. rewrite E in *. simpl map in *. rewrite concat_cons, <- IH.
    unfold element. simpl. destruct r; rewrite !app_assoc_s; reflexivity.
Qed.

(** With a stringifier only the request of the outermost error is shown. *)
Lemma message_str c ec n r :
  message true (Err c ec n r) =
  element (Err c ec n r) ++ (match r with Some t => " [" ++ t ++ "]" | None => "" end) ++
  (match n with Some e => " <- " ++ describe e | None => "" end).
Proof.
  unfold element. simpl. rewrite !app_assoc_s. destruct n; [rewrite message_plain|]; reflexivity.
Qed.

(** Every element's own text occurs. *)
Definition substring_of (x s : string) : Prop := exists a b, s = a ++ x ++ b.

Lemma message_element str e x : In x (chain e) -> substring_of (element x) (message str e).
Proof.
  revert str. induction e as [c ec r|c ec n r IH] using err_ind'; intros str H.
  - destruct H as [<-|[]]. exists "". unfold element. simpl.
    exists ((match r with Some r => if str then " [" ++ r ++ "]" else "" | None => "" end) ++ "").
    rewrite !app_assoc_s. reflexivity.
  - simpl in H. destruct H as [<-|H].
    + exists "". unfold element. simpl. eexists. rewrite !app_assoc_s. reflexivity.
    + destruct (IH false H) as (a & b & E). simpl. rewrite E.
      eexists (c ++ " " ++ ec_text ec ++ (match r with Some r => if str then " [" ++ r ++ "]" else "" | None => "" end) ++ " <- " ++ a), b.
      rewrite ?app_assoc_s. simpl. rewrite ?app_assoc_s. reflexivity.
Qed.

Definition texts : list string :=
  map (fun c => ec_text (mk_error c)) all_error_codes ++ map (fun c => ec_text (mk_shutdown c)) all_shutdown_codes.

Lemma texts_distinct : NoDup texts.
Proof.
  vm_compute. repeat constructor; simpl; intros H; repeat (destruct H as [H|H]; [discriminate|]); exact H.
Qed.
Lemma texts_known : forall t, In t texts -> t <> "" /\ t <> "unknown" /\ t <> "unknown shutdown reason".
Proof.
  intros t H. vm_compute in H. repeat (destruct H as [<-|H]; [repeat split; discriminate|]). destruct H.
Qed.
Lemma all_errors c : In c all_error_codes.
Proof. destruct c; simpl; tauto. Qed.
Lemma all_shutdowns c : In c all_shutdown_codes.
Proof. destruct c; simpl; tauto. Qed.
Lemma error_round c : as_error_code (ec_value (mk_error c)) = Some c.
Proof. destruct c; reflexivity. Qed.
Lemma shutdown_round c : as_shutdown_code (ec_value (mk_shutdown c)) = Some c.
Proof. destruct c; reflexivity. Qed.
Lemma error_text_inj c1 c2 : ec_text (mk_error c1) = ec_text (mk_error c2) -> c1 = c2.
Proof. destruct c1, c2; intros H; try reflexivity; discriminate H. Qed.
Lemma shutdown_text_inj c1 c2 : ec_text (mk_shutdown c1) = ec_text (mk_shutdown c2) -> c1 = c2.
Proof. destruct c1, c2; intros H; try reflexivity; discriminate H. Qed.
Lemma error_shutdown_text c1 c2 : ec_text (mk_error c1) <> ec_text (mk_shutdown c2).
Proof. destruct c1, c2; discriminate. Qed.

Lemma error_unknown z : (z < 0 \/ 11 < z)%Z -> error_text z = "unknown".
Proof.
  intros H. unfold error_text, as_error_code. cbn [find all_error_codes error_value].
  repeat (match goal with |- context [Z.eqb ?a z] => destruct (Z.eqb_spec a z); [lia|] end). reflexivity.
Qed.
Lemma shutdown_unknown z : (z < 0 \/ 5 < z)%Z -> shutdown_text z = "unknown shutdown reason".
Proof.
  intros H. unfold shutdown_text, as_shutdown_code. cbn [find all_shutdown_codes shutdown_value].
  repeat (match goal with |- context [Z.eqb ?a z] => destruct (Z.eqb_spec a z); [lia|] end). reflexivity.
Qed.
Lemma error_zero c : ec_true (mk_error c) = false <-> c = success.
Proof. destruct c; split; intros H; try reflexivity; discriminate H. Qed.
Lemma shutdown_zero c : ec_true (mk_shutdown c) = false <-> c = normal.
Proof. destruct c; split; intros H; try reflexivity; discriminate H. Qed.
