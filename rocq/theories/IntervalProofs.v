(** Proofs of C77. *)
From Coq Require Import ZArith Lia Bool ZifyClasses.
From Verif Require Import IntervalModel IntervalSpec.
Open Scope Z_scope.

Lemma rne_near n d : 0 <= n -> 0 < d -> 2 * Z.abs (rne n d * d - n) <= d.
Proof.
  intros Hn Hd. unfold rne. pose proof (Z.div_mod n d ltac:(lia)) as E. pose proof (Z.mod_pos_bound n d Hd) as B.
  set (q := n / d) in *. set (r := n mod d) in *. assert (n = q * d + r) by lia.
  destruct (Z.ltb_spec (2 * r) d); [replace (q * d - n) with (- r) by lia; lia|].
  destruct (Z.ltb_spec d (2 * r)); [replace ((q + 1) * d - n) with (d - r) by lia; lia|].
  destruct (Z.even q); [replace (q * d - n) with (- r) by lia; lia|replace ((q + 1) * d - n) with (d - r) by lia; lia].
Qed.
Lemma rne_one n : 0 <= n -> rne n 1 = n.
Proof. intros H. unfold rne. rewrite Z.div_1_r, Z.mod_1_r. reflexivity. Qed.
Lemma rne_exact n d : 0 <= n -> 0 < d -> rne (n * d) d = n.
Proof. intros H Hd. unfold rne. rewrite Z.div_mul, Z.mod_mul by lia. destruct (Z.ltb_spec (2 * 0) d); [reflexivity|lia]. Qed.

Lemma pow_pos k : 0 < 2 ^ Z.max k 0.
Proof. apply Z.pow_pos_nonneg; lia. Qed.
(** 2^e <= p/q < 2^(e+1) *)
Lemma exponent p q : 0 < p -> 0 < q ->
  let e0 := Z.log2 p - Z.log2 q in
  let e := if 2 ^ Z.max e0 0 * q <=? p * 2 ^ Z.max (- e0) 0 then e0 else e0 - 1 in
  2 ^ Z.max e 0 * q <= p * 2 ^ Z.max (- e) 0.
Proof.
  intros Hp Hq e0 e. subst e. destruct (Z.leb_spec (2 ^ Z.max e0 0 * q) (p * 2 ^ Z.max (- e0) 0)) as [H|H]; [exact H|].
  pose proof (Z.log2_spec p Hp) as [P1 _]. pose proof (Z.log2_spec q Hq) as [_ Q2]. pose proof (Z.log2_nonneg p). pose proof (Z.log2_nonneg q).
  set (a := Z.log2 p) in *. set (b := Z.log2 q) in *. unfold e0 in *. clear H.
  (* q < 2^(b+1), p >= 2^a, exponent a - b - 1 *)
  destruct (Z.le_gt_cases 0 (a - b - 1)) as [C|C].
  - rewrite (Z.max_l (a - b - 1) 0), (Z.max_r (- (a - b - 1)) 0) by lia. rewrite Z.pow_0_r, Z.mul_1_r.
    transitivity (2 ^ (a - b - 1) * 2 ^ (b + 1)); [apply Z.mul_le_mono_nonneg_l; [apply Z.pow_nonneg; lia|lia]|]. rewrite <-Z.pow_add_r by lia. replace (a - b - 1 + (b + 1)) with a by lia. exact P1.
  - rewrite (Z.max_r (a - b - 1) 0), (Z.max_l (- (a - b - 1)) 0) by lia. rewrite Z.pow_0_r, Z.mul_1_l.
    transitivity (2 ^ a * 2 ^ (- (a - b - 1))); [|apply Z.mul_le_mono_nonneg_r; [apply Z.pow_nonneg; lia|exact P1]]. rewrite <-Z.pow_add_r by lia. replace (a + - (a - b - 1)) with (Z.succ b) by lia. lia.
Qed.
(** Half a unit in the last place: the relative error of a rounding. *)
Lemma round53_near p q : 0 <= p -> 0 < q ->
  let x := round53 p q in
  2 ^ 53 * Z.abs (mant x * 2 ^ Z.max (expo x) 0 * q - p * 2 ^ Z.max (- expo x) 0) <= p * 2 ^ Z.max (- expo x) 0.
Proof.
  intros Hp Hq. unfold round53. destruct (Z.eqb_spec p 0) as [->|Hp0]; [cbn; lia|]. cbn zeta. cbn [mant expo].
  pose proof (exponent p q ltac:(lia) Hq) as E. cbn zeta in E. set (e := if _ <=? _ then _ else _) in *. set (k := e - 52) in *.
  pose proof (pow_pos k) as K1. pose proof (pow_pos (- k)) as K2. set (n := p * 2 ^ Z.max (- k) 0) in *. set (d := q * 2 ^ Z.max k 0) in *.
  assert (Hd : 0 < d) by (unfold d; nia). assert (Hn : 0 <= n) by (unfold n; nia). pose proof (rne_near n d Hn Hd) as R.
  replace (rne n d * 2 ^ Z.max k 0 * q - n) with (rne n d * d - n) by (unfold d; ring).
  (* 2^52 d <= n *)
  assert (B : 2 ^ 52 * d <= n).
  { unfold d, n. destruct (Z.le_gt_cases 0 e) as [C|C].
    - rewrite (Z.max_l e 0), (Z.max_r (- e) 0) in E by lia. rewrite Z.pow_0_r, Z.mul_1_r in E. destruct (Z.le_gt_cases 0 k) as [D|D].
      + rewrite (Z.max_l k 0), (Z.max_r (- k) 0) by lia. rewrite Z.pow_0_r, Z.mul_1_r. replace e with (52 + k) in E by (unfold k; lia). rewrite Z.pow_add_r in E by lia. lia.
      + rewrite (Z.max_r k 0), (Z.max_l (- k) 0) by lia. rewrite Z.pow_0_r, Z.mul_1_r. replace (2 ^ 52) with (2 ^ e * 2 ^ (- k)) by (rewrite <-Z.pow_add_r by lia; f_equal; unfold k; lia).
        assert (0 < 2 ^ (- k)) by (apply Z.pow_pos_nonneg; lia). nia.
    - rewrite (Z.max_r e 0), (Z.max_l (- e) 0) in E by lia. rewrite Z.pow_0_r, Z.mul_1_l in E. rewrite (Z.max_r k 0), (Z.max_l (- k) 0) by (unfold k; lia). rewrite Z.pow_0_r, Z.mul_1_r.
      replace (- k) with (- e + 52) by (unfold k; lia). rewrite Z.pow_add_r by lia. assert (0 < 2 ^ 52) by reflexivity. nia. }
  replace (2 ^ 53) with (2 ^ 52 * 2) by reflexivity. nia.
Qed.
(** Up to 53 bits the conversion of an integer is exact. *)
Lemma round53_int p : 0 <= p < 2 ^ 53 -> let x := round53 p 1 in expo x <= 0 /\ mant x = p * 2 ^ Z.max (- expo x) 0.
Proof.
  intros [H0 H]. unfold round53. destruct (Z.eqb_spec p 0) as [->|Hp0]; [cbn; lia|]. cbn zeta. cbn [mant expo].
  change (Z.log2 1) with 0. rewrite Z.sub_0_r. pose proof (Z.log2_nonneg p). assert (L : Z.log2 p < 53) by (apply Z.log2_lt_pow2; lia).
  set (e := if _ <=? _ then _ else _). assert (He : e <= Z.log2 p) by (unfold e; destruct (_ <=? _); lia). split; [lia|].
  rewrite (Z.max_r (e - 52) 0) by lia. rewrite Z.pow_0_r, Z.mul_1_r. apply rne_one. pose proof (pow_pos (- (e - 52))). nia.
Qed.

Lemma double_near d : 0 <= d -> d * 1000 < 2 ^ 53 -> within 1 d (WSec (fdiv (round53 (d * 1000) 1) 1000000000)).
Proof.
  intros H0 H. pose proof (round53_int (d * 1000) ltac:(lia)) as [E M]. cbn zeta in E, M. set (x := round53 (d * 1000) 1) in *. unfold fdiv.
  rewrite (Z.max_r (expo x) 0) by lia. rewrite Z.pow_0_r, Z.mul_1_r. set (c := 2 ^ Z.max (- expo x) 0) in *. assert (Hc : 0 < c) by apply pow_pos. rewrite M.
  pose proof (round53_near (d * 1000 * c) (1000000000 * c) ltac:(nia) ltac:(lia)) as R. cbn zeta in R. set (y := round53 (d * 1000 * c) (1000000000 * c)) in *.
  unfold within, nanos. set (u := 2 ^ Z.max (expo y) 0) in *. set (v := 2 ^ Z.max (- expo y) 0) in *. assert (Hv : 0 < v) by apply pow_pos.
  set (A := mant y * u * 1000000000 - d * 1000 * v).
  replace (mant y * u * (1000000000 * c) - d * 1000 * c * v) with (A * c) in R by (unfold A; ring). rewrite Z.abs_mul, (Z.abs_eq c) in R by lia.
  assert (R2 : 2 ^ 53 * Z.abs A <= d * 1000 * v) by nia. fold A. rewrite Z.mul_1_l. nia.
Qed.
(** Longer ones: two roundings. *)
Lemma double_far d : 0 <= d -> 2 ^ 51 * Z.abs (fst (nanos (WSec (fdiv (round53 (d * 1000) 1) 1000000000))) - d * 1000 * snd (nanos (WSec (fdiv (round53 (d * 1000) 1) 1000000000)))) <=
  d * 1000 * snd (nanos (WSec (fdiv (round53 (d * 1000) 1) 1000000000))).
Proof.
  intros H0. pose proof (round53_near (d * 1000) 1 ltac:(lia) ltac:(lia)) as R1. cbn zeta in R1. set (x := round53 (d * 1000) 1) in *.
  set (u1 := 2 ^ Z.max (expo x) 0) in *. set (v1 := 2 ^ Z.max (- expo x) 0) in *. rewrite Z.mul_1_r in R1.
  assert (Hu1 : 0 < u1) by apply pow_pos. assert (Hv1 : 0 < v1) by apply pow_pos. set (n := d * 1000) in *. assert (Hn : 0 <= n) by (unfold n; lia).
  assert (HP : 0 <= mant x * u1) by nia.
  unfold fdiv. fold u1 v1. set (P := mant x * u1) in *. pose proof (round53_near P (1000000000 * v1) HP ltac:(lia)) as R2. cbn zeta in R2. set (y := round53 P _) in *.
  unfold nanos, fst, snd. set (u := 2 ^ Z.max (expo y) 0) in *. set (v := 2 ^ Z.max (- expo y) 0) in *. assert (Hv : 0 < v) by apply pow_pos.
  set (Y := mant y * u * 1000000000) in *. replace (mant y * u * (1000000000 * v1)) with (Y * v1) in R2 by (unfold Y; ring).
  (* |Y v1 - P v| <= P v / 2^53, |P - n v1| <= n v1 / 2^53 *)
  assert (T : Z.abs (Y - n * v) * v1 <= Z.abs (Y * v1 - P * v) + Z.abs (P - n * v1) * v).
  { rewrite <-(Z.abs_eq v1) at 1 by lia. rewrite <-Z.abs_mul. rewrite <-(Z.abs_eq v) at 3 by lia. rewrite <-Z.abs_mul.
    replace ((Y - n * v) * v1) with ((Y * v1 - P * v) + (P - n * v1) * v) by ring. apply Z.abs_triangle. }
  clearbody Y P n v v1. clear x y u1 u Hu1.
  assert (B : 2 ^ 53 * (Z.abs (P - n * v1) * v) <= n * v1 * v).
  { rewrite Z.mul_assoc. apply Z.mul_le_mono_nonneg_r; lia. }
  assert (Pn : P <= 2 * (n * v1)) by lia.
  assert (C : P * v <= 2 * (n * v1) * v) by (apply Z.mul_le_mono_nonneg_r; lia).
  assert (F : 2 ^ 51 * (Z.abs (Y - n * v) * v1) <= n * v * v1).
  { replace (n * v * v1) with (n * v1 * v) by ring. set (a := Z.abs (Y - n * v) * v1) in *. set (b := Z.abs (Y * v1 - P * v)) in *. set (c := Z.abs (P - n * v1) * v) in *. set (g := n * v1 * v) in *.
    replace (2 * (n * v1) * v) with (2 * g) in C by (unfold g; ring). clearbody a b c g. lia. }
  rewrite Z.mul_assoc in F. apply Z.mul_le_mono_pos_r in F; [exact F|exact Hv1].
Qed.

Lemma int64_ok x : - 2 ^ 63 <= x < 2 ^ 63 -> int64 x = Some x.
Proof. intros [H1 H2]. unfold int64. destruct (Z.leb_spec (- 2 ^ 63) x); [|lia]. destruct (Z.ltb_spec x (2 ^ 63)); [reflexivity|lia]. Qed.
Lemma to_int_ok x : - 2 ^ 31 <= x < 2 ^ 31 -> to_int x = x.
Proof. intros [H1 H2]. unfold to_int. rewrite Z.mod_small by (change (2 ^ 32) with (2 ^ 31 + 2 ^ 31); lia). lia. Qed.
Lemma to_int_wraps x : 2 ^ 31 <= x < 2 ^ 32 -> to_int x = x - 2 ^ 32.
Proof.
  intros [H1 H2]. unfold to_int. change (2 ^ 32) with (2 ^ 31 + 2 ^ 31) in *. rewrite <-(Z.mod_add _ (- 1)) by lia. rewrite Z.mod_small by lia. lia.
Qed.

Lemma steady b d : b = Asio \/ b = Thread -> 0 <= d -> d * 1000 < 2 ^ 63 -> exists w, started b d = Some w /\ exact d w.
Proof.
  intros Hb H0 H. exists (WNano (d * 1000)). split; [|unfold exact; cbn; lia]. destruct Hb as [-> | ->]; unfold started, total_ns; rewrite int64_ok by lia; reflexivity.
Qed.
Lemma seconds b d : b = Ev \/ b = Fltk -> 0 <= d -> d * 1000 < 2 ^ 53 -> exists w, started b d = Some w /\ within 1 d w.
Proof.
  intros Hb H0 H. exists (WSec (fdiv (round53 (d * 1000) 1) 1000000000)). split; [|exact (double_near d H0 H)].
  assert (2 ^ 53 < 2 ^ 63) by reflexivity. destruct Hb as [-> | ->]; unfold started, total_ns; rewrite int64_ok by lia; reflexivity.
Qed.
Lemma seconds_far b d : b = Ev \/ b = Fltk -> 0 <= d -> d * 1000 < 2 ^ 63 -> exists w, started b d = Some w /\
  2 ^ 51 * Z.abs (fst (nanos w) - d * 1000 * snd (nanos w)) <= d * 1000 * snd (nanos w).
Proof.
  intros Hb H0 H. exists (WSec (fdiv (round53 (d * 1000) 1) 1000000000)). split; [|exact (double_far d H0)].
  destruct Hb as [-> | ->]; unfold started, total_ns; rewrite int64_ok by lia; reflexivity.
Qed.
Lemma overflow b d : b <> Wx -> 2 ^ 63 <= d * 1000 -> started b d = None.
Proof.
  intros Hb H. assert (Hn : total_ns d = None).
  { unfold total_ns, int64. destruct (Z.ltb_spec (d * 1000) (2 ^ 63)); [lia|]. rewrite andb_false_r; reflexivity. }
  destruct b; unfold started; rewrite ?Hn; try reflexivity. congruence.
Qed.
Lemma wx_short d : 0 <= d < 2 ^ 31 * 1000 -> exists n, started Wx d = Some (WMilli n) /\ n * 1000 <= d < (n + 1) * 1000.
Proof.
  intros [H0 H]. exists (d / 1000). unfold started, total_ms. rewrite Z.quot_div_nonneg by lia. pose proof (Z.div_mod d 1000 ltac:(lia)). pose proof (Z.mod_pos_bound d 1000 ltac:(lia)).
  rewrite to_int_ok; [split; [reflexivity|lia]|]. split; [|apply Z.div_lt_upper_bound; lia]. assert (0 <= d / 1000) by (apply Z.div_pos; lia). lia.
Qed.
Lemma wx_long d : 2 ^ 31 * 1000 <= d < 2 ^ 32 * 1000 -> exists w, started Wx d = Some w /\ negative w.
Proof.
  intros [H1 H2]. exists (WMilli (d / 1000 - 2 ^ 32)). unfold started, total_ms. rewrite Z.quot_div_nonneg by lia.
  assert (2 ^ 31 <= d / 1000) by (apply Z.div_le_lower_bound; lia). assert (d / 1000 < 2 ^ 32) by (apply Z.div_lt_upper_bound; lia).
  rewrite to_int_wraps by lia. split; [reflexivity|]. unfold negative, nanos. lia.
Qed.

(** ** The clock of a spawner *)
Lemma attempt_gap off period last t lag : 0 <= period -> 0 <= lag -> last <= t ->
  let n := next_attempt off period last t lag in t <= n /\ (n - last >= period \/ n - last >= period - (off t - off last)).
Proof.
  intros Hp Hl Ht. unfold next_attempt, local_time. destruct (Z.leb_spec period (t + off t - (last + off last))); cbn zeta; lia.
Qed.
Lemma attempt_delay off period last t lag : 0 <= period -> next_attempt off period last t lag <= t + period + Z.max lag 0.
Proof. intros Hp. unfold next_attempt. destruct (_ <=? _); lia. Qed.
