(** C77: intervals reach the event loops, and the clock of a spawner. *)
From Coq Require Import ZArith Lia.
From Verif Require Import IntervalModel IntervalSpec IntervalProofs.
Open Scope Z_scope.

(** asio and thread wait for exactly the interval, up to 292 years. *)
Theorem C77_steady : forall b d, b = Asio \/ b = Thread -> 0 <= d -> d * 1000 < 2 ^ 63 -> exists w, started b d = Some w /\ exact d w.
Proof. exact steady. Qed.
(** ev and fltk: up to 104 days the double differs by less than a nanosecond. *)
Theorem C77_seconds : forall b d, b = Ev \/ b = Fltk -> 0 <= d -> d * 1000 < 2 ^ 53 -> exists w, started b d = Some w /\ within 1 d w.
Proof. exact seconds. Qed.
(** Beyond that, up to 292 years: by less than one part in 2^51. *)
Theorem C77_seconds_long : forall b d, b = Ev \/ b = Fltk -> 0 <= d -> d * 1000 < 2 ^ 63 -> exists w, started b d = Some w /\
  2 ^ 51 * Z.abs (fst (nanos w) - d * 1000 * snd (nanos w)) <= d * 1000 * snd (nanos w).
Proof. exact seconds_far. Qed.
(** From there on the four of them compute an undefined value. *)
Theorem C77_limit : forall b d, b <> Wx -> 2 ^ 63 <= d * 1000 -> started b d = None.
Proof. exact overflow. Qed.
(** wx: whole milliseconds, never more than the interval, and less by under one. *)
Theorem C77_wx_partial : forall d, 0 <= d < 2 ^ 31 * 1000 -> exists n, started Wx d = Some (WMilli n) /\ n * 1000 <= d < (n + 1) * 1000.
Proof. exact wx_short. Qed.
(** So it fires early, or at once. *)
Theorem C77_wx_early_refuted : exists w1 w2, started Wx 1999 = Some w1 /\ too_short 1999 w1 /\ started Wx 999 = Some w2 /\ w2 = WMilli 0.
Proof. exists (WMilli 1), (WMilli 0). split; [reflexivity|]. split; [reflexivity|]. split; reflexivity. Qed.
(** An interval of more than 24 days and 20 hours becomes negative. *)
Theorem C77_wx_long_refuted : forall d, 25 * day <= d <= 49 * day -> exists w, started Wx d = Some w /\ negative w.
Proof. intros d [H1 H2]. unfold day in *. apply wx_long. lia. Qed.

(** ** The restart period *)

(** While the local clock runs evenly, two attempts are a period apart, and a restart
    comes at most a period (and what the loop adds) after the end of the actor. *)
Theorem C77_even : forall off period last t lag, 0 <= period -> 0 <= lag -> last <= t -> off t = off last ->
  let n := next_attempt off period last t lag in period <= n - last /\ t <= n <= t + period + lag.
Proof.
  intros off period last t lag Hp Hl Ht Ho n. pose proof (attempt_gap off period last t lag Hp Hl Ht) as [A B]. pose proof (attempt_delay off period last t lag Hp) as C.
  fold n in A, B, C. lia.
Qed.
(** A restart which does not come at once comes a whole period after the end of the
    actor, not the rest of it. *)
Theorem C77_whole : forall off period last t, 0 <= period -> last <= t -> off t = off last -> t - last < period -> next_attempt off period last t 0 = t + period.
Proof. intros off period last t Hp Ht Ho H. unfold next_attempt, local_time. destruct (Z.leb_spec period (t + off t - (last + off last))); lia. Qed.
(** A clock which was put forward by [x] in between shortens the distance by at most [x];
    one which was put back never does. *)
Theorem C77_shift : forall off period last t lag x, 0 <= period -> 0 <= lag -> last <= t -> 0 <= x -> off t <= off last + x ->
  period - x <= next_attempt off period last t lag - last.
Proof.
  intros off period last t lag x Hp Hl Ht Hx Ho. pose proof (attempt_gap off period last t lag Hp Hl Ht) as [A B]. cbn zeta in *. lia.
Qed.
(** Whatever the clock does, the restart does not wait longer than the period. *)
Theorem C77_delay : forall off period last t lag, 0 <= period -> 0 <= lag -> next_attempt off period last t lag <= t + period + lag.
Proof. intros off period last t lag Hp Hl. pose proof (attempt_delay off period last t lag Hp). lia. Qed.
(** Daylight saving time begins between two attempts (the clock is put forward by an
    hour): a spawner with a period of half an hour restarts at once. *)
Definition summer (t : Z) : Z := if t <? 1000000 then 3600 * 1000000 else 7200 * 1000000.
Theorem C77_summer_refuted : exists off period last t, period = 1800 * 1000000 /\ last < t < last + 2000000 /\ next_attempt off period last t 0 = t.
Proof. exists summer, (1800 * 1000000), 500000, 1500000. split; [reflexivity|]. split; [lia|reflexivity]. Qed.

(** A quarter of a second is a double; a tenth of one
    is not. *)
Example C77_quarter : started Ev 250000 = Some (WSec (Fl (2 ^ 52) (- 54))) /\ exact 250000 (WSec (Fl (2 ^ 52) (- 54))).
Proof. split; [vm_compute; reflexivity|reflexivity]. Qed.
Example C77_tenth : exists w, started Fltk 100000 = Some w /\ ~ exact 100000 w /\ within 1 100000 w.
Proof. eexists. split; [vm_compute; reflexivity|]. split; [intros H; vm_compute in H; discriminate|vm_compute; reflexivity]. Qed.
Example C77_wx_ex : started Wx 250000 = Some (WMilli 250) /\ started Wx (25 * day) = Some (WMilli (- 2134967296)).
Proof. split; vm_compute; reflexivity. Qed.
Example C77_even_ex : next_attempt (fun _ => 0) 15000000 0 1000000 20 = 16000020 /\ next_attempt (fun _ => 0) 15000000 0 20000000 20 = 20000000.
Proof. split; reflexivity. Qed.

Print Assumptions C77_steady.
Print Assumptions C77_seconds.
Print Assumptions C77_seconds_long.
Print Assumptions C77_limit.
Print Assumptions C77_wx_partial.
Print Assumptions C77_wx_early_refuted.
Print Assumptions C77_wx_long_refuted.
Print Assumptions C77_even.
Print Assumptions C77_whole.
Print Assumptions C77_shift.
Print Assumptions C77_delay.
Print Assumptions C77_summer_refuted.
