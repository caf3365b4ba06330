(** How long the event loops are asked to wait: the conversions of do_start_timer, and the
    clock by which a spawner measures its restart period.

    An interval is a boost posix_time duration: a 64 bit number of microseconds (the
    default resolution).  Its special values (infinities, not_a_date_time) are left out. *)
From Coq Require Import ZArith Lia Bool.
Open Scope Z_scope.

(** total_milliseconds() of boost: integer division, towards zero. *)
Definition total_ms (d : Z) : Z := Z.quot d 1000.
(** Signed 64 bit arithmetic; too large a result is undefined behaviour. *)
Definition int64 (x : Z) : option Z := if (- 2 ^ 63 <=? x) && (x <? 2 ^ 63) then Some x else None.
(** total_nanoseconds() of boost, and a std::chrono duration in microseconds added to a
    time point in nanoseconds. *)
Definition total_ns (d : Z) : option Z := int64 (d * 1000).
(** static_cast<int>: modulo 2^32 (defined by the implementation before C++20). *)
Definition to_int (x : Z) : Z := (x + 2 ^ 31) mod 2 ^ 32 - 2 ^ 31.

(** A double: mant * 2^expo.  Its range of exponents is never left here. *)
Record float := Fl { mant : Z; expo : Z }.
(** n / d to the nearest integer, ties to even; 0 <= n, 0 < d *)
Definition rne (n d : Z) : Z :=
  let q := n / d in
  let r := n mod d in
  if 2 * r <? d then q else if d <? 2 * r then q + 1 else if Z.even q then q else q + 1.
(** p / q rounded to 53 bits (IEEE 754 binary64, round to nearest); 0 <= p, 0 < q *)
Definition round53 (p q : Z) : float :=
  if p =? 0 then Fl 0 0
  else
    let e0 := Z.log2 p - Z.log2 q in
    let e := if 2 ^ Z.max e0 0 * q <=? p * 2 ^ Z.max (- e0) 0 then e0 else e0 - 1 in
    let k := e - 52 in
    Fl (rne (p * 2 ^ Z.max (- k) 0) (q * 2 ^ Z.max k 0)) k.
(** x / n for a double x *)
Definition fdiv (x : float) (n : Z) : float := round53 (mant x * 2 ^ Z.max (expo x) 0) (n * 2 ^ Z.max (- expo x) 0).

(** What the loop is told: nanoseconds, milliseconds or seconds. *)
Inductive wait := WNano (n : Z) | WMilli (n : Z) | WSec (x : float).
Inductive backend := Asio | Thread | Ev | Fltk | Wx.

(** supervisor_asio.cpp 42-46 (duration_cast to the nanoseconds of steady_clock);
    system_context_thread.cpp 107 (now + microseconds, nanoseconds of steady_clock);
    supervisor_ev.cpp 95 and supervisor_fltk.cpp 59: the nanoseconds as a double, divided
    by 10^9; supervisor_wx.cpp 80.  None: undefined behaviour. *)
Definition started (b : backend) (d : Z) : option wait :=
  match b with
  | Asio | Thread => option_map WNano (total_ns d)
  | Ev | Fltk => option_map (fun ns => WSec (fdiv (round53 ns 1) 1000000000)) (total_ns d)
  | Wx => Some (WMilli (to_int (total_ms d)))
  end.

(** ** The clock of a spawner *)

(** child_info.cpp 17, 76: microsec_clock::local_time(), the time of the wall clock of the
    place: [off t] is how far it is ahead of a steady clock at time [t].  Both change by
    adjustments of the clock and with daylight saving time. *)
Definition local_time (off : Z -> Z) (t : Z) : Z := t + off t.

(** child_info.cpp 76-81 and child_manager.cpp 143-149: the next attempt of a spawner
    whose last one was at [last] and whose actor is removed at [t]; [period] is its restart
    period.  The difference which next_spawn returns is not used: the timer gets the whole
    period. [lag] >= 0 is what the loop adds. *)
Definition next_attempt (off : Z -> Z) (period last t lag : Z) : Z :=
  if period <=? local_time off t - local_time off last then t else t + period + lag.
