(** Upload rate control: /repo/src/sota_tools/rate_controller.cc, rate_controller.h. Times and durations in nanoseconds (steady_clock).
    Simplification: int and int64 arithmetic is unbounded (the sleep time overflows after 33 counted failures in a row, the pool stops after six). *)
From Verif Require Import Base.
(** rate_controller.cc:8-10 *)
Definition second : Z := 1000000000.
Definition kMaxSleepTime : Z := 30 * second.
Definition kInitialSleepTime : Z := second.
(** rate_controller.h:52-62; the default time_point is the epoch. *)
Record rate := { r_cap : Z; r_last : Z; r_max : Z; r_sleep : Z }.
Definition rate_init (cap : Z) : rate := {| r_cap := cap; r_last := 0; r_max := 1; r_sleep := 0 |}.
(** 14-34 RequestCompleted *)
Definition request_completed (start fin : Z) (ok : bool) (r : rate) : rate :=
  if r_last r <? start then
    if ok then {| r_cap := r_cap r; r_last := fin; r_max := Z.min (r_max r + 1) (r_cap r); r_sleep := 0 |}
    else if 2 <=? r_max r then {| r_cap := r_cap r; r_last := fin; r_max := r_max r / 2; r_sleep := r_sleep r |}
    else {| r_cap := r_cap r; r_last := fin; r_max := r_max r; r_sleep := Z.max (r_sleep r * 2) kInitialSleepTime |}
  else r.
(** 36-49; 51-55 CheckInvariants aborts if false. *)
Definition max_concurrency (r : rate) : Z := r_max r.
Definition get_sleep_time (r : rate) : Z := r_sleep r.
Definition server_has_failed (r : rate) : bool := kMaxSleepTime <? r_sleep r.
Definition check_invariants (r : rate) : bool := ((r_sleep r =? 0) || (r_max r =? 1)) && (0 <? r_max r) && (r_max r <=? r_cap r).
(** A completed request: start, end, success. *)
Definition event := (Z * Z * bool)%type.
Definition run_rate (cap : Z) (h : list event) : rate := fold_left (fun r e => let '(s, f, ok) := e in request_completed s f ok r) h (rate_init cap).
