(** Stop watch: include/clock.hpp. Times and durations are whole ticks of high_resolution_clock (nanoseconds); the clock is
    read by passing the current time. *)
From Coq Require Import Reals ZArith List Bool.
From Verif Require Import Base CString Aod1bModel.
Import ListNotations.
Open Scope Z_scope.

(** lines 10-13; start_time of a fresh object is the epoch of the clock *)
Record clock := mkClock { start_time : Z; total_duration : Z; msamples : Z; mname : list Z }.
(** std::strcpy into the 24 characters; [n] is read up to its terminator *)
Definition strcpy (buf n : list Z) : res (list Z) := t <- c_str n ;; write_at buf 0 (t ++ [0]).
(** line 30 *)
Definition construct (n : list Z) : res clock := b <- strcpy (repeat 0 24) n ;; Ok (mkClock 0 0 0 b).
(** lines 15-20 *)
Definition get_elapsed_time (c : clock) (now : Z) : Z := now - start_time c.
Definition start (c : clock) (now : Z) : clock := mkClock now (total_duration c) (msamples c) (mname c).
Definition stop (c : clock) (now : Z) : clock := mkClock (start_time c) (total_duration c + get_elapsed_time c now) (msamples c + 1) (mname c).
(** lines 21-28: [unit] nanoseconds per T; integer division, undefined for zero samples *)
Definition get_total_duration (unit : Z) (c : clock) : Z := Z.quot (total_duration c) unit.
Definition average_running_time (unit : Z) (c : clock) : res R :=
  if msamples c =? 0 then UB else Ok (IZR (Z.quot (get_total_duration unit c) (msamples c))).
(** lines 32-44 *)
Definition copy (c : clock) : res clock := b <- strcpy (repeat 0 24) (mname c) ;; Ok (mkClock (start_time c) (total_duration c) (msamples c) b).
(** lines 46-54; [same]: this == &other *)
Definition assign (same : bool) (a c : clock) : res clock :=
  if same then Ok a else b <- strcpy (mname a) (mname c) ;; Ok (mkClock (start_time c) (total_duration c) (msamples c) b).
(** lines 58-60: microseconds *)
Definition is_faster (a b : clock) : res bool :=
  x <- average_running_time 1000 a ;; y <- average_running_time 1000 b ;; Ok (if Rlt_dec x y then true else false).
(** lines 62-67: the number printed; None: a division by zero gives infinity or NaN *)
Definition compare (a b : clock) : res (option R) :=
  ref <- average_running_time 1000 b ;; y <- average_running_time 1000 a ;;
  Ok (if Req_EM_T ref 0 then None else Some (100 * (y - ref) / ref)%R).
