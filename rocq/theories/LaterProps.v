(** Property C147: data windows of traces at another time and in another unit of energy.  Theorems only. *)
From Coq Require Import String List ZArith QArith.
From Verif Require Import Base TimesModel TimesEx LaterSpec LaterProof LaterEx.
Import ListNotations.

(** C147: if samples, origin time and onsets are later by d, every window is later by d, or fails with
    the same error. *)
Theorem C147_clock : forall pyfloat tw d tr,
  tw2utc pyfloat tw (later d tr) = outcome (fun w => (fst w + d, snd w + d)%Z) (tw2utc pyfloat tw tr).
Proof. exact window_later. Qed.
Print Assumptions C147_clock.

Example C147_clock_ex : tw2utc float_ex later_window trace_ex = Ok (20, 20)%Z /\
  tw2utc float_ex later_window (later 100 trace_ex) = Ok (120, 120)%Z.
Proof. split; apply later_window_ok. Qed.

(** C147: so is the time at which the coda is cut. *)
Theorem C147_cut_clock : forall d tr smoothed ratio,
  get_local_minimum (later d tr) smoothed ratio = outcome (option_map (fun t => t + d)%Z) (get_local_minimum tr smoothed ratio).
Proof. exact minimum_later. Qed.
Print Assumptions C147_cut_clock.

Example C147_cut_clock_ex : get_local_minimum trace_ex None 4 = Ok (Some 20%Z) /\
  get_local_minimum (later 100 trace_ex) None 4 = Ok (Some 120%Z).
Proof. exact later_minimum_ok. Qed.

(** C147: and the check of completeness gives the same answer. *)
Theorem C147_complete : forall d start end_ tw tol,
  check_times (start + d) (end_ + d) (fst tw + d, snd tw + d)%Z tol = check_times start end_ tw tol.
Proof. exact check_later. Qed.
Print Assumptions C147_complete.

Example C147_complete_ex : check_times 0 50 (10, 60)%Z 5 = Some (10, -10)%Z /\ check_times 0 50 (10, 40)%Z 5 = None.
Proof. exact later_check_ok. Qed.

(** C147: if energies and noise are given in another unit, the windows do not change. *)
Theorem C147_unit : forall k, 0 < k -> forall pyfloat tw tr, tw2utc pyfloat tw (louder k tr) = tw2utc pyfloat tw tr.
Proof. exact window_louder. Qed.
Print Assumptions C147_unit.

Example C147_unit_ex : tw2utc float_ex later_window trace_ex = Ok (20, 20)%Z /\
  tw2utc float_ex later_window (louder (1 # 3) trace_ex) = Ok (20, 20)%Z.
Proof. split; apply later_window_ok. Qed.

(** C147: nor does the time at which the coda is cut, with the smoothed energies in the same unit. *)
Theorem C147_cut_unit : forall k, 0 < k -> forall tr smoothed ratio,
  get_local_minimum (louder k tr) (option_map (outcome (map (Qmult k))) smoothed) ratio = get_local_minimum tr smoothed ratio.
Proof. exact minimum_louder. Qed.
Print Assumptions C147_cut_unit.

Example C147_cut_unit_ex : 0 < 1 # 3 /\
  get_local_minimum trace_ex (Some (Ok [9; 5; 1; 5; 2; 7])) 4 = Ok (Some 20%Z).
Proof. exact later_scaled_ok. Qed.
