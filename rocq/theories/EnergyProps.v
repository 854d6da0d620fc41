(** Property C38: observed energy, /repo/qopen/core.py:156-195. *)
From Coq Require Import List Reals Lra ZArith.
From Verif Require Import Base Pyf EnergyModel EnergySpec EnergyProof EnergyEx.
Import ListNotations.
Open Scope R_scope.

(** C38: value, length and sign of the energy trace *)
Theorem C38_energy_trace : forall hilbert stream rho df fs tol,
  (forall v, length (hilbert v) = length v) ->
  stream <> [] -> 0 <= rho -> 0 < df -> 0 < fs ->
  ~ lengths_differ stream tol ->
  exists e n,
    observed_energy hilbert stream rho df None fs tol = Ok (map FNum e) /\
    shortest stream n /\ length e = n /\
    (forall k, (k < n)%nat -> nth k e 0 = energy_at hilbert stream rho df fs k) /\
    Forall (fun x => 0 <= x) e.
Proof. exact energy_ok. Qed.
Print Assumptions C38_energy_trace.

Example C38_energy_trace_ex :
  (forall v, length (hil_ex v) = length v) /\
  stream_ex <> [] /\ ~ lengths_differ stream_ex 1.
Proof.
  split; [exact hil_ex_len|split; [discriminate|exact stream_ex_close]].
Qed.

(** C38: refused exactly when the lengths differ too much *)
Theorem C38_refused : forall hilbert,
  (forall v, length (hilbert v) = length v) ->
  forall stream, stream <> [] ->
  forall rho df coda_slice fs tol,
  observed_energy hilbert stream rho df coda_slice fs tol = Err SkipError
  <-> lengths_differ stream tol.
Proof. exact refused_iff. Qed.
Print Assumptions C38_refused.

Example C38_refused_ex :
  (forall v, length (hil_ex v) = length v) /\ stream_ex <> [].
Proof. split; [exact hil_ex_len|discriminate]. Qed.

(** C38: quadratic in the data *)
Theorem C38_quadratic : forall hilbert stream rho df fs tol,
  (forall v, length (hilbert v) = length v) -> stream <> [] ->
  forall c e,
  (forall v, hilbert (map (Rmult c) v) = map (Rmult c) (hilbert v)) ->
  observed_energy hilbert stream rho df None fs tol = Ok (map FNum e) ->
  observed_energy hilbert (scale_stream c stream) rho df None fs tol
  = Ok (map FNum (map (fun x => c ^ 2 * x) e)).
Proof. exact energy_quadratic. Qed.
Print Assumptions C38_quadratic.

Example C38_quadratic_ex :
  (forall v, hil_ex (map (Rmult 7) v) = map (Rmult 7) (hil_ex v)) /\
  observed_energy hil_ex stream_ex 2 5 None 4 1 = Ok (map FNum [2.5; 4.5]).
Proof. split; [exact (hil_ex_lin 7)|exact stream_ex_energy]. Qed.

(** C38: linear in rho, inverse in the filter width and the free surface factor *)
Theorem C38_parameters : forall hilbert stream rho df fs tol,
  (forall v, length (hilbert v) = length v) -> stream <> [] ->
  forall a e,
  a <> 0 ->
  observed_energy hilbert stream rho df None fs tol = Ok (map FNum e) ->
  observed_energy hilbert stream (a * rho) df None fs tol
    = Ok (map FNum (map (fun x => a * x) e)) /\
  observed_energy hilbert stream rho (a * df) None fs tol
    = Ok (map FNum (map (fun x => x / a) e)) /\
  observed_energy hilbert stream rho df None (a * fs) tol
    = Ok (map FNum (map (fun x => x / a) e)).
Proof. exact energy_params. Qed.
Print Assumptions C38_parameters.

Example C38_parameters_ex :
  3 <> 0 /\ observed_energy hil_ex stream_ex 2 5 None 4 1 = Ok (map FNum [2.5; 4.5]).
Proof. split; [lra|exact stream_ex_energy]. Qed.

(** C38: with coda normalisation the amplitude does not matter *)
Theorem C38_amplitude_free : forall hilbert stream rho df fs tol,
  (forall v, length (hilbert v) = length v) -> stream <> [] ->
  forall c a n, c <> 0 ->
  (forall v, hilbert (map (Rmult c) v) = map (Rmult c) (hilbert v)) ->
  observed_energy hilbert (scale_stream c stream) rho df (Some (a, n)) fs tol
  = observed_energy hilbert stream rho df (Some (a, n)) fs tol.
Proof. exact energy_normalised. Qed.
Print Assumptions C38_amplitude_free.

Example C38_amplitude_free_ex :
  7 <> 0 /\ (forall v, hil_ex (map (Rmult 7) v) = map (Rmult 7) (hil_ex v)).
Proof. split; [lra|exact (hil_ex_lin 7)]. Qed.

(** C38: with coda normalisation the energy is divided by its mean in the window *)
Theorem C38_coda_mean : forall hilbert stream rho df fs tol a n e,
  (forall v, length (hilbert v) = length v) -> stream <> [] ->
  observed_energy hilbert stream rho df None fs tol = Ok (map FNum e) ->
  let window := firstn n (skipn a e) in
  let mean := fold_right Rplus 0 window / INR (length window) in
  window <> [] -> mean <> 0 ->
  observed_energy hilbert stream rho df (Some (a, n)) fs tol
  = Ok (map (fun x => FNum (x / mean)) e).
Proof. exact energy_coda_mean. Qed.
Print Assumptions C38_coda_mean.

Example C38_coda_mean_ex :
  observed_energy hil_ex stream_ex 2 5 None 4 1 = Ok (map FNum [2.5; 4.5]) /\
  (let window := firstn 1 (skipn 1 [2.5; 4.5]) in
   window <> [] /\ fold_right Rplus 0 window / INR (length window) <> 0).
Proof. split; [exact stream_ex_energy|exact window_ex]. Qed.

(** C38: without energy in the window the normalised energy is no number: nan for an empty
    window and for samples of zero, infinite for the others *)
Theorem C38_zero_mean : forall hilbert stream rho df fs tol a n e,
  (forall v, length (hilbert v) = length v) -> stream <> [] ->
  observed_energy hilbert stream rho df None fs tol = Ok (map FNum e) ->
  let window := firstn n (skipn a e) in
  window = [] \/ fold_right Rplus 0 window = 0 ->
  exists d, observed_energy hilbert stream rho df (Some (a, n)) fs tol = Ok d /\ length d = length e /\
    forall k x y, nth_error e k = Some x -> nth_error d k = Some y ->
      (window = [] -> y = FNan) /\
      (window <> [] -> (x = 0 -> y = FNan) /\ (0 < x -> y = FPInf) /\ (x < 0 -> y = FNInf)).
Proof. exact energy_zero_mean. Qed.
Print Assumptions C38_zero_mean.

Example C38_zero_mean_ex :
  observed_energy hil_ex stream_ex 2 5 None 4 1 = Ok (map FNum [2.5; 4.5]) /\
  firstn 1 (skipn 2 [2.5; 4.5]) = [].
Proof. split; [exact stream_ex_energy|reflexivity]. Qed.
