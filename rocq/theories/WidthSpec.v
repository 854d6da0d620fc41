(** What is expected of the filter width, written without the functions of WidthModel.v. *)
From Coq Require Import String List Reals.
From Verif Require Import Base.
Open Scope R_scope.

(** filters with their corner frequencies in Hz *)
Inductive filter := Lowpass (f : R) | Highpass (f : R) | Bandpass (f1 f2 : R).

(** the corner frequencies lie below the Nyquist frequency *)
Definition valid (sr : R) (x : filter) : Prop :=
  match x with
  | Lowpass f | Highpass f => 0 < f < sr / 2
  | Bandpass f1 f2 => 0 < f1 /\ f1 < f2 /\ f2 < sr / 2
  end.

(** how a filter is asked for: freq, freqmin, freqmax, type *)
Inductive asked : filter -> option R -> option R -> option R -> string -> Prop :=
| A_low : forall f a b, asked (Lowpass f) (Some f) a b "lowpass"
| A_high : forall f a b, asked (Highpass f) (Some f) a b "highpass"
| A_band : forall f1 f2 a, asked (Bandpass f1 f2) a (Some f1) (Some f2) "bandpass".

(** lower and upper end of the frequencies that pass *)
Definition lower (x : filter) : R := match x with Lowpass _ => 0 | Highpass f => f | Bandpass f1 _ => f1 end.
Definition upper (sr : R) (x : filter) : R := match x with Lowpass f => f | Highpass _ => sr / 2 | Bandpass _ f2 => f2 end.

(** frequency of the analog filter belonging to [f] *)
Definition warped (sr f : R) : R := tan (PI * f / sr).

(** the frequency of the low-pass filter with corner frequency 1 *)
Definition prototype (sr : R) (x : filter) (f : R) : R :=
  match x with
  | Lowpass g => warped sr f / warped sr g
  | Highpass g => warped sr g / warped sr f
  | Bandpass g1 g2 => (warped sr f ^ 2 - warped sr g1 * warped sr g2) / (warped sr f * (warped sr g2 - warped sr g1))
  end.

(** the squared response of a Butterworth filter, applied once or twice *)
Definition gain (sr : R) (x : filter) (corners : nat) (zerophase : bool) (f : R) : R :=
  let g := 1 / (1 + prototype sr x f ^ (2 * corners)) in
  if zerophase then g * g else g.

(** another unit of frequencies *)
Definition scaled (k : R) (x : option R) : option R := match x with Some f => Some (k * f) | None => None end.
