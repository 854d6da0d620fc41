(** Properties C102: the filter width (WidthModel.v). *)
From Coq Require Import String List Reals Lra Lia.
From Coquelicot Require Import Coquelicot.
From Verif Require Import Base WidthModel WidthSpec WidthProof3 WidthProof4.
Open Scope R_scope.

(** The filter width is the integral of the squared response up to the Nyquist frequency,
    apart from at most one step of frequency. *)
Theorem C102_integral : forall sr x freq f1 f2 type corners zerophase,
  valid sr x -> asked x freq f1 f2 type -> (0 < corners)%nat ->
  exists v I, filter_width sr freq f1 f2 corners zerophase type = Ok v /\
    is_RInt (gain sr x corners zerophase) 0 (sr / 2) I /\ Rabs (v - I) <= sr / 1024.
Proof. exact width_integral. Qed.
Print Assumptions C102_integral.

Example C102_integral_ex : valid 100 (Bandpass 2 4) /\ asked (Bandpass 2 4) None (Some 2) (Some 4) "bandpass" /\ (0 < 2)%nat.
Proof. split; [cbn; lra|]. split; [constructor|lia]. Qed.

(** For steep filters it is the difference of the corner frequencies, apart from at most
    one step of frequency. *)
Theorem C102_steep : forall sr x freq f1 f2 type zerophase,
  valid sr x -> asked x freq f1 f2 type ->
  exists v l, (forall n, filter_width sr freq f1 f2 (S n) zerophase type = Ok (v n)) /\
    is_lim_seq v (Finite l) /\ Rabs (l - (upper sr x - lower x)) <= sr / 1024.
Proof. exact width_steep. Qed.
Print Assumptions C102_steep.

Example C102_steep_ex : valid 100 (Highpass 2) /\ asked (Highpass 2) (Some 2) None None "highpass".
Proof. split; [cbn; lra|constructor]. Qed.

(** It is positive and not larger than the Nyquist frequency. *)
Theorem C102_bounds : forall sr x freq f1 f2 type corners zerophase,
  valid sr x -> asked x freq f1 f2 type -> (0 < corners)%nat ->
  exists v, filter_width sr freq f1 f2 corners zerophase type = Ok v /\ 0 < v <= sr / 2.
Proof. exact width_bounds. Qed.
Print Assumptions C102_bounds.

Example C102_bounds_ex : valid 100 (Lowpass 2) /\ asked (Lowpass 2) (Some 2) None None "lowpass" /\ (0 < 2)%nat.
Proof. split; [cbn; lra|]. split; [constructor|lia]. Qed.

(** A filter applied twice is not wider. *)
Theorem C102_zerophase : forall sr x freq f1 f2 type corners,
  valid sr x -> asked x freq f1 f2 type -> (0 < corners)%nat ->
  exists v v2, filter_width sr freq f1 f2 corners false type = Ok v /\ filter_width sr freq f1 f2 corners true type = Ok v2 /\ v2 <= v.
Proof. exact width_zerophase. Qed.
Print Assumptions C102_zerophase.

Example C102_zerophase_ex : valid 100 (Bandpass 2 4) /\ asked (Bandpass 2 4) None (Some 2) (Some 4) "bandpass" /\ (0 < 2)%nat.
Proof. split; [cbn; lra|]. split; [constructor|lia]. Qed.

(** Change of the unit of frequencies. *)
Theorem C102_units : forall k sr freq f1 f2 corners zerophase type,
  0 < k -> 0 < sr ->
  filter_width (k * sr) (scaled k freq) (scaled k f1) (scaled k f2) corners zerophase type =
  match filter_width sr freq f1 f2 corners zerophase type with Ok v => Ok (k * v) | Err e => Err e end.
Proof. exact width_scaled. Qed.
Print Assumptions C102_units.

Example C102_units_ex : exists v, filter_width 100 None (Some 2) (Some 4) 2 true "bandpass" = Ok v /\ 0 < v.
Proof.
  destruct (width_bounds 100 (Bandpass 2 4) None (Some 2) (Some 4) "bandpass" 2 true) as (v & E & B); [cbn; lra|constructor|lia|].
  exists v. split; [exact E|lra].
Qed.

(** Corner frequencies that are not below the Nyquist frequency or not in order are
    refused. *)
Theorem C102_refused : forall sr x freq f1 f2 type corners zerophase,
  0 < sr -> asked x freq f1 f2 type -> ~ valid sr x ->
  filter_width sr freq f1 f2 corners zerophase type = Err ValueError.
Proof. exact width_invalid. Qed.
Print Assumptions C102_refused.

Example C102_refused_ex : asked (Bandpass 40 60) None (Some 40) (Some 60) "bandpass" /\ ~ valid 100 (Bandpass 40 60).
Proof. split; [constructor|cbn; lra]. Qed.

(** Missing corner frequencies are TypeErrors. *)
Theorem C102_missing : forall sr freq f1 f2 type corners zerophase,
  (type = "bandpass"%string /\ (f1 = None \/ f2 = None)) \/ (type <> "bandpass"%string /\ freq = None) ->
  filter_width sr freq f1 f2 corners zerophase type = Err TypeError.
Proof. exact width_missing. Qed.
Print Assumptions C102_missing.

Example C102_missing_ex : "bandstop"%string <> "bandpass"%string /\ @None R = None.
Proof. split; [discriminate|reflexivity]. Qed.

(** A filter without corners lets everything pass: the width is the Nyquist frequency. *)
Theorem C102_no_corners : forall sr x freq f1 f2 type zerophase,
  valid sr x -> asked x freq f1 f2 type -> filter_width sr freq f1 f2 0 zerophase type = Ok (sr / 2).
Proof. exact width_flat. Qed.
Print Assumptions C102_no_corners.

Example C102_no_corners_ex : valid 100 (Bandpass 2 4) /\ asked (Bandpass 2 4) None (Some 2) (Some 4) "bandpass".
Proof. split; [cbn; lra|constructor]. Qed.
