(** Property C148: superposition, order and errors of smoothed signals.  Theorems only. *)
From Coq Require Import String List Bool Reals ZArith Arith Lra Lia.
From Verif Require Import Base SmoothModel SmoothSpec SmoothEx MixSpec MixProof MixEx.
Import ListNotations.
Open Scope string_scope.
Open Scope list_scope.
Open Scope R_scope.

(** C148: smoothing a superposition of two signals gives the superposition of the smoothed signals, for
    every window and handling of the borders, or all three fail with the same error. *)
Theorem C148_linear : forall a b x y n window method, length x = length y ->
  (exists e, smooth x n window method = Err e /\ smooth y n window method = Err e /\
     smooth (mix a b x y) n window method = Err e) \/
  (exists x' y', length x' = length y' /\ smooth x n window method = Ok x' /\ smooth y n window method = Ok y' /\
     smooth (mix a b x y) n window method = Ok (mix a b x' y')).
Proof. exact smooth_mix. Qed.
Print Assumptions C148_linear.

Example C148_linear_ex : length [1; 2; 6; 4] = length [5; 5; 5; 5] /\
  smooth [1; 2; 6; 4] (Some 3%Z) "flat" (Some "reflect") = Ok [5 / 3; 3; 4; 14 / 3] /\
  smooth [5; 5; 5; 5] (Some 3%Z) "flat" (Some "reflect") = Ok [5; 5; 5; 5].
Proof. exact mix_ex. Qed.

(** C148: a signal which is nowhere smaller is nowhere smaller after smoothing. *)
Theorem C148_order : forall x y n window method x', Forall2 Rle x y -> smooth x n window method = Ok x' ->
  exists y', smooth y n window method = Ok y' /\ Forall2 Rle x' y'.
Proof. exact smooth_order. Qed.
Print Assumptions C148_order.

Example C148_order_ex : Forall2 Rle [1; 2; 6; 4] [1; 3; 7; 4] /\
  smooth [1; 2; 6; 4] (Some 3%Z) "flat" (Some "zeros") = Ok [1; 3; 4; 10 / 3].
Proof. split; [exact order_ex|exact ex_zeros]. Qed.

(** C148: smoothing does not enlarge the largest difference of two signals. *)
Theorem C148_errors : forall e x y n window method x', within e x y -> smooth x n window method = Ok x' ->
  exists y', smooth y n window method = Ok y' /\ within e x' y'.
Proof. exact smooth_within. Qed.
Print Assumptions C148_errors.

Example C148_errors_ex : within 1 [1; 2; 6; 4] [2; 2; 5; 4] /\
  smooth [1; 2; 6; 4] (Some 3%Z) "flat" (Some "clip") = Ok [4 / 3; 3; 4; 14 / 3].
Proof. split; [exact within_ex|exact ex_clip]. Qed.

(** C148: the same for the smoothing of functions, as of the Green's functions. *)
Theorem C148_function : forall a b f g t wl window,
  (exists e, smooth_func f t wl window = Err e /\ smooth_func g t wl window = Err e /\
     smooth_func (fun s => a * f s + b * g s) t wl window = Err e) \/
  (exists x y, length x = length y /\ smooth_func f t wl window = Ok x /\ smooth_func g t wl window = Ok y /\
     smooth_func (fun s => a * f s + b * g s) t wl window = Ok (mix a b x y)).
Proof. exact func_mix. Qed.
Print Assumptions C148_function.

Example C148_function_ex : exists out, smooth_func (fun s => 4 * s + 1) [1; 3; 5] (Some 6) "flat" = Ok out /\ out <> [].
Proof. exact ex_func. Qed.

(** C148: see above. *)
Theorem C148_function_order : forall f g t wl window x, (forall s, f s <= g s) -> smooth_func f t wl window = Ok x ->
  exists y, smooth_func g t wl window = Ok y /\ Forall2 Rle x y.
Proof. exact func_order. Qed.
Print Assumptions C148_function_order.

Example C148_function_order_ex : (forall s, 4 * s + 1 <= 4 * s + 2) /\
  exists out, smooth_func (fun s => 4 * s + 1) [1; 3; 5] (Some 6) "flat" = Ok out /\ out <> [].
Proof. split; [intros; lra|exact ex_func]. Qed.

(** C148: see above. *)
Theorem C148_function_errors : forall e f g t wl window x, (forall s, Rabs (f s - g s) <= e) -> smooth_func f t wl window = Ok x ->
  exists y, smooth_func g t wl window = Ok y /\ within e x y.
Proof. exact func_within. Qed.
Print Assumptions C148_function_errors.

Example C148_function_errors_ex : (forall s, Rabs (4 * s + 1 - (4 * s + 1 + sin s)) <= 1) /\
  exists out, smooth_func (fun s => 4 * s + 1) [1; 3; 5] (Some 6) "flat" = Ok out /\ out <> [].
Proof. split; [exact sin_ex|exact ex_func]. Qed.
