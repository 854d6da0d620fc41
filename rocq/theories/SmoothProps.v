(** Properties C03 - C05, C76: smoothing (/repo/qopen/util.py:150-216). *)
From Coq Require Import String List Bool Reals ZArith Arith Lra Lia.
From Verif Require Import Base SmoothModel SmoothSpec SmoothProof SmoothEx.
Import ListNotations.
Open Scope string_scope.
Open Scope list_scope.
Open Scope R_scope.

(** C03: the only exception is ValueError, raised exactly if the window is
    longer than the signal or (for at least 3 samples) its name is unknown. *)
Theorem C03_errors : forall x n window method,
  (smooth x (Some n) window method = Err ValueError <->
   (Z.of_nat (length x) < n)%Z \/
   ((3 <= n)%Z /\ ~ In window ["flat"; "hanning"; "hamming"; "bartlett"; "blackman"])) /\
  (forall e, smooth x (Some n) window method = Err e -> e = ValueError).
Proof. exact smooth_error. Qed.
Print Assumptions C03_errors.

Example C03_errors_ex : smooth [1; 2] (Some 3%Z) "flat" None = Err ValueError /\
  smooth [1; 2; 3] (Some 3%Z) "round" None = Err ValueError /\
  smooth [1; 2; 6; 4] (Some 3%Z) "flat" None = Ok [3; 4].
Proof. split; [reflexivity|]. split; [reflexivity|]. exact ex_none. Qed.

(** C03: windows shorter than 3 samples change nothing. *)
Theorem C03_short_window : forall x n window method,
  (n < 3)%Z -> (n <= Z.of_nat (length x))%Z -> smooth x (Some n) window method = Ok x.
Proof. exact smooth_small. Qed.
Print Assumptions C03_short_window.

Example C03_short_window_ex : (2 < 3)%Z /\ (2 <= Z.of_nat (length [1; 2; 3]))%Z.
Proof. cbn. lia. Qed.

(** C03: the three border methods keep the length. *)
Theorem C03_length_border : forall x n window m out,
  m = "zeros" \/ m = "reflect" \/ m = "clip" ->
  smooth x (Some n) window (Some m) = Ok out -> length out = length x.
Proof. exact smooth_length_border. Qed.
Print Assumptions C03_length_border.

Example C03_length_border_ex :
  smooth [1; 2; 6; 4] (Some 3%Z) "flat" (Some "reflect") = Ok [5 / 3; 3; 4; 14 / 3].
Proof. exact ex_reflect. Qed.

(** C03: without border handling n - 1 samples are lost. *)
Theorem C03_length_none : forall x n window out, (3 <= n)%Z ->
  smooth x (Some n) window None = Ok out -> length out = (length x - Z.to_nat n + 1)%nat.
Proof. exact smooth_length_none. Qed.
Print Assumptions C03_length_none.

Example C03_length_none_ex : (3 <= 3)%Z /\ smooth [1; 2; 6; 4] (Some 3%Z) "flat" None = Ok [3; 4].
Proof. split; [lia|exact ex_none]. Qed.

(** C04: no smoothed value leaves the range of the signal (including 0 if it is
    padded with zeros). *)
Theorem C04_bounds : forall x n window method out lo hi v,
  (method = Some "zeros" -> lo <= 0 <= hi) ->
  (forall u, In u x -> lo <= u <= hi) ->
  smooth x (Some n) window method = Ok out -> In v out -> lo <= v <= hi.
Proof. exact smooth_bounds. Qed.
Print Assumptions C04_bounds.

Example C04_bounds_ex : (Some "zeros" = Some "zeros" -> 0 <= 0 <= 6) /\
  (forall u, In u [1; 2; 6; 4] -> 0 <= u <= 6) /\
  smooth [1; 2; 6; 4] (Some 3%Z) "flat" (Some "zeros") = Ok [1; 3; 4; 10 / 3] /\ In 4 [1; 3; 4; 10 / 3].
Proof.
  split; [lra|]. split; [|split; [exact ex_zeros|cbn; tauto]].
  cbn. intros u H. decompose [or] H; subst; lra || contradiction.
Qed.

(** C04: a constant signal is not changed (unless it is padded with zeros). *)
Theorem C04_constant : forall x n window method out c,
  method <> Some "zeros" -> (forall u, In u x -> u = c) ->
  smooth x (Some n) window method = Ok out -> forall v, In v out -> v = c.
Proof. exact smooth_constant. Qed.
Print Assumptions C04_constant.

Example C04_constant_ex : (forall u, In u [5; 5; 5; 5] -> u = 5) /\
  smooth [5; 5; 5; 5] (Some 3%Z) "flat" (Some "reflect") = Ok [5; 5; 5; 5].
Proof. split; [|exact ex_const]. cbn. intros u H. decompose [or] H; auto; contradiction. Qed.

(** C04: without border handling value j is a mean of the samples j..j+n-1,
    with symmetric weights that are not negative and sum to 1 and are
    proportional to the named window. *)
Theorem C04_weighted_mean : forall x n window out, (3 <= n)%Z -> smooth x (Some n) window None = Ok out ->
  exists w, is_window (Z.to_nat n) w /\
    (exists c, forall k, (k < Z.to_nat n)%nat -> w k = c * window_shape window (INR k / (IZR n - 1))) /\
    forall j, (j < length out)%nat -> nth j out 0 = window_mean (Z.to_nat n) w x j.
Proof. exact smooth_mean. Qed.
Print Assumptions C04_weighted_mean.

Example C04_weighted_mean_ex : (3 <= 3)%Z /\ smooth [1; 2; 6; 4] (Some 3%Z) "flat" None = Ok [3; 4].
Proof. split; [lia|exact ex_none]. Qed.

(** C04: away from the borders the border methods make no difference. *)
Theorem C04_interior : forall x n window m o1 o2 j,
  m = "zeros" \/ m = "reflect" \/ m = "clip" ->
  smooth x (Some n) window (Some m) = Ok o1 -> smooth x (Some n) window None = Ok o2 ->
  (3 <= n)%Z -> (j < length o2)%nat -> nth (j + Z.to_nat ((n - 1) / 2)) o1 0 = nth j o2 0.
Proof. exact smooth_interior. Qed.
Print Assumptions C04_interior.

Example C04_interior_ex :
  smooth [1; 2; 6; 4] (Some 3%Z) "flat" (Some "clip") = Ok [4 / 3; 3; 4; 14 / 3] /\
  smooth [1; 2; 6; 4] (Some 3%Z) "flat" None = Ok [3; 4].
Proof. split; [exact ex_clip|exact ex_none]. Qed.

(** C05: without window the function is evaluated *)
Theorem C05_no_window : forall f t window, smooth_func f t None window = Ok (map f t).
Proof. exact sf_none. Qed.
Print Assumptions C05_no_window.

(** C05 (full statement: for every window length exactly one value per time
    sample).  False for windows of two samples, see below: then there is one
    value too many.  This gives the number of values in all cases. *)
Theorem C05_length_partial : forall f t t0 dt wl window n,
  evenly_spaced t t0 dt -> (2 <= length t)%nat -> dt <> 0 -> nearest_int (wl / dt) n ->
  In window ["flat"; "hanning"; "hamming"; "bartlett"; "blackman"] ->
  exists out, smooth_func f t (Some wl) window = Ok out /\
    length out = (if Z.eqb n 2 then S (length t) else length t).
Proof. exact sf_length. Qed.
Print Assumptions C05_length_partial.

Example C05_length_partial_ex : evenly_spaced [1; 3; 5] 1 2 /\ nearest_int (6 / 2) 3.
Proof. split; [exact ex_spaced|exact ex_near3]. Qed.

(** C05: with a window of two samples the result has another length *)
Theorem C05_length_refuted : exists f t t0 dt wl out,
  evenly_spaced t t0 dt /\ (2 <= length t)%nat /\ 0 < dt < wl /\
  smooth_func f t (Some wl) "flat" = Ok out /\ length out <> length t.
Proof. exact smooth_func_two. Qed.
Print Assumptions C05_length_refuted.

(** C05: the values are f itself (window of at most one sample) or means of f
    over the n samples around t[j], reaching beyond the ends of t. *)
Theorem C05_values : forall f t t0 dt wl window n out,
  evenly_spaced t t0 dt -> (2 <= length t)%nat -> dt <> 0 -> nearest_int (wl / dt) n ->
  smooth_func f t (Some wl) window = Ok out ->
  ((n <= 1)%Z -> out = map f t) /\
  ((3 <= n)%Z -> length out = length t /\
     exists w, is_window (Z.to_nat n) w /\
       (exists c, forall k, (k < Z.to_nat n)%nat -> w k = c * window_shape window (INR k / (IZR n - 1))) /\
       forall j, (j < length t)%nat ->
         nth j out 0 = total (Z.to_nat n) (fun k => w k * f (nth j t 0 + (INR k - IZR ((n - 1) / 2)) * dt))).
Proof. exact sf_values. Qed.
Print Assumptions C05_values.

Example C05_values_ex : evenly_spaced [1; 3; 5] 1 2 /\ nearest_int (6 / 2) 3 /\
  exists out, smooth_func (fun s => 4 * s + 1) [1; 3; 5] (Some 6) "flat" = Ok out /\ out <> [].
Proof. split; [exact ex_spaced|]. split; [exact ex_near3|exact ex_func]. Qed.

(** C05: for odd windows the mean is centred: straight lines are not changed. *)
Theorem C05_centred : forall a b t t0 dt wl window n out,
  evenly_spaced t t0 dt -> (2 <= length t)%nat -> dt <> 0 -> nearest_int (wl / dt) n ->
  (n mod 2 = 1)%Z ->
  smooth_func (fun s => a * s + b) t (Some wl) window = Ok out ->
  forall j, (j < length t)%nat -> nth j out 0 = a * nth j t 0 + b.
Proof. exact sf_affine. Qed.
Print Assumptions C05_centred.

Example C05_centred_ex : evenly_spaced [1; 3; 5] 1 2 /\ nearest_int (6 / 2) 3 /\ (3 mod 2 = 1)%Z /\
  exists out, smooth_func (fun s => 4 * s + 1) [1; 3; 5] (Some 6) "flat" = Ok out /\ out <> [].
Proof. split; [exact ex_spaced|]. split; [exact ex_near3|]. split; [reflexivity|exact ex_func]. Qed.

(** C76 (full statement: smoothing commutes with time reversal for odd windows
    and every border method).  True for zeros, clip and None; false for reflect,
    whose right border repeats the last sample and whose left border does not
    repeat the first one. *)
Theorem C76_reverse_partial : forall x n window method out,
  method = None \/ ((method = Some "zeros" \/ method = Some "clip") /\ (n mod 2 = 1)%Z) ->
  smooth x (Some n) window method = Ok out -> smooth (rev x) (Some n) window method = Ok (rev out).
Proof. exact smooth_reverse. Qed.
Print Assumptions C76_reverse_partial.

Example C76_reverse_partial_ex : (3 mod 2 = 1)%Z /\
  smooth [1; 2; 6; 4] (Some 3%Z) "flat" (Some "clip") = Ok [4 / 3; 3; 4; 14 / 3].
Proof. split; [reflexivity|exact ex_clip]. Qed.

(** C76: with method reflect the smoothed reverse is not the reverse of the smoothed signal *)
Theorem C76_reverse_refuted : exists x out,
  smooth x (Some 3%Z) "flat" (Some "reflect") = Ok out /\
  smooth (rev x) (Some 3%Z) "flat" (Some "reflect") <> Ok (rev out).
Proof. exact reflect_not_reversible. Qed.
Print Assumptions C76_reverse_refuted.
