(** Property C126: the numbers in the main panel of plot_optimization.  Theorems only. *)
From Coq Require Import String List Bool Arith.
From Verif Require Import Base Pyf LsqfbModel LsqfbEx CurveModel CurveEx StepModel StepSpec StepProof StepEx.
Import ListNotations.
Open Scope list_scope.

(** C126: the steps with panels of their own are numbered from 1 on and the number of a
    step stands at its value of g0 and its misfit, on a black cross or, for an infinite
    misfit, on a red one; only the final value can lack a cross. *)
Theorem C126_labels : forall o st s f p num ym,
  choose o st = Ok (Some (s, f)) -> l_fix o = false -> l_optimize o = true -> l_plot_optimization o = true ->
  plot_misfit (r_g0 s) = Ok p -> (forall t, In t (r_g0 s) -> fst t <> FNInf) -> (3 <= num)%nat ->
  exists ls, main_labels num ym (r_record s) (r_g0 s) = Ok ls /\
    List.length ls = Nat.min (List.length (r_record s)) (num - 1) /\
    forall i r, (i < num - 1)%nat -> nth_error (r_record s) i = Some r ->
      exists y, nth_error ls i = Some (S i, (f_g0 r, y)) /\ (f_err r <> FPInf -> y = f_err r) /\
        (at_cross p ym (f_g0 r) y \/ (r = f /\ ~ In (f_g0 f) (map snd (r_g0 s)))).
Proof. exact labels_crosses. Qed.
Print Assumptions C126_labels.

Example C126_labels_ex : exists s f p, choose (lo_with optim_best) st_c = Ok (Some (s, f)) /\ l_fix (lo_with optim_best) = false /\
  l_optimize (lo_with optim_best) = true /\ l_plot_optimization (lo_with optim_best) = true /\ plot_misfit (r_g0 s) = Ok p /\
  (forall t, In t (r_g0 s) -> fst t <> FNInf) /\ (3 <= 7)%nat /\
  exists r, nth_error (r_record s) 0 = Some r /\ In (f_g0 r) (map snd (r_g0 s)).
Proof. exact step_ex. Qed.
