(** Concrete case for the theorem about the numbers in plot_optimization. *)
From Coq Require Import String List Bool Reals Lra Lia Arith.
From Verif Require Import Base Pyf LsqfbModel LsqfbEx GridModel CurveModel CurveEx StepModel StepSpec StepProof.
Import ListNotations.
Open Scope list_scope.
Open Scope R_scope.

Lemma step_ex : exists s f p, choose (lo_with optim_best) st_c = Ok (Some (s, f)) /\ l_fix (lo_with optim_best) = false /\
  l_optimize (lo_with optim_best) = true /\ l_plot_optimization (lo_with optim_best) = true /\ plot_misfit (r_g0 s) = Ok p /\
  (forall t, In t (r_g0 s) -> fst t <> FNInf) /\ (3 <= 7)%nat /\
  exists r, nth_error (r_record s) 0 = Some r /\ In (f_g0 r) (map snd (r_g0 s)).
Proof.
  destruct best_run as (s & f & CH & G & R).
  assert (P : exists p, plot_misfit (r_g0 s) = Ok p) by (rewrite R; eexists; reflexivity). destruct P as [p P].
  exists s, f, p. split; [exact CH|]. repeat (split; [reflexivity|]). split; [exact P|].
  split; [rewrite R; intros t [<-|[<-|[]]]; discriminate|]. split; [lia|].
  assert (N := final_nonempty _ _ _ _ CH eq_refl). destruct (r_record s) as [|r rs] eqn:E; [contradiction|].
  exists r. split; [reflexivity|]. assert (In r (r_record s)) as I by (rewrite E; now left).
  destruct (final_records _ _ _ _ CH eq_refl eq_refl eq_refl r I) as [J|[-> _]].
  - apply in_map_iff. exists (f_err r, f_g0 r). now split.
  - rewrite G, R. now left.
Qed.
