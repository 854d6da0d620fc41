(** Specification for C135: the inversion with another unit of time. *)
From Coq Require Import String List Bool Reals.
From Verif Require Import Base Pyf PyfOps SmoothSpec FbModel LsqfbModel LsqfbSpec UnitSpec.
Import ListNotations.
Open Scope list_scope.
Open Scope R_scope.

(** the same windows, with the times in a unit that is smaller by the factor k *)
Definition retimed (k : R) (st : wstate) : wstate :=
  {| w_energies := w_energies st; w_distances := w_distances st;
     w_tcoda := map (map (Rmult k)) (w_tcoda st); w_tbulk := map (fmul (FNum k)) (w_tbulk st);
     w_tbulk_window := map (fun pw => (fst pw, (k * fst (snd pw), k * snd (snd pw)))) (w_tbulk_window st);
     w_weights := w_weights st; w_ebulk := w_ebulk st; w_ecoda := w_ecoda st |}.

(** the same options, with the bounds or the given value of the absorption and the Green's
    functions in the other unit *)
Definition in_time (k : R) (gcoda : R -> list R -> pyf -> res (list pyf)) (gbulk : R -> R * R -> pyf -> res pyf) (o : lopts) : lopts :=
  {| l_coda_norm := l_coda_norm o; l_fix := l_fix o; l_fix_sites := l_fix_sites o;
     l_fix_params := option_map (fun gb => (fst gb, option_map (per_unit k) (snd gb))) (l_fix_params o);
     l_R0 := l_R0 o; l_b_bounds := option_map (fun b => (fst b / k, snd b / k)) (l_b_bounds o);
     l_g0_bounds := l_g0_bounds o;
     l_bulk := l_bulk o; l_optimize := l_optimize o; l_plot_optimization := l_plot_optimization o; l_num := l_num o;
     l_gcoda := gcoda; l_gbulk := gbulk; l_wls := l_wls o; l_optim := l_optim o |}.

(** if they are smoothed, the coda windows are evenly sampled *)
Definition evenly_sampled (sm : option R) (st : wstate) : Prop :=
  sm = None \/ Forall (fun t => exists t0 dt, evenly_spaced t t0 dt) (w_tcoda st).

(** the results in the two units *)
Definition timed_result (k : R) (r r' : fbresult) : Prop :=
  fb_g0 r' = fb_g0 r /\ fb_b r' = option_map (per_unit k) (fb_b r) /\
  fb_W r' = fb_W r /\ fb_R r' = fb_R r /\ fb_nstations r' = fb_nstations r /\
  fb_error r' = fb_error r /\ fb_v0 r' = fb_v0 r / k.
