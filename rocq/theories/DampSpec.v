(** Specification for C133: energies which decay faster. *)
From Coq Require Import String List Bool Reals.
From Verif Require Import Base Pyf PyfOps FbModel LsqfbModel LsqfbSpec.
Import ListNotations.
Open Scope list_scope.
Open Scope R_scope.

(** the energy at time t multiplied by exp (- d t) *)
Definition decay (d : R) (t e : pyf) : pyf :=
  match t with FNum u => fmul (FNum (exp (- (d * u)))) e | _ => FNan end.

(** the same windows, with the energies multiplied by exp (- d t), t their times *)
Definition damped (d : R) (st : wstate) : wstate :=
  {| w_energies := w_energies st; w_distances := w_distances st;
     w_tcoda := w_tcoda st; w_tbulk := w_tbulk st; w_tbulk_window := w_tbulk_window st;
     w_weights := w_weights st;
     w_ebulk := map (fun te => decay d (fst te) (snd te)) (combine (w_tbulk st) (w_ebulk st));
     w_ecoda := map (fun te => map (fun ue => decay d (FNum (fst ue)) (snd ue)) (combine (fst te) (snd te)))
                    (combine (w_tcoda st) (w_ecoda st)) |}.

(** Two results: the attenuation of the second is larger by d, all other entries are the same. *)
Definition more_damped (d : R) (r r' : fbresult) : Prop :=
  (exists b, fb_b r = Some (FNum b) /\ fb_b r' = Some (FNum (b + d))) /\
  fb_g0 r' = fb_g0 r /\ fb_error r' = fb_error r /\ fb_W r' = fb_W r /\ fb_R r' = fb_R r /\
  fb_nstations r' = fb_nstations r /\ fb_v0 r' = fb_v0 r.

(** the options with given transport parameters *)
Definition refixed (o : lopts) (g b : R) : lopts :=
  {| l_coda_norm := l_coda_norm o; l_fix := true; l_fix_sites := l_fix_sites o;
     l_fix_params := Some (Some (FNum g), Some (FNum b)); l_R0 := l_R0 o;
     l_b_bounds := l_b_bounds o; l_g0_bounds := l_g0_bounds o; l_bulk := l_bulk o;
     l_optimize := l_optimize o; l_plot_optimization := l_plot_optimization o; l_num := l_num o;
     l_gcoda := l_gcoda o; l_gbulk := l_gbulk o; l_wls := l_wls o; l_optim := l_optim o |}.
