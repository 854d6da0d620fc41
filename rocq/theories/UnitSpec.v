(** Specification for C134: the inversion with another unit of length. *)
From Coq Require Import String List Bool Reals.
From Verif Require Import Base Pyf PyfOps FbModel LsqfbModel LsqfbSpec.
Import ListNotations.
Open Scope list_scope.
Open Scope R_scope.

(** the same windows, with the distances in a unit that is smaller by the factor k *)
Definition stretched (k : R) (st : wstate) : wstate :=
  {| w_energies := w_energies st; w_distances := map (fun pr => (fst pr, k * snd pr)) (w_distances st);
     w_tcoda := w_tcoda st; w_tbulk := w_tbulk st; w_tbulk_window := w_tbulk_window st;
     w_weights := w_weights st; w_ebulk := w_ebulk st; w_ecoda := w_ecoda st |}.

(** a quantity per length, area or volume, with the factor k of the unit of length, area or volume *)
Definition per_unit (k : R) (x : pyf) : pyf :=
  match x with FNum y => FNum (y / k) | _ => x end.

(** an optimiser that asks for the misfit at the same scattering coefficients in the other unit *)
Fixpoint optim_unit (k : R) (p : optim) : optim :=
  match p with
  | Ask x f => Ask (per_unit k x) (fun err => optim_unit k (f err))
  | Done x => Done (per_unit k x)
  | Fail e => Fail e
  end.

(** the same options, with the bounds or the given value of the scattering coefficient and the
    Green's functions in the other unit *)
Definition in_unit (k : R) (gcoda : R -> list R -> pyf -> res (list pyf)) (gbulk : R -> R * R -> pyf -> res pyf) (o : lopts) : lopts :=
  {| l_coda_norm := l_coda_norm o; l_fix := l_fix o; l_fix_sites := l_fix_sites o;
     l_fix_params := option_map (fun gb => (option_map (per_unit k) (fst gb), snd gb)) (l_fix_params o);
     l_R0 := l_R0 o; l_b_bounds := l_b_bounds o;
     l_g0_bounds := option_map (fun b => (fst b / k, snd b / k)) (l_g0_bounds o);
     l_bulk := l_bulk o; l_optimize := l_optimize o; l_plot_optimization := l_plot_optimization o; l_num := l_num o;
     l_gcoda := gcoda; l_gbulk := gbulk; l_wls := l_wls o; l_optim := optim_unit k (l_optim o) |}.

(** two results, the second one in the other unit, d the number of dimensions *)
Definition unit_result (st : wstate) (k : R) (d : nat) (r r' : fbresult) : Prop :=
  fb_g0 r' = option_map (per_unit k) (fb_g0 r) /\ fb_b r' = fb_b r /\ fb_error r' = fb_error r /\
  fb_nstations r' = fb_nstations r /\ fb_v0 r' = k * fb_v0 r /\
  exists source site W W' Rs Rs',
    positive_on (map fst (pairs st)) source /\ positive_on (map snd (pairs st)) site /\
    fb_W r = Some W /\ table (map fst (pairs st)) source W /\
    fb_W r' = Some W' /\ table (map fst (pairs st)) (fun e => source e * k ^ d) W' /\
    fb_R r = Some Rs /\ table (map snd (pairs st)) site Rs /\
    fb_R r' = Some Rs' /\ table (map snd (pairs st)) site Rs'.

(** the same with given site responses *)
Definition unit_sources (st : wstate) (k : R) (d : nat) (r r' : fbresult) : Prop :=
  fb_error r' = fb_error r /\ fb_nstations r' = fb_nstations r /\ fb_v0 r' = k * fb_v0 r /\
  fb_R r = None /\ fb_R r' = None /\
  exists source W W',
    positive_on (map fst (pairs st)) source /\
    fb_W r = Some W /\ table (map fst (pairs st)) source W /\
    fb_W r' = Some W' /\ table (map fst (pairs st)) (fun e => source e * k ^ d) W'.
