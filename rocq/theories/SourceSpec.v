(** Specification vocabulary for source spectra; from the model only the
    records of options and results are used. *)
From Coq Require Import String List Bool Reals.
From Coquelicot Require Import Coquelicot.
From Verif Require Import Base SourceModel.
Import ListNotations.
Open Scope string_scope.
Open Scope list_scope.
Open Scope R_scope.

(** Source displacement spectrum of Abercrombie (1995): the gamma-th root of
    1 + (f/fc)^(gamma n) divides M0. *)
Definition abercrombie (M0 fc n gamma f : R) : R :=
  M0 / Rpower (1 + Rpower (f / fc) (gamma * n)) (1 / gamma).

(** The curve fitted internally: M0 (1 + (f/fc)^a)^(-b). *)
Definition curve_ab (M0 fc a b f : R) : R := M0 / Rpower (1 + Rpower (f / fc) a) b.

(** mean squared difference of logarithms between data (f, value) and a curve *)
Definition log_misfit (data : list (R * R)) (curve : R -> R) : R :=
  fold_right Rplus 0 (map (fun p => (ln (snd p) - ln (curve (fst p))) ^ 2) data)
  / INR (length data).

(** values of a spectrum that are present and belong to frequencies below fc *)
Fixpoint values_below (fc : R) (freq : list R) (spec : list (option R)) : list R :=
  match freq, spec with
  | f :: fs, x :: xs =>
      match x with
      | Some o => if Rlt_dec f fc then o :: values_below fc fs xs else values_below fc fs xs
      | None => values_below fc fs xs
      end
  | _, _ => []
  end.

(** number of values present *)
Fixpoint count_present (spec : list (option R)) : nat :=
  match spec with
  | [] => O
  | Some _ :: l => S (count_present l)
  | None :: l => count_present l
  end.

(** two dictionaries have the same keys *)
Definition same_keys {V} (d : list (string * V)) (ks : list string) : Prop :=
  forall k, In k (map fst d) <-> In k ks.

(** the values of a spectrum that are present, with their frequency *)
Definition points (freq : list R) (spec : list (option R)) : list (R * R) :=
  flat_map (fun p => match snd p with Some o => [(fst p, o)] | None => [] end) (combine freq spec).

(** [x] is the value of parameter [k] belonging to a fit result: the given one
    or else the one reported *)
Definition reported (o : option R) (d : fitdict) (k : string) (x : R) : Prop :=
  match o with Some v => x = v | None => dget String.eqb d k = Some (Some x) end.

(** number of parameters that have to be searched: fc, and n and/or gamma
    (n * gamma if both are unknown) *)
Definition nsearch (o : fopts) : nat :=
  ((if isNone (o_fc o) then 1 else 0) +
   (if isNone (o_n o) || isNone (o_gamma o) then 1 else 0))%nat.

(** the robust estimator is used from fall_back data points on *)
Definition robust_used (robust_fit : bool) (data : list (R * R)) (o : fopts) : bool :=
  (robust_fit && (o_fall_back o <=? length data)%nat)%bool.

(** what a fit reports: the moment, the error and the parameters not given *)
Definition determined (o : fopts) : list string :=
  ["M0"; "fit_error"] ++ (if isNone (o_fc o) then ["fc"] else [])
    ++ (if isNone (o_n o) then ["n"] else []) ++ (if isNone (o_gamma o) then ["gamma"] else []).

(** a spectrum multiplied by k *)
Definition scale_data (k : R) (data : list (R * R)) := map (fun p => (fst p, k * snd p)) data.
Definition scale_spec (k : R) (omM : list (option R)) := map (option_map (Rmult k)) omM.

(** a result with the moment multiplied by k *)
Definition scale_M0 (k : R) (d : fitdict) : fitdict :=
  map (fun kv => if String.eqb (fst kv) "M0" then (fst kv, option_map (Rmult k) (snd kv)) else kv) d.

(** a location estimator follows a shift of the data *)
Definition translation_equivariant (rlm1 : list R -> R) : Prop :=
  forall y c, y <> [] -> rlm1 (map (fun v => v + c) y) = rlm1 y + c.

(** the intercept of a straight line fit follows a shift of the data *)
Definition line_equivariant (lin2 : bool -> list R -> list R -> R * R) : Prop :=
  forall rb y x c, y <> [] -> length y = length x ->
  lin2 rb (map (fun v => v + c) y) x = (fst (lin2 rb y x) + c, snd (lin2 rb y x)).

(** sum of squared residuals of the straight line p *)
Definition sse2 (y x : list R) (p : R * R) : R :=
  fold_right Rplus 0 (map (fun q => (fst q - (fst p + snd p * snd q)) ^ 2) (combine y x)).

(** the non-robust straight line fit is a least squares fit *)
Definition least_squares2 (lin2 : bool -> list R -> list R -> R * R) : Prop :=
  forall y x p, sse2 y x (lin2 false y x) <= sse2 y x p.

Definition within1 (b : option (R * R)) (x : R) : Prop :=
  match b with Some (lo, hi) => lo <= x <= hi | None => True end.

(** the optimisers return a minimum over the search range *)
Definition exact1 (min1 : (R -> R) -> option (R * R) -> res R) : Prop :=
  forall f b x, min1 f b = Ok x -> forall y, within1 b y -> f x <= f y.
Definition exactN (minN : (list R -> R) -> list R -> list (option (R * R)) -> res (list R)) : Prop :=
  forall f x0 bs x, minN f x0 bs = Ok x -> forall y, Forall2 within1 bs y -> f x <= f y.

(** the true value is the given one or inside the search range *)
Definition allowed (o : option R) (lim : option (R * R)) (x : R) : Prop :=
  match o with Some v => x = v | None => within1 lim x end.

(** limits of n * gamma used when both are searched *)
Definition ab_limits (o : fopts) (n g : R) : Prop :=
  o_n o = None -> o_gamma o = None ->
  match o_n_lim o, o_gamma_lim o with
  | Some l, Some l' => fst l * fst l' <= n * g <= snd l * snd l'
  | _, _ => True
  end.

(** a density other than 0 is given or configured *)
Definition has_density (rh0 : option R) (conf : srcconf) : Prop :=
  exists x, x <> 0 /\ (rh0 = Some x \/ c_rho0 conf = Some x).
