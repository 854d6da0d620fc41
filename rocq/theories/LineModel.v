(** Model of linear_fit, /repo/qopen/util.py:219-237, and of the line and the second axis of
    plot_mags, /repo/qopen/imaging.py:761-805. *)
From Coq Require Import String List Reals.
From Verif Require Import Base DepModel SourceModel.
Import ListNotations.
Open Scope string_scope.
Open Scope list_scope.
Open Scope R_scope.

(** The models of statsmodels, util.py:227 *)
Inductive regression := RLM | WLS | OLS.

(** [Model(y, X, **kw).fit().params]: data, rows of the matrix, weights (the only keyword
    modelled); one parameter for each column *)
Definition fitter := regression -> list R -> list (list R) -> option (list R) -> res (list R).

(** util.py:227 *)
Definition regression_of (method : string) : regression :=
  if String.eqb method "robust" then RLM else if String.eqb method "weighted" then WLS else OLS.

(** [X[:, 0] = x] for n rows, util.py:230: a single value is repeated *)
Definition column (n : nat) (x : list R) : res (list R) :=
  if Nat.eqb (List.length x) n then Ok x
  else match x with
       | [v] => Ok (repeat v n)
       | _ => Err ValueError
       end.

(** [np.array(y) - m * np.array(x)], util.py:236, with the rules of broadcasting *)
Definition minus_line (y x : list R) (m : R) : res (list R) :=
  if Nat.eqb (List.length x) (List.length y) then Ok (map (fun q => fst q - m * snd q) (combine y x))
  else match x, y with
       | [v], _ => Ok (map (fun u => u - m * v) y)
       | _, [u] => Ok (map (fun v => u - m * v) x)
       | _, _ => Err ValueError
       end.

(** linear_fit, util.py:219-237 (slope, intercept).  Data and matrix of different length are
    refused by the model with a ValueError. *)
Definition linear_fit (fit : fitter) (y x : list R) (m : option R) (method : string) (w : option (list R))
    : res (R * R) :=
  let model := regression_of method in
  match m with
  | None =>
      match column (List.length y) x with
      | Err e => Err e
      | Ok c =>
          match fit model y (map (fun v => [v; 1]) c) w with
          | Err e => Err e
          | Ok [a; b] => Ok (a, b)
          | Ok _ => Err ValueError
          end
      end
  | Some s =>
      match minus_line y x s with
      | Err e => Err e
      | Ok d =>
          if Nat.eqb (List.length d) (List.length y) then
            match fit model d (repeat [1] (List.length y)) w with
            | Err e => Err e
            | Ok (b :: _) => Ok (s, b)
            | Ok [] => Err IndexError
            end
          else Err ValueError
      end
  end.

(** np.linspace(lo, hi, n) for n > 1 *)
Definition linspace (lo hi : R) (n : nat) : list R :=
  map (fun k => lo + INR k * ((hi - lo) / INR (n - 1))) (seq 0 n).

(** The figure of plot_mags: points, line (if any) and limits of the first axis (if given) *)
Record mfigure := { mf_points : list (R * R); mf_line : option (list (R * R)); mf_xlim : option (R * R) }.

(** Smallest and largest number of a list, numpy.min and numpy.max of a list with a first element *)
Definition least (v : R) (l : list R) : R := fold_left Rmin l v.
Definition largest (v : R) (l : list R) : R := fold_left Rmax l v.

(** plot_mags, imaging.py:771-805 (labels, legend and ylim omitted); None: no plot.  The points
    are those of DepModel.plot_mags. *)
Definition plot_line (fit : fitter) (events : list mag) (only : option (list string)) (xlim : option (R * R))
    : res (option mfigure) :=
  match plot_mags (fun _ _ => (0, 0)) events only with
  | None => Ok None
  | Some (pts, _) =>
      let Mcat := map fst pts in
      let Mw := map snd pts in
      let ends := match xlim with
                  | Some l => Ok l
                  | None => match Mcat with [] => Err ValueError | v :: l => Ok (least v l, largest v l) end
                  end in
      match ends with
      | Err e => Err e
      | Ok (mmin, mmax) =>
          let m := linspace mmin mmax 100 in
          if Nat.ltb 3 (List.length Mw) then
            match linear_fit fit Mw Mcat None "robust" None with
            | Err e => Err e
            | Ok (a, b) =>
                Ok (Some {| mf_points := pts; mf_line := Some (map (fun v => (v, a * v + b)) m); mf_xlim := xlim |})
            end
          else Ok (Some {| mf_points := pts; mf_line := None; mf_xlim := xlim |})
      end
  end.

(** _secondary_yaxis_seismic_moment, imaging.py:761-768: the functions from the first to the
    second axis and back *)
Definition secondary_axis (inverse : bool) : (R -> R) * (R -> R) :=
  let Mw2M0 := moment_magnitude_inverse in
  if inverse then (moment_magnitude, Mw2M0) else (Mw2M0, moment_magnitude).
