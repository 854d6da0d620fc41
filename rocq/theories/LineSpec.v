(** What a straight line fit has to do, independent of the model. *)
From Coq Require Import String List Reals.
From Verif Require Import Base DepModel LineModel.
Import ListNotations.
Open Scope R_scope.

(** A data point: value, place, weight *)
Definition datum := (R * R * R)%type.

(** Weighted squared distance of the data from the line with slope a and intercept b *)
Fixpoint misfit (d : list datum) (a b : R) : R :=
  match d with
  | [] => 0
  | (y, x, w) :: d' => w * (y - (a * x + b)) ^ 2 + misfit d' a b
  end.

(** The data given to the fit: equal weights unless they are given *)
Inductive data_of : list R -> list R -> option (list R) -> list datum -> Prop :=
  | d_nil : data_of [] [] None []
  | d_nil_w : data_of [] [] (Some []) []
  | d_cons y x v u d : data_of y x None d -> data_of (v :: y) (u :: x) None ((v, u, 1) :: d)
  | d_cons_w y x w v u s d : data_of y x (Some w) d ->
      data_of (v :: y) (u :: x) (Some (s :: w)) ((v, u, s) :: d).

(** Weighted sums *)
Fixpoint wsum (f : R -> R -> R) (d : list datum) : R :=
  match d with [] => 0 | (y, x, w) :: d' => w * f y x + wsum f d' end.

Definition positive_weights (d : list datum) : Prop := forall y x w, In (y, x, w) d -> 0 < w.

(** Not all data are at the same place *)
Definition two_places (d : list datum) : Prop :=
  exists y1 x1 w1 y2 x2 w2, In (y1, x1, w1) d /\ In (y2, x2, w2) d /\ x1 <> x2.

(** All data are on a line *)
Definition on_line (d : list datum) (a b : R) : Prop := forall y x w, In (y, x, w) d -> y = a * x + b.

(** Prediction of parameters for a row of the matrix *)
Fixpoint dot (row p : list R) : R :=
  match row, p with r :: row', q :: p' => r * q + dot row' p' | _, _ => 0 end.

(** Weighted squared distance of parameters *)
Fixpoint distance (y : list R) (X : list (list R)) (w : option (list R)) (p : list R) : R :=
  match y, X, w with
  | v :: y', row :: X', None => (v - dot row p) ^ 2 + distance y' X' None p
  | v :: y', row :: X', Some (s :: w') => s * (v - dot row p) ^ 2 + distance y' X' (Some w') p
  | _, _, _ => 0
  end.

(** The matrices of a line and of a constant: c columns, n rows *)
Inductive matrix : nat -> nat -> list (list R) -> Prop :=
  | m_line x : matrix 2 (length x) (map (fun v => [v; 1]) x)
  | m_level n : matrix 1 n (repeat [1] n).

(** Data and matrix belong together, there are data, as many weights, and these are positive *)
Definition regular (c : nat) (y : list R) (X : list (list R)) (w : option (list R)) : Prop :=
  y <> [] /\ matrix c (length y) X /\
  (forall l, w = Some l -> length l = length y /\ forall s, In s l -> 0 < s).

(** What is assumed about statsmodels.  Least squares: no other parameters are closer; the weights
    are only used by the weighted fit. *)
Definition fits_least_squares (fit : fitter) : Prop :=
  forall c y X w k, regular c y X w -> (k = OLS /\ w = None \/ k = WLS) ->
  exists p, fit k y X w = Ok p /\ length p = c /\
    forall q, length q = c -> distance y X w p <= distance y X w q.

(** Robust: data without error are reproduced *)
Definition fits_exact_data (fit : fitter) : Prop :=
  forall c y X, regular c y X None -> (exists q, length q = c /\ distance y X None q = 0) ->
  exists p, fit RLM y X None = Ok p /\ length p = c /\ distance y X None p = 0.

(** The event e is a point of the plot of magnitudes *)
Definition plotted (events : list mag) (only : option (list string)) (c w : R) : Prop :=
  exists e, In e events /\ m_cat e = Some c /\ m_w e = Some w /\
    (forall l, only = Some l -> In (m_id e) l).

(** First and last magnitude of the line: the given limits or the smallest and largest catalogue
    magnitude of the points *)
Definition ends_of (events : list mag) (only : option (list string)) (xlim : option (R * R)) (lo hi : R) : Prop :=
  match xlim with
  | Some l => l = (lo, hi)
  | None => (exists w, plotted events only lo w) /\ (exists w, plotted events only hi w) /\
            forall c w, plotted events only c w -> lo <= c <= hi
  end.

(** A line drawn with n + 1 equally spaced points *)
Definition drawn (n : nat) (l : list (R * R)) (lo hi a b : R) : Prop :=
  length l = S n /\
  (exists y, nth_error l 0 = Some (lo, y)) /\ (exists y, nth_error l n = Some (hi, y)) /\
  (forall k m y m' y', nth_error l k = Some (m, y) -> nth_error l (S k) = Some (m', y') -> m' - m = (hi - lo) / INR n) /\
  (forall m y, In (m, y) l -> y = a * m + b).
