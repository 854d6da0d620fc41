(** Specification of the curves drawn by the plots of a frequency band. *)
From Coq Require Import String List Bool Reals Lra ZArith Arith.
From Verif Require Import Base Pyf PyfOps FbModel LsqfbModel CurveModel.
Import ListNotations.
Open Scope string_scope.
Open Scope list_scope.
Open Scope R_scope.

(** a number; a positive number *)
Definition finite (x : pyf) : Prop := exists r, x = FNum r.
Definition positive (x : pyf) : Prop := exists r, x = FNum r /\ 0 < r.

(** keys are the elements of the list in the order of their first appearance *)
Inductive in_order : list string -> list string -> Prop :=
| io_nil : in_order [] []
| io_old : forall l keys x, in_order l keys -> In x keys -> in_order (l ++ [x]) keys
| io_new : forall l keys x, in_order l keys -> ~ In x keys -> in_order (l ++ [x]) (keys ++ [x]).

(** the number that belongs to key k *)
Definition number (keys : list string) (vals : list pyf) (k : string) (x : R) : Prop :=
  exists i, nth_error keys i = Some k /\ nth_error vals i = Some (FNum x).

(** weighted sum of squares *)
Fixpoint wss (ws ds : list R) : R :=
  match ws, ds with
  | w :: ws, d :: ds => w * (d * d) + wss ws ds
  | _, _ => 0
  end.

(** the weights of the observations: 1 for each sample of the coda windows *)
Definition sample_weights (bulk : bool) (st : wstate) : list R :=
  map (fun _ => 1) (concat (w_ecoda st)) ++ (if bulk then w_weights st else []).

(** [err] is the weighted root mean square of the numbers, for some number of degrees of
    freedom *)
Definition rms (ws ds : list R) (err : R) : Prop :=
  0 <= err /\ exists dof, 0 < dof /\ err * err = wss ws ds / dof.

(** the observations of the band and the Green's functions *)
Definition band_info (st : wstate) (gcoda : list (list pyf)) (gbulk : list pyf) : info :=
  {| i_tcoda := w_tcoda st; i_tbulk := w_tbulk st; i_ecoda := w_ecoda st; i_ebulk := w_ebulk st;
     i_gcoda := gcoda; i_gbulk := gbulk |}.

(** the energies of the band and the Green's functions are positive, the times are numbers;
    there is a value of the Green's functions for every sample *)
Definition good_band (st : wstate) (gcoda : list (list pyf)) (gbulk : list pyf) : Prop :=
  Forall (Forall positive) (w_ecoda st) /\ Forall positive (w_ebulk st) /\ Forall finite (w_tbulk st) /\
  Forall (Forall positive) gcoda /\ Forall positive gbulk /\
  Forall2 (fun e g => List.length e = List.length g) (w_ecoda st) gcoda.

(** the line with slope -b and logarithms to the base *)
Definition on_line (l0 b base t y : R) : Prop := y * ln base = l0 - b * t.

(** ** plot_fits *)

(** observed and modelled values drawn in the panels: those of the coda windows, then
    those of the bulk windows *)
Definition drawn (qs : list panel) : list ((pyf * pyf) * (pyf * pyf)) :=
  flat_map (fun q => combine (n_coda q) (n_coda_model q)) qs ++
  flat_map (fun q => match n_bulk q with Some b => [b] | None => [] end) qs.

(** seconds from one time to another *)
Definition seconds (t2 t1 : Z) : R := IZR (t2 - t1) / 10 ^ 9.

(** the values of a curve are numbers *)
Definition finite_curve (l : list (pyf * pyf)) : Prop := Forall (fun p => finite (snd p)) l.

(** y is one of the values of the curves *)
Definition on_curves (l : list (pyf * pyf)) (y : R) : Prop := exists t, In (t, FNum y) l.
