(** Model of the numbers written beside the crosses in the main panel of
    plot_optimization, /repo/qopen/imaging.py:233-261, on top of the arrangement of the
    panels (GridModel.v) and the crosses (CurveModel.v). *)
From Coq Require Import String List Bool Arith.
From Verif Require Import Base Pyf LsqfbModel GridModel CurveModel.
Import ListNotations.
Open Scope list_scope.

(** imaging.py:231-236: the misfit of a record used for its label; [ym] is
    [np.mean(ax.get_ylim())], the height of the red crosses *)
Definition shown_err (ym : pyf) (record_g0 : list (pyf * pyf)) (r : fit) : pyf :=
  if existsb (fun x => is_inf (fst x)) record_g0
  then if is_inf (f_err r) then ym else f_err r
  else f_err r.

(** imaging.py:237-261: the numbers and their places (g0, misfit); the panel of the
    best record has no number *)
Definition main_labels (num : nat) (ym : pyf) (record : list fit) (record_g0 : list (pyf * pyf)) :
    res (list (nat * (pyf * pyf))) :=
  do lay <- plot_optimization num (List.length record);
  Ok (flat_map (fun x => match snd (fst x) with
                         | Some k => [(k, (f_g0 (snd x), shown_err ym record_g0 (snd x)))]
                         | None => []
                         end) (combine (snd lay) record)).
