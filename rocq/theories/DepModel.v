(** Model of the data drawn by the plots of /repo/qopen/imaging.py: derived
    quantities, limits of the frequency axis, spectra and magnitudes. *)
From Coq Require Import String List Bool Reals ZArith.
From Verif Require Import Base Pyf PyfOps SourceModel.
Import ListNotations.
Open Scope string_scope.
Open Scope list_scope.
Open Scope R_scope.

(** ** Derived quantities *)

(** Arrays without, with one and with two axes *)
Inductive nd :=
| N0 (x : pyf)
| N1 (l : list pyf)
| N2 (rows : list (list pyf)).

(** A number, an array with one axis, a list, or None: arguments freq and v0 *)
Inductive arg := ANone | AScalar (x : R) | AArray (l : list R) | AList (l : list R).

(** Two axes of an elementwise operation: equal lengths, or one of length 1 *)
Definition zip {A B C} (op : A -> B -> C) (a : list A) (b : list B) : res (list C) :=
  if Nat.eqb (List.length a) (List.length b) then Ok (map (fun p => op (fst p) (snd p)) (combine a b))
  else match a, b with
       | [x], _ => Ok (map (op x) b)
       | _, [y] => Ok (map (fun x => op x y) a)
       | _, _ => Err ValueError
       end.

(** [op(value, x)] elementwise for a number x *)
Definition with_scalar (op : pyf -> pyf -> pyf) (val : nd) (x : R) : nd :=
  let f := fun a => op a (FNum x) in
  match val with
  | N0 a => N0 (f a)
  | N1 l => N1 (map f l)
  | N2 rows => N2 (map (map f) rows)
  end.

(** [op(value, x)] for an array x with one axis, which is the last one of the value *)
Definition with_row (op : pyf -> pyf -> pyf) (val : nd) (x : list R) : res nd :=
  let op := fun a b => op a (FNum b) in
  match val with
  | N0 a => Ok (N1 (map (op a) x))
  | N1 l => do r <- zip op l x; Ok (N1 r)
  | N2 rows => do r <- mapM (fun row => zip op row x) rows; Ok (N2 r)
  end.

(** [op(value, x[:, np.newaxis])]: the array x runs along the first axis *)
Definition with_column (op : pyf -> pyf -> pyf) (val : nd) (x : list R) : res nd :=
  let op := fun a b => op a (FNum b) in
  match val with
  | N0 a => Ok (N2 (map (fun b => [op a b]) x))
  | N1 l => Ok (N2 (map (fun b => map (fun a => op a b) l) x))
  | N2 rows => do r <- zip (fun row b => map (fun a => op a b) row) rows x; Ok (N2 r)
  end.

(** The velocity after imaging.py:60-61.  None and lists are no scalars and
    cannot be indexed with [:, np.newaxis]. *)
Inductive velocity := VScalar (x : R) | VColumn (l : list R).

Definition velocity_of (v0 : arg) : res velocity :=
  match v0 with
  | AScalar x => Ok (VScalar x)
  | AArray l => Ok (VColumn l)
  | ANone | AList _ => Err TypeError
  end.

(** [op(value, v0)] *)
Definition with_velocity (op : pyf -> pyf -> pyf) (val : nd) (v : velocity) : res nd :=
  match v with
  | VScalar x => Ok (with_scalar op val x)
  | VColumn l => with_column op val l
  end.

(** [op(value, 2 * np.pi * freq)]; a float times None or a list is a TypeError *)
Definition with_omega (op : pyf -> pyf -> pyf) (val : nd) (freq : arg) : res nd :=
  match freq with
  | AScalar f => Ok (with_scalar op val (2 * PI * f))
  | AArray fs => with_row op val (map (fun f => 2 * PI * f) fs)
  | ANone | AList _ => Err TypeError
  end.

(** calc_dependent, imaging.py:50-71; other quantities give None *)
Definition calc_dependent (q : string) (val : nd) (freq v0 : arg) : res (option nd) :=
  do v <- velocity_of v0;
  if inb String.eqb q ["g0"; "b"; "W"; ""; "error"] then Ok (Some val)
  else if String.eqb q "lsc" then
    Ok (Some (with_scalar fdiv (with_scalar (fun a _ => fdiv (FNum 1) a) val 0) 1000))
  else if String.eqb q "Qsc" then
    do x <- with_velocity fmul val v; do x <- with_omega fdiv x freq; Ok (Some x)
  else if String.eqb q "li" then
    do x <- with_velocity (fun a b => fdiv b a) val v; Ok (Some (with_scalar fdiv x 1000))
  else if String.eqb q "Qi" then
    do x <- with_omega fdiv val freq; Ok (Some x)
  else Ok None.

(** ** Limits of the frequency axis *)

(** freqlim, imaging.py:74-80; with one frequency [freq[1]] is an IndexError *)
Definition freqlim (freq : list R) : option (R * R) :=
  match freq, rev freq with
  | f0 :: f1 :: _, e0 :: e1 :: _ =>
      Some (Rpower f0 (3 / 2) / Rpower f1 (1 / 2), Rpower e0 (3 / 2) / Rpower e1 (1 / 2))
  | _, _ => None
  end.

(** ** Source displacement spectra *)

(** parameters of the source model, in the options or in the results of an event;
    None: missing or None *)
Record pars := { p_M0 : option R; p_fc : option R; p_n : option R; p_gamma : option R }.

(** [smo.get(k) or result.get(k)]: 0 is as good as None *)
Definition either (a b : option R) : option R :=
  match a with
  | Some x => if Req_EM_T x 0 then b else Some x
  | None => b
  end.

(** imaging.py:406-410 *)
Definition merge_pars (smo result : pars) : pars :=
  {| p_M0 := either (p_M0 smo) (p_M0 result); p_fc := either (p_fc smo) (p_fc result);
     p_n := either (p_n smo) (p_n result); p_gamma := either (p_gamma smo) (p_gamma result) |}.

(** [if x] *)
Definition positive (x : option R) : option R := either x None.

(** What is drawn: points of the spectrum, the source model as a function of
    frequency and the level of the seismic moment *)
Record drawing := { d_points : list (R * pyf); d_model : option (R -> R); d_level : option R }.

(** plot_sds, imaging.py:401-436.  [smo = None]: no options, [smo.get] fails.  [colored]: the
    numbers of stations are used for colours ([nobs] is bound; it is a list, which
    cannot be indexed with an array of booleans).  None: nothing is drawn.
    Simplification: the model is kept as a function, labels are left out. *)
Definition plot_sds (freq : list R) (omM : list pyf) (result : pars) (method : option string) (smo : option pars)
    (colored : bool) : res (option drawing) :=
  if forallb fisnan omM then Ok None
  else
    match smo with
    | None => Err AttributeError
    | Some smo =>
        let p := merge_pars smo result in
        let is m := match method with Some m' => String.eqb m' m | None => false end in
        if is "mean" then
          match p_fc p with
          | None => Err TypeError                                   (* freq < None *)
          | Some _ => if colored then Err TypeError else Err UnboundLocalError
          end
        else
          let curve := if (is "fit" || is "robust_fit")%bool then
              match positive (p_M0 p), positive (p_fc p) with
              | Some M0, Some fc =>
                  Some (fun f => source_model f M0 fc (match p_n p with Some n => n | None => 2 end)
                                   (match p_gamma p with Some g => g | None => 1 end))
              | _, _ => None
              end else None in
          if Nat.eqb (List.length freq) (List.length omM)
          then Ok (Some {| d_points := combine freq omM; d_model := curve; d_level := positive (p_M0 p) |})
          else Err ValueError
    end.

(** ** Magnitudes *)

(** An event of the results: catalogue magnitude and moment magnitude *)
Record mag := { m_id : string; m_cat : option R; m_w : option R }.

(** plot_mags, imaging.py:778-793: the points, and the line if there are more than
    three points ([fit]: linear_fit, util.py:219, slope and intercept of its first
    argument over the second); None: no plot *)
Definition plot_mags (fit : list R -> list R -> R * R) (events : list mag) (only : option (list string))
    : option (list (R * R) * option (R * R)) :=
  let temp := flat_map (fun e => match m_cat e, m_w e with
                                 | Some c, Some w => if match only with None => true | Some l => inb String.eqb (m_id e) l end
                                                     then [(c, w)] else []
                                 | _, _ => []
                                 end) events in
  match temp with
  | [] => None
  | _ => Some (temp, if Nat.ltb 3 (List.length temp) then Some (fit (map snd temp) (map fst temp)) else None)
  end.

(** The events of the plot of the spectra, imaging.py:709-711: an empty selection is
    no selection; no event left is an IndexError *)
Definition selected_sds (ids : list string) (only : option (list string)) : res (list string) :=
  let l := match only with
           | None | Some [] => ids
           | Some o => filter (fun id => inb String.eqb id o) ids
           end in
  match l with [] => Err IndexError | _ => Ok l end.
