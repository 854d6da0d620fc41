(** Model of the contents of the panels of plot_results, /repo/qopen/imaging.py:535-588,
    and plot_sites, imaging.py:591-678, for the results of separate inversions of events. *)
From Coq Require Import String List Bool Reals ZArith.
From Verif Require Import Base Pyf PyfOps PySort StatModel CollectModel WrapModel DepModel GridModel.
Import ListNotations.
Open Scope string_scope.
Open Scope list_scope.

(** DEPMAP, imaging.py:44-46 *)
Definition DEPMAP : list (string * string) :=
  [("g0", "g0"); ("lsc", "g0"); ("Qsc", "g0"); ("b", "b"); ("li", "b"); ("Qi", "b");
   ("W", "W"); ("omM", "sds"); ("sds", "sds"); ("error", "error")].

(** A mean value at a frequency: None is masked or nan, nothing is visible.  The error is the
    lower and upper length of the error bar. *)
Record mean_point := { mp_mean : option R; mp_error : option (R * R) }.

(** A panel: bars over the frequencies, or dots of all events and the points with error bars *)
Inductive panel :=
| PBars (bars : list (R * nat))
| PMeans (dots : list (R * pyf)) (means : list (R * mean_point)).

Section Panels.
  (** statsmodels RLM, util.py:110-111 *)
  Variable rlm : list R -> R * R.

  (** [np.exp(mean), err1, err2] of gerr, util.py:142-147 *)
  Definition error_bar (me : option R * option R) : mean_point :=
    {| mp_mean := option_map exp (fst me);
       mp_error := match me with
                   | (Some m, Some e) => Some ((exp m - exp (m - e))%R, (exp (m + e) - exp m)%R)
                   | _ => None
                   end |}.

  (** a number *)
  Definition is_num (x : pyf) : bool := match x with FNum _ => true | _ => false end.

  (** gerr of a column.  Weights of masked values have no influence on the mean
      (numpy.ma.average), but the sums of the weights at util.py:75-76 become nan if one of them
      is not finite, since [weights * ~data.mask] is [nan * 0] there.  A weight of a valid value
      that is not finite makes the mean nan. *)
  Definition column_gerr (data : list pyf) (ws : option (list pyf)) (robust : bool) : res mean_point :=
    match ws with
    | None => do me <- gstat rlm data None true robust 5; Ok (error_bar me)
    | Some ws =>
        if forallb (fun xw => match log_masked (fst xw) with
                              | Some _ => is_num (snd xw)
                              | None => true
                              end) (combine data ws)
        then
          do me <- gstat rlm data (Some (map (fun w => match w with FNum r => r | _ => 0%R end) ws)) true robust 5;
          Ok (error_bar (fst me, if forallb is_num ws then snd me else None))
        else Ok {| mp_mean := None; mp_error := None |}
    end.

  (** [gerr(value, axis=0, weights=weights, robust=robust)], imaging.py:569-570, 636-637.
      numpy.ma.average refuses two dimensional weights of another shape. *)
  Definition table_gerr (rows : list (list pyf)) (ws : option (list (list pyf))) (robust : bool)
      : res (list mean_point) :=
    match ws with
    | Some w => if same_shape rows w then
                  mapM (fun j => column_gerr (column rows j) (Some (column w j)) robust) (seq 0 (ncols rows))
                else Err TypeError
    | None => mapM (fun j => column_gerr (column rows j) None robust) (seq 0 (ncols rows))
    end.

  (** [ax.plot(freqs, value, 'o')], imaging.py:567-568, 645-646: every row is drawn over the
      frequencies; matplotlib demands the same shapes *)
  Definition all_dots (freq : list R) (rows : list (list pyf)) : res (list (R * pyf)) :=
    if forallb (fun row => Nat.eqb (List.length row) (List.length freq)) rows
    then Ok (flat_map (combine freq) rows) else Err ValueError.

  (** [ax.errorbar(freq, means, ...)], imaging.py:572, 647: as many values as frequencies *)
  Definition all_means (freq : list R) (m : list mean_point) : res (list (R * mean_point)) :=
    if Nat.eqb (List.length freq) (List.length m) then Ok (combine freq m) else Err ValueError.

  (** [np.sum(~np.isnan(rows), axis=0)], imaging.py:562, 608, 642 *)
  Definition count_numbers (rows : list (list pyf)) : list nat :=
    map (fun j => List.length (filter (fun x => negb (fisnan x)) (column rows j))) (seq 0 (ncols rows)).

  (** imaging.py:555-576: the panel of a quantity *)
  Definition result_panel (freq : list R) (col : list (string * cval)) (ws : option (list (list pyf)))
      (robust : bool) (v0 : arg) (q : string) : res panel :=
    if String.eqb q "nobs" then
      do g0 <- collected_table col "g0";
      if Nat.eqb (List.length freq) (List.length (count_numbers g0))
      then Ok (PBars (combine freq (count_numbers g0))) else Err ValueError
    else
      match dget String.eqb DEPMAP q with
      | None => Err KeyError
      | Some key =>
          do value <- collected_table col key;
          do value <- calc_dependent q (N2 value) (AArray freq) v0;
          match value with
          | Some (N2 value) =>
              do dots <- all_dots freq value;
              do m <- table_gerr value ws robust;
              do m <- all_means freq m;
              Ok (PMeans dots m)
          | _ => Err AttributeError
          end
      end.

  (** [colres['v0']], an array.  Simplification: numbers. *)
  Definition collected_velocities (col : list (string * cval)) : res arg :=
    match dget String.eqb col "v0" with
    | Some (CRows rows) =>
        do l <- mapM (fun r => match r with VNum (FNum x) => Ok x | _ => Err TypeError end) rows; Ok (AArray l)
    | Some _ => Err TypeError
    | None => Err KeyError
    end.

  (** [v0 or result['config'].get('v0') or colres['v0']], imaging.py:551 *)
  Definition choose_v0 (v0 conf : option R) (col : list (string * cval)) : res arg :=
    match either v0 None, either conf None with
    | Some v, _ => Ok (AScalar v)
    | None, Some v => Ok (AScalar v)
    | None, None => collected_velocities col
    end.

  (** plot_results, imaging.py:538-588, with the results of separate inversions (the first event
      has a value of g0).  Simplification: labels and limits of axes are left out. *)
  Definition plot_results (events : list (string * option evdict)) (freq : list R) (v0 conf : option R)
      (mean : option string) (quantities : list string) : res (list panel) :=
    do col <- collect_results events (Some ["g0"; "b"; "error"; "v0"]) None;
    do v0 <- choose_v0 v0 conf col;
    do ws <- weights_of mean col;
    mapM (result_panel freq col ws (robust_of mean) v0) quantities.

  (** ** Site responses *)

  (** A panel of plot_sites: the station, the dots, the points with error bars and the numbers of
      observations, which give the colours (None: black) *)
  Record site_panel := {
    sp_station : string; sp_dots : list (R * pyf); sp_means : list (R * mean_point); sp_colors : option (list nat) }.

  (** The figure: panels with their cells, the cell of the colour bar and the stations that are
      named as excluded *)
  Record site_figure := {
    sf_panels : list (site_panel * (nat * nat)); sf_bar : option (nat * nat); sf_excluded : list string }.

  (** [np.max] of the numbers of observations, imaging.py:608; the arrays of all stations have the
      same length.  ValueError: no station *)
  Definition max_of (l : list nat) : res nat :=
    match l with [] => Err ValueError | _ => Ok (fold_left Nat.max l 0%nat) end.

  (** imaging.py:635-652: the panel of a station *)
  Definition one_site (freq : list R) (ws : option (list (list pyf))) (robust : bool) (max_nobs : nat)
      (sr : string * list (list pyf)) : res site_panel :=
    do m <- table_gerr (snd sr) ws robust;
    do dots <- all_dots freq (snd sr);
    do m <- all_means freq m;
    Ok {| sp_station := fst sr; sp_dots := dots; sp_means := m;
          sp_colors := if Nat.eqb max_nobs 1 then None else Some (count_numbers (snd sr)) |}.

  (** [plt.get_cmap(cmap, max_nobs)] after [if cmap is None: cmap = 'black'], imaging.py:618-620.
      'black' is no colour map; the given name is one. *)
  Definition get_cmap (cmap : option string) : res string :=
    match cmap with Some c => Ok c | None => Err ValueError end.

  (** plot_sites, imaging.py:598-677, with the results of separate inversions (the first event has
      site responses).  Simplification: no sort key, labels and limits of axes are left out. *)
  Definition plot_sites (events : list (string * option evdict)) (freq : list R) (mean : option string)
      (nx : option nat) (cmap : option string) (show_excluded : bool) : res site_figure :=
    do col <- collect_results events (Some ["R"; "error"]) None;
    do R <- match dget String.eqb col "R" with
            | Some (CSites d) => mapM (fun sr => do t <- table_of (snd sr); Ok (fst sr, t)) d
            | _ => Err KeyError
            end;
    do max_nobs <- max_of (flat_map (fun sr => count_numbers (snd sr)) R);
    do ws <- weights_of mean col;
    let R := pysort (fun a b => String.leb (fst a) (fst b)) R in
    let shown := filter (fun sr => negb (all_nan (snd sr))) R in
    let excluded := filter (fun sr => all_nan (snd sr)) R in
    do g <- get_grid (b2n (Nat.ltb 1 max_nobs) + List.length shown) nx;
    do c <- get_cmap cmap;
    do ps <- mapM (one_site freq ws (robust_of mean) max_nobs) shown;
    do lay <- GridModel.plot_sites max_nobs (map (fun sr => negb (all_nan (snd sr))) R) nx;
    Ok {| sf_panels := combine ps (g_cells lay); sf_bar := g_bar lay;
          sf_excluded := if show_excluded then map fst excluded else [] |}.
End Panels.
