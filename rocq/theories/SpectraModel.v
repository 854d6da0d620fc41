(** Model of the contents of plot_all_sds, /repo/qopen/imaging.py:690-758, with the colours of
    plot_sds, imaging.py:383-400. *)
From Coq Require Import String List Bool Reals.
From Verif Require Import Base Pyf PyfOps DepModel GridModel.
Import ListNotations.
Open Scope string_scope.
Open Scope list_scope.

(** What plot_sds reads from the result of an event: the source displacement spectrum, the
    parameters of the source model and the numbers of stations; None: there is no such key *)
Record sevent := { se_sds : option (list pyf); se_pars : pars; se_nst : option (list nat) }.

(** The argument colors: one colour or a dictionary of colours *)
Inductive colours := One_colour (c : string) | Colour_dict (d : list (string * string)).

(** The colour of the points: black, a given colour, a dictionary (which is no colour), or the
    numbers of stations on a scale up to a number *)
Inductive colour := Black | Given_colour (c : string) | No_colour | Stations (l : list nat) (scale : nat).

(** A panel: the event, what is drawn (None: nothing) and the colour of the points *)
Record sds_panel := { sd_id : string; sd_drawing : option drawing; sd_colour : colour }.

(** The figure: panels with their cells; the cell of the colour bar and the colour of the points it
    belongs to (None: there are no points) *)
Record sds_figure := { sf_events : list (sds_panel * (nat * nat)); sf_colourbar : option ((nat * nat) * option colour) }.

(** [a or b], imaging.py:705: the method.  Simplification: no empty string. *)
Definition or_method (a b : option string) : option string := match a with Some m => Some m | None => b end.

(** [seismic_moment_options or conf.get('seismic_moment_options', {})], imaging.py:706: the first
    is None if not given or empty; the second is None if not configured, [Some None] if None is
    configured *)
Definition or_options (a : option pars) (b : option (option pars)) : option pars :=
  match a, b with
  | Some p, _ => Some p
  | None, Some p => p
  | None, None => Some {| p_M0 := None; p_fc := None; p_n := None; p_gamma := None |}
  end.

(** imaging.py:709-710 *)
Definition choose_events {E} (events : list (string * E)) (only : option (list string)) : list (string * E) :=
  match only with
  | None | Some [] => events
  | Some o => filter (fun e => inb String.eqb (fst e) o) events
  end.

(** [np.max(nobs)] of the lists of all events, imaging.py:715-716: lists of different lengths or
    without numbers are a ValueError *)
Definition max_stations (l : list (list nat)) : res nat :=
  match l with
  | [] => Err ValueError
  | x :: _ => if forallb (fun y => Nat.eqb (List.length y) (List.length x)) l then
                match concat l with [] => Err ValueError | c => Ok (fold_left Nat.max c 0%nat) end
              else Err ValueError
  end.

(** imaging.py:711-716 *)
Definition scale_of (events : list (string * sevent)) (cmap : option string) (colors : option colours) : res nat :=
  match events with
  | [] => Err IndexError
  | (_, first) :: _ =>
      match se_nst first, cmap, colors with
      | Some _, Some _, None =>
          do l <- mapM (fun e => match se_nst (snd e) with Some l => Ok l | None => Err KeyError end) events;
          max_stations l
      | _, _, _ => Ok 1%nat
      end
  end.

(** imaging.py:727-731 *)
Definition event_colour (colors : option colours) (id : string) : option colour :=
  match colors with
  | None => None
  | Some (One_colour c) => Some (Given_colour c)
  | Some (Colour_dict d) => match dget String.eqb d id with Some c => Some (Given_colour c) | None => Some No_colour end
  end.

(** imaging.py:383-400: the colour of the points *)
Definition point_colour (ev : sevent) (cmap : option string) (color : option colour) (max_nobs : nat) : colour :=
  match color, se_nst ev, cmap with
  | None, Some l, Some _ => Stations l max_nobs
  | Some c, _, _ => c
  | None, _, _ => Black
  end.

(** [ax.scatter(freq, omM, **kw)], imaging.py:426, 433: a colour or as many numbers as points *)
Definition scatter_ok (freq : list R) (c : colour) : bool :=
  match c with
  | Black | Given_colour _ => true
  | No_colour => false
  | Stations l _ => Nat.eqb (List.length l) (List.length freq)
  end.

(** imaging.py:732-741: the panel of an event *)
Definition one_spectrum (freq : list R) (smm : option string) (smo : option pars) (cmap : option string)
    (colors : option colours) (max_nobs : nat) (e : string * sevent) : res sds_panel :=
  let c := point_colour (snd e) cmap (event_colour colors (fst e)) max_nobs in
  match se_sds (snd e) with
  | None => Err KeyError
  | Some omM =>
      do d <- plot_sds freq omM (se_pars (snd e)) smm smo (match c with Stations _ _ => true | _ => false end);
      match d with
      | None => Ok {| sd_id := fst e; sd_drawing := None; sd_colour := c |}
      | Some d => if scatter_ok freq c then Ok {| sd_id := fst e; sd_drawing := Some d; sd_colour := c |} else Err ValueError
      end
  end.

(** the colour of the points that were drawn last, [sc] at imaging.py:733, 756 *)
Definition last_points (ps : list sds_panel) : option colour :=
  match rev ps with
  | p :: _ => match sd_drawing p with Some _ => Some (sd_colour p) | None => None end
  | [] => None
  end.

(** plot_all_sds, imaging.py:703-758.  Simplification: labels and limits of axes are left out; a
    colour bar of None is represented by a colour bar without points (it fails or has a scale from
    0 to 1, depending on matplotlib). *)
Definition plot_all (freq : list R) (events : list (string * sevent)) (smm conf_smm : option string)
    (smo : option pars) (conf_smo : option (option pars)) (only : option (list string)) (nx : option nat)
    (cmap : option string) (colors : option colours) (xlabel : bool) : res sds_figure :=
  let events := choose_events events only in
  do max_nobs <- scale_of events cmap colors;
  do lay <- GridModel.plot_all_sds max_nobs (List.length events) nx xlabel;
  do ps <- mapM (one_spectrum freq (or_method smm conf_smm) (or_options smo conf_smo) cmap colors max_nobs) events;
  Ok {| sf_events := combine ps (g_cells lay); sf_colourbar := option_map (fun c => (c, last_points ps)) (g_bar lay) |}.
