(** Model of the plots of the result of one inversion: plot_eventresult and plot_eventsites,
    /repo/qopen/imaging.py:462-532, and the choice of quantities in _plot, /repo/qopen/core.py:1552-1595. *)
From Coq Require Import String List Bool Reals ZArith.
From Verif Require Import Base Pyf PyfOps PySort DepModel GridModel PanelModel.
Import ListNotations.
Open Scope string_scope.
Open Scope list_scope.

(** The dictionary of an event: lists of numbers by key (None is nan), parameters of the source
    model and the numbers of stations *)
Record evalues := { ev_lists : list (string * list pyf); ev_pars : pars; ev_nst : option (list nat) }.

(** The result of an inversion: lists of numbers by key, the velocities recorded in the result and
    in its configuration, and the events *)
Record eresult := {
  er_lists : list (string * list pyf); er_v0 : option R; er_conf : option R;
  er_events : option (list (string * evalues)) }.

(** [v0 or result.get('v0') or result.get('config', {}).get('v0')], imaging.py:467 *)
Definition event_v0 (v0 : option R) (r : eresult) : arg :=
  match either v0 (either (er_v0 r) (er_conf r)) with
  | Some v => AScalar v
  | None => ANone
  end.

(** imaging.py:469-474: the values of the first event replace the ones of the result *)
Definition merged (r : eresult) (quantities : list string) : res evalues :=
  if (inb String.eqb "W" quantities || inb String.eqb "sds" quantities)%bool then
    match er_events r with
    | None => Err KeyError
    | Some [] => Err IndexError
    | Some ((_, e) :: _) =>
        Ok {| ev_lists := dupdate String.eqb (er_lists r) (ev_lists e); ev_pars := ev_pars e; ev_nst := ev_nst e |}
    end
  else Ok {| ev_lists := er_lists r; ev_pars := {| p_M0 := None; p_fc := None; p_n := None; p_gamma := None |};
             ev_nst := None |}.

(** A panel: points with a logarithmic or linear axis of values, or a spectrum (None: empty) with
    the numbers of stations as colours *)
Inductive epanel :=
| EPoints (linear : bool) (points : list (R * pyf))
| ESpectrum (d : option drawing) (nst : option (list nat)).

(** The panel of the spectrum, imaging.py:482-485 with 385-404: without numbers of stations the
    points are black; the largest number of an empty list is a ValueError *)
Definition spectrum_panel (freq : list R) (method : option string) (smo : option pars) (m : evalues) : res epanel :=
  do _ <- match ev_nst m with Some [] => Err ValueError | _ => Ok tt end;
  match dget String.eqb (ev_lists m) "sds" with
  | None => Err KeyError
  | Some omM =>
      do d <- plot_sds freq omM (ev_pars m) method smo (match ev_nst m with Some _ => true | None => false end);
      match d, ev_nst m with
      | Some _, Some l =>
          if Nat.eqb (List.length l) (List.length freq) then Ok (ESpectrum d (Some l)) else Err ValueError
      | _, n => Ok (ESpectrum d n)
      end
  end.

(** The panel of another quantity, imaging.py:487-490.  [ax.loglog(freq, None)] and lists of
    different lengths are a ValueError. *)
Definition value_panel (freq : list R) (v0 : arg) (m : evalues) (q : string) : res epanel :=
  match dget String.eqb DEPMAP q with
  | None => Err KeyError
  | Some c =>
      match dget String.eqb (ev_lists m) c with
      | None => Err KeyError
      | Some l =>
          do y <- calc_dependent q (N1 l) (AArray freq) v0;
          match y with
          | Some (N1 y) => if Nat.eqb (List.length y) (List.length freq)
                           then Ok (EPoints (String.eqb q "error") (combine freq y)) else Err ValueError
          | _ => Err ValueError
          end
      end
  end.

(** imaging.py:481-490 *)
Definition event_panel (freq : list R) (v0 : arg) (method : option string) (smo : option pars) (m : evalues)
    (q : string) : res epanel :=
  if String.eqb q "sds" then spectrum_panel freq method smo m else value_panel freq v0 m q.

(** [(freq[0], freq[-1])], imaging.py:496, 531 *)
Definition ends (freq : list R) : res (R * R) :=
  match freq with [] => Err IndexError | f :: _ => Ok (f, last freq f) end.

(** A finished plot: the panels with their cells and the limits of the frequency axis *)
Record efigure := { ef_panels : list (epanel * (nat * nat)); ef_xlim : R * R }.

(** plot_eventresult, imaging.py:462-497.  Simplification: labels are left out. *)
Definition plot_eventresult (freq : list R) (r : eresult) (v0 : option R) (quantities : list string)
    (method : option string) (smo : option pars) : res efigure :=
  let v := event_v0 v0 r in
  do m <- merged r quantities;
  do lay <- square_plot (List.length quantities);
  do ps <- mapM (event_panel freq v method smo m) quantities;
  do lim <- ends freq;
  Ok {| ef_panels := combine ps (g_cells lay); ef_xlim := lim |}.

(** The quantities of the plot of an event in _plot, core.py:1552-1553, 1583-1588 *)
Definition event_quantities (r : eresult) : list string :=
  let has d k := match dget String.eqb d k with Some _ => true | None => false end in
  let evs := match er_events r with Some evs => evs | None => [] end in
  let Wok := (existsb (fun e => has (ev_lists (snd e)) "W") evs || has (er_lists r) "W")%bool in
  (if has (er_lists r) "g0" then ["g0"; "lsc"; "Qsc"; "b"; "li"; "Qi"] else [])
  ++ ["error"] ++ (if Wok then ["W"; "sds"] else []).

(** ** Site responses *)

(** The numbers of a list; None is nan *)
Definition numbers (l : list (option R)) : list R :=
  flat_map (fun x => match x with Some r => [r] | None => [] end) l.

(** The panel of a station: the points, nothing is drawn for [] *)
Record spanel := { sp_station : string; sp_points : option (list (R * option R)) }.

(** imaging.py:514-518; lists of different lengths are a ValueError *)
Definition station_panel (freq : list R) (s : string * list (option R)) : res spanel :=
  match numbers (snd s) with
  | [] => Ok {| sp_station := fst s; sp_points := None |}
  | _ => if Nat.eqb (List.length freq) (List.length (snd s))
         then Ok {| sp_station := fst s; sp_points := Some (combine freq (snd s)) |} else Err ValueError
  end.

(** [np.min] and [np.max], imaging.py:529-530; there is no minimum of nothing *)
Definition min_max (l : list R) : res (R * R) :=
  match l with
  | [] => Err ValueError
  | x :: l => Ok (fold_left Rmin l x, fold_left Rmax l x)
  end.

(** A finished plot: the panels with their cells, the limits of the values (None: automatic) and
    the limits of the frequency axis *)
Record sfigure := { sg_panels : list (spanel * (nat * nat)); sg_ylim : option (R * R); sg_xlim : R * R }.

(** plot_eventsites, imaging.py:500-532.  Simplification: labels are left out, site responses are
    numbers or None. *)
Definition plot_eventsites (freq : list R) (sites : list (string * list (option R))) : res sfigure :=
  let sorted := pysort (fun a b => String.leb (fst a) (fst b)) sites in
  do lay <- square_plot (List.length sites);
  do ps <- mapM (station_panel freq) sorted;
  do mm <- min_max (flat_map (fun s => numbers (snd s)) sorted);
  let ylim := if Req_EM_T (fst mm) (snd mm) then None else Some mm in
  do xlim <- ends freq;
  Ok {| sg_panels := combine ps (g_cells lay); sg_ylim := ylim; sg_xlim := xlim |}.
