(** Mirror of the data drawn by plot_energies, plot_lstsq and plot_fits and in the
    main panel of plot_optimization, /repo/qopen/imaging.py 108-235, 283-373.  Colours,
    labels, tick marks and the arrangement of the panels (GridModel.v) are left out. *)
From Coq Require Import String List Bool Reals Lra ZArith Arith.
From Verif Require Import Base Pyf PyfOps FbModel LsqfbModel.
Import ListNotations.
Open Scope string_scope.
Open Scope list_scope.
Open Scope R_scope.

(** [l[i]] *)
Definition item {A} (l : list A) (i : nat) : res A :=
  match nth_error l i with Some x => Ok x | None => Err IndexError end.

(** [ax.plot(x, y)]: ValueError for different lengths *)
Fixpoint points (x y : list pyf) : res (list (pyf * pyf)) :=
  match x, y with
  | [], [] => Ok []
  | a :: x, b :: y => do r <- points x y; Ok ((a, b) :: r)
  | _, _ => Err ValueError
  end.

(** [min(x, y)], [max(x, y)] of Python: the first one if they cannot be compared *)
Definition pymin (x y : pyf) : pyf := if fltb y x then y else x.
(** see above *)
Definition pymax (x y : pyf) : pyf := if fltb x y then y else x.

(** [min(l)], [max(l)] *)
Definition pymin_of (l : list pyf) : res pyf :=
  match l with [] => Err ValueError | x :: r => Ok (fold_left pymin r x) end.
(** see above *)
Definition pymax_of (l : list pyf) : res pyf :=
  match l with [] => Err ValueError | x :: r => Ok (fold_left pymax r x) end.

(** [np.min(l)], [np.max(l)]: nan if there is one *)
Definition npmin (l : list pyf) : res pyf :=
  if existsb fisnan l then Ok FNan else pymin_of l.
(** see above *)
Definition npmax (l : list pyf) : res pyf :=
  if existsb fisnan l then Ok FNan else pymax_of l.

(** the entry [info] of a fit, imaging.py:177, 296: times, observed energies and Green's
    functions in the coda windows and the bulk windows *)
Record info := {
  i_tcoda : list (list R); i_tbulk : list pyf;
  i_ecoda : list (list pyf); i_ebulk : list pyf;
  i_gcoda : list (list pyf); i_gbulk : list pyf }.

(** ** plot_lstsq *)

(** what is drawn: a curve for every coda window, the bulk values, the line and the
    right limit of the time axis *)
Record lsq_plot := {
  q_coda : list (list (pyf * pyf)); q_bulk : list (pyf * pyf);
  q_line : list (pyf * pyf); q_right : pyf }.

(** [t[0]], [t[-1]], imaging.py:182-183 *)
Definition first_time (t : list R) : res pyf := match t with [] => Err IndexError | x :: _ => Ok (FNum x) end.
(** see above *)
Definition last_time (t : list R) : res pyf := match t with [] => Err IndexError | _ => Ok (FNum (last t 0)) end.

(** imaging.py:185-186, 191-192 *)
Definition lsq_offset (pairs : list (string * string)) (W Rs : list pyf) (i : nat) : res pyf :=
  do p <- item pairs i;
  do j <- index_of (fromkeys (map snd pairs)) (snd p);
  do r <- item Rs j;
  do k <- index_of (fromkeys (map fst pairs)) (fst p);
  do w <- item W k;
  do w0 <- item W 0;
  Ok (fdiv (fmul r w) w0).

(** imaging.py:184-189 for pair i *)
Definition lsq_coda (pairs : list (string * string)) (W Rs : list pyf) (x : info) (base : R) (i : nat) :
    res (list (pyf * pyf)) :=
  do off <- lsq_offset pairs W Rs i;
  do e <- item (i_ecoda x) i;
  do g <- item (i_gcoda x) i;
  do d <- zip_op fsub (map flog e) (map flog g);
  do t <- item (i_tcoda x) i;
  points (map FNum t) (map (fun y => fdiv (fsub y (flog off)) (flog (FNum base))) d).

(** imaging.py:190-198 for pair i *)
Definition lsq_bulk (pairs : list (string * string)) (W Rs : list pyf) (x : info) (base : R) (i : nat) :
    res (pyf * pyf) :=
  do off <- lsq_offset pairs W Rs i;
  do e <- item (i_ebulk x) i;
  do g <- item (i_gbulk x) i;
  do t <- item (i_tbulk x) i;
  Ok (t, fdiv (fsub (fsub (flog e) (flog g)) (flog off)) (flog (FNum base))).

(** [np.linspace(a, b, 100)], imaging.py:200 *)
Definition linspace100 (a b : pyf) : list pyf :=
  map (fun k => fadd (fmul (FNum (INR k)) (fdiv (fsub b a) (FNum 99))) a) (seq 0 100).

(** plot_lstsq, imaging.py:171-204; the arguments of rec used are b, W, R and info *)
Definition plot_lstsq (pairs : list (string * string)) (b : pyf) (W Rs : list pyf) (x : info) (base : R) :
    res lsq_plot :=
  match pairs with
  | [] => Err ValueError
  | _ =>
      do firsts <- mapM first_time (i_tcoda x);
      do tmin <- pymin_of firsts;
      do lasts <- mapM last_time (i_tcoda x);
      do tmax <- pymax_of lasts;
      do coda <- mapM (lsq_coda pairs W Rs x base) (seq 0 (List.length (i_tcoda x)));
      do bulk <- mapM (lsq_bulk pairs W Rs x base) (seq 0 (List.length (i_tbulk x)));
      let tmin := fold_left pymin (i_tbulk x) tmin in
      let t := linspace100 tmin tmax in
      do w0 <- item W 0;
      Ok {| q_coda := coda; q_bulk := bulk;
            q_line := map (fun t => (t, fdiv (fsub (flog w0) (fmul b t)) (flog (FNum base)))) t;
            q_right := tmax |}
  end.

(** ** plot_optimization: main panel *)

(** the crosses of the misfit, the one marked as best and the red ones for infinite
    misfits *)
Record misfit_plot := { m_all : list (pyf * pyf); m_best : option (pyf * pyf); m_inf : list pyf }.

(** [x == inf] *)
Definition is_inf (x : pyf) : bool := match x with FPInf => true | _ => false end.

(** imaging.py:224-232; record_g0 has misfits and g0 *)
Definition plot_misfit (record_g0 : list (pyf * pyf)) : res misfit_plot :=
  match record_g0 with
  | [] => Err ValueError
  | _ =>
      let draw := negb (forallb (fun x => fisinf (fst x)) record_g0) in
      Ok {| m_all := if draw then map (fun x => (snd x, fst x)) record_g0 else [];
            m_best := if draw then option_map (fun x => (snd x, fst x)) (nth_error record_g0 (List.length record_g0 - 1))
                      else None;
            m_inf := map snd (filter (fun x => is_inf (fst x)) record_g0) |}
  end.

(** ** plot_fits *)

(** the panel of a pair: times and energies of the trace, unsmoothed energies, modelled
    energies, observed and modelled energies in the coda window and the bulk window *)
Record panel := {
  n_unsmoothed : option (list (pyf * pyf)); n_data : list (pyf * pyf); n_model : list (pyf * pyf);
  n_coda : list (pyf * pyf); n_coda_model : list (pyf * pyf);
  n_bulk : option ((pyf * pyf) * (pyf * pyf)) }.

(** [_get_times(energy) + r / v0 - (st.sonset - st.origintime)], imaging.py:283-285,
    323-326 *)
Definition fit_times (e : etrace) (v0 : R) : list R :=
  map (fun k => INR k * secs (edelta e) + secs (estart e - eotime e) + edist e / v0 - secs (esonset e - eotime e))
      (seq 0 (List.length (edata e))).

(** get_Emod, imaging.py:318-319 *)
Definition get_Emod (r w b g : pyf) (t : pyf) : pyf := fmul (fmul (fmul r w) g) (fexp (fmul (fneg b) t)).

(** the modelled energies, one for each Green's function and time *)
Definition model_curve (r w b : pyf) (g : list pyf) (t : list pyf) : res (list pyf) :=
  zip_op (fun g t => get_Emod r w b g t) g t.

(** [Emod[Emod < 1e-30] = 1e-30], imaging.py:334 *)
Definition clip_low (x : pyf) : pyf := if fltb x (FNum (1 / 10 ^ 30)) then FNum (1 / 10 ^ 30) else x.

Section Fits.
  (** smooth_func(lambda t_: G_func(r, t_, v0, g0), t, smooth, ...), imaging.py:331-332 *)
  Variable G : R -> list R -> pyf -> res (list pyf).
  (** energy.data_unsmoothed (imaging.py:329), by identity of the trace *)
  Variable unsmoothed : nat -> res (list pyf).

  (** imaging.py:309-357 for the trace with number i: None if it is left out, the panel
      with largest time, largest and smallest value otherwise *)
  Definition fit_panel (energies : list etrace) (g0 b : pyf) (W Rs : list (string * pyf)) (v0 : R) (x : info)
      (smooth : bool) (i : nat) : res (option (panel * (R * pyf * pyf))) :=
    do e <- item energies i;
    match dget String.eqb Rs (sta e) with
    | None => Err KeyError
    | Some r =>
        if fisnan r then Ok None
        else
          let t := fit_times e v0 in
          let ft := map FNum t in
          do un <- (if smooth then do d <- unsmoothed (uid e); do p <- points ft d; Ok (Some p) else Ok None);
          do data <- points ft (edata e);
          do g <- G (edist e) t g0;
          match dget String.eqb W (evid e) with
          | None => Err KeyError
          | Some w =>
              do m <- model_curve r w b g ft;
              let m := map clip_low m in
              do mp <- points ft m;
              do tc <- item (i_tcoda x) i;
              do ec <- item (i_ecoda x) i;
              do cp <- points (map FNum tc) ec;
              do gc <- item (i_gcoda x) i;
              do mc <- model_curve r w b gc (map FNum tc);
              do mcp <- points (map FNum tc) mc;
              do bulk <- match i_tbulk x with
                         | [] => Ok None
                         | _ =>
                             do tb <- item (i_tbulk x) i;
                             do eb <- item (i_ebulk x) i;
                             do gb <- item (i_gbulk x) i;
                             Ok (Some ((tb, eb), (tb, get_Emod r w b gb tb)))
                         end;
              match t with
              | [] => Err IndexError
              | _ =>
                  do m1 <- npmax m;
                  do m2 <- npmax (edata e);
                  do m3 <- npmin mc;
                  do m4 <- npmax ec;
                  Ok (Some ({| n_unsmoothed := un; n_data := data; n_model := mp; n_coda := cp;
                               n_coda_model := mcp; n_bulk := bulk |},
                            (last t 0, pymax m1 m2, pymin m3 m4)))
              end
          end
    end.

  (** [ax.set_ylim]: ValueError for nan and infinite limits *)
  Definition set_lim (lo hi : pyf) : res (R * R) :=
    match lo, hi with FNum a, FNum b => Ok (a, b) | _, _ => Err ValueError end.

  (** plot_fits, imaging.py:288-373: the panels (None: empty) and the limits of time and
      energy.  A missing b is 0 (imaging.py:302-303).  Simplification: given limits are
      numbers; the empty tuple is not considered. *)
  Definition plot_fits (energies : list etrace) (g0 : pyf) (b : option pyf) (W Rs : list (string * pyf)) (v0 : R)
      (x : info) (smooth : bool) (xlim ylim : option (R * R)) :
      res (list (option panel) * (R * R) * (R * R)) :=
    let b := match b with None => FNum 0 | Some b => b end in
    match energies with
    | [] => Err ValueError
    | _ =>
        do ps <- mapM (fit_panel energies g0 b W Rs v0 x smooth) (seq 0 (List.length energies));
        let drawn := flat_map (fun p => match p with Some p => [snd p] | None => [] end) ps in
        do xl <- match xlim with
                 | Some l => Ok l
                 | None => do m <- pymax_of (map (fun d => FNum (fst (fst d))) drawn); set_lim (FNum 0) m
                 end;
        do yl <- match ylim with
                 | Some l => Ok l
                 | None =>
                     do m1 <- pymin_of (map snd drawn);
                     do m2 <- pymax_of (map (fun d => snd (fst d)) drawn);
                     set_lim (fmul (FNum (1 / 10)) m1) (fmul (FNum (3 / 2)) m2)
                 end;
        Ok (map (option_map fst) ps, xl, yl)
    end.
End Fits.

(** ** plot_energies *)

(** the three panels of a trace show the same samples; with the onset lines and the
    windows *)
Record energy_panel := {
  e_label : string * string; e_samples : list (R * pyf); e_ponset : option R; e_sonset : R;
  e_windows : option ((R * R) * (R * R)) }.

(** seconds after the origin time *)
Definition after (e : etrace) (t : Z) : R := secs (t - eotime e).

(** imaging.py:117-152 for one trace; [ponset] is the P onset, if there is one.  The
    result of [//] is a float, which is not possible as step of a slice. *)
Definition plot_energy (ponset : nat -> option Z) (bulkw codaw : list ((string * string) * (Z * Z)))
    (downsample_to : option R) (e : etrace) : res energy_panel :=
  match downsample_to with
  | Some d => if Req_EM_T d 0 then Err ZeroDivisionError else Err TypeError
  | None =>
      do wins <- match bulkw, codaw with
                 | _ :: _, _ :: _ =>
                     match dget pair_eqb bulkw (get_pair e), dget pair_eqb codaw (get_pair e) with
                     | Some b, Some c => Ok (Some ((after e (fst b), after e (snd b)), (after e (fst c), after e (snd c))))
                     | _, _ => Err KeyError
                     end
                 | _, _ => Ok None
                 end;
      Ok {| e_label := get_pair e;
            e_samples := combine (map (fun k => INR k * secs (edelta e) - secs (eotime e - estart e))
                                      (seq 0 (List.length (edata e)))) (edata e);
            e_ponset := option_map (after e) (ponset (uid e)); e_sonset := after e (esonset e);
            e_windows := wins |}
  end.

(** plot_energies, imaging.py:108-168; without traces ax1 is not bound *)
Definition plot_energies ponset bulkw codaw downsample_to (energies : list etrace) : res (list energy_panel) :=
  match energies with
  | [] => Err ValueError
  | _ => mapM (plot_energy ponset bulkw codaw downsample_to) energies
  end.
