(** Specification of the data selection in a frequency band.  It refers to the
    options and the functions of other libraries, not to the loops. *)
From Coq Require Import String List Bool Reals Lra ZArith Arith.
From Verif Require Import Base Pyf PyfOps SmoothModel FbModel.
From Verif Require SmoothSpec.
Import ListNotations.
Open Scope string_scope.
Open Scope list_scope.
Open Scope R_scope.

Section S.
  Context {W : Type}.
  Variable o : fbopts W.

  (** s is the part of e in window w and reaches both ends of the window up to
      half a second *)
  Definition usable (e : etrace) (w : Z * Z) (s : etrace) : Prop :=
    o_slice o e w = Ok s /\
    (estart s < fst w + 500000000)%Z /\
    (snd w - 500000000 < estart s + Z.of_nat (List.length (edata s) - 1) * edelta s)%Z.

  (** the trace with the smoothed data *)
  Definition smoothed (e e' : etrace) : Prop :=
    match o_smooth o with
    | None => e' = e
    | Some s => exists k d, SmoothSpec.nearest_int (esr e * s) k /\ o_smoother o (edata e) k = Ok d /\ e' = set_data e d
    end.

  (** long enough, in seconds *)
  Definition long_enough (w : Z * Z) : Prop :=
    o_skip_coda o <= IZR (snd w - fst w) / 1000000000.

  (** the window enlarged by half of the smoothing length (in seconds) on both sides *)
  Definition widened (smooth : option R) (cw w : Z * Z) : Prop :=
    match smooth with
    | None => w = cw
    | Some x => exists k, SmoothSpec.nearest_int (x / 2 * 1000000000) k /\ w = ((fst cw - k)%Z, (snd cw + k)%Z)
    end.

  (** the coda window: as configured, or cut at the detected local minimum *)
  Definition coda_window_is (e : etrace) (cw : Z * Z) : Prop :=
    exists cw0, o_tw2utc o (o_coda_window o) e = Ok cw0 /\ long_enough cw0 /\
    if o_cut_coda o then
      exists wide s tmin,
        widened (o_cut_smooth o) cw0 wide /\ usable e wide s /\
        o_local_minimum o s = Ok tmin /\
        cw = match tmin with None => cw0 | Some t => (Z.min (fst cw0) t, t) end /\
        long_enough cw
    else cw = cw0.

  (** the largest sample is in the configured window *)
  Definition maximum_ok (e : etrace) : Prop :=
    match o_skip_maximum o with
    | None => True
    | Some w => exists mw i, o_tw2utc o w e = Ok mw /\ fargmax (edata e) = Ok i /\
        (fst mw < estart e + Z.of_nat i * edelta e < snd mw)%Z
    end.

  (** times of samples: k/sr after the start of window w, counted from the
      arrival distance/v0 of the direct wave at the onset *)
  Definition times_ok (e : etrace) (v0 : R) (w : Z * Z) (n : nat) (t : list R) : Prop :=
    List.length t = n /\
    forall k, (k < n)%nat ->
      nth k t 0 = INR k / esr e + edist e / v0 + IZR (fst w - esonset e) / 1000000000.

  (** the bulk values of trace e: mean, mean time weighted with the energy,
      weight of the equation *)
  Definition bulk_ok (e : etrace) (v0 : R) (nc : nat) (b : option (pyf * pyf * R)) : Prop :=
    match o_bulk_window o, b with
    | None, None => True
    | Some bw, Some (mean, time, weight) =>
        exists w s t c, o_tw2utc o bw e = Ok w /\ usable e w s /\ edata s <> [] /\
          times_ok e v0 w (List.length (edata s)) t /\
          mean = fmean (edata s) /\
          time = fdiv (fsum (map (fun xt => fmul (fst xt) (FNum (snd xt))) (combine (edata s) t)))
                      (fsum (edata s)) /\
          (o_weight o = Some (c, "codawindow") /\ weight = c * INR nc \/
           o_weight o = Some (c, "bulkwindow") /\ weight = c * INR (List.length (edata s)) \/
           o_weight o = Some (c, "samples") /\ weight = c)
    | _, _ => False
    end.

  (** the observations of a pair: trace before and after smoothing, coda samples
      and times, bulk values *)
  Record obs := {
    ob_from : etrace; ob_trace : etrace;
    ob_coda : list pyf; ob_times : list R;
    ob_bulk : option (pyf * pyf * R) }.

  (** ob are the observations of a pair that passes all checks *)
  Definition observation (v0 : R) (ob : obs) : Prop :=
    smoothed (ob_from ob) (ob_trace ob) /\
    maximum_ok (ob_trace ob) /\
    (exists cw s, coda_window_is (ob_trace ob) cw /\ usable (ob_trace ob) cw s /\
       ob_coda ob = edata s /\
       times_ok (ob_trace ob) v0 cw (List.length (edata s)) (ob_times ob)) /\
    bulk_ok (ob_from ob) v0 (List.length (ob_coda ob)) (ob_bulk ob).

  (** the pair passes all checks *)
  Definition accepted (e : etrace) : Prop :=
    (forall bw, o_bulk_window o = Some bw ->
       exists w s, o_tw2utc o bw e = Ok w /\ usable e w s) /\
    exists e', smoothed e e' /\ maximum_ok e' /\
      exists cw s, coda_window_is e' cw /\ usable e' cw s.

  (** obs are the observations of exactly the accepted traces, in order *)
  Inductive observations (v0 : R) : list etrace -> list obs -> Prop :=
  | obs_nil : observations v0 [] []
  | obs_keep : forall ob es obs,
      observation v0 ob -> observations v0 es obs ->
      observations v0 (ob_from ob :: es) (ob :: obs)
  | obs_skip : forall e es obs,
      ~ accepted e -> observations v0 es obs -> observations v0 (e :: es) obs.

  (** the times of the first and of the last sample of the bulk window *)
  Definition bulk_window_is (e : etrace) (v0 : R) (b : R * R) : Prop :=
    exists bw w s t, o_bulk_window o = Some bw /\ o_tw2utc o bw e = Ok w /\ usable e w s /\
      edata s <> [] /\ times_ok e v0 w (List.length (edata s)) t /\
      b = (nth 0 t 0, nth (List.length (edata s) - 1) t 0).

  (** the velocity of the medium: as given, or the mean of distance over travel
      time of the traces *)
  Definition velocity_is (v0 : option R) (es : list etrace) (v : R) : Prop :=
    match v0 with
    | Some x => v = x
    | None => es <> [] /\
        v = fold_right Rplus 0
              (map (fun e => edist e / (IZR (esonset e - eotime e) / 1000000000)) es)
            / INR (List.length es)
    end.

  (** ** Noise *)

  (** the mean energies of the noise windows with data *)
  Inductive levels (e : etrace) : list W -> list pyf -> Prop :=
  | lev_nil : levels e [] []
  | lev_use : forall nw w s nws ls,
      o_tw2utc o nw e = Ok w -> o_slice o e w = Ok s ->
      edata s <> [] -> (forall x, In x (edata s) -> exists r, x = FNum r) ->
      levels e nws ls -> levels e (nw :: nws) (fmean (edata s) :: ls)
  | lev_bad : forall nw w s nws ls,
      o_tw2utc o nw e = Ok w -> o_slice o e w = Ok s ->
      (edata s = [] \/ exists x, In x (edata s) /\ forall r, x <> FNum r) ->
      levels e nws ls -> levels e (nw :: nws) ls
  | lev_outside : forall nw w nws ls,
      o_tw2utc o nw e = Ok w -> o_slice o e w = Err ValueError ->
      levels e nws ls -> levels e (nw :: nws) ls.

  (** y is x reduced by the noise n *)
  Definition reduced (n x y : R) : Prop :=
    (n / 100 <= x - n -> y = x - n) /\ (x - n < n / 100 -> y = n / 100).

  (** what the noise does to a trace *)
  Definition denoised (e e' : etrace) : Prop :=
    exists nws ls, o_noise_windows o = Some nws /\ levels e nws ls /\
    match ls with
    | [] => o_remove_noise o = false /\ e' = e
    | _ => exists n, o_noise_func o ls = Ok n /\ enoise e' = Some n /\
        uid e' = uid e /\ evid e' = evid e /\ sta e' = sta e /\ estart e' = estart e /\
        esr e' = esr e /\ edelta e' = edelta e /\ eotime e' = eotime e /\
        esonset e' = esonset e /\ edist e' = edist e /\
        (o_remove_noise o = false -> edata e' = edata e) /\
        (o_remove_noise o = true -> List.length (edata e') = List.length (edata e) /\
           (forall nr k x, n = FNum nr -> nth_error (edata e) k = Some (FNum x) ->
              exists y, nth_error (edata e') k = Some (FNum y) /\ reduced nr x y) /\
           (forall nr y, n = FNum nr -> In y (edata e') ->
              y = FNan \/ y = FPInf \/ exists r, y = FNum r /\ nr / 100 <= r))
    end.

  (** the onset is moved to the maximum in the window *)
  Definition onset_adjusted (e e' : etrace) : Prop :=
    if o_adjust_maximum o then
      exists w mw s i,
        match o_adjust_window o with Some w => Some w | None => o_bulk_window o end = Some w /\
        o_tw2utc o w e = Ok mw /\ o_slice o e mw = Ok s /\ fargmax (edata s) = Ok i /\
        e' = set_sonset e (fst mw + Z.of_nat i * edelta e)
    else e' = e.

  (** no usable noise window although noise shall be removed *)
  Definition no_level (e : etrace) : Prop :=
    o_remove_noise o = true /\ exists nws, o_noise_windows o = Some nws /\ levels e nws [].

  (** the traces after the treatment of noise: exactly those with a noise level,
      if this is needed, in order *)
  Inductive noise_treated : list etrace -> list etrace -> Prop :=
  | nt_nil : noise_treated [] []
  | nt_keep : forall e e1 e2 es es',
      denoised e e1 -> onset_adjusted e1 e2 -> noise_treated es es' ->
      noise_treated (e :: es) (e2 :: es')
  | nt_skip : forall e es es',
      no_level e -> noise_treated es es' -> noise_treated (e :: es) es'.
End S.

(** ** Energies *)
Section E.
  Context {S : Type}.
  Variables (freqmin freqmax : R) (fix_sites : option (option (list (string * pyf))))
    (filtered : stream S -> bandfilter -> res S) (width : R -> bandfilter -> res R)
    (free_surface : fsopt) (borehole : list string)
    (observed : stream S -> S -> R -> R -> res etrace).

  (** the band is below the Nyquist frequency and, if site responses are given,
      the one of the station is a number *)
  Definition in_band (s : stream S) : Prop :=
    (freqmin + freqmax) / 2 <= s_sr s / 2 /\
    match fix_sites with
    | None => True
    | Some None => False
    | Some (Some params) => exists v, dget String.eqb params (s_sta s) = Some v /\ v <> FNan
    end.

  (** the energy of the stream, from its filtered data, bandwidth and the free
      surface correction of its station *)
  Definition energy_of (s : stream S) (r : res etrace) : Prop :=
    exists fu d df fs,
      (fu = Highpass freqmin /\ 0.495 * s_sr s < freqmax \/
       fu = Bandpass freqmin freqmax /\ freqmax <= 0.495 * s_sr s) /\
      filtered s fu = Ok d /\ width (s_sr s) fu = Ok df /\
      match free_surface with
      | FsOne x => fs = x
      | FsTwo surface bore =>
          In (s_sta s) borehole /\ fs = bore \/ ~ In (s_sta s) borehole /\ fs = surface
      end /\
      observed s d df fs = r.

  (** the energies of exactly the streams in the band whose energy can be
      determined, in order *)
  Inductive energies_of : list (stream S) -> list etrace -> Prop :=
  | en_nil : energies_of [] []
  | en_keep : forall s e ss es,
      in_band s -> energy_of s (Ok e) -> energies_of ss es -> energies_of (s :: ss) (e :: es)
  | en_out : forall s ss es,
      ~ in_band s -> energies_of ss es -> energies_of (s :: ss) es
  | en_fail : forall s x ss es,
      in_band s -> energy_of s (Err x) -> x <> KeyboardInterrupt -> x <> SystemExit ->
      energies_of ss es -> energies_of (s :: ss) es.
End E.
