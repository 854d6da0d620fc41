(** Model of the data selection in one frequency band, /repo/qopen/core.py:480-490,
    493-766.  Times are integers (nanoseconds), energies are Python floats with
    their special values, distances, velocities and sampling rates are reals.
    Functions of obspy, the time expressions (TimesModel.v), smoothing
    (SmoothModel.v) and the search for local minima (TimesModel.v) are arbitrary
    functions here. *)
From Coq Require Import String List Bool Reals Lra ZArith Arith.
From Verif Require Import Base Pyf PyfOps SmoothModel.
Import ListNotations.
Open Scope string_scope.
Open Scope list_scope.
Open Scope R_scope.

(** An energy trace (obspy Trace, core.py:578-579): [uid] is the identity of the
    object; event id and station ([get_pair], core.py:211-213), samples, time of
    the first sample, sampling rate and interval, origin time, S onset,
    distance, noise level (None before it has been set, core.py:614). *)
Record etrace := {
  uid : nat; evid : string; sta : string;
  edata : list pyf; estart : Z; esr : R; edelta : Z;
  eotime : Z; esonset : Z; edist : R; enoise : option pyf }.

(** [get_pair], core.py:211-213 *)
Definition get_pair (e : etrace) : string * string := (evid e, sta e).

(** equality of pairs (keys of dictionaries) *)
Definition pair_eqb (p q : string * string) : bool :=
  String.eqb (fst p) (fst q) && String.eqb (snd p) (snd q).

(** [energy.data = ...] etc. (core.py:620, 621, 634, 677) *)
Definition set_data (e : etrace) (d : list pyf) : etrace :=
  {| uid := uid e; evid := evid e; sta := sta e; edata := d; estart := estart e;
     esr := esr e; edelta := edelta e; eotime := eotime e; esonset := esonset e;
     edist := edist e; enoise := enoise e |}.
(** see above *)
Definition set_noise (e : etrace) (n : pyf) : etrace :=
  {| uid := uid e; evid := evid e; sta := sta e; edata := edata e; estart := estart e;
     esr := esr e; edelta := edelta e; eotime := eotime e; esonset := esonset e;
     edist := edist e; enoise := Some n |}.
(** see above *)
Definition set_sonset (e : etrace) (t : Z) : etrace :=
  {| uid := uid e; evid := evid e; sta := sta e; edata := edata e; estart := estart e;
     esr := esr e; edelta := edelta e; eotime := eotime e; esonset := t;
     edist := edist e; enoise := enoise e |}.

(** [tr.stats.endtime] *)
Definition eend (e : etrace) : Z :=
  (estart e + (Z.of_nat (List.length (edata e) - 1)) * edelta e)%Z.

(** [energies.remove(energy)], core.py:490, 612, ...: the object itself.
    Simplification: distinct traces with equal header and data are told apart
    (they behave alike). *)
Fixpoint remove_energy (l : list etrace) (e : etrace) : list etrace :=
  match l with
  | [] => []
  | x :: r => if Nat.eqb (uid x) (uid e) then r else x :: remove_energy r e
  end.

(** changes of an object are seen through the list that holds it *)
Definition update_energy (l : list etrace) (e : etrace) : list etrace :=
  map (fun x => if Nat.eqb (uid x) (uid e) then e else x) l.

(** difference of two times in seconds *)
Definition secs (t : Z) : R := IZR t / 1000000000.

(** seconds to nanoseconds ([UTCDateTime + float]) *)
Definition nanos (x : R) : Z := py_round (x * 1000000000).

(** the options of invert_fb (core.py:493-512) that steer the selection, for a
    type W of window options; options given as None are None. *)
Record fbopts (W : Type) := {
  o_tw2utc : W -> etrace -> res (Z * Z);            (* core.py:333-350 *)
  o_slice : etrace -> Z * Z -> res etrace;          (* obspy Trace.slice *)
  o_noise_windows : option (list W);
  o_noise_func : list pyf -> res pyf;               (* getattr(np, noise_windows_func) *)
  o_remove_noise : bool;
  o_adjust_maximum : bool;                          (* adjust_sonset == "maximum" *)
  o_adjust_window : option W;                       (* adjust_sonset_options.get('window') *)
  o_bulk_window : option W;
  o_coda_window : W;
  o_weight : option (R * string);
  o_smooth : option R;                              (* None also stands for 0 *)
  o_smoother : list pyf -> Z -> res (list pyf);     (* smooth_(..., method='zeros') *)
  o_skip_coda : R;                                  (* skip['coda_window'], core.py:529 *)
  o_skip_maximum : option W;
  o_num_pairs : Z;                                  (* skip.get('num_pairs', 1) *)
  o_cut_coda : bool;
  o_cut_smooth : option R;                          (* cut_coda.get('smooth'); None also for 0 *)
  o_local_minimum : etrace -> res (option Z)        (* core.py:452-477 *)
}.
Arguments o_tw2utc {W}.
Arguments o_slice {W}.
Arguments o_noise_windows {W}.
Arguments o_noise_func {W}.
Arguments o_remove_noise {W}.
Arguments o_adjust_maximum {W}.
Arguments o_adjust_window {W}.
Arguments o_bulk_window {W}.
Arguments o_coda_window {W}.
Arguments o_weight {W}.
Arguments o_smooth {W}.
Arguments o_smoother {W}.
Arguments o_skip_coda {W}.
Arguments o_skip_maximum {W}.
Arguments o_num_pairs {W}.
Arguments o_cut_coda {W}.
Arguments o_cut_smooth {W}.
Arguments o_local_minimum {W}.

(** ** From streams to energies, core.py:543-582 *)

(** The stream of a pair (three traces with the same header), with the object
    identity, the pair, and sampling rate; S stands for its samples. *)
Record stream (S : Type) := { s_uid : nat; s_evid : string; s_sta : string; s_sr : R; s_data : S }.
Arguments s_uid {S}.
Arguments s_evid {S}.
Arguments s_sta {S}.
Arguments s_sr {S}.
Arguments s_data {S}.

(** the filter of the frequency band, core.py:560-564 *)
Inductive bandfilter := Highpass (f : R) | Bandpass (f1 f2 : R).

(** free_surface: a number or one value for surface and one for borehole
    stations, core.py:569-574 *)
Inductive fsopt := FsOne (x : R) | FsTwo (surface borehole : R).

Section Energies.
  Context {S : Type}.
  Variables
    (freqmin freqmax : R)
    (fix_sites : option (option (list (string * pyf))))
      (* None: fix_sites is False; Some None: the band is missing in fix_sites_params *)
    (filtered : stream S -> bandfilter -> res S)   (* detrend and filter, core.py:566-567 *)
    (width : R -> bandfilter -> res R)             (* filter_width, core.py:568 *)
    (free_surface : fsopt) (borehole : list string)
    (observed : stream S -> S -> R -> R -> res etrace).
      (* observed_energy for the filtered data, df and fs, core.py:576-577 *)

  (** one round of the loop, core.py:546-582: None if the pair is skipped *)
  Definition stream_energy (s : stream S) : res (option etrace) :=
    if rltb (s_sr s) (freqmin + freqmax) then Ok None
    else
      do nosite <- match fix_sites with
                   | None => Ok false
                   | Some None => Err KeyError
                   | Some (Some params) =>
                       Ok (fisnan (match dget String.eqb params (s_sta s) with
                                   | Some v => v
                                   | None => FNan
                                   end))
                   end;
      if nosite then Ok None
      else
        let fu := if rltb (0.495 * s_sr s) freqmax then Highpass freqmin
                  else Bandpass freqmin freqmax in
        do d <- filtered s fu;
        do df <- width (s_sr s) fu;
        let fs := match free_surface with
                  | FsOne x => x
                  | FsTwo surface bore =>
                      if inb String.eqb (s_sta s) borehole then bore else surface
                  end in
        match observed s d df fs with
        | Ok e => Ok (Some e)
        | Err KeyboardInterrupt => Err KeyboardInterrupt
        | Err SystemExit => Err SystemExit
        | Err _ => Ok None
        end.

  (** core.py:544-582 *)
  Fixpoint stream_energies (streams : list (stream S)) : res (list etrace) :=
    match streams with
    | [] => Ok []
    | s :: r =>
        do o <- stream_energy s;
        do es <- stream_energies r;
        Ok (match o with Some e => e :: es | None => es end)
    end.
End Energies.

Section Loops.
  Context {W : Type}.
  Variable o : fbopts W.

  (** ** Noise, core.py:584-637 *)

  (** core.py:594-601: the levels of the usable noise windows *)
  Fixpoint noise_levels (e : etrace) (nws : list W) : res (list pyf) :=
    match nws with
    | [] => Ok []
    | nw :: r =>
        do w <- o_tw2utc o nw e;
        match o_slice o e w with
        | Err ValueError => noise_levels e r
        | Err x => Err x
        | Ok s =>
            do ls <- noise_levels e r;
            Ok (if negb (Nat.eqb (List.length (edata s)) 0) && forallb fisfinite (edata s)
                then fmean (edata s) :: ls else ls)
        end
    end.

  (** core.py:619-621 *)
  Definition subtract_noise (n : pyf) (d : list pyf) : list pyf :=
    map (fun x => if fltb x (fdiv n (FNum 100)) then fdiv n (FNum 100) else x)
        (map (fun x => fsub x n) d).

  (** core.py:623-637 *)
  Definition adjust_onset (e : etrace) : res etrace :=
    if o_adjust_maximum o then
      let win := match o_adjust_window o with
                 | Some w => Some w
                 | None => o_bulk_window o
                 end in
      match win with
      | None => Err TypeError
      | Some w =>
          do mw <- o_tw2utc o w e;
          do s <- o_slice o e mw;
          do imax <- fargmax (edata s);
          Ok (set_sonset e (fst mw + Z.of_nat imax * edelta e))
      end
    else Ok e.

  (** one round of the loop, core.py:587-637 *)
  Definition noise_step (energies : list etrace) (e : etrace) : res (list etrace) :=
    match o_noise_windows o with
    | None => Err TypeError
    | Some nws =>
        do levels <- noise_levels e nws;
        match levels with
        | [] =>
            if o_remove_noise o then Ok (remove_energy energies e)
            else
              do e <- adjust_onset e;
              Ok (update_energy energies e)
        | _ =>
            do n <- o_noise_func o levels;
            match edata e with
            | [] => Err ValueError
            | _ =>
                let e := set_noise e n in
                let e := if o_remove_noise o then set_data e (subtract_noise n (edata e)) else e in
                do e <- adjust_onset e;
                Ok (update_energy energies e)
            end
        end
    end.

  (** a loop over a copy of a list *)
  Fixpoint loop {A B} (step : A -> B -> res A) (st : A) (l : list B) : res A :=
    match l with
    | [] => Ok st
    | x :: r => do st <- step st x; loop step st r
    end.

  (** core.py:587-637 *)
  Definition noise_loop (energies : list etrace) : res (list etrace) :=
    loop noise_step energies energies.

  (** core.py:640-643.  Simplification: an onset at the origin time gives 0
      instead of an infinite velocity. *)
  Definition mean_velocity (v0 : option R) (energies : list etrace) : option R :=
    match v0, energies with
    | None, _ :: _ =>
        Some (fold_right Rplus 0
                (map (fun e => edist e / secs (esonset e - eotime e)) energies)
              / INR (List.length energies))
    | _, _ => v0
    end.

  (** ** Windows, core.py:645-755 *)

  Record wstate := {
    w_energies : list etrace;
    w_distances : list ((string * string) * R);
    w_tcoda : list (list R);
    w_tbulk : list pyf;
    w_tbulk_window : list ((string * string) * (R * R));
    w_weights : list R;
    w_ebulk : list pyf;
    w_ecoda : list (list pyf) }.

  (** [_get_slice], core.py:480-490, with the tolerance of [_check_times] *)
  Definition get_slice (e : etrace) (tw : Z * Z) (energies : list etrace)
    : res (option etrace * list etrace) :=
    match o_slice o e tw with
    | Ok s =>
        let d1 := (fst tw - estart s)%Z in
        let d2 := (eend s - snd tw)%Z in
        if Z.ltb 0 (d1 + 500000000) && Z.ltb 0 (d2 + 500000000) then Ok (Some s, energies)
        else Ok (None, remove_energy energies e)
    | Err ValueError => Ok (None, remove_energy energies e)
    | Err x => Err x
    end.

  (** [np.arange(n) / sr + distance / v0 + shift], core.py:669, 736 *)
  Definition sample_times (n : nat) (e : etrace) (v0 : R) (shift : Z) : list R :=
    map (fun k => INR k / esr e + edist e / v0 + secs shift) (seq 0 n).

  (** [np.sum(data * t_) / np.sum(data)], core.py:671 *)
  Definition balanced_time (d : list pyf) (t : list R) : pyf :=
    fdiv (fsum (map (fun dt => fmul (fst dt) (FNum (snd dt))) (combine d t))) (fsum d).

  (** the bulk values of a pair: mean, time, window, number of samples *)
  Record bulkvals := { b_mean : pyf; b_time : pyf; b_window : R * R; b_n : nat }.

  (** core.py:662-672: None if the pair is skipped *)
  Definition bulk_part (e : etrace) (v0 : R) (energies : list etrace)
    : res (option (option bulkvals) * list etrace) :=
    match o_bulk_window o with
    | None => Ok (Some None, energies)
    | Some bw =>
        do w <- o_tw2utc o bw e;
        do x <- get_slice e w energies;
        match x with
        | (None, energies) => Ok (None, energies)
        | (Some s, energies) =>
            let d := edata s in
            let t := sample_times (List.length d) e v0 (fst w - esonset e) in
            match t with
            | [] => Err IndexError
            | t0 :: _ =>
                Ok (Some (Some {| b_mean := fmean d; b_time := balanced_time d t;
                                  b_window := (t0, last t 0); b_n := List.length d |}), energies)
            end
        end
    end.

  (** core.py:675-679 *)
  Definition smooth_part (e : etrace) : res etrace :=
    match o_smooth o with
    | None => Ok e
    | Some s =>
        do d <- o_smoother o (edata e) (py_round (esr e * s));
        Ok (set_data e d)
    end.

  (** core.py:689, 713 *)
  Definition too_short (cw : Z * Z) : bool := rltb (secs (snd cw - fst cw)) (o_skip_coda o).

  (** core.py:696-719: the coda window, None if the pair is skipped *)
  Definition cut_part (e : etrace) (cw : Z * Z) (energies : list etrace)
    : res (option (Z * Z) * list etrace) :=
    if o_cut_coda o then
      let wide := match o_cut_smooth o with
                  | None => cw
                  | Some s => ((fst cw - nanos (0.5 * s))%Z, (snd cw + nanos (0.5 * s))%Z)
                  end in
      do x <- get_slice e wide energies;
      match x with
      | (None, energies) => Ok (None, energies)
      | (Some s, energies) =>
          do tmin <- o_local_minimum o s;
          let cw := match tmin with
                    | Some t => (Z.min (fst cw) t, t)
                    | None => cw
                    end in
          if too_short cw then Ok (None, remove_energy energies e)
          else Ok (Some cw, energies)
      end
    else Ok (Some cw, energies).

  (** core.py:720-731: is the maximum outside of the window? *)
  Definition maximum_outside (e : etrace) : res bool :=
    match o_skip_maximum o with
    | None => Ok false
    | Some w =>
        do mw <- o_tw2utc o w e;
        do imax <- fargmax (edata e);
        let tmax := (estart e + Z.of_nat imax * edelta e)%Z in
        Ok (negb (Z.ltb (fst mw) tmax && Z.ltb tmax (snd mw)))
    end.

  (** core.py:740-753 *)
  Definition bulk_weight (b : bulkvals) (nc : nat) : res R :=
    match o_weight o with
    | None => Err TypeError
    | Some (w, unit_) =>
        if String.eqb unit_ "codawindow" then Ok (w * INR nc)
        else if String.eqb unit_ "bulkwindow" then Ok (w * INR (b_n b))
        else if String.eqb unit_ "samples" then Ok (w * 1)
        else Err OtherError
    end.

  (** assignments to the lists and dictionaries of the loop, core.py:645-651 *)
  Definition set_energies (st : wstate) (l : list etrace) : wstate :=
    {| w_energies := l; w_distances := w_distances st; w_tcoda := w_tcoda st;
       w_tbulk := w_tbulk st; w_tbulk_window := w_tbulk_window st;
       w_weights := w_weights st; w_ebulk := w_ebulk st; w_ecoda := w_ecoda st |}.

  (** [distances[pair] = ...], core.py:656 *)
  Definition set_distance (st : wstate) (p : string * string) (d : R) : wstate :=
    {| w_energies := w_energies st; w_distances := dset pair_eqb (w_distances st) p d;
       w_tcoda := w_tcoda st; w_tbulk := w_tbulk st; w_tbulk_window := w_tbulk_window st;
       w_weights := w_weights st; w_ebulk := w_ebulk st; w_ecoda := w_ecoda st |}.

  (** [tbulk_window[pair] = ...], core.py:672 *)
  Definition set_tbulk_window (st : wstate) (p : string * string) (bulk : option bulkvals) : wstate :=
    {| w_energies := w_energies st; w_distances := w_distances st; w_tcoda := w_tcoda st;
       w_tbulk := w_tbulk st;
       w_tbulk_window :=
         match bulk with
         | None => w_tbulk_window st
         | Some b => dset pair_eqb (w_tbulk_window st) p (b_window b)
         end;
       w_weights := w_weights st; w_ebulk := w_ebulk st; w_ecoda := w_ecoda st |}.

  (** the appends to tcoda and Ecoda, core.py:740-741 *)
  Definition add_coda (st : wstate) (tc : list R) (d : list pyf) : wstate :=
    {| w_energies := w_energies st; w_distances := w_distances st;
       w_tcoda := w_tcoda st ++ [tc]; w_tbulk := w_tbulk st;
       w_tbulk_window := w_tbulk_window st; w_weights := w_weights st;
       w_ebulk := w_ebulk st; w_ecoda := w_ecoda st ++ [d] |}.

  (** the appends to tbulk, Ebulk and weights, core.py:753-755 *)
  Definition add_bulk (st : wstate) (b : bulkvals) (wt : R) : wstate :=
    {| w_energies := w_energies st; w_distances := w_distances st;
       w_tcoda := w_tcoda st; w_tbulk := w_tbulk st ++ [b_time b];
       w_tbulk_window := w_tbulk_window st; w_weights := w_weights st ++ [wt];
       w_ebulk := w_ebulk st ++ [b_mean b]; w_ecoda := w_ecoda st |}.

  (** end of the round: the samples of the coda window, core.py:732-755 *)
  Definition coda_stage (v0 : R) (bulk : option bulkvals) (e : etrace) (cw : Z * Z)
      (st : wstate) : res wstate :=
    do x <- get_slice e cw (w_energies st);
    match x with
    | (None, l) => Ok (set_energies st l)
    | (Some s, l) =>
        let d := edata s in
        let tc := sample_times (List.length d) e v0 (fst cw - esonset e) in
        match bulk with
        | None => Ok (add_coda (set_energies st l) tc d)
        | Some b =>
            do wt <- bulk_weight b (List.length d);
            Ok (add_bulk (add_coda (set_energies st l) tc d) b wt)
        end
    end.

  (** check of the maximum, core.py:720-731 *)
  Definition maximum_stage (v0 : R) (bulk : option bulkvals) (e : etrace) (cw : Z * Z)
      (st : wstate) : res wstate :=
    do out <- maximum_outside e;
    if out then Ok (set_energies st (remove_energy (w_energies st) e))
    else coda_stage v0 bulk e cw st.

  (** coda window, core.py:680-719 *)
  Definition cut_stage (v0 : R) (bulk : option bulkvals) (e : etrace) (st : wstate) : res wstate :=
    do cw <- o_tw2utc o (o_coda_window o) e;
    if too_short cw then Ok (set_energies st (remove_energy (w_energies st) e))
    else
      do c <- cut_part e cw (w_energies st);
      match c with
      | (None, l) => Ok (set_energies st l)
      | (Some cw, l) => maximum_stage v0 bulk e cw (set_energies st l)
      end.

  (** smoothing, core.py:674-679; the trace changes in place *)
  Definition smooth_stage (v0 : R) (bulk : option bulkvals) (e : etrace) (st : wstate) : res wstate :=
    do e <- smooth_part e;
    cut_stage v0 bulk e (set_energies st (update_energy (w_energies st) e)).

  (** one round of the loop, core.py:652-755 *)
  Definition window_step (v0 : R) (st : wstate) (e : etrace) : res wstate :=
    do b <- bulk_part e v0 (w_energies st);
    match b with
    | (None, l) => Ok (set_energies (set_distance st (get_pair e) (edist e)) l)
    | (Some bulk, l) =>
        smooth_stage v0 bulk e
          (set_energies (set_tbulk_window (set_distance st (get_pair e) (edist e)) (get_pair e) bulk) l)
    end.

  (** core.py:645-755 *)
  Definition window_loop (v0 : R) (energies : list etrace) : res wstate :=
    loop (window_step v0)
      {| w_energies := energies; w_distances := []; w_tcoda := []; w_tbulk := [];
         w_tbulk_window := []; w_weights := []; w_ebulk := []; w_ecoda := [] |} energies.

  (** core.py:763-766: not enough pairs *)
  Definition too_few (st : wstate) : bool :=
    Nat.eqb (List.length (w_ecoda st)) 0
    || Z.ltb (Z.of_nat (List.length (w_ecoda st))) (o_num_pairs o).

  (** core.py:584-766: the observations of the band, None without result.
      Simplification: without energies there is no loop, so a missing v0 does
      not matter. *)
  Definition select_data (v0 : option R) (energies : list etrace) : res (option (wstate * R)) :=
    do energies <- noise_loop energies;
    match mean_velocity v0 energies with
    | None => Ok None
    | Some v0 =>
        do st <- window_loop v0 energies;
        if too_few st then Ok None else Ok (Some (st, v0))
    end.
End Loops.
