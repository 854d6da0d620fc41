(** Model of /repo/qopen/source.py over the reals.

    Rounding is not modelled.  Frequencies, spectra and parameters are positive
    reals where the code takes logarithms or powers of them; [None] entries of
    spectra are missing values (NaN spectra are not modelled: they do not arise
    from finite W). *)
From Coq Require Import String List Bool Reals Arith.
From Verif Require Import Base Pyf StatModel SortModel.
Import ListNotations.
Open Scope string_scope.
Open Scope list_scope.
Open Scope R_scope.

(** source.py:21-30 *)
Definition sds (W f v rho : R) : R :=
  sqrt (W * (5 / 2) / PI * rho * v ^ 5 / f ^ 2).

(** source.py:33-42; x ** y is [Rpower] for positive x *)
Definition source_model (freq M0 fc n gamma : R) : R :=
  M0 * Rpower (1 + Rpower (freq / fc) (n * gamma)) (- (1) / gamma).

(** source.py:45-46 *)
Definition source_model_ab (freq M0 fc a b : R) : R :=
  M0 * Rpower (1 + Rpower (freq / fc) a) (- b).

(** source.py:170-184, inverse=False *)
Definition moment_magnitude (M0 : R) : R := 2 / 3 * (ln M0 / ln 10) - 607 / 100.

(** source.py:181-183, inverse=True *)
Definition moment_magnitude_inverse (Mw : R) : R := Rpower 10 (3 / 2 * (Mw + 607 / 100)).

(** Keyword arguments of fit_sds, source.py:49-51 (None of Python is [None];
    other optimiser keywords are part of the optimiser oracles below). *)
Record fopts := {
  o_fc : option R; o_n : option R; o_gamma : option R;
  o_fc_lim : option (R * R); o_n_lim : option (R * R); o_gamma_lim : option (R * R);
  o_fc0 : R; o_n0 : R; o_gamma0 : R;
  o_fall_back : nat; o_num_points : option nat }.

(** the defaults of source.py:49-51 *)
Definition fopts_default : fopts :=
  {| o_fc := None; o_n := Some 2; o_gamma := Some 1; o_fc_lim := None;
     o_n_lim := Some (1 / 2, 10); o_gamma_lim := Some (1 / 2, 10);
     o_fc0 := 10; o_n0 := 2; o_gamma0 := 1; o_fall_back := 5; o_num_points := None |}.

(** A fit result: keys and numbers, [None] for nan (source.py:90, 113, 127). *)
Definition fitdict := list (string * option R).

(** [x is None] *)
Definition isNone {A} (x : option A) : bool := match x with None => true | _ => false end.

(** [num_points is not None and m < num_points], source.py:86, 95 *)
Definition too_few (np : option nat) (m : nat) : bool :=
  match np with Some k => (m <? k)%nat | None => false end.

(** The entries of a spectrum that are not None with their frequency,
    source.py:93-94 (None becomes nan by np.array(dtype=float)). *)
Fixpoint present (freq : list R) (omM : list (option R)) : list (R * R) :=
  match freq, omM with
  | f :: fs, Some o :: os => (f, o) :: present fs os
  | _ :: fs, None :: os => present fs os
  | _, _ => []
  end.

(** the value of a parameter that is not None *)
Definition given (x : option R) : R := match x with Some r => r | None => 0 end.

Section Fit.
  (** RLM(y, ones).fit().params[0], source.py:107; arbitrary *)
  Variable rlm1 : list R -> R.
  (** Model(y, X).fit().params of a two column fit y = p0 + p1*x, source.py:121;
      first argument: robust model *)
  Variable lin2 : bool -> list R -> list R -> R * R.
  (** scipy.optimize.minimize_scalar(..., method='bounded').x, source.py:153 *)
  Variable min1 : (R -> R) -> option (R * R) -> res R.
  (** scipy.optimize.minimize(...).x, source.py:161 *)
  Variable minN : (list R -> R) -> list R -> list (option (R * R)) -> res (list R).

  (** mean square of the residuals, np.mean(res.resid ** 2), source.py:108, 122 *)
  Definition mean_square (l : list R) : R :=
    rsum (map (fun v => v ^ 2) l) / INR (length l).

  (** source.py:102-111: M0 and the mean squared residual; OLS on a constant
      regressor is the arithmetic mean. [data] pairs frequency and spectrum. *)
  Definition lstsq (robust : bool) (data : list (R * R)) (fc n gamma : R) : R * R :=
    let y := map (fun p => ln (snd p) - ln (source_model (fst p) 1 fc n gamma)) data in
    let m := if robust then rlm1 y else rsum y / INR (length y) in
    (exp m, mean_square (map (fun v => v - m) y)).

  (** source.py:113-125: M0, b and the mean squared residual *)
  Definition lstsqab (robust : bool) (data : list (R * R)) (fc a : R) : R * R * R :=
    let y := map (fun p => ln (snd p)) data in
    let x := map (fun p => ln (source_model_ab (fst p) 1 fc a 1)) data in
    let (p0, p1) := lin2 robust y x in
    (exp p0, p1, mean_square (map (fun q => fst q - (p0 + p1 * snd q)) (combine y x))).

  (** the dictionary returned by lstsq without opt, source.py:111 *)
  Definition lstsq_dict (r : R * R) : fitdict :=
    [("M0", Some (fst r)); ("fit_error", Some (sqrt (snd r)))].

  (** the dictionary returned by lstsqab without opt, source.py:126-127 *)
  Definition lstsqab_dict (r : R * R * R) : fitdict :=
    [("M0", Some (fst (fst r))); ("b", Some (snd (fst r))); ("fit_error", Some (sqrt (snd r)))].

  (** source.py:129-132 *)
  Definition unknowns (o : fopts) : list string :=
    let fc := if isNone (o_fc o) then ["fc"] else [] in
    if isNone (o_n o) && isNone (o_gamma o) then fc ++ ["a"]
    else fc ++ (if isNone (o_n o) then ["n"] else [])
            ++ (if isNone (o_gamma o) then ["gamma"] else []).

  (** source.py:133-141: the function to minimise and the final dictionary for
      a key of [wrapper]; the scalar x of the one parameter searches is the
      first entry of the argument. *)
  Definition wrapper (robust : bool) (data : list (R * R)) (o : fopts) (key : string)
    : option ((list R -> R) * (list R -> fitdict)) :=
    let fit f := Some (fun x => snd (f x), fun x => lstsq_dict (f x)) in
    let fitab f := Some (fun x => snd (f x), fun x => lstsqab_dict (f x)) in
    let x0 (x : list R) := nth 0 x 0 in
    let x1 (x : list R) := nth 1 x 0 in
    if String.eqb key "fc" then fit (fun x => lstsq robust data (x0 x) (given (o_n o)) (given (o_gamma o)))
    else if String.eqb key "n" then fit (fun x => lstsq robust data (given (o_fc o)) (x0 x) (given (o_gamma o)))
    else if String.eqb key "gamma" then fit (fun x => lstsq robust data (given (o_fc o)) (given (o_n o)) (x0 x))
    else if String.eqb key "fcn" then fit (fun x => lstsq robust data (x0 x) (x1 x) (given (o_gamma o)))
    else if String.eqb key "fcgamma" then fit (fun x => lstsq robust data (x0 x) (given (o_n o)) (x1 x))
    else if String.eqb key "a" then fitab (fun x => lstsqab robust data (given (o_fc o)) (x0 x))
    else if String.eqb key "fca" then fitab (fun x => lstsqab robust data (x0 x) (x1 x))
    else None.

  (** source.py:142-147 *)
  Definition bounds (data : list (R * R)) (o : fopts) (u : string) : option (R * R) :=
    if String.eqb u "fc" then
      match o_fc_lim o with
      | Some l => Some l
      | None => Some (fst (hd (0, 0) data), fst (last data (0, 0)))
      end
    else if String.eqb u "n" then o_n_lim o
    else if String.eqb u "gamma" then o_gamma_lim o
    else match o_n_lim o, o_gamma_lim o with
         | Some n, Some g => Some (fst n * fst g, snd n * snd g)
         | _, _ => None
         end.

  (** source.py:148 *)
  Definition start (o : fopts) (u : string) : R :=
    if String.eqb u "fc" then o_fc0 o
    else if String.eqb u "n" then o_n0 o
    else if String.eqb u "gamma" then o_gamma0 o
    else o_gamma0 o * o_n0 o.

  (** source.py:167-171: gamma and n from a and b *)
  Definition back_transform (result : fitdict) : fitdict :=
    match dget String.eqb result "a" with
    | Some a =>
        let result := dpop String.eqb result "a" in
        let b := match dget String.eqb result "b" with Some b => b | None => None end in
        let result := dpop String.eqb result "b" in
        let result := dset String.eqb result "gamma" (option_map (fun b => 1 / b) b) in
        dset String.eqb result "n"
          (match a, b with Some a, Some b => Some (a * b) | _, _ => None end)
    | None => result
    end.

  (** source.py:92-172, methods 'fit' and 'robust_fit' on the present data *)
  Definition fit_model (robust_fit : bool) (data : list (R * R)) (o : fopts)
    : res (option fitdict) :=
    let m := length data in
    if (m =? 0)%nat || too_few (o_num_points o) m then Ok None else
    let robust := robust_fit && (o_fall_back o <=? m)%nat in
    let us := unknowns o in
    let k := length us in
    if (k =? 0)%nat then
      Ok (Some (lstsq_dict (lstsq robust data (given (o_fc o)) (given (o_n o)) (given (o_gamma o)))))
    else if (k =? 1)%nat && (1 <? m)%nat then
      let u := hd "" us in
      match wrapper robust data o u with
      | None => Err KeyError
      | Some (obj, dict) =>
          do x <- min1 (fun x => obj [x]) (bounds data o u);
          Ok (Some (back_transform (dupdate String.eqb [(u, Some x)] (dict [x]))))
      end
    else if (k <? m)%nat && (2 <=? k)%nat then
      match wrapper robust data o (String.concat "" us) with
      | None => Err KeyError
      | Some (obj, dict) =>
          do x <- minN obj (map (start o) us) (map (bounds data o) us);
          let result := dict_of String.eqb
            (map (fun iu => (snd iu, Some (nth (fst iu) x 0))) (combine (seq 0 k) us)) in
          Ok (Some (back_transform (dupdate String.eqb result (dict x))))
      end
    else Ok (Some (back_transform [])).

  (** source.py:79-90, method 'mean'; the conversion of gstat's masked mean or
      nan error is [None] *)
  Definition fit_mean (freq : list R) (omM : list (option R)) (o : fopts)
    : res (option fitdict) :=
    match o_fc o with
    | None => Err ValueError
    | Some fc =>
        let M0 := map snd (filter (fun p => rltb (fst p) fc) (present freq omM)) in
        if too_few (o_num_points o) (length M0) then Ok None
        else if (0 <? length M0)%nat then
          do me <- gstat (fun _ => (0, 0)) (map FNum M0) None false false 5;
          Ok (Some [("M0", option_map exp (fst me)); ("fit_error", snd me)])
        else Ok None
    end.

  (** source.py:49-172 *)
  Definition fit_sds (method : string) (freq : list R) (omM : list (option R)) (o : fopts)
    : res (option fitdict) :=
    if String.eqb method "mean" then fit_mean freq omM o
    else if String.eqb method "fit" then fit_model false (present freq omM) o
    else if String.eqb method "robust_fit" then fit_model true (present freq omM) o
    else Ok None.

  (** Values of an event's result dictionary, core.py:1388-1416: numbers, lists
      of numbers with missing entries, the site response dictionary. *)
  Inductive val : Type :=
  | VNone
  | VNum (x : R)
  | VList (l : list (option R))
  | VDict (d : list (string * list (option R))).

  Definition evdict := list (string * val).

  (** a number or None as dictionary value *)
  Definition vopt (x : option R) : val := match x with Some r => VNum r | None => VNone end.

  (** Python truth value of an optional number: None and 0 are false
      (source.py:194-195, 214, 217) *)
  Definition truthy (x : option R) : option R :=
    match x with Some r => if Req_EM_T r 0 then None else Some r | None => None end.

  (** [a or b] for optional numbers, source.py:192-193, 200 *)
  Definition orelse (a b : option R) : option R :=
    match truthy a with Some x => Some x | None => b end.

  (** seismic_moment_options: None, an empty dictionary or a non-empty one
      (truth values at source.py:195; ** of None at source.py:224) *)
  Inductive smo : Type := SmoNone | SmoEmpty | Smo (o : fopts).

  (** [smo or conf], source.py:195 *)
  Definition smo_or (a b : smo) : smo := match a with Smo o => Smo o | _ => b end.

  (** **smo, source.py:224 *)
  Definition smo_kwargs (a : smo) : res fopts :=
    match a with SmoNone => Err TypeError | SmoEmpty => Ok fopts_default | Smo o => Ok o end.

  (** seismic_moment_method: None, '' (both false) or a name (source.py:194, 221) *)
  Definition method_truthy (m : option string) : option string :=
    match m with Some s => if String.eqb s "" then None else Some s | None => None end.

  (** the spectrum of one frequency, source.py:216-220; [IndexError] if W is
      too short *)
  Definition sds_entry (W : list (option R)) (rho0 v0 : option R) (i : nat) (f : R)
    : res (option R) :=
    match nth_error W i with
    | None => Err IndexError
    | Some w =>
        match truthy w, truthy rho0, truthy v0 with
        | Some w, Some rho, Some v => Ok (Some (sds w f v rho))
        | _, _, _ => Ok None
        end
    end.

  (** source.py:214-215: an empty list of spectra is created *)
  Definition start_spectra (W : list (option R)) (v0 rho0 : option R) (ev : evdict) : evdict :=
    match W, truthy rho0, truthy v0 with
    | _ :: _, Some _, Some _ => dset String.eqb ev "sds" (VList [])
    | _, _, _ => ev
    end.

  (** source.py:214-220: the list of spectra is created and filled.
      Simplification: if W is too short and 'sds' is missing the class of the
      exception raised first may differ. *)
  Definition insert_spectra (freq : list R) (W : list (option R)) (v0 rho0 : option R)
    (ev : evdict) : res evdict :=
    let ev := start_spectra W v0 rho0 ev in
    match freq with
    | [] => Ok ev
    | _ =>
      do new <- mapM (fun p => sds_entry W rho0 v0 (fst p) (snd p))
                     (combine (seq 0 (length freq)) freq);
      match dget String.eqb ev "sds" with
      | Some (VList old) => Ok (dset String.eqb ev "sds" (VList (old ++ new)))
      | Some _ => Err AttributeError
      | None => Err KeyError
      end
    end.

  (** source.py:225-230: a fit result enters the dictionary *)
  Definition insert_fitresult (fitr : option fitdict) (ev : evdict) : evdict :=
    match fitr with
    | None => ev
    | Some d =>
        let ev := dupdate String.eqb ev (map (fun kv => (fst kv, vopt (snd kv))) d) in
        match dget String.eqb d "M0" with
        | Some M0 => dset String.eqb ev "Mw" (vopt (option_map moment_magnitude M0))
        | None => ev
        end
    end.

  (** source.py:231-232 *)
  Definition insert_catmag (catmag : option R) (ev : evdict) : evdict :=
    match catmag with Some c => dset String.eqb ev "Mcat" (VNum c) | None => ev end.

  (** source.py:221-232 *)
  Definition insert_fit (freq : list R) (method : option string) (so : smo)
    (catmag : option R) (ev : evdict) : res evdict :=
    match method_truthy method with
    | None => Ok ev
    | Some meth =>
        match dget String.eqb ev "sds" with
        | Some (VList omM) =>
            do o <- smo_kwargs so;
            do fitr <- fit_sds meth freq omM o;
            Ok (insert_catmag catmag (insert_fitresult fitr ev))
        | Some _ => Err TypeError
        | None => Err KeyError
        end
    end.

  (** source.py:211-232, without the final sort_dict: the event dictionary after
      the in-place changes. A missing 'W' is a KeyError. *)
  Definition insert_source_inplace (freq : list R) (ev : evdict) (v0 rho0 : option R)
    (method : option string) (so : smo) (catmag : option R) : res evdict :=
    match dget String.eqb ev "W" with
    | Some (VList W) =>
        do ev <- insert_spectra freq W v0 rho0 ev;
        insert_fit freq method so catmag ev
    | Some _ => Err TypeError
    | None => Err KeyError
    end.

  (** source.py:211-234: the changed dictionary and the sorted copy returned *)
  Definition insert_source_properties (freq : list R) (ev : evdict) (v0 rho0 : option R)
    (method : option string) (so : smo) (catmag : option R) : res (evdict * evdict) :=
    do ev <- insert_source_inplace freq ev v0 rho0 method so catmag;
    do srt <- sort_dict DUMP_ORDER ev;
    Ok (ev, srt).

  (** the keys removed before recalculation, source.py:201-206 *)
  Definition stale_keys : list string := ["sds"; "M0"; "fc"; "n"; "gamma"; "fit_error"].

  (** a number stored under a key ([r.get('v0')], source.py:200) *)
  Definition num_at (ev : evdict) (k : string) : option R :=
    match dget String.eqb ev k with Some (VNum x) => Some x | _ => None end.

  (** loop body of source.py:199-208 *)
  Definition recalc_event (freq : option (list R)) (v02 rho0 : option R)
    (method : option string) (so : smo) (r : evdict) : res evdict :=
    let v0 := orelse (num_at r "v0") v02 in
    let r := fold_left (dpop String.eqb) stale_keys r in
    match truthy v0, freq with
    | None, _ => Ok r
    | Some _, None => Err TypeError
    | Some _, Some freq =>
        do p <- insert_source_properties freq r v0 rho0 method so None;
        Ok (fst p)
    end.

  (** the entries of results['config'] read at source.py:191-195 *)
  Record srcconf := {
    c_rho0 : option R; c_v0 : option R; c_method : option string; c_smo : smo }.

  (** source.py:187-208: the events after recalculation.  The arguments are
      given as None when absent; [method_truthy] is "x or y" for strings. *)
  Definition calculate_source_properties (freq : option (list R))
    (conf : srcconf) (events : list (string * evdict))
    (rh0 v0 : option R) (method : option string) (so : smo)
    : res (list (string * evdict)) :=
    let rho0 := orelse rh0 (c_rho0 conf) in
    let v02 := orelse v0 (c_v0 conf) in
    let smm := match method_truthy method with Some m => Some m | None => c_method conf end in
    let so := smo_or so (c_smo conf) in
    match truthy rho0 with
    | None => Ok events
    | Some _ =>
        mapM (fun kr => do r <- recalc_event freq v02 rho0 smm so (snd kr); Ok (fst kr, r)) events
    end.
End Fit.
