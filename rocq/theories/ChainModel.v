(** Model of the way from the streams to the results, /repo/qopen/core.py:493-1024
    and 1318-1427: the parts of invert_fb (FbModel.v, LsqfbModel.v) one after the
    other in each frequency band, then the arrangement of the results and the
    source parameters (InvModel.v, SourceModel.v). *)
From Coq Require Import String List Bool Reals ZArith Arith.
From Verif Require Import Base Pyf PyfOps FbModel LsqfbModel SourceModel InvModel.
Import ListNotations.
Open Scope string_scope.
Open Scope list_scope.
Open Scope R_scope.

(** The arguments of invert_fb that are the same for all bands, core.py:493-512; W is the
    type of the window options, S that of the samples of a stream. *)
Record cenv (W S : Type) := {
  ce_filtered : stream S -> bandfilter -> res S;
  ce_width : R -> bandfilter -> res R;
  ce_free_surface : fsopt;
  ce_borehole : list string;
  ce_observed : stream S -> S -> R -> R -> res etrace;
  ce_select : fbopts W;
  ce_v0 : option R;
  ce_coda_norm : bool;
  ce_R0 : R;
  ce_b_bounds : option (R * R);
  ce_g0_bounds : option (R * R);
  ce_optimize : bool;
  ce_plot_optimization : bool;
  ce_num : Z;
  ce_gcoda : R -> R -> list R -> pyf -> res (list pyf);    (* Gsmooth(G_func, r, t, v0, g0), v0 first *)
  ce_gbulk : R -> R -> R * R -> pyf -> res pyf;            (* the same for np.mean(G_func(...)) *)
  ce_wls : list pyf -> list (list pyf) -> option (list R) -> res (list pyf * pyf);
  ce_optim : optim }.
Arguments ce_filtered {W S}. Arguments ce_width {W S}. Arguments ce_free_surface {W S}.
Arguments ce_borehole {W S}. Arguments ce_observed {W S}. Arguments ce_select {W S}.
Arguments ce_v0 {W S}. Arguments ce_coda_norm {W S}. Arguments ce_R0 {W S}.
Arguments ce_b_bounds {W S}. Arguments ce_g0_bounds {W S}. Arguments ce_optimize {W S}.
Arguments ce_plot_optimization {W S}. Arguments ce_num {W S}. Arguments ce_gcoda {W S}.
Arguments ce_gbulk {W S}. Arguments ce_wls {W S}. Arguments ce_optim {W S}.

Section Chain.
  Context {W S : Type}.
  Variable env : cenv W S.

  (** fix_sites_params[freq_band] for the selection of stations, core.py:552-557 *)
  Definition band_sites (kw : fixkw pyf) (band : R * R) : option (option (list (string * pyf))) :=
    match kw_fix_sites kw with
    | None => None
    | Some d => Some (dget band_eqb d band)
    end.

  (** the energies of a band, core.py:543-582 *)
  Definition band_energies (kw : fixkw pyf) (band : R * R) (streams : list (stream S)) : res (list etrace) :=
    stream_energies (fst band) (snd band) (band_sites kw band) (ce_filtered env) (ce_width env)
      (ce_free_surface env) (ce_borehole env) (ce_observed env) streams.

  (** the options of the inversion, core.py:768-942.  A band missing in fix_sites_params
      has raised a KeyError before (core.py:554). *)
  Definition band_opts (kw : fixkw pyf) (band : R * R) (v0 : R) : lopts :=
    {| l_coda_norm := ce_coda_norm env;
       l_fix := match kw_fix kw with Some _ => true | None => false end;
       l_fix_sites := match band_sites kw band with
                      | None => None
                      | Some None => Some []
                      | Some (Some p) => Some p
                      end;
       l_fix_params := match kw_fix kw with Some d => dget band_eqb d band | None => None end;
       l_R0 := ce_R0 env; l_b_bounds := ce_b_bounds env; l_g0_bounds := ce_g0_bounds env;
       l_bulk := match o_bulk_window (ce_select env) with Some _ => true | None => false end;
       l_optimize := ce_optimize env; l_plot_optimization := ce_plot_optimization env;
       l_num := ce_num env; l_gcoda := ce_gcoda env v0; l_gbulk := ce_gbulk env v0;
       l_wls := ce_wls env; l_optim := ce_optim env |}.

  (** invert_fb, core.py:493-1024: None without result *)
  Definition invert_fb (kw : fixkw pyf) (band : R * R) (streams : list (stream S)) : res (option (bandres pyf)) :=
    match streams with
    | [] => Ok None
    | _ =>
        do es <- band_energies kw band streams;
        do d <- select_data (ce_select env) (ce_v0 env) es;
        match d with
        | None => Ok None
        | Some (st, v0) =>
            do r <- invert_band (band_opts kw band v0) st v0;
            Ok (option_map bandres_of (fst r))
        end
    end.

  (** the number behind a float of the result *)
  Definition finite_value (x : option pyf) : option R :=
    match x with Some (FNum r) => Some r | _ => None end.

  (** core.py:1405-1411: the dictionary of an event with its list W.  Simplification:
      nan and inf count as None (SourceModel.v has numbers only). *)
  Definition chain_W (l : list (option pyf)) : evdict := event_W (map finite_value l).

  (** core.py:1326-1427 for njobs = 1.  [after] are the streams after the in-place changes
      of invert_fb (core.py:566-567); the first four arguments of event_source are the
      optimisers of source.py.  The option ignore_network_code is off. *)
  Definition invert_streams (after : fixkw pyf -> R * R -> list (stream S) -> list (stream S))
      rlm1 lin2 min1 minN (rho0 : option R) (method : option string) (so : smo) (mags : string -> option R)
      (cmd : command) (input : option (finput pyf)) (stations events : list string) (freq_bands : bands)
      (streams : list (stream S)) : res (option (list (string * rval pyf evdict))) :=
    invert_rest cmd (ce_coda_norm env) false (fun f => run_serial f)
      (fun kw band s => (after kw band s, invert_fb kw band s)) chain_W
      (event_source rlm1 lin2 min1 minN rho0 method so mags) input stations events freq_bands streams.
End Chain.
