(** Specification of the way from the streams to the results. *)
From Coq Require Import String List Bool Reals ZArith.
From Verif Require Import Base Pyf PyfOps FbModel LsqfbModel LsqfbSpec SourceModel SourceSpec InvModel ChainModel.
Import ListNotations.
Open Scope string_scope.
Open Scope list_scope.
Open Scope R_scope.

(** every stream is an object of its own and hands its identity on to its energy *)
Definition own_objects {W S} (env : cenv W S) (streams : list (stream S)) : Prop :=
  NoDup (map s_uid streams) /\
  forall s d df fs e, In s streams -> ce_observed env s d df fs = Ok e -> uid e = s_uid s.

(** st are the observations used in a band, with velocity v; sites are the fixed site
    responses, if any *)
Definition used {W S} (env : cenv W S) (sites : option (list (string * pyf))) (band : R * R)
    (streams : list (stream S)) (st : wstate) (v : R) : Prop :=
  exists es, stream_energies (fst band) (snd band) (option_map Some sites) (ce_filtered env) (ce_width env)
      (ce_free_surface env) (ce_borehole env) (ce_observed env) streams = Ok es /\
    select_data (ce_select env) (ce_v0 env) es = Ok (Some (st, v)).

(** the energies are W R G exp(-b t) with the Green's functions of the configuration *)
Definition synthetic_data {W S} (env : cenv W S) (st : wstate) (v : R) (g0 : pyf)
    (site source : string -> R) (b : R) : Prop :=
  (forall i p r t e gs, nth_error (pairs st) i = Some p -> dget pair_eqb (w_distances st) p = Some r ->
     nth_error (w_tcoda st) i = Some t -> nth_error (w_ecoda st) i = Some e ->
     ce_gcoda env v r t g0 = Ok gs ->
     Forall2 (fun te g => synthetic site source b (p, te) g) (combine (map FNum t) e) gs) /\
  (forall i p r w t e g, nth_error (pairs st) i = Some p -> dget pair_eqb (w_distances st) p = Some r ->
     dget pair_eqb (w_tbulk_window st) p = Some w ->
     nth_error (w_tbulk st) i = Some t -> nth_error (w_ebulk st) i = Some e ->
     ce_gbulk env v r w g0 = Ok g -> synthetic site source b (p, (t, e)) g).

(** the weight of the bulk values is positive *)
Definition positive_weight {W} (o : fbopts W) : Prop := forall c u, o_weight o = Some (c, u) -> 0 < c.

(** an entry of a list of results: the true value for those present, None for the others *)
Definition entry {A} (l : list (option A)) (i : nat) (present : Prop) (truth : A) : Prop :=
  present /\ nth_error l i = Some (Some truth) \/ ~ present /\ nth_error l i = Some None.

(** The lists of a result: errors, attenuation, site responses by station, source terms by
    event. *)
Record lists := {
  ls_error : list (option pyf); ls_b : list (option pyf);
  ls_R : string -> list (option pyf); ls_W : string -> list (option R) }.

(** l are the lists in the dictionary r; those of b and R only if they are not fixed *)
Definition lists_in (r : list (string * rval pyf evdict)) (free_b free_R : bool) (freq : list R)
    (stations events : list string) (l : lists) : Prop :=
  dget String.eqb r "freq" = Some (RFreq freq) /\
  (dget String.eqb r "error" = Some (RNums (ls_error l)) /\ List.length (ls_error l) = List.length freq) /\
  (free_b = true -> dget String.eqb r "b" = Some (RNums (ls_b l)) /\ List.length (ls_b l) = List.length freq) /\
  (free_R = true -> exists d, dget String.eqb r "R" = Some (RSites d) /\
     forall sta, In sta stations ->
       dget String.eqb d sta = Some (ls_R l sta) /\ List.length (ls_R l sta) = List.length freq) /\
  exists d, dget String.eqb r "events" = Some (REvents d) /\
    forall ev, In ev events -> exists e, dget String.eqb d ev = Some e /\
      dget String.eqb e "W" = Some (VList (ls_W l ev)) /\ List.length (ls_W l ev) = List.length freq.

(** Entry i of the lists are the true values for exactly the stations and events among the
    pairs ps. *)
Definition true_entries (free_b free_R : bool) (site source : string -> R) (b : R) (stations events : list string)
    (ps : list (string * string)) (l : lists) (i : nat) : Prop :=
  nth_error (ls_error l) i = Some (Some (FNum 0)) /\
  (free_b = true -> nth_error (ls_b l) i = Some (Some (FNum b))) /\
  (free_R = true -> forall sta, In sta stations -> entry (ls_R l sta) i (In sta (map snd ps)) (FNum (site sta))) /\
  (forall ev, In ev events -> entry (ls_W l ev) i (In ev (map fst ps)) (source ev)).

(** there is no entry i *)
Definition no_entries (free_b free_R : bool) (stations events : list string) (l : lists) (i : nat) : Prop :=
  nth_error (ls_error l) i = Some None /\
  (free_b = true -> nth_error (ls_b l) i = Some None) /\
  (free_R = true -> forall sta, In sta stations -> nth_error (ls_R l sta) i = Some None) /\
  (forall ev, In ev events -> nth_error (ls_W l ev) i = Some None).

(** The results are true in each band with a result; st and v (for which U holds) are the
    observations used there. *)
Definition true_results (free_b free_R : bool) (site source : R -> string -> R) (b : R -> R) (stations events : list string)
    (freq_bands : list (R * (R * R))) (U : R -> R * R -> wstate -> R -> Prop) (l : lists) : Prop :=
  forall i f band, nth_error freq_bands i = Some (f, band) ->
    no_entries free_b free_R stations events l i \/
    exists st v, U f band st v /\ true_entries free_b free_R (site f) (source f) (b f) stations events (pairs st) l i.

(** the site responses of the input at frequency f *)
Definition sites_at (fp : finput pyf) (f : R) (s : list (string * pyf)) : Prop :=
  exists i, nth_error (fi_freq fp) i = Some f /\
    forall sta x, dget String.eqb s sta = Some x <->
      exists l, dget String.eqb (fi_R fp) sta = Some l /\ nth_error l i = Some (Some x).

(** the attenuation parameters of the input are the true ones, where there are any *)
Definition true_input (fp : finput pyf) (g0 : R -> pyf) (b : R -> R) : Prop :=
  List.length (fi_g0 fp) = List.length (fi_freq fp) /\ List.length (fi_b fp) = List.length (fi_freq fp) /\
  forall i f, nth_error (fi_freq fp) i = Some f ->
    (forall x, nth_error (fi_g0 fp) i = Some (Some x) -> x = g0 f) /\
    (forall x, nth_error (fi_b fp) i = Some (Some x) -> x = FNum (b f)).

(** A configuration for which the results are the true ones: a least squares solver,
    positive weights, scale and bounds, no coda normalisation. *)
Definition proper {W S} (env : cenv W S) : Prop :=
  least_squares (ce_wls env) /\ positive_weight (ce_select env) /\ ce_coda_norm env = false /\ 0 < ce_R0 env /\
  positive_bounds (ce_b_bounds env) /\ positive_bounds (ce_g0_bounds env).

(** The energies used in each band are synthetic, with positive site responses and source
    terms; sites are the fixed site responses at a frequency. *)
Definition synthetic_streams {W S} (env : cenv W S) (sites : R -> option (list (string * pyf)) -> Prop)
    (freq_bands : list (R * (R * R))) (streams : list (stream S))
    (g0 : R -> pyf) (site source : R -> string -> R) (b : R -> R) : Prop :=
  forall f band s st v, In (f, band) freq_bands -> sites f s -> used env s band streams st v ->
    positive_on (map snd (pairs st)) (site f) /\ positive_on (map fst (pairs st)) (source f) /\
    synthetic_data env st v (g0 f) (site f) (source f) (b f).

(** In each band the stations are connected by common events and their site responses have
    mean R0, which tells site responses and source terms apart. *)
Definition one_scale {W S} (env : cenv W S) (freq_bands : list (R * (R * R))) (streams : list (stream S))
    (site : R -> string -> R) : Prop :=
  forall f band st v, In (f, band) freq_bands -> used env None band streams st v ->
    one_network st /\ mean_site st (site f) (ce_R0 env).

(** no site responses are fixed *)
Definition no_sites (_ : R) (s : option (list (string * pyf))) : Prop := s = None.
(** those of the input are *)
Definition input_sites (fp : finput pyf) (f : R) (s : option (list (string * pyf))) : Prop :=
  exists p, s = Some p /\ sites_at fp f p.

(** the present values of g0 among the results are the true ones *)
Definition found_g0 (r : list (string * rval pyf evdict)) (freq_bands : list (R * (R * R))) (g0 : R -> pyf) : Prop :=
  forall l i f band g, dget String.eqb r "g0" = Some (RNums l) -> nth_error freq_bands i = Some (f, band) ->
    nth_error l i = Some (Some g) -> g = g0 f.

(** the site responses of the input are the true ones, where there are any *)
Definition true_sites (fp : finput pyf) (site : R -> string -> R) : Prop :=
  forall i f sta l x, nth_error (fi_freq fp) i = Some f -> dget String.eqb (fi_R fp) sta = Some l ->
    nth_error l i = Some (Some x) -> x = FNum (site f sta).

(** a Python dictionary or list of distinct frequencies *)
Definition no_duplicates (freq_bands : list (R * (R * R))) (fp : finput pyf) : Prop :=
  NoDup (map fst freq_bands) /\ NoDup (map snd freq_bands) /\ NoDup (fi_freq fp) /\ NoDup (map fst (fi_R fp)).

(** the number of values present in a list *)
Definition number_present {A} (l : list (option A)) : nat :=
  List.length (filter (fun x => match x with Some _ => true | None => false end) l).

(** The source terms of the events with moments M have the displacement spectrum of the
    source model with parameters fc, n and g, for velocity v and density rho. *)
Definition model_source (freq : list R) (events : list string) (source : R -> string -> R) (M : string -> R)
    (fc n g v rho : R) : Prop :=
  forall ev, In ev events -> 0 < M ev /\
    forall f, In f freq -> sds (source f ev) f v rho = abercrombie (M ev) fc n g f.

(** The events with source terms in enough bands have their moment, a fit without error and
    moment magnitude 2/3 log10(M0) - 6.07. *)
Definition true_moments (r : list (string * rval pyf evdict)) (events : list string) (l : lists) (num : option nat)
    (M : string -> R) : Prop :=
  forall ev, In ev events -> (0 < number_present (ls_W l ev))%nat ->
    (forall k, num = Some k -> (k <= number_present (ls_W l ev))%nat) ->
    exists d e, dget String.eqb r "events" = Some (REvents d) /\ dget String.eqb d ev = Some e /\
      dget String.eqb e "M0" = Some (VNum (M ev)) /\ dget String.eqb e "fit_error" = Some (VNum 0) /\
      dget String.eqb e "Mw" = Some (VNum (2 / 3 * (ln (M ev) / ln 10) - 607 / 100)).

(** v is the velocity in r; the configured one or else that of the last band with a result *)
Definition last_velocity {W S} (env : cenv W S) (r : list (string * rval pyf evdict)) (freq_bands : list (R * (R * R)))
    (streams : list (stream S)) (v : R) : Prop :=
  dget String.eqb r "v0" = Some (RV0 v) /\ (forall x, ce_v0 env = Some x -> v = x) /\
  exists i f band s st l e, nth_error freq_bands i = Some (f, band) /\ used env s band streams st v /\
    dget String.eqb r "error" = Some (RNums l) /\ nth_error l i = Some (Some e) /\
    forall j x, (i < j)%nat -> nth_error l j = Some x -> x = None.
