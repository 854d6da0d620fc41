(** Properties C110 and C111: from the streams to the results.  Theorems only. *)
From Coq Require Import String List Bool Reals ZArith.
From Verif Require Import Base Pyf PyfOps FbModel LsqfbModel LsqfbSpec SourceModel SourceSpec InvModel ChainModel ChainSpec ChainProof3 ChainProof4 ChainEx2.
Import ListNotations.
Open Scope string_scope.
Open Scope list_scope.
Open Scope R_scope.

(** C110: if the energies observed in each band are W R G exp(-b t) and the g0 found are the
    true ones, command go returns in each band with a result the true b, the true site
    responses and source terms of exactly the stations and events used there, with error 0,
    and None elsewhere. *)
Theorem C110_go : forall W S (env : cenv W S) streams, own_objects env streams -> proper env ->
  forall site source b g0 stations events freq_bands after rlm1 lin2 min1 minN rho0 method so mags input r,
  NoDup stations -> NoDup events ->
  synthetic_streams env no_sites freq_bands streams g0 site source b ->
  one_scale env freq_bands streams site ->
  (forall f band st v, In (f, band) freq_bands -> used env None band streams st v -> two_times st) ->
  invert_streams env after rlm1 lin2 min1 minN rho0 method so mags Go input stations events freq_bands streams = Ok (Some r) ->
  found_g0 r freq_bands g0 ->
  exists l, lists_in r true true (map fst freq_bands) stations events l /\
    true_results true true site source b stations events freq_bands (fun _ band => used env None band streams) l.
Proof. exact @go_all. Qed.
Print Assumptions C110_go.

Example C110_go_ex : forall after rlm1 lin2 min1 minN, own_objects env_c streams_c /\ proper env_c /\
  NoDup ["A"; "B"] /\ NoDup ["e1"; "e2"] /\
  synthetic_streams env_c no_sites bands_c streams_c (fun _ => FNum g_c) site_c source_c b_c /\
  one_scale env_c bands_c streams_c site_c /\
  (forall f band st v, In (f, band) bands_c -> used env_c None band streams_c st v -> two_times st) /\
  exists r, invert_streams env_c after rlm1 lin2 min1 minN (Some 2700) (Some "fit") (Smo fo_c) (fun _ => None) Go None
      ["A"; "B"] ["e1"; "e2"] bands_c streams_c = Ok (Some r) /\ found_g0 r bands_c (fun _ => FNum g_c).
Proof.
  intros. destruct (go_c rlm1 lin2 min1 minN after) as (r & H & G & _).
  exact (conj own_c (conj proper_c (conj (proj1 streams_nodup) (conj (proj2 streams_nodup)
    (conj (synthetic_c no_sites (fun _ s E => eq_ind_r both both_none E)) (conj scale_c (conj twice_c (ex_intro _ r (conj H G))))))))).
Qed.

(** C110: with the true g0 and b as input, command fixed returns the true site responses and
    source terms in the same way. *)
Theorem C110_fixed : forall W S (env : cenv W S) streams, own_objects env streams -> proper env ->
  forall site source b g0 stations events freq_bands after rlm1 lin2 min1 minN rho0 method so mags fp r,
  NoDup stations -> NoDup events -> no_duplicates freq_bands fp -> true_input fp g0 b ->
  synthetic_streams env no_sites freq_bands streams g0 site source b ->
  one_scale env freq_bands streams site ->
  invert_streams env after rlm1 lin2 min1 minN rho0 method so mags Fixed (Some fp) stations events freq_bands streams = Ok (Some r) ->
  exists l, lists_in r false true (map fst freq_bands) stations events l /\
    true_results false true site source b stations events freq_bands (fun _ band => used env None band streams) l.
Proof. exact @fixed_all. Qed.
Print Assumptions C110_fixed.

Example C110_fixed_ex : forall after rlm1 lin2 min1 minN, own_objects env_c streams_c /\ proper env_c /\
  NoDup ["A"; "B"] /\ NoDup ["e1"; "e2"] /\ no_duplicates bands_c input_c /\ true_input input_c (fun _ => FNum g_c) b_c /\
  synthetic_streams env_c no_sites bands_c streams_c (fun _ => FNum g_c) site_c source_c b_c /\
  one_scale env_c bands_c streams_c site_c /\
  exists r, invert_streams env_c after rlm1 lin2 min1 minN (Some 2700) (Some "fit") (Smo fo_c) (fun _ => None) Fixed (Some input_c)
      ["A"; "B"] ["e1"; "e2"] bands_c streams_c = Ok (Some r).
Proof.
  intros. destruct (fixed_c rlm1 lin2 min1 minN after) as (r & H & _).
  exact (conj own_c (conj proper_c (conj (proj1 streams_nodup) (conj (proj2 streams_nodup) (conj nodup_c (conj input_true
    (conj (synthetic_c no_sites (fun _ s E => eq_ind_r both both_none E)) (conj scale_c (ex_intro _ r H))))))))).
Qed.

(** C110: with the true site responses as further input, command source returns the true
    source terms, whether or not the stations are connected. *)
Theorem C110_source : forall W S (env : cenv W S) streams, own_objects env streams -> proper env ->
  forall site source b g0 stations events freq_bands after rlm1 lin2 min1 minN rho0 method so mags fp r,
  NoDup stations -> NoDup events -> no_duplicates freq_bands fp -> true_input fp g0 b -> true_sites fp site ->
  synthetic_streams env (input_sites fp) freq_bands streams g0 site source b ->
  invert_streams env after rlm1 lin2 min1 minN rho0 method so mags Source (Some fp) stations events freq_bands streams = Ok (Some r) ->
  exists l, lists_in r false false (map fst freq_bands) stations events l /\
    true_results false false site source b stations events freq_bands
      (fun f band st v => exists p, sites_at fp f p /\ used env (Some p) band streams st v) l.
Proof. exact @source_all. Qed.
Print Assumptions C110_source.

Example C110_source_ex : forall after rlm1 lin2 min1 minN, own_objects env_c streams_c /\ proper env_c /\
  NoDup ["A"; "B"] /\ NoDup ["e1"; "e2"] /\ no_duplicates bands_c input_c /\ true_input input_c (fun _ => FNum g_c) b_c /\
  true_sites input_c site_c /\
  synthetic_streams env_c (input_sites input_c) bands_c streams_c (fun _ => FNum g_c) site_c source_c b_c /\
  exists r, invert_streams env_c after rlm1 lin2 min1 minN (Some 2700) (Some "fit") (Smo fo_c) (fun _ => None) Source (Some input_c)
      ["A"; "B"] ["e1"; "e2"] bands_c streams_c = Ok (Some r).
Proof.
  intros. destruct (source_run_c rlm1 lin2 min1 minN after) as (r & H & _).
  exact (conj own_c (conj proper_c (conj (proj1 streams_nodup) (conj (proj2 streams_nodup) (conj nodup_c (conj input_true
    (conj sites_true (conj (synthetic_c _ input_both) (ex_intro _ r H))))))))).
Qed.

(** C111: if moreover the source terms have displacement spectra of the source model with the
    configured corner frequency, n and gamma, command go returns the true moment, moment
    magnitude 2/3 log10(M0) - 6.07 and fit error 0 for every event used in enough bands. *)
Theorem C111_go : forall W S (env : cenv W S) streams, own_objects env streams -> proper env ->
  forall site source b g0 stations events freq_bands after rlm1 lin2 min1 minN M fc n g v rho o mags,
  v <> 0 -> rho <> 0 -> o_fc o = Some fc -> o_n o = Some n -> o_gamma o = Some g ->
  model_source (map fst freq_bands) events source M fc n g v rho ->
  NoDup stations -> NoDup events -> forall input r,
  synthetic_streams env no_sites freq_bands streams g0 site source b ->
  one_scale env freq_bands streams site ->
  (forall f band st v, In (f, band) freq_bands -> used env None band streams st v -> two_times st) ->
  invert_streams env after rlm1 lin2 min1 minN (Some rho) (Some "fit") (Smo o) mags Go input stations events freq_bands streams = Ok (Some r) ->
  found_g0 r freq_bands g0 -> dget String.eqb r "v0" = Some (RV0 v) ->
  exists l, lists_in r true true (map fst freq_bands) stations events l /\
    true_results true true site source b stations events freq_bands (fun _ band => used env None band streams) l /\
    true_moments r events l (o_num_points o) M.
Proof. exact @go_moments. Qed.
Print Assumptions C111_go.

Example C111_go_ex : forall after rlm1 lin2 min1 minN, (3 <> 0 /\ 2700 <> 0) /\
  (o_fc fo_c = Some 2 /\ o_n fo_c = Some 2 /\ o_gamma fo_c = Some 1) /\
  model_source (map fst bands_c) ["e1"; "e2"] source_c M_c 2 2 1 3 2700 /\
  exists r, invert_streams env_c after rlm1 lin2 min1 minN (Some 2700) (Some "fit") (Smo fo_c) (fun _ => None) Go None
      ["A"; "B"] ["e1"; "e2"] bands_c streams_c = Ok (Some r) /\ found_g0 r bands_c (fun _ => FNum g_c) /\
    dget String.eqb r "v0" = Some (RV0 3).
Proof.
  intros. exact (conj nonzero_c (conj (conj eq_refl (conj eq_refl eq_refl)) (conj model_c (go_c rlm1 lin2 min1 minN after)))).
Qed.

(** C111: the same for command source. *)
Theorem C111_source : forall W S (env : cenv W S) streams, own_objects env streams -> proper env ->
  forall site source b g0 stations events freq_bands after rlm1 lin2 min1 minN M fc n g v rho o mags,
  v <> 0 -> rho <> 0 -> o_fc o = Some fc -> o_n o = Some n -> o_gamma o = Some g ->
  model_source (map fst freq_bands) events source M fc n g v rho ->
  NoDup stations -> NoDup events -> forall fp r,
  no_duplicates freq_bands fp -> true_input fp g0 b -> true_sites fp site ->
  synthetic_streams env (input_sites fp) freq_bands streams g0 site source b ->
  invert_streams env after rlm1 lin2 min1 minN (Some rho) (Some "fit") (Smo o) mags Source (Some fp) stations events freq_bands streams = Ok (Some r) ->
  dget String.eqb r "v0" = Some (RV0 v) ->
  exists l, lists_in r false false (map fst freq_bands) stations events l /\
    true_results false false site source b stations events freq_bands
      (fun f band st v => exists p, sites_at fp f p /\ used env (Some p) band streams st v) l /\
    true_moments r events l (o_num_points o) M.
Proof. exact @source_moments. Qed.
Print Assumptions C111_source.

Example C111_source_ex : forall after rlm1 lin2 min1 minN, (3 <> 0 /\ 2700 <> 0) /\
  (o_fc fo_c = Some 2 /\ o_n fo_c = Some 2 /\ o_gamma fo_c = Some 1) /\
  model_source (map fst bands_c) ["e1"; "e2"] source_c M_c 2 2 1 3 2700 /\
  synthetic_streams env_c (input_sites input_c) bands_c streams_c (fun _ => FNum g_c) site_c source_c b_c /\
  exists r, invert_streams env_c after rlm1 lin2 min1 minN (Some 2700) (Some "fit") (Smo fo_c) (fun _ => None) Source (Some input_c)
      ["A"; "B"] ["e1"; "e2"] bands_c streams_c = Ok (Some r) /\ dget String.eqb r "v0" = Some (RV0 3).
Proof.
  intros. exact (conj nonzero_c (conj (conj eq_refl (conj eq_refl eq_refl)) (conj model_c
    (conj (synthetic_c _ input_both) (source_run_c rlm1 lin2 min1 minN after))))).
Qed.

(** C111: the velocity among the results, with which the source spectra of all bands are
    calculated, is the configured one or else that of the last band with a result. *)
Theorem C111_velocity : forall W S (env : cenv W S) streams, own_objects env streams -> proper env ->
  forall stations events freq_bands after rlm1 lin2 min1 minN rho0 method so mags cmd input r,
  NoDup stations -> NoDup events ->
  invert_streams env after rlm1 lin2 min1 minN rho0 method so mags cmd input stations events freq_bands streams = Ok (Some r) ->
  exists v, last_velocity env r freq_bands streams v.
Proof. exact @velocity. Qed.
Print Assumptions C111_velocity.

Example C111_velocity_ex : forall after rlm1 lin2 min1 minN, own_objects env_c streams_c /\ proper env_c /\
  NoDup ["A"; "B"] /\ NoDup ["e1"; "e2"] /\
  exists r, invert_streams env_c after rlm1 lin2 min1 minN (Some 2700) (Some "fit") (Smo fo_c) (fun _ => None) Source (Some input_c)
      ["A"; "B"] ["e1"; "e2"] bands_c streams_c = Ok (Some r) /\ dget String.eqb r "v0" = Some (RV0 3).
Proof.
  intros. exact (conj own_c (conj proper_c (conj (proj1 streams_nodup) (conj (proj2 streams_nodup) (source_run_c rlm1 lin2 min1 minN after))))).
Qed.
