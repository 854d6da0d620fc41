(** Property C113: from the samples of the energies to the results.  Theorems only. *)
From Coq Require Import String List Bool Reals ZArith.
From Verif Require Import Base Pyf PyfOps FbModel LsqfbModel LsqfbSpec SourceModel InvModel ChainModel ChainSpec ChainSpec2 ChainProof5 ChainEx2 ChainEx3.
Import ListNotations.
Open Scope string_scope.
Open Scope list_scope.
Open Scope R_scope.

(** C113: if every sample of the observed energies after the S onset is W R G exp(-b t), t
    being its lapse time, plus constant noise that is removed, then the observations used are
    synthetic with the same parameters, whichever windows the coda is cut to. *)
Theorem C113_observations : forall W S (env : cenv W S) streams freq_bands v G g0 site source b n sites,
  own_objects env streams -> own_pairs env streams -> ce_v0 env = Some v ->
  (forall f band, In (f, band) freq_bands -> plain (ce_select env) (observed_in env streams band)) ->
  synthetic_energies env freq_bands streams v G site source b n ->
  (forall f band, In (f, band) freq_bands -> pointwise env v (g0 f) (G f)) ->
  synthetic_streams env sites freq_bands streams g0 site source b.
Proof. exact @synthetic_from_energies. Qed.
Print Assumptions C113_observations.

Example C113_observations_ex : own_objects env_n streams_c /\ own_pairs env_n streams_c /\ ce_v0 env_n = Some 3 /\
  (forall f band, In (f, band) bands_c -> plain (ce_select env_n) (observed_in env_n streams_c band)) /\
  synthetic_energies env_n bands_c streams_c 3 (fun _ _ _ => 1) site_c source_c b_c noise_n /\
  (forall f band, In (f, band) bands_c -> pointwise env_n 3 (FNum g_c) (fun _ _ => 1)) /\
  noise_n 1 ("e1", "A") <> 0 /\
  exists st, used env_n None (band_c false) [stream_c 1 "e1" "A" 100] st 3 /\ pairs st = [("e1", "A")].
Proof.
  exact (conj own_n (conj own_pairs_n (conj eq_refl (conj plain_n (conj synthetic_energies_n (conj pointwise_n used_n)))))).
Qed.

(** C113: command go returns the true attenuation, site responses and source terms for such
    energies, if the g0 found are the true ones. *)
Theorem C113_go : forall W S (env : cenv W S) streams site source b g0 G v n stations events freq_bands,
  own_objects env streams -> own_pairs env streams -> proper env -> ce_v0 env = Some v ->
  (forall f band, In (f, band) freq_bands -> plain (ce_select env) (observed_in env streams band)) ->
  synthetic_energies env freq_bands streams v G site source b n ->
  (forall f band, In (f, band) freq_bands -> pointwise env v (g0 f) (G f)) ->
  NoDup stations -> NoDup events ->
  forall after rlm1 lin2 min1 minN rho0 method so mags input r,
  one_scale env freq_bands streams site ->
  (forall f band st v, In (f, band) freq_bands -> used env None band streams st v -> two_times st) ->
  invert_streams env after rlm1 lin2 min1 minN rho0 method so mags Go input stations events freq_bands streams = Ok (Some r) ->
  found_g0 r freq_bands g0 ->
  exists l, lists_in r true true (map fst freq_bands) stations events l /\
    true_results true true site source b stations events freq_bands (fun _ band => used env None band streams) l.
Proof. exact @energies_go. Qed.
Print Assumptions C113_go.

Example C113_go_ex : forall after rlm1 lin2 min1 minN, own_objects env_c streams_c /\ own_pairs env_c streams_c /\ proper env_c /\
  ce_v0 env_c = Some 3 /\
  (forall f band, In (f, band) bands_c -> plain (ce_select env_c) (observed_in env_c streams_c band)) /\
  synthetic_energies env_c bands_c streams_c 3 (fun _ _ _ => 1) site_c source_c b_c (fun _ _ => 0) /\
  (forall f band, In (f, band) bands_c -> pointwise env_c 3 (FNum g_c) (fun _ _ => 1)) /\
  NoDup ["A"; "B"] /\ NoDup ["e1"; "e2"] /\
  one_scale env_c bands_c streams_c site_c /\
  (forall f band st v, In (f, band) bands_c -> used env_c None band streams_c st v -> two_times st) /\
  exists r, invert_streams env_c after rlm1 lin2 min1 minN (Some 2700) (Some "fit") (Smo fo_c) (fun _ => None) Go None
      ["A"; "B"] ["e1"; "e2"] bands_c streams_c = Ok (Some r) /\ found_g0 r bands_c (fun _ => FNum g_c).
Proof.
  intros. destruct (go_c rlm1 lin2 min1 minN after) as (r & H & G & _).
  exact (conj own_c (conj own_pairs_c (conj proper_c (conj eq_refl (conj plain_c (conj synthetic_energies_c (conj pointwise_c
    (conj (proj1 streams_nodup) (conj (proj2 streams_nodup) (conj scale_c (conj twice_c (ex_intro _ r (conj H G))))))))))))).
Qed.

(** C113: command fixed returns the true site responses and source terms for such energies,
    with the true g0 and b as input. *)
Theorem C113_fixed : forall W S (env : cenv W S) streams site source b g0 G v n stations events freq_bands,
  own_objects env streams -> own_pairs env streams -> proper env -> ce_v0 env = Some v ->
  (forall f band, In (f, band) freq_bands -> plain (ce_select env) (observed_in env streams band)) ->
  synthetic_energies env freq_bands streams v G site source b n ->
  (forall f band, In (f, band) freq_bands -> pointwise env v (g0 f) (G f)) ->
  NoDup stations -> NoDup events ->
  forall after rlm1 lin2 min1 minN rho0 method so mags fp r,
  no_duplicates freq_bands fp -> true_input fp g0 b ->
  one_scale env freq_bands streams site ->
  invert_streams env after rlm1 lin2 min1 minN rho0 method so mags Fixed (Some fp) stations events freq_bands streams = Ok (Some r) ->
  exists l, lists_in r false true (map fst freq_bands) stations events l /\
    true_results false true site source b stations events freq_bands (fun _ band => used env None band streams) l.
Proof. exact @energies_fixed. Qed.
Print Assumptions C113_fixed.

Example C113_fixed_ex : forall after rlm1 lin2 min1 minN, own_objects env_c streams_c /\ own_pairs env_c streams_c /\ proper env_c /\
  ce_v0 env_c = Some 3 /\
  (forall f band, In (f, band) bands_c -> plain (ce_select env_c) (observed_in env_c streams_c band)) /\
  synthetic_energies env_c bands_c streams_c 3 (fun _ _ _ => 1) site_c source_c b_c (fun _ _ => 0) /\
  (forall f band, In (f, band) bands_c -> pointwise env_c 3 (FNum g_c) (fun _ _ => 1)) /\
  NoDup ["A"; "B"] /\ NoDup ["e1"; "e2"] /\
  no_duplicates bands_c input_c /\ true_input input_c (fun _ => FNum g_c) b_c /\
  one_scale env_c bands_c streams_c site_c /\
  exists r, invert_streams env_c after rlm1 lin2 min1 minN (Some 2700) (Some "fit") (Smo fo_c) (fun _ => None) Fixed (Some input_c)
      ["A"; "B"] ["e1"; "e2"] bands_c streams_c = Ok (Some r).
Proof.
  intros. destruct (fixed_c rlm1 lin2 min1 minN after) as (r & H & _).
  exact (conj own_c (conj own_pairs_c (conj proper_c (conj eq_refl (conj plain_c (conj synthetic_energies_c (conj pointwise_c
    (conj (proj1 streams_nodup) (conj (proj2 streams_nodup) (conj nodup_c (conj input_true (conj scale_c (ex_intro _ r H))))))))))))).
Qed.

(** C113: command source returns the true source terms for such energies, with the true site
    responses as further input. *)
Theorem C113_source : forall W S (env : cenv W S) streams site source b g0 G v n stations events freq_bands,
  own_objects env streams -> own_pairs env streams -> proper env -> ce_v0 env = Some v ->
  (forall f band, In (f, band) freq_bands -> plain (ce_select env) (observed_in env streams band)) ->
  synthetic_energies env freq_bands streams v G site source b n ->
  (forall f band, In (f, band) freq_bands -> pointwise env v (g0 f) (G f)) ->
  NoDup stations -> NoDup events ->
  forall after rlm1 lin2 min1 minN rho0 method so mags fp r,
  no_duplicates freq_bands fp -> true_input fp g0 b -> true_sites fp site ->
  invert_streams env after rlm1 lin2 min1 minN rho0 method so mags Source (Some fp) stations events freq_bands streams = Ok (Some r) ->
  exists l, lists_in r false false (map fst freq_bands) stations events l /\
    true_results false false site source b stations events freq_bands
      (fun f band st v => exists p, sites_at fp f p /\ used env (Some p) band streams st v) l.
Proof. exact @energies_source. Qed.
Print Assumptions C113_source.

Example C113_source_ex : forall after rlm1 lin2 min1 minN, own_objects env_c streams_c /\ own_pairs env_c streams_c /\ proper env_c /\
  ce_v0 env_c = Some 3 /\
  (forall f band, In (f, band) bands_c -> plain (ce_select env_c) (observed_in env_c streams_c band)) /\
  synthetic_energies env_c bands_c streams_c 3 (fun _ _ _ => 1) site_c source_c b_c (fun _ _ => 0) /\
  (forall f band, In (f, band) bands_c -> pointwise env_c 3 (FNum g_c) (fun _ _ => 1)) /\
  NoDup ["A"; "B"] /\ NoDup ["e1"; "e2"] /\
  no_duplicates bands_c input_c /\ true_input input_c (fun _ => FNum g_c) b_c /\ true_sites input_c site_c /\
  exists r, invert_streams env_c after rlm1 lin2 min1 minN (Some 2700) (Some "fit") (Smo fo_c) (fun _ => None) Source (Some input_c)
      ["A"; "B"] ["e1"; "e2"] bands_c streams_c = Ok (Some r).
Proof.
  intros. destruct (source_run_c rlm1 lin2 min1 minN after) as (r & H & _).
  exact (conj own_c (conj own_pairs_c (conj proper_c (conj eq_refl (conj plain_c (conj synthetic_energies_c (conj pointwise_c
    (conj (proj1 streams_nodup) (conj (proj2 streams_nodup) (conj nodup_c (conj input_true (conj sites_true (ex_intro _ r H))))))))))))).
Qed.
