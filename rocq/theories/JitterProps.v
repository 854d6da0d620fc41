(** Property C137: source spectra with errors.  Theorems only. *)
From Coq Require Import String List Reals Lra Lia.
From Verif Require Import Base Pyf SourceModel SourceSpec SourceProof4 SourceEx NoiseSpec JitterSpec JitterProof JitterProof2 JitterProof3 JitterEx.
Import ListNotations.
Open Scope string_scope.
Open Scope list_scope.
Open Scope R_scope.

(** C137: an error factor of the source energy enters the source displacement spectrum with its square root. *)
Theorem C137_sds : forall d W W' f v rho, 0 < W' -> 0 < f -> 0 < v -> 0 < rho -> up_to d W W' ->
  up_to (d / 2) (sds W f v rho) (sds W' f v rho).
Proof. exact sds_errors. Qed.
Print Assumptions C137_sds.

Example C137_sds_ex : 0 < 2 /\ 0 < 5 /\ 0 < 3500 /\ 0 < 2700 /\ up_to (1/10) (101/100 * 2) 2.
Proof. repeat split; try lra; apply one_percent; lra. Qed.

(** C137: a factor between exp(-d) and exp(d) of the moment changes the magnitude by at most 2 d / (3 ln 10). *)
Theorem C137_magnitude : forall d M M', 0 < M' -> up_to d M M' ->
  Rabs (moment_magnitude M - moment_magnitude M') <= 2 * d / (3 * ln 10).
Proof. exact magnitude_errors. Qed.
Print Assumptions C137_magnitude.

Example C137_magnitude_ex : 0 < 2 /\ up_to (1/10) (101/100 * 2) 2.
Proof. split; [lra|]. apply one_percent. lra. Qed.

(** C137: let every value of a source displacement spectrum be changed by a factor between exp(-d) and exp(d).
    The method mean, and the least squares fit with given corner frequency, fall-off and shape,
    then either raise the same exception for both spectra, or return nothing for both, or return
    moments that differ by a factor between exp(-d) and exp(d): no error is amplified. *)
Theorem C137_moment : forall rlm1 lin2 min1 minN d m freq omM omM' o, 0 <= d -> near_spectrum d omM omM' ->
  (m = "mean" \/ (m = "fit" /\ o_fc o <> None /\ o_n o <> None /\ o_gamma o <> None)) ->
  near_results d (fit_sds rlm1 lin2 min1 minN m freq omM o) (fit_sds rlm1 lin2 min1 minN m freq omM' o).
Proof. exact moment_errors. Qed.
Print Assumptions C137_moment.

Example C137_moment_ex : exists f, 0 <= 1/10 /\ near_spectrum (1/10) jit_W' jit_W /\
  ("mean" = "mean" \/ ("mean" = "fit" /\ o_fc jit_mean <> None /\ o_n jit_mean <> None /\ o_gamma jit_mean <> None)) /\
  fit_sds (fun _ => 0) (fun _ => ols2) (inner1 10) (innerN []) "mean" ex_freq jit_W jit_mean = Ok (Some f).
Proof.
  destruct (jit_mean_ok (fun _ => 0) (fun _ => ols2) (inner1 10) (innerN []) 2 1) as (f & F); [lra|lra|].
  exists f. split; [lra|]. split; [exact jit_near|]. split; [now left|exact F].
Qed.

(** C137: the same for the least squares fit with any of the parameters searched, by optimisers that
    find the minimum in the range: the error of the fit differs by at most d. *)
Theorem C137_fit_error : forall rlm1 lin2 min1 minN d freq omM omM' o f f', 0 <= d ->
  exact1 min1 -> exactN minN -> stays1 min1 -> staysN minN -> least_squares2 lin2 ->
  near_spectrum d omM omM' ->
  fit_sds rlm1 lin2 min1 minN "fit" freq omM o = Ok (Some f) ->
  fit_sds rlm1 lin2 min1 minN "fit" freq omM' o = Ok (Some f') ->
  (nsearch o = 0 \/ nsearch o < length (points freq omM))%nat ->
  exists e e', dget String.eqb f "fit_error" = Some (Some e) /\ dget String.eqb f' "fit_error" = Some (Some e') /\
    Rabs (e - e') <= d.
Proof. exact fit_error_close. Qed.
Print Assumptions C137_fit_error.

Example C137_fit_error_ex : exists f f', 0 <= 1/10 /\
  exact1 (inner1 10) /\ exactN (innerN []) /\ stays1 (inner1 10) /\ staysN (innerN []) /\ least_squares2 (fun _ => ols2) /\
  near_spectrum (1/10) (scale_spec (101/100) ex_spec) ex_spec /\
  fit_sds (fun _ => 0) (fun _ => ols2) (inner1 10) (innerN []) "fit" ex_freq (scale_spec (101/100) ex_spec) few_opts = Ok (Some f) /\
  fit_sds (fun _ => 0) (fun _ => ols2) (inner1 10) (innerN []) "fit" ex_freq ex_spec few_opts = Ok (Some f') /\
  (nsearch few_opts = 0 \/ nsearch few_opts < length (points ex_freq (scale_spec (101/100) ex_spec)))%nat.
Proof.
  destruct (jit_search (fun _ => 0) (fun _ => ols2) (innerN [])) as (f & f' & H1 & H2).
  exists f', f. split; [lra|]. split; [apply inner1_exact|]. split; [apply innerN_exact|].
  split; [apply inner1_stays|]. split; [apply innerN_stays|]. split; [apply ols2_least|].
  split; [exact jit_spec_near|]. split; [exact H1|]. split; [exact H2|]. right. cbn. lia.
Qed.

(** C137: the same for the error of the method mean, if there are at least two values below the
    corner frequency. *)
Theorem C137_mean_error : forall rlm1 lin2 min1 minN d freq omM omM' o fc f f', 0 <= d -> near_spectrum d omM omM' ->
  o_fc o = Some fc -> (2 <= length (values_below fc freq omM))%nat ->
  fit_sds rlm1 lin2 min1 minN "mean" freq omM o = Ok (Some f) ->
  fit_sds rlm1 lin2 min1 minN "mean" freq omM' o = Ok (Some f') ->
  exists e e', dget String.eqb f "fit_error" = Some (Some e) /\ dget String.eqb f' "fit_error" = Some (Some e') /\
    Rabs (e - e') <= d.
Proof. exact mean_error_close. Qed.
Print Assumptions C137_mean_error.

Example C137_mean_error_ex : exists f f', 0 <= 1/10 /\ near_spectrum (1/10) jit_W' jit_W /\
  o_fc jit_mean = Some 30 /\ (2 <= length (values_below 30 ex_freq jit_W'))%nat /\
  fit_sds (fun _ => 0) (fun _ => ols2) (inner1 10) (innerN []) "mean" ex_freq jit_W' jit_mean = Ok (Some f) /\
  fit_sds (fun _ => 0) (fun _ => ols2) (inner1 10) (innerN []) "mean" ex_freq jit_W jit_mean = Ok (Some f').
Proof.
  destruct (jit_mean_ok (fun _ => 0) (fun _ => ols2) (inner1 10) (innerN []) (101/100 * 2) (101/100 * 1)) as (f & F); [lra|lra|].
  destruct (jit_mean_ok (fun _ => 0) (fun _ => ols2) (inner1 10) (innerN []) 2 1) as (f' & F'); [lra|lra|].
  exists f, f'. split; [lra|]. split; [exact jit_near|]. split; [reflexivity|].
  split; [unfold jit_W', jit_W; cbn [scale_spec map option_map]; rewrite jit_below; cbn; lia|].
  split; [exact F|exact F'].
Qed.

(** C137: two events whose source energies differ by factors between exp(-d) and exp(d): the moments
    differ by a factor between exp(-d/2) and exp(d/2), and the magnitudes by at most d / (3 ln 10). *)
Theorem C137_event : forall rlm1 lin2 min1 minN d freq ev ev' v0 rho0 m so o catmag catmag' r s r' s' W W' M M', 0 <= d ->
  0 < v0 -> 0 < rho0 -> (forall f, In f freq -> 0 < f) ->
  dget String.eqb ev "W" = Some (VList W) -> dget String.eqb ev' "W" = Some (VList W') ->
  length W = length freq -> W <> [] -> near_spectrum d W W' ->
  dget String.eqb ev "M0" = None -> dget String.eqb ev' "M0" = None -> smo_kwargs so = Ok o ->
  (m = "mean" \/ (m = "fit" /\ o_fc o <> None /\ o_n o <> None /\ o_gamma o <> None)) ->
  insert_source_properties rlm1 lin2 min1 minN freq ev (Some v0) (Some rho0) (Some m) so catmag = Ok (r, s) ->
  insert_source_properties rlm1 lin2 min1 minN freq ev' (Some v0) (Some rho0) (Some m) so catmag' = Ok (r', s') ->
  dget String.eqb r "M0" = Some (VNum M) -> dget String.eqb r' "M0" = Some (VNum M') ->
  up_to (d / 2) M M' /\
  exists w w', dget String.eqb r "Mw" = Some (VNum w) /\ dget String.eqb r' "Mw" = Some (VNum w') /\
    Rabs (w - w') <= d / (3 * ln 10).
Proof. exact event_errors. Qed.
Print Assumptions C137_event.

Example C137_event_ex : exists r s r' s' M M', 0 <= 1/10 /\ 0 < 3500 /\ 0 < 2700 /\
  (forall f, In f ex_freq -> 0 < f) /\
  dget String.eqb [("W", VList jit_W')] "W" = Some (VList jit_W') /\
  dget String.eqb [("W", VList jit_W)] "W" = Some (VList jit_W) /\
  length jit_W' = length ex_freq /\ jit_W' <> [] /\ near_spectrum (1/10) jit_W' jit_W /\
  dget String.eqb [("W", VList jit_W')] "M0" = None /\ dget String.eqb [("W", VList jit_W)] "M0" = None /\
  smo_kwargs (Smo jit_mean) = Ok jit_mean /\ "mean" = "mean" /\
  insert_source_properties (fun _ => 0) (fun _ => ols2) (inner1 10) (innerN []) ex_freq [("W", VList jit_W')]
    (Some 3500) (Some 2700) (Some "mean") (Smo jit_mean) (Some 3) = Ok (r, s) /\
  insert_source_properties (fun _ => 0) (fun _ => ols2) (inner1 10) (innerN []) ex_freq [("W", VList jit_W)]
    (Some 3500) (Some 2700) (Some "mean") (Smo jit_mean) (Some 4) = Ok (r', s') /\
  dget String.eqb r "M0" = Some (VNum M) /\ dget String.eqb r' "M0" = Some (VNum M').
Proof.
  destruct (jit_insert (fun _ => 0) (fun _ => ols2) (inner1 10) (innerN []) (101/100 * 2) (101/100 * 1) 3) as (r & s & M & H1 & H2); [lra|lra|].
  destruct (jit_insert (fun _ => 0) (fun _ => ols2) (inner1 10) (innerN []) 2 1 4) as (r' & s' & M' & H1' & H2'); [lra|lra|].
  exists r, s, r', s', M, M'. split; [lra|]. split; [lra|]. split; [lra|].
  split; [cbn; intros f I; intuition lra|]. split; [reflexivity|]. split; [reflexivity|]. split; [reflexivity|].
  split; [discriminate|]. split; [exact jit_near|]. split; [reflexivity|]. split; [reflexivity|]. split; [reflexivity|].
  split; [reflexivity|]. split; [exact H1|]. split; [exact H1'|]. split; [exact H2|exact H2'].
Qed.
