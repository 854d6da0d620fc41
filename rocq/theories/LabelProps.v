(** Property C120: the annotation of the plot of a source spectrum.  Theorems only. *)
From Coq Require Import String List Reals.
From Verif Require Import Base Pyf DepModel DepSpec DepEx LabelModel LabelSpec LabelProof LabelEx.
Import ListNotations.
Open Scope string_scope.
Open Scope list_scope.

(** C120: the annotation has a line for each of the quantities M0, fc, n, gamma and fit_error of the
    result, in this order and with the value of the result; without any of them there is none. *)
Theorem C120_default : forall d, numbers d -> exists ks lines, listed d ks /\
  Forall2 (fun k line => exists x, has d k x /\ line_for k x line) ks lines /\
  (sds_label true None d = Ok (match lines with [] => None | _ => Some lines end)) /\
  sds_label false None d = Ok None.
Proof. exact label_default. Qed.
Print Assumptions C120_default.

Example C120_default_ex : numbers fitted /\ sds_label true None fitted = Ok (Some lines_f).
Proof. exact (conj fitted_numbers label_f). Qed.

(** C120: a text of one's own is shown with the values of the result. *)
Theorem C120_text : forall d parts label, Forall2 (replaced d) parts label -> nonempty parts ->
  sds_label true (Some parts) d = Ok (Some [label]) /\ sds_label false (Some parts) d = Ok None.
Proof. exact label_text. Qed.
Print Assumptions C120_text.

Example C120_text_ex : Forall2 (replaced fitted) text_f [SText "moment "; SNumber 1000 (Fixed 3)] /\ nonempty text_f.
Proof. exact text_ok. Qed.

(** C120: with a value that is not in the result there is no annotation. *)
Theorem C120_missing : forall d before k st after label annotate, Forall2 (replaced d) before label -> ~ In k (map fst d) ->
  sds_label annotate (Some (before ++ Field k st :: after)) d = Ok None.
Proof. exact label_missing. Qed.
Print Assumptions C120_missing.

Example C120_missing_ex : Forall2 (replaced fitted) text_f [SText "moment "; SNumber 1000 (Fixed 3)] /\ ~ In "gamma" (map fst fitted).
Proof. exact (conj (proj1 text_ok) missing_f). Qed.

(** C120: a text with a field without name is an error, also without annotation. *)
Theorem C120_positional : forall d before after label annotate, Forall2 (replaced d) before label ->
  sds_label annotate (Some (before ++ Positional :: after)) d = Err IndexError.
Proof. exact label_positional. Qed.
Print Assumptions C120_positional.

Example C120_positional_ex : Forall2 (replaced fitted) [Field "Mw" Plain] [SText "None"].
Proof. exact (Forall2_cons _ _ (p_none fitted "Mw" fitted_nodup (or_intror (or_intror (or_introl eq_refl)))) (Forall2_nil _)). Qed.

(** C120: annotation can be switched off. *)
Theorem C120_off : forall d parts l, sds_label false parts d = Ok l -> l = None.
Proof. exact label_off. Qed.
Print Assumptions C120_off.

Example C120_off_ex : sds_label false None fitted = Ok None.
Proof. exact eq_refl. Qed.

(** C120: the annotation does not change what is drawn. *)
Theorem C120_drawing : forall freq omM d method smo colored annotate parts dr l,
  plot_labelled freq omM d method smo colored annotate parts = Ok (Some (dr, l)) <->
  plot_sds freq omM (pars_of d) method smo colored = Ok (Some dr) /\ sds_label annotate parts d = Ok l.
Proof. exact labelled. Qed.
Print Assumptions C120_drawing.

Example C120_drawing_ex : exists dr model, fit_method (Some "fit") /\
  plot_labelled [1; 2]%R [FNum 3; FNan] fitted (Some "fit") (Some no_pars) true true None = Ok (Some (dr, Some lines_f)) /\
  d_model dr = Some model.
Proof. exact drawn_f. Qed.

(** C120: without options the curve is the source model with the annotated values, n = 2 and
    gamma = 1 if they are not annotated; the horizontal line is the annotated moment. *)
Theorem C120_agrees : forall freq omM d method colored dr lines model f, numbers d -> fit_method method ->
  plot_labelled freq omM d method (Some {| p_M0 := None; p_fc := None; p_n := None; p_gamma := None |}) colored true None
    = Ok (Some (dr, Some lines)) -> d_model dr = Some model ->
  exists M0 fc n gamma, model f = (M0 * Rpower (1 + Rpower (f / fc) (n * gamma)) (- (1) / gamma))%R /\
    d_level dr = Some M0 /\
    (exists line, In line lines /\ line_for "M0" M0 line) /\ (exists line, In line lines /\ line_for "fc" fc line) /\
    ((exists line, In line lines /\ line_for "n" n line) \/ ~ In "n" (map fst d) /\ n = 2%R) /\
    ((exists line, In line lines /\ line_for "gamma" gamma line) \/ ~ In "gamma" (map fst d) /\ gamma = 1%R).
Proof. exact label_agrees. Qed.
Print Assumptions C120_agrees.

Example C120_agrees_ex : exists dr model, fit_method (Some "fit") /\
  plot_labelled [1; 2]%R [FNum 3; FNan] fitted (Some "fit") (Some no_pars) true true None = Ok (Some (dr, Some lines_f)) /\
  d_model dr = Some model.
Proof. exact drawn_f. Qed.

(** C120: with options it is false that the annotated moment is the one that is drawn. *)
Theorem C120_options_refuted : exists freq omM d method smo colored dr lines line x y, numbers d /\
  plot_labelled freq omM d method (Some smo) colored true None = Ok (Some (dr, Some lines)) /\
  In line lines /\ line_for "M0" x line /\ d_level dr = Some y /\ x <> y.
Proof. exact options_f. Qed.
Print Assumptions C120_options_refuted.

(** C120: a result with None for one of the quantities is not plotted, even without annotation. *)
Theorem C120_null : forall d k annotate, NoDup (map fst d) -> In (k, None) d -> (exists r, rank k r) ->
  sds_label annotate None d = Err TypeError.
Proof. exact label_null. Qed.
Print Assumptions C120_null.

Example C120_null_ex : In ("n", None) [("n", @None R)] /\ exists r, rank "n" r.
Proof. exact (conj (or_introl eq_refl) (ex_intro _ _ r_n)). Qed.

(** C120: an empty text is an error, *)
Theorem C120_empty : forall d parts, ~ nonempty parts -> sds_label true (Some parts) d = Err UnboundLocalError.
Proof. exact label_empty. Qed.
Print Assumptions C120_empty.

Example C120_empty_ex : ~ nonempty [].
Proof. exact (fun H => match H with ex_intro _ _ (conj J _) => J end). Qed.

(** C120: so it is false that every spectrum is plotted with a text of one's own. *)
Theorem C120_empty_refuted : exists freq omM d method smo colored dr,
  plot_sds freq omM (pars_of d) method (Some smo) colored = Ok (Some dr) /\
  plot_labelled freq omM d method (Some smo) colored true (Some []) = Err UnboundLocalError.
Proof. exact empty_f. Qed.
Print Assumptions C120_empty_refuted.

(** C120: the annotation is in the right upper or lower corner, inside of the axes. *)
Theorem C120_place : forall va, label_place va = (if string_dec va "top" then ((1, 1), (-5, -5)) else ((1, 0), (-5, 5)))%R.
Proof. exact place_ok. Qed.
Print Assumptions C120_place.
