(** Examples for LabelProps.v. *)
From Coq Require Import String List Reals Lra.
From Verif Require Import Base Pyf DepModel DepSpec DepProof DepEx LabelModel LabelSpec LabelProof.
Import ListNotations.
Open Scope string_scope.
Open Scope list_scope.

Definition fitted : fields := [("fc", Some 5%R); ("M0", Some 1000%R); ("Mw", None); ("n", Some 2%R)].

Lemma fitted_nodup : NoDup (map fst fitted).
Proof. repeat (constructor; [cbn; intuition discriminate |]). constructor. Qed.

Lemma fitted_numbers : numbers fitted.
Proof.
  split; [exact fitted_nodup |]. intros k I R. apply rank_five in R. cbn in I.
  destruct I as [I | [I | [I | [I | []]]]]; try discriminate. injection I as <-.
  cbn in R. intuition discriminate.
Qed.

Lemma fitted_has : has fitted "M0" 1000 /\ has fitted "n" 2.
Proof. split; (split; [exact fitted_nodup | cbn; tauto]). Qed.

Definition lines_f : list (list shown) :=
  [ [SText "M$_0$="; SNumber 1000 (Expo 1); SText " Nm"]; [SText "f$_{\rm{c}}$="; SNumber 5 (Fixed 1); SText " Hz"];
    [SText "n="; SNumber 2 (Fixed 1)] ].

Lemma label_f : sds_label true None fitted = Ok (Some lines_f).
Proof. reflexivity. Qed.

Lemma drawn_f : exists dr model, fit_method (Some "fit") /\
  plot_labelled [1; 2]%R [FNum 3; FNan] fitted (Some "fit") (Some no_pars) true true None = Ok (Some (dr, Some lines_f)) /\
  d_model dr = Some model.
Proof.
  destruct ex_sds as [d [A [B C]]]. destruct (d_model d) as [model |] eqn:E; [| congruence].
  exists d, model. split; [assumption |]. split; [| assumption]. apply labelled. split; [exact B | reflexivity].
Qed.

Definition text_f : list part := [Lit "moment "; Field "M0" (Fixed 3)].

Lemma text_ok : Forall2 (replaced fitted) text_f [SText "moment "; SNumber 1000 (Fixed 3)] /\ nonempty text_f.
Proof.
  split.
  - constructor; [constructor |]. constructor; [constructor; apply fitted_has | constructor].
  - exists (Field "M0" (Fixed 3)). split; [cbn; tauto | discriminate].
Qed.

Lemma missing_f : ~ In "gamma" (map fst fitted).
Proof. cbn. intuition discriminate. Qed.

(** The moment given in the options is drawn, the one of the result is annotated *)
Lemma options_f : exists freq omM d method smo colored dr lines line x y, numbers d /\
  plot_labelled freq omM d method (Some smo) colored true None = Ok (Some (dr, Some lines)) /\
  In line lines /\ line_for "M0" x line /\ d_level dr = Some y /\ x <> y.
Proof.
  destruct (sds_ok [1; 2]%R [FNum 3; FNan] (pars_of fitted) (Some "fit") {| p_M0 := Some 7%R; p_fc := None; p_n := None; p_gamma := None |} true)
    as [dr [E _]]; [discriminate | reflexivity | exists (FNum 3); split; [left; reflexivity | discriminate] |].
  exists [1; 2]%R, [FNum 3; FNan], fitted, (Some "fit"), {| p_M0 := Some 7%R; p_fc := None; p_n := None; p_gamma := None |}, true, dr, lines_f,
    [SText "M$_0$="; SNumber 1000 (Expo 1); SText " Nm"], 1000%R, 7%R.
  split; [exact fitted_numbers |]. split; [apply labelled; split; [exact E | reflexivity] |].
  split; [left; reflexivity |]. split; [constructor |]. split; [| lra].
  unfold plot_sds in E. cbn [forallb fisnan andb] in E. cbv zeta in E. cbn [String.eqb Ascii.eqb Bool.eqb orb] in E.
  cbn [merge_pars p_M0 p_fc p_n p_gamma pars_of either] in E.
  destruct (Req_EM_T 7 0) as [Z | Z]; [lra |]. cbn [Nat.eqb List.length] in E.
  match type of E with Ok (Some ?r) = _ => assert (G : dr = r) by congruence end. rewrite G. cbn [d_level positive either].
  destruct (Req_EM_T 7 0) as [Z' | Z']; [lra | reflexivity].
Qed.

(** An empty text is refused although the spectrum can be drawn *)
Lemma empty_f : exists freq omM d method smo colored dr,
  plot_sds freq omM (pars_of d) method (Some smo) colored = Ok (Some dr) /\
  plot_labelled freq omM d method (Some smo) colored true (Some []) = Err UnboundLocalError.
Proof.
  destruct (sds_ok [1; 2]%R [FNum 3; FNan] (pars_of fitted) (Some "fit") no_pars true)
    as [dr [E _]]; [discriminate | reflexivity | exists (FNum 3); split; [left; reflexivity | discriminate] |].
  exists [1; 2]%R, [FNum 3; FNan], fitted, (Some "fit"), no_pars, true, dr. split; [assumption |].
  unfold plot_labelled. rewrite E. reflexivity.
Qed.
