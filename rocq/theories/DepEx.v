(** Concrete cases of the data drawn by plots. *)
From Coq Require Import String List Bool Reals Lra Lia.
From Verif Require Import Base Pyf PyfOps SourceModel DepModel DepSpec DepProof.
Import ListNotations.
Open Scope R_scope.

Lemma ex_calc2 : In "Qsc"%string quantities /\ shape2 2 1 [[FNum (1 / 100000)]; [FNan]] /\ length [3] = 1%nat /\
  velocities 2 (AArray [3000; 3500]).
Proof.
  split; [cbn; tauto |]. split; [| split; reflexivity].
  split; [reflexivity |]. intros row [<- | [<- | []]]; reflexivity.
Qed.

Lemma ex_calc1 : In "li"%string quantities /\ length [3; 6] = length [FNum 1; FNan].
Proof. split; [cbn; tauto | reflexivity]. Qed.

Lemma ex_calc_refuted : exists q val freq, In q quantities /\ ~ exists r, calc_dependent q val freq ANone = Ok r.
Proof.
  exists "lsc"%string, (N1 [FNum 1]), ANone. split; [cbn; tauto |]. intros [r E]. discriminate E.
Qed.

Lemma ex_lim : increasing [1; 2; 4] /\ (forall f, In f [1; 2; 4] -> 0 < f) /\ exists lim, freqlim [1; 2; 4] = Some lim.
Proof.
  split; [cbn; lra |]. split; [| eexists; reflexivity]. intros f I. cbn in I. destruct I as [<- | [<- | [<- | []]]]; lra.
Qed.

Lemma ex_lim_dec : decreasing [4; 2; 1] /\ (forall f, In f [4; 2; 1] -> 0 < f) /\ exists lim, freqlim [4; 2; 1] = Some lim.
Proof.
  split; [cbn; lra |]. split; [| eexists; reflexivity]. intros f I. cbn in I. destruct I as [<- | [<- | [<- | []]]]; lra.
Qed.

(** nothing fixed, everything fitted *)
Definition no_pars : pars := {| p_M0 := None; p_fc := None; p_n := None; p_gamma := None |}.
Definition ex_pars : pars := {| p_M0 := Some 1000; p_fc := Some 5; p_n := Some 2; p_gamma := None |}.

Lemma ex_sds : exists d, fit_method (Some "fit"%string) /\
  plot_sds [1; 2] [FNum 3; FNan] ex_pars (Some "fit"%string) (Some no_pars) true = Ok (Some d) /\ d_model d <> None.
Proof.
  eexists. split; [left; reflexivity |]. unfold plot_sds. cbn [forallb fisnan andb]. cbv zeta. cbn [String.eqb Ascii.eqb Bool.eqb].
  cbn [merge_pars p_M0 p_fc p_n p_gamma ex_pars no_pars either positive orb Nat.eqb length].
  destruct (Req_EM_T 1000 0); [lra |]. destruct (Req_EM_T 5 0); [lra |]. split; [reflexivity |]. cbn [d_model]. discriminate.
Qed.

Lemma ex_sds_below : exists d model M0,
  fit_method (Some "fit"%string) /\
  plot_sds [1; 2] [FNum 3; FNan] ex_pars (Some "fit"%string) (Some no_pars) true = Ok (Some d) /\
  d_model d = Some model /\ d_level d = Some M0 /\ 0 < M0 /\
  (forall g, first_given (p_gamma no_pars) (p_gamma ex_pars) 1 g -> 0 < g).
Proof.
  destruct ex_sds as [d [F [P M]]]. exists d. destruct (d_model d) as [m |] eqn:E; [| congruence].
  destruct (sds_model _ _ _ _ _ _ _ 1 F P) as [_ K]. destruct (K m E) as [M0 [fc [n [g [A [_ [_ [_ [_ L]]]]]]]]].
  exists m, M0. split; [assumption |]. split; [assumption |]. split; [reflexivity |]. split; [assumption |]. split.
  - destruct A as [[x [A _]] | [_ [[x [A ->]] | [A _]]]]; cbn in A; try discriminate.
    assert (x = 1000) by congruence. lra.
  - intros g' [[x [B _]] | [_ [[x [B _]] | [_ ->]]]]; cbn in *; try discriminate. lra.
Qed.

Lemma ex_sds_points : Some "fit"%string <> Some "mean"%string /\ length [1; 2] = length [FNum 3; FNan] /\
  (exists o, In o [FNum 3; FNan] /\ o <> FNan).
Proof. split; [discriminate |]. split; [reflexivity |]. exists (FNum 3). split; [left; reflexivity | discriminate]. Qed.

Lemma ex_sds_mean : exists freq omM result smo colored,
  p_M0 result <> None /\ (exists o, In o omM /\ o <> FNan) /\ length freq = length omM /\
  ~ exists d, plot_sds freq omM result (Some "mean"%string) (Some smo) colored = Ok (Some d).
Proof.
  exists [1; 2], [FNum 3; FNum 4], ex_pars, ex_pars, true.
  split; [discriminate |]. split; [exists (FNum 3); split; [left; reflexivity | discriminate] |]. split; [reflexivity |].
  intros [d E]. exact (sds_mean_fails _ _ _ _ _ _ E).
Qed.

(** two events with magnitudes *)
Definition ex_mags : list mag :=
  [{| m_id := "a"; m_cat := Some 2; m_w := Some (5 / 2) |}; {| m_id := "b"; m_cat := None; m_w := Some 1 |}].

Lemma ex_mags_plot : forall fit, exists pts line, plot_mags fit ex_mags None = Some (pts, line).
Proof. intros. do 2 eexists. reflexivity. Qed.

Lemma ex_selection : exists fit events only l,
  selected_sds (map m_id events) only = Ok l /\ (forall e, In e events -> m_cat e <> None /\ m_w e <> None) /\
  events <> [] /\ l = map m_id events /\ plot_mags fit events only = None.
Proof.
  exists (fun _ _ => (1, 0)), [{| m_id := "a"; m_cat := Some 2; m_w := Some (5 / 2) |}], (Some []), ["a"%string].
  split; [reflexivity |]. split; [| split; [discriminate | split; reflexivity]].
  intros e [<- | []]. split; discriminate.
Qed.

Lemma ex_selection_none : exists ids only, ids <> [] /\ selected_sds ids only = Err IndexError.
Proof. exists ["a"%string], (Some ["b"%string]). split; [discriminate | reflexivity]. Qed.

Lemma ex_half : [1; 2; 4] = 1 :: 2 :: [4] /\ [1; 2; 4] = [1] ++ [2; 4] /\ exists lim, freqlim [1; 2; 4] = Some lim.
Proof. repeat split. eexists. reflexivity. Qed.
