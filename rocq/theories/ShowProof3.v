(** Lemmas about the spectra plotted after a recalculation. *)
From Coq Require Import String List Bool ZArith Reals Lra.
From Verif Require Import Base Pyf StatModel RunModel DepModel DepSpec DepProof ShowModel ShowSpec ShowProof ShowEx.
Import ListNotations.
Open Scope string_scope.
Open Scope list_scope.
Open Scope R_scope.

Lemma first_given_num x b d r : x <> 0 -> first_given (Some x) b d r -> r = x.
Proof. intros N [(y & E & _ & ->)|[[E|E] _]]; [congruence|discriminate|]. injection E as E. congruence. Qed.

Lemma recalc_shown {E} (w : world E) eventid args result r e d fc n g :
  postprocess w "recalc_source" None eventid args (Some result) = Ok (Some r, e) ->
  NoDup (map fst args) -> dget String.eqb args "seismic_moment_options" = Some (JDict d) ->
  dget String.eqb d "fc" = Some (JNum fc) -> dget String.eqb d "n" = Some (JNum n) -> dget String.eqb d "gamma" = Some (JNum g) ->
  fc <> 0%Z -> n <> 0%Z -> g <> 0%Z ->
  exists o, sds_options JNull r = Ok o /\
    forall freq omM own method colored dr model f, fit_method method ->
      plot_sds freq omM own method (pars_of o) colored = Ok (Some dr) -> d_model dr = Some model ->
      exists M0, d_level dr = Some M0 /\
        model f = M0 * Rpower (1 + Rpower (f / IZR fc) (IZR n * IZR g)) (- (1) / IZR g).
Proof.
  intros H N G F1 F2 F3 Z1 Z2 Z3.
  destruct (recalc_config w _ _ _ _ _ "seismic_moment_options" H ltac:(right; left; reflexivity) N) as [c [C D]].
  apply jget_dict in C. destruct C as [rd [-> C]]. exists (JDict d).
  split; [unfold sds_options, getd; rewrite C, D; unfold getd; rewrite G; reflexivity|].
  intros freq omM own method colored dr model f FM P M. cbn [pars_of] in P. rewrite F1, F2, F3 in P.
  destruct (sds_model _ _ _ _ _ _ _ f FM P) as [_ X]. destruct (X model M) as (M0 & fc' & n' & g' & _ & A & B & CC & V & L).
  exists M0. split; [exact L|]. cbn [p_fc p_n p_gamma] in A, B, CC.
  apply first_given_num in A; [|now apply not_0_IZR]. apply first_given_num in B; [|now apply not_0_IZR].
  apply first_given_num in CC; [|now apply not_0_IZR]. now subst.
Qed.

Lemma ex_recalc_shown : exists r e dr,
  postprocess show_world "recalc_source" None None
    [("seismic_moment_options", JDict [("fc", JNum 10); ("n", JNum 2); ("gamma", JNum 1)])] (Some ex_recalc) = Ok (Some r, e) /\
  fit_method (Some "fit") /\
  plot_sds [1] [FNum 3] {| p_M0 := Some 4; p_fc := None; p_n := None; p_gamma := None |} (Some "fit")
    (pars_of (JDict [("fc", JNum 10); ("n", JNum 2); ("gamma", JNum 1)])) false = Ok (Some dr) /\ d_model dr <> None.
Proof.
  eexists _, _, _. split; [vm_compute; reflexivity|]. split; [now left|].
  unfold plot_sds. cbn [forallb fisnan andb pars_of dget String.eqb Ascii.eqb Bool.eqb merge_pars p_M0 p_fc p_n p_gamma].
  cbv beta iota zeta delta [either positive]. repeat (destruct (Req_EM_T _ _); [lra|]).
  split; [reflexivity|discriminate].
Qed.
