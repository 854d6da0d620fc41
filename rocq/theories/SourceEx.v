(** Concrete cases used in the examples of SourceProps. *)
From Coq Require Import String List Bool Reals Lra Lia Permutation Arith Classical.
From Coquelicot Require Import Coquelicot.
From Verif Require Import Base Pyf StatModel StatSpec StatProof PySort SortModel SortProof
  SourceModel SourceSpec SourceProof SourceProof2 SourceProof3 SourceProof4.
Import ListNotations.
Open Scope string_scope.
Open Scope list_scope.
Open Scope R_scope.

(** a noise free spectrum with a missing value *)
Definition ex_freq : list R := [5; 10; 20].
Definition ex_spec : list (option R) := [Some (abercrombie 3 10 2 1 5); None; Some (abercrombie 3 10 2 1 20)].
Definition ex_points : list (R * R) := [(5, abercrombie 3 10 2 1 5); (20, abercrombie 3 10 2 1 20)].

Lemma ex_points_eq : points ex_freq ex_spec = ex_points.
Proof. reflexivity. Qed.

Lemma ex_points_exact p : In p ex_points -> snd p = abercrombie 3 10 2 1 (fst p).
Proof. intros [<-|[<-|[]]]; reflexivity. Qed.

(** all given *)
Definition ex_given : fopts :=
  {| o_fc := Some 10; o_n := Some 2; o_gamma := Some 1; o_fc_lim := None;
     o_n_lim := None; o_gamma_lim := None;
     o_fc0 := 10; o_n0 := 2; o_gamma0 := 1; o_fall_back := 5; o_num_points := Some 2%nat |}.

Section Ex.
  Variable rlm1 : list R -> R.
  Variable lin2 : bool -> list R -> list R -> R * R.
  Variable minN : (list R -> R) -> list R -> list (option (R * R)) -> res (list R).

  (** the corner frequency is searched and found *)
  Lemma ex_search : exists d,
    fit_sds rlm1 lin2 (oracle1 10) minN "fit" ex_freq ex_spec few_opts = Ok (Some d) /\
    dget String.eqb d "fc" = Some (Some 10).
  Proof.
    change (fit_sds rlm1 lin2 (oracle1 10) minN "fit" ex_freq ex_spec few_opts) with
      (bind (oracle1 10 (fun x => snd (lstsq rlm1 false ex_points x 2 1)) (Some (5, 20)))
        (fun x => Ok (Some (back_transform (dupdate String.eqb [("fc", Some x)]
           (lstsq_dict (lstsq rlm1 false ex_points x 2 1))))))).
    rewrite oracle1_hit.
    - cbn [bind]. eexists. split; reflexivity.
    - intros y _. rewrite !lstsq_err. eapply Rle_trans; [|apply log_misfit_nonneg].
      destruct (lstsq_min rlm1 ex_points 10 2 1 3) as [H _]; [discriminate|lra|].
      eapply Rle_trans; [exact H|]. right. apply log_misfit_exact, ex_points_exact.
  Qed.

  (** the same with the default options *)
  Lemma ex_default : exists d,
    is_fit "fit" /\ (2 <= length (points ex_freq ex_spec))%nat /\ (forall f, In f ex_freq -> 0 < f) /\
    fit_sds rlm1 lin2 (oracle1 10) minN "fit" ex_freq ex_spec fopts_default = Ok (Some d) /\
    dget String.eqb d "fc" = Some (Some 10).
  Proof.
    destruct ex_search as (d & H1 & H2). exists d. split; [now left|]. split; [cbn; lia|].
    split; [cbn; intros f I; intuition lra|]. split; [|exact H2]. exact H1.
  Qed.
End Ex.

(** an event and its source properties *)
Definition ex_event : evdict := [("id", VNone); ("W", VList [Some 2; None; Some 0]); ("R", VDict [])].

Lemma truthy_some x : x <> 0 -> truthy (Some x) = Some x.
Proof. intros Hx. unfold truthy. destruct (Req_EM_T x 0); [contradiction|reflexivity]. Qed.

Lemma truthy_0 : truthy (Some 0) = None.
Proof. unfold truthy. destruct (Req_EM_T 0 0); [reflexivity|lra]. Qed.

Definition ex_mean : fopts :=
  {| o_fc := Some 10; o_n := Some 2; o_gamma := Some 1; o_fc_lim := None;
     o_n_lim := None; o_gamma_lim := None;
     o_fc0 := 10; o_n0 := 2; o_gamma0 := 1; o_fall_back := 5; o_num_points := None |}.

  (** recalculation of a file with old values *)
  Definition ex_conf : srcconf :=
    {| c_rho0 := Some 2700; c_v0 := Some 3500; c_method := None; c_smo := SmoNone |}.
  Definition ex_old (m : R) : list (string * evdict) :=
    [("ev", [("W", VList [None]); ("R", VDict []); ("M0", VNum m); ("Mw", VNum m)])].
  Definition ex_new (m : R) : list (string * evdict) :=
    [("ev", [("W", VList [None]); ("R", VDict []); ("Mw", VNum m); ("sds", VList [None])])].

  Lemma ex_old_nodup m : nodup_events (ex_old m).
  Proof.
    constructor; [|constructor]. cbn. repeat (constructor; [cbn; intuition discriminate|]). constructor.
  Qed.

Section Ex2.
  Variable rlm1 : list R -> R.
  Variable lin2 : bool -> list R -> list R -> R * R.
  Variable min1 : (R -> R) -> option (R * R) -> res R.
  Variable minN : (list R -> R) -> list R -> list (option (R * R)) -> res (list R).

  Lemma ex_below : values_below 10 [5; 10; 20] [Some (sds 2 5 3500 2700); None; None] = [sds 2 5 3500 2700].
  Proof. cbn. destruct (Rlt_dec 5 10); [reflexivity|lra]. Qed.

  Lemma ex_insert : exists ev' srt M,
    insert_source_properties rlm1 lin2 min1 minN [5; 10; 20] [("W", VList [Some 2; None; Some 0])]
      (Some 3500) (Some 2700) (Some "mean") (Smo ex_mean) (Some 3) = Ok (ev', srt) /\
    dget String.eqb ev' "M0" = Some (VNum M).
  Proof.
    unfold insert_source_properties, insert_source_inplace.
    cbn [dget String.eqb Ascii.eqb Bool.eqb].
    unfold insert_spectra, start_spectra. rewrite !truthy_some by lra.
    cbn [length seq combine mapM fst snd]. unfold sds_entry. cbn [nth_error].
    rewrite !truthy_some, truthy_0 by lra. cbn [truthy bind].
    rewrite (dget_dset_eq _ string_eqb_spec). cbn [bind app].
    unfold insert_fit. cbn [method_truthy String.eqb]. rewrite (dget_dset_eq _ string_eqb_spec).
    cbn [smo_kwargs bind].
    destruct (fit_mean_value rlm1 lin2 min1 minN [5; 10; 20]
      [Some (sds 2 5 3500 2700); None; None] ex_mean 10) as (err & E).
    - reflexivity.
    - rewrite ex_below. intros x [<-|[]]. apply sds_pos; lra.
    - rewrite ex_below. discriminate.
    - discriminate.
    - rewrite E. cbn [bind insert_fitresult dget String.eqb Ascii.eqb Bool.eqb option_map insert_catmag].
      set (ev' := dset String.eqb _ "Mcat" (VNum 3)).
      assert (K : forall k, In k (map fst ev') -> In k DUMP_ORDER).
      { unfold ev'. intros k. rewrite !(dset_in_keys _ string_eqb_spec), dupdate_in_keys.
        rewrite !(dset_in_keys _ string_eqb_spec). cbn. intuition (subst; tauto). }
      destruct (sort_dict_ok DUMP_ORDER ev' K) as (r & Es & _).
      exists ev', r. eexists. rewrite Es. cbn [bind]. split; [reflexivity|].
      unfold ev'. rewrite !(dget_dset_neq _ string_eqb_spec) by discriminate.
      eapply (dupdate_get_in _ string_eqb_spec).
      + cbn. repeat (constructor; [cbn; intuition discriminate|]). constructor.
      + now left.
  Qed.

  Lemma ex_calc m : calculate_source_properties rlm1 lin2 min1 minN (Some [1]) ex_conf (ex_old m)
    None None None SmoNone = Ok (ex_new m).
  Proof.
    apply calc_ok.
    - constructor; [|constructor]. split; [reflexivity|]. cbn [snd fst].
      apply (recalc_ok rlm1 lin2 min1 minN [1] _ _ _ _ _ 3500).
      + change (orelse (num_at _ "v0") (orelse None (c_v0 ex_conf))) with (Some 3500). apply truthy_some. lra.
      + change (strip _) with [("W", VList [None]); ("R", VDict []); ("Mw", VNum m)].
        change (orelse (num_at _ "v0") (orelse None (c_v0 ex_conf))) with (Some 3500).
        change (orelse None (c_rho0 ex_conf)) with (Some 2700).
        unfold insert_source_inplace.
        change (dget String.eqb [("W", VList [None]); ("R", VDict []); ("Mw", VNum m)] "W") with (Some (VList [None])).
        unfold insert_spectra, start_spectra. rewrite !truthy_some by lra. reflexivity.
      + intros k. cbn. tauto.
    - change (orelse None (c_rho0 ex_conf)) with (Some 2700). rewrite truthy_some by lra. discriminate.
  Qed.

  (** recalculation determining the moment *)
  Definition ex_conf2 : srcconf :=
    {| c_rho0 := Some 2700; c_v0 := Some 3500; c_method := Some "mean"; c_smo := Smo ex_mean |}.
  Lemma ex_calc2 : exists events' r M,
    calculate_source_properties rlm1 lin2 min1 minN (Some [5; 10; 20]) ex_conf2
      [("ev", [("W", VList [Some 2; None; Some 0])])] None None None SmoNone = Ok events' /\
    In ("ev", r) events' /\ dget String.eqb r "M0" = Some (VNum M).
  Proof.
    destruct ex_insert as (ev' & srt & M & E & HM).
    assert (X : exists ev2 srt2, insert_source_properties rlm1 lin2 min1 minN [5; 10; 20] [("W", VList [Some 2; None; Some 0])]
      (Some 3500) (Some 2700) (Some "mean") (Smo ex_mean) None = Ok (ev2, srt2) /\ dget String.eqb ev2 "M0" = Some (VNum M)).
    { clear -E HM. unfold insert_source_properties, insert_source_inplace in *.
      cbn [dget String.eqb Ascii.eqb Bool.eqb] in *.
      destruct (insert_spectra _ _ _ _ _) as [e1|] eqn:E1; cbn [bind] in *; [|discriminate].
      unfold insert_fit in *. cbn [method_truthy String.eqb] in *.
      destruct (dget String.eqb e1 "sds") as [[| |omM|]|]; try discriminate.
      cbn [smo_kwargs bind] in *. destruct (fit_sds _ _ _ _ _ _ _ _) as [fr|]; cbn [bind] in *; [|discriminate].
      cbn [insert_catmag] in *. set (e2 := insert_fitresult fr e1) in *.
      destruct (sort_dict DUMP_ORDER (dset String.eqb e2 "Mcat" (VNum 3))) as [s3|] eqn:Es; cbn [bind] in E; [|discriminate].
      assert (K : forall k, In k (map fst e2) -> In k DUMP_ORDER).
      { intros k Hk. apply (proj1 (known_sort (dset String.eqb e2 "Mcat" (VNum 3)))); [eauto|].
        apply (dset_in_keys _ string_eqb_spec). now right. }
      destruct (sort_dict_ok DUMP_ORDER e2 K) as (r & Es' & _). exists e2, r. rewrite Es'. split; [reflexivity|].
      apply (f_equal (fun r => match r with Ok x => fst x | Err _ => [] end)) in E. cbn [fst] in E. subst ev'.
      rewrite (dget_dset_neq _ string_eqb_spec) in HM by discriminate. exact HM. }
    destruct X as (ev2 & srt2 & E2 & HM2).
    exists [("ev", ev2)], ev2, M. split; [|split; [now left|assumption]].
    apply calc_ok.
    - constructor; [|constructor]. split; [reflexivity|]. cbn [snd fst]. unfold recalc_event.
      change (orelse (num_at _ "v0") (orelse None (c_v0 ex_conf2))) with (Some 3500).
      rewrite truthy_some by lra.
      change (fold_left (dpop String.eqb) stale_keys [("W", VList [Some 2; None; Some 0])]) with [("W", VList [Some 2; None; Some 0])].
      change (orelse None (c_rho0 ex_conf2)) with (Some 2700). cbn [method_truthy c_method ex_conf2 smo_or c_smo].
      rewrite E2. reflexivity.
    - change (orelse None (c_rho0 ex_conf2)) with (Some 2700). rewrite truthy_some by lra. discriminate.
  Qed.
End Ex2.
