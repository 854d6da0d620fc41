(** C137: the moment and the magnitude of an event. *)
From Coq Require Import String List Bool Reals Lra Lia Arith.
From Verif Require Import Base Pyf StatModel StatSpec StatProof PySort SortModel SourceModel SourceSpec SourceProof SourceProof2 SourceProof3 SourceProof4 NoiseSpec JitterSpec JitterProof JitterProof2.
Import ListNotations.
Open Scope string_scope.
Open Scope list_scope.
Open Scope R_scope.

(** methods without a search *)
Definition linear_method (m : string) (o : fopts) : Prop :=
  m = "mean" \/ (m = "fit" /\ o_fc o <> None /\ o_n o <> None /\ o_gamma o <> None).

Lemma moment_errors : forall rlm1 lin2 min1 minN d m freq omM omM' o, 0 <= d -> near_spectrum d omM omM' ->
  (m = "mean" \/ (m = "fit" /\ o_fc o <> None /\ o_n o <> None /\ o_gamma o <> None)) ->
  near_results d (fit_sds rlm1 lin2 min1 minN m freq omM o) (fit_sds rlm1 lin2 min1 minN m freq omM' o).
Proof.
  intros rlm1 lin2 min1 minN d m freq omM omM' o D H [-> | (-> & A & B & C)]; [now apply mean_values|now apply fit_values].
Qed.

Definition spectrum (v rho : R) (W : list (option R)) (freq : list R) : list (option R) :=
  map (fun p => match truthy (fst p) with Some w => Some (sds w (snd p) v rho) | None => None end) (combine W freq).

Lemma truthy_pos x : 0 < x -> truthy (Some x) = Some x.
Proof. intros H. unfold truthy. destruct (Req_EM_T x 0); [lra|reflexivity]. Qed.

Lemma spectra_near d v rho W : forall W' freq, 0 < v -> 0 < rho -> (forall f, In f freq -> 0 < f) -> near_spectrum d W W' ->
  near_spectrum (d / 2) (spectrum v rho W freq) (spectrum v rho W' freq).
Proof.
  induction W as [|x W IH]; intros W' freq V RH F H; inversion H as [|? y ? W2 X Y]; subst; [constructor|].
  destruct freq as [|f freq]; [constructor|]. unfold spectrum. cbn [combine map fst snd]. constructor.
  - destruct x as [a|], y as [b|]; cbn in X; try contradiction; [|exact I]. destruct X as [B U].
    destruct (up_to_log _ _ _ B U) as [A _]. rewrite !truthy_pos by assumption. assert (0 < f) by (apply F; now left).
    split; [now apply sds_pos|now apply sds_errors].
  - apply IH; auto. intros g G. apply F. now right.
Qed.

Section Event.
  Variable rlm1 : list R -> R.
  Variable lin2 : bool -> list R -> list R -> R * R.
  Variable min1 : (R -> R) -> option (R * R) -> res R.
  Variable minN : (list R -> R) -> list R -> list (option (R * R)) -> res (list R).

  (** the moment of an event is the one of the fit *)
  Lemma event_moment freq ev v0 rho0 m so catmag r s W M o : 0 < v0 -> 0 < rho0 ->
    dget String.eqb ev "W" = Some (VList W) -> length W = length freq -> W <> [] ->
    dget String.eqb ev "M0" = None -> m <> "" -> smo_kwargs so = Ok o ->
    insert_source_properties rlm1 lin2 min1 minN freq ev (Some v0) (Some rho0) (Some m) so catmag = Ok (r, s) ->
    dget String.eqb r "M0" = Some (VNum M) ->
    (exists f, fit_sds rlm1 lin2 min1 minN m freq (spectrum v0 rho0 W freq) o = Ok (Some f) /\ dget String.eqb f "M0" = Some (Some M)) /\
    dget String.eqb r "Mw" = Some (VNum (moment_magnitude M)).
  Proof.
    intros V RH HW HL NW H0 NM SO H HM. unfold insert_source_properties in H.
    destruct (insert_source_inplace _ _ _ _ _ _ _ _ _ _ _) as [e|] eqn:E; cbn [bind] in H; [|discriminate].
    destruct (sort_dict DUMP_ORDER e) as [srt|]; cbn [bind] in H; [|discriminate].
    assert (EE : e = r) by congruence. subst e.
    apply (insert_spec rlm1 lin2 min1 minN freq ev _ _ (Some m) so catmag r W v0 rho0) in E as [_ E]; auto.
    2: now apply truthy_pos. 2: now apply truthy_pos.
    destruct E as (f & _ & F & K & MW & _). rewrite (K "M0") in HM by (cbn; tauto). rewrite H0 in HM.
    destruct (dget String.eqb f "M0") as [[x|]|] eqn:G; try discriminate. injection HM as ->.
    split; [|exact MW]. destruct F as [->|(m' & o' & MT & SO' & F)]; [discriminate|].
    exists f. split; [|exact G]. assert (m' = m).
    { unfold method_truthy in MT. destruct (String.eqb m "") eqn:Q; [apply String.eqb_eq in Q; congruence|congruence]. }
    subst m'. rewrite SO in SO'. injection SO' as ->. exact F.
  Qed.

  Lemma event_errors : forall d freq ev ev' v0 rho0 m so o catmag catmag' r s r' s' W W' M M', 0 <= d ->
    0 < v0 -> 0 < rho0 -> (forall f, In f freq -> 0 < f) ->
    dget String.eqb ev "W" = Some (VList W) -> dget String.eqb ev' "W" = Some (VList W') ->
    length W = length freq -> W <> [] -> near_spectrum d W W' ->
    dget String.eqb ev "M0" = None -> dget String.eqb ev' "M0" = None -> smo_kwargs so = Ok o ->
    (m = "mean" \/ (m = "fit" /\ o_fc o <> None /\ o_n o <> None /\ o_gamma o <> None)) ->
    insert_source_properties rlm1 lin2 min1 minN freq ev (Some v0) (Some rho0) (Some m) so catmag = Ok (r, s) ->
    insert_source_properties rlm1 lin2 min1 minN freq ev' (Some v0) (Some rho0) (Some m) so catmag' = Ok (r', s') ->
    dget String.eqb r "M0" = Some (VNum M) -> dget String.eqb r' "M0" = Some (VNum M') ->
    up_to (d / 2) M M' /\
    exists w w', dget String.eqb r "Mw" = Some (VNum w) /\ dget String.eqb r' "Mw" = Some (VNum w') /\
      Rabs (w - w') <= d / (3 * ln 10).
  Proof.
    intros d freq ev ev' v0 rho0 m so o catmag catmag' r s r' s' W W' M M' D V RH FP HW HW' HL NW NS H0 H0' SO MM H H' HM HM'.
    assert (NM : m <> "") by (destruct MM as [->|(-> & _)]; discriminate).
    assert (HL' : length W' = length freq). { rewrite <- HL. clear - NS. induction NS; cbn; auto. }
    assert (NW' : W' <> []) by (intros ->; inversion NS; congruence).
    destruct (event_moment freq ev v0 rho0 m so catmag r s W M o V RH HW HL NW H0 NM SO H HM) as ((f & F & G) & MW).
    destruct (event_moment freq ev' v0 rho0 m so catmag' r' s' W' M' o V RH HW' HL' NW' H0' NM SO H' HM') as ((f' & F' & G') & MW').
    pose proof (spectra_near d v0 rho0 W W' freq V RH FP NS) as SN.
    assert (D2 : 0 <= d / 2) by lra.
    pose proof (moment_errors rlm1 lin2 min1 minN (d / 2) m freq _ _ o D2 SN MM) as K. rewrite F, F' in K.
    destruct K as (X & X' & E1 & E2 & P & U). rewrite G in E1. rewrite G' in E2. injection E1 as <-. injection E2 as <-.
    split; [exact U|]. eexists; eexists. split; [exact MW|]. split; [exact MW'|].
    pose proof (magnitude_errors _ _ _ P U) as Q. replace (2 * (d / 2) / (3 * ln 10)) with (d / (3 * ln 10)) in Q; [exact Q|].
    assert (0 < ln 10) by (rewrite <- ln_1; apply ln_increasing; lra). field. lra.
  Qed.
End Event.
