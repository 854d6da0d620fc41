From Coq Require Import String List Bool Reals Lra Lia Permutation Arith Classical FunctionalExtensionality.
From Coquelicot Require Import Coquelicot.
From Verif Require Import Base Pyf StatModel StatSpec StatProof PySort SortModel SortProof
  SourceModel SourceSpec SourceProof SourceProof2 SourceProof3.
Import ListNotations.
Open Scope string_scope.
Open Scope list_scope.
Open Scope R_scope.

Lemma present_points freq omM : present freq omM = points freq omM.
Proof.
  revert omM. induction freq as [|f fs IH]; intros [|[o|] os]; cbn; auto; now rewrite IH.
Qed.

Lemma ab_reparam_spec f M0 fc a b : b <> 0 ->
  source_model f M0 fc (a * b) (1 / b) = curve_ab M0 fc a b f.
Proof. intros. rewrite ab_reparam by assumption. apply source_model_ab_spec. Qed.

(** ** a straight line fit in closed form *)
Definition ols2 (y x : list R) : R * R :=
  let l := combine y x in
  let n := INR (length l) in
  let mx := rsum (map snd l) / n in
  let my := rsum (map fst l) / n in
  let sxx := rsum (map (fun q => (snd q - mx) ^ 2) l) in
  let sxy := rsum (map (fun q => (snd q - mx) * (fst q - my)) l) in
  let p1 := if Req_EM_T sxx 0 then 0 else sxy / sxx in
  (my - p1 * mx, p1).

Lemma rsum_minus {A} (f g : A -> R) l : rsum (map (fun a => f a - g a) l) = rsum (map f l) - rsum (map g l).
Proof. induction l as [|a l IH]; cbn [map]; rewrite ?rsum_cons; [unfold rsum; cbn; lra|]. rewrite IH. lra. Qed.

Lemma rsum_mult_l {A} c (f : A -> R) l : rsum (map (fun a => c * f a) l) = c * rsum (map f l).
Proof. induction l as [|a l IH]; cbn [map]; rewrite ?rsum_cons; [unfold rsum; cbn; lra|]. rewrite IH. lra. Qed.

Lemma rsum_cst {A} c (l : list A) : rsum (map (fun _ => c) l) = INR (length l) * c.
Proof.
  induction l as [|a l IH]; cbn [map]; rewrite ?rsum_cons; [unfold rsum; cbn; lra|].
  rewrite IH. cbn [length]. rewrite S_INR. lra.
Qed.

Lemma rsum_ge0 {A} (f : A -> R) l : (forall a, In a l -> 0 <= f a) -> 0 <= rsum (map f l).
Proof.
  induction l as [|a l IH]; cbn [map]; rewrite ?rsum_cons; [unfold rsum; cbn; lra|].
  intros H. assert (0 <= f a) by (apply H; now left). assert (0 <= rsum (map f l)); [|lra].
  apply IH. intros; apply H; now right.
Qed.

Lemma rsum_sq0 {A} (f : A -> R) l : rsum (map (fun a => f a ^ 2) l) = 0 -> forall a, In a l -> f a = 0.
Proof.
  induction l as [|b l IH]; cbn [map]; rewrite ?rsum_cons; [intros _ a []|].
  intros H. assert (0 <= f b ^ 2) by apply pow2_ge_0.
  assert (0 <= rsum (map (fun a => f a ^ 2) l)) by (apply rsum_ge0; intros; apply pow2_ge_0).
  intros a [<-|Hin]; [|apply IH; auto; lra].
  apply Rsqr_eq_0. unfold Rsqr. assert (f b ^ 2 = 0) by lra. lra.
Qed.

Lemma rsum_ext_in {A} (f g : A -> R) l : (forall a, In a l -> f a = g a) -> rsum (map f l) = rsum (map g l).
Proof. intros H. f_equal. now apply map_ext_in. Qed.

(** normal equations give the least squares line *)
Lemma normal_min (l : list (R * R)) p0 p1 :
  rsum (map (fun q => fst q - (p0 + p1 * snd q)) l) = 0 ->
  rsum (map (fun q => (fst q - (p0 + p1 * snd q)) * snd q) l) = 0 ->
  forall q0 q1,
  rsum (map (fun q => (fst q - (p0 + p1 * snd q)) ^ 2) l) <=
  rsum (map (fun q => (fst q - (q0 + q1 * snd q)) ^ 2) l).
Proof.
  intros H1 H2 q0 q1.
  set (r := fun q : R * R => fst q - (p0 + p1 * snd q)).
  set (d := fun q : R * R => (p0 - q0) + (p1 - q1) * snd q).
  assert (E : rsum (map (fun q => (fst q - (q0 + q1 * snd q)) ^ 2) l) =
    rsum (map (fun q => r q ^ 2 - ((-2 * (p0 - q0)) * r q - (2 * (p1 - q1)) * (r q * snd q) - d q ^ 2)) l)).
  { apply rsum_ext_in. intros q _. unfold r, d. ring. }
  rewrite E, !rsum_minus, !rsum_mult_l. change (rsum (map r l) = 0) in H1. change (rsum (map (fun q => r q * snd q) l) = 0) in H2.
  change (fun a => r a) with r. rewrite H1, H2.
  assert (0 <= rsum (map (fun q => d q ^ 2) l)) by (apply rsum_ge0; intros; apply pow2_ge_0).
  change (fun q => r q ^ 2) with (fun q : R * R => (fst q - (p0 + p1 * snd q)) ^ 2). lra.
Qed.

Lemma ols2_least : least_squares2 (fun _ => ols2).
Proof.
  intros y x [q0 q1]. unfold sse2, ols2. set (l := combine y x).
  destruct l as [|a0 l0] eqn:El; [cbn; lra|]. rewrite <- El in *. cbn [fst snd].
  assert (Hn : INR (length l) <> 0) by (rewrite El; cbn [length]; rewrite S_INR; pose proof (pos_INR (length l0)); lra).
  set (n := INR (length l)) in *. clearbody l. clear El.
  set (mx := rsum (map snd l) / n). set (my := rsum (map fst l) / n).
  set (sxx := rsum (map (fun q => (snd q - mx) ^ 2) l)).
  set (sxy := rsum (map (fun q => (snd q - mx) * (fst q - my)) l)).
  set (p1 := if Req_EM_T sxx 0 then 0 else sxy / sxx).
  assert (Ex : rsum (map snd l) = n * mx) by (unfold mx; field; auto).
  assert (Ey : rsum (map fst l) = n * my) by (unfold my; field; auto).
  assert (Hp : p1 * sxx = sxy).
  { unfold p1. destruct (Req_EM_T sxx 0) as [E0|E0]; [|field; auto].
    rewrite Rmult_0_l. symmetry. unfold sxy.
    rewrite <- (rsum_ext_in (fun _ => 0)).
    - rewrite rsum_cst. ring.
    - intros q Hq. rewrite (rsum_sq0 _ _ E0 q Hq). ring. }
  assert (N1 : rsum (map (fun q => fst q - (my - p1 * mx + p1 * snd q)) l) = 0).
  { rewrite rsum_minus.
    assert (rsum (map (fun a => my - p1 * mx + p1 * snd a) l) = n * my) as ->.
    { rewrite (rsum_ext_in _ (fun a => (my - p1 * mx) - (- p1) * snd a)) by (intros; ring).
      rewrite rsum_minus, rsum_cst, rsum_mult_l. fold n.
      replace (rsum (map (fun a : R * R => snd a) l)) with (rsum (map snd l)) by reflexivity. rewrite Ex. ring. }
    replace (rsum (map (fun a : R * R => fst a) l)) with (rsum (map fst l)) by reflexivity. rewrite Ey. ring. }
  apply (normal_min l (my - p1 * mx) p1); [exact N1|].
  assert (S0 : rsum (map (fun q => (fst q - (my - p1 * mx + p1 * snd q)) * snd q) l) =
    (sxy - p1 * sxx) - (- mx) * rsum (map (fun q => fst q - (my - p1 * mx + p1 * snd q)) l)).
  { unfold sxy, sxx. rewrite <- !rsum_mult_l, <- !rsum_minus. apply rsum_ext_in. intros; ring. }
  rewrite S0, N1, Hp. ring.
Qed.

Lemma ols2_equivariant : line_equivariant (fun _ => ols2).
Proof.
  intros _ y x c Hy HL. unfold ols2.
  assert (E : combine (map (fun v => v + c) y) x = map (fun q => (fst q + c, snd q)) (combine y x)).
  { clear. revert x. induction y as [|v y IH]; intros [|u x]; cbn; auto. now rewrite IH. }
  rewrite E. set (l := combine y x).
  assert (Hn : INR (length l) <> 0).
  { unfold l. rewrite combine_length, <- HL, Nat.min_id. apply not_0_INR. now destruct y. }
  clearbody l. rewrite map_length, !map_map. cbn [fst snd].
  set (n := INR (length l)) in *.
  change (map (fun x0 : R * R => snd x0) l) with (map snd l).
  assert (Em : rsum (map (fun q : R * R => fst q + c) l) / n = rsum (map fst l) / n + c).
  { rewrite (rsum_ext_in _ (fun a => fst a - (- c))) by (intros; ring).
    rewrite rsum_minus, rsum_cst. fold n. field. exact Hn. }
  rewrite Em.
  set (mx := rsum (map snd l) / n). set (my := rsum (map fst l) / n).
  rewrite (rsum_ext_in (fun x0 => (snd x0 - mx) * (fst x0 + c - (my + c)))
    (fun q => (snd q - mx) * (fst q - my))) by (intros; ring).
  set (p1 := if Req_EM_T _ 0 then 0 else _). f_equal. ring.
Qed.

(** ** exact optimisers exist (for examples): return x if it is a minimum *)
Definition minimal1 (f : R -> R) (b : option (R * R)) (x : R) : Prop :=
  forall y, within1 b y -> f x <= f y.

Definition oracle1 (x : R) (f : R -> R) (b : option (R * R)) : res R :=
  if EM_dec (minimal1 f b x) then Ok x else Err ValueError.

Lemma oracle1_exact x : exact1 (oracle1 x).
Proof.
  intros f b x'. unfold oracle1. destruct (EM_dec _) as [H|]; [|discriminate].
  intros [= <-]. now apply NNPP in H.
Qed.

Lemma oracle1_hit x f b : minimal1 f b x -> oracle1 x f b = Ok x.
Proof. intros H. unfold oracle1. destruct (EM_dec _) as [_|N]; [reflexivity|contradiction]. Qed.

Definition oracleN (x : list R) (f : list R -> R) (x0 : list R) (bs : list (option (R * R))) : res (list R) :=
  if EM_dec (forall y, Forall2 within1 bs y -> f x <= f y) then Ok x else Err ValueError.

Lemma oracleN_exact x : exactN (oracleN x).
Proof.
  intros f x0 bs x'. unfold oracleN. destruct (EM_dec _) as [H|]; [|discriminate].
  intros [= <-]. now apply NNPP in H.
Qed.

Section Src.
  Variable rlm1 : list R -> R.
  Variable lin2 : bool -> list R -> list R -> R * R.
  Variable min1 : (R -> R) -> option (R * R) -> res R.
  Variable minN : (list R -> R) -> list R -> list (option (R * R)) -> res (list R).
  Notation fit_sds := (fit_sds rlm1 lin2 min1 minN).
  Notation fit_model := (fit_model rlm1 lin2 min1 minN).
  Notation outcome := (outcome rlm1 lin2 min1 minN).
  Notation insert_source_inplace := (insert_source_inplace rlm1 lin2 min1 minN).
  Notation insert_source_properties := (insert_source_properties rlm1 lin2 min1 minN).
  Notation recalc_event := (recalc_event rlm1 lin2 min1 minN).
  Notation calculate := (calculate_source_properties rlm1 lin2 min1 minN).

  Definition is_fit (method : string) : Prop := method = "fit" \/ method = "robust_fit".

  Lemma fit_sds_model method freq omM o : is_fit method ->
    exists rf, fit_sds method freq omM o = fit_model rf (points freq omM) o /\
      rf = String.eqb method "robust_fit".
  Proof.
    intros [-> | ->]; [exists false|exists true]; rewrite <- present_points; split; reflexivity.
  Qed.

  (** C22 *)
  Lemma mean_keys freq omM o d : fit_sds "mean" freq omM o = Ok (Some d) -> same_keys d ["M0"; "fit_error"].
  Proof.
    unfold SourceModel.fit_sds. cbn [String.eqb Ascii.eqb Bool.eqb]. unfold fit_mean.
    destruct (o_fc o); [|discriminate].
    destruct (too_few _ _); [discriminate|]. destruct (0 <? _)%nat; [|discriminate].
    destruct (gstat _ _ _ _ _ _) as [me|]; cbn [bind]; [|discriminate].
    intros H. apply Ok_Some_inj in H. subst d. intros k. reflexivity.
  Qed.

  (** C23 *)
  Lemma fit_optimal freq omM o fc n g :
    o_fc o = Some fc -> o_n o = Some n -> o_gamma o = Some g ->
    points freq omM <> [] ->
    (forall np, o_num_points o = Some np -> (np <= length (points freq omM))%nat) ->
    exists M0 e, fit_sds "fit" freq omM o = Ok (Some [("M0", Some M0); ("fit_error", Some e)]) /\
      0 < M0 /\ e = sqrt (log_misfit (points freq omM) (abercrombie M0 fc n g)) /\
      forall M0', 0 < M0' ->
        log_misfit (points freq omM) (abercrombie M0 fc n g)
          <= log_misfit (points freq omM) (abercrombie M0' fc n g) /\
        (log_misfit (points freq omM) (abercrombie M0' fc n g) =
         log_misfit (points freq omM) (abercrombie M0 fc n g) -> M0' = M0).
  Proof. rewrite <- present_points. apply fit_fixed_optimal. Qed.

  Lemma fit_recovery freq omM o fc n g Mt :
    o_fc o = Some fc -> o_n o = Some n -> o_gamma o = Some g ->
    points freq omM <> [] ->
    (forall np, o_num_points o = Some np -> (np <= length (points freq omM))%nat) ->
    0 < Mt -> (forall p, In p (points freq omM) -> snd p = abercrombie Mt fc n g (fst p)) ->
    fit_sds "fit" freq omM o = Ok (Some [("M0", Some Mt); ("fit_error", Some 0)]).
  Proof. rewrite <- present_points. apply fit_fixed_recovery. Qed.

  Lemma points_scale k freq omM : points freq (scale_spec k omM) = scale_data k (points freq omM).
  Proof. rewrite <- !present_points. apply present_scale. Qed.

  Lemma lstsqab_equiv rb k data fc a :
    line_equivariant lin2 -> 0 < k -> data <> [] -> (forall p, In p data -> 0 < snd p) ->
    lstsqab lin2 rb (scale_data k data) fc a =
    (k * fst (fst (lstsqab lin2 rb data fc a)), snd (fst (lstsqab lin2 rb data fc a)),
     snd (lstsqab lin2 rb data fc a)).
  Proof.
    intros LE Hk Hd Hp. unfold lstsqab.
    set (y := map (fun p => ln (snd p)) data).
    assert (Ey : map (fun p => ln (snd p)) (scale_data k data) = map (fun v => v + ln k) y).
    { unfold y, scale_data. rewrite !map_map. apply map_ext_in. intros p Hin. cbn [fst snd].
      rewrite ln_mult by auto. ring. }
    assert (Ex : map (fun p => ln (source_model_ab (fst p) 1 fc a 1)) (scale_data k data) =
                 map (fun p => ln (source_model_ab (fst p) 1 fc a 1)) data).
    { unfold scale_data. rewrite map_map. reflexivity. }
    rewrite Ey, Ex. set (x := map (fun p => ln (source_model_ab (fst p) 1 fc a 1)) data).
    rewrite LE by (unfold y, x; rewrite ?map_length; now destruct data).
    destruct (lin2 rb y x) as [p0 p1]. cbn [fst snd].
    rewrite exp_plus, exp_ln by assumption.
    rewrite (Rmult_comm (exp p0)). f_equal.
    f_equal. clearbody x y. clear. revert x. induction y as [|v y IH]; intros [|u x]; cbn [map combine]; auto.
    f_equal; [|apply IH]. cbn [fst snd]. ring.
  Qed.

  Lemma fit_model_scale_ab rf k data o :
    line_equivariant lin2 -> o_n o = None -> o_gamma o = None ->
    0 < k -> (forall p, In p data -> 0 < snd p) ->
    fit_model rf (scale_data k data) o =
    match fit_model rf data o with
    | Ok d => Ok (option_map (scale_M0 k) d)
    | Err e => Err e
    end.
  Proof.
    intros LE En Eg Hk Hp. unfold SourceModel.fit_model.
    assert (EL : length (scale_data k data) = length data) by (unfold scale_data; now rewrite map_length).
    rewrite EL.
    destruct (_ || _)%bool eqn:E0; [reflexivity|].
    assert (Hd : data <> []) by (intros ->; discriminate).
    fold (robust_used rf data o). set (rb := robust_used rf data o) in *.
    assert (EQ : forall fc a, lstsqab lin2 rb (scale_data k data) fc a =
      (k * fst (fst (lstsqab lin2 rb data fc a)), snd (fst (lstsqab lin2 rb data fc a)),
       snd (lstsqab lin2 rb data fc a))) by (intros; now apply lstsqab_equiv).
    clearbody rb.
    assert (EB : bounds (scale_data k data) o = bounds data o)
      by (apply functional_extensionality; apply bounds_scale).
    destruct (o_fc o) as [fc|] eqn:Efc; unfold unknowns; rewrite ?Efc, ?En, ?Eg;
      cbn [isNone orb andb app length Nat.eqb Nat.add Nat.leb hd String.concat String.append].
    - unfold wrapper. rewrite ?Efc, ?En, ?Eg, ?EB. cbn [given]. streq. cbv iota.
      rewrite ?andb_true_r, ?andb_false_r.
      destruct (Nat.ltb_spec 1 (length data)) as [L|L]; [|reflexivity].
      replace (fun x => snd (lstsqab lin2 rb (scale_data k data) fc (nth 0 [x] 0)))
        with (fun x => snd (lstsqab lin2 rb data fc (nth 0 [x] 0)))
        by (apply functional_extensionality; intros x; now rewrite EQ).
      destruct (min1 _ _) as [x|]; cbn [bind]; [|reflexivity]. rewrite EQ. reflexivity.
    - unfold wrapper. rewrite ?Efc, ?En, ?Eg, ?EB. cbn [given]. streq. cbv iota.
      rewrite ?andb_true_r, ?andb_false_r.
      destruct (Nat.ltb_spec 2 (length data)) as [L|L]; [|reflexivity].
      replace (fun x => snd (lstsqab lin2 rb (scale_data k data) (nth 0 x 0) (nth 1 x 0)))
        with (fun x => snd (lstsqab lin2 rb data (nth 0 x 0) (nth 1 x 0)))
        by (apply functional_extensionality; intros x; now rewrite EQ).
      destruct (minN _ _ _) as [x|]; cbn [bind]; [|reflexivity]. rewrite EQ. reflexivity.
  Qed.

  Lemma fit_scale method k freq omM o :
    is_fit method ->
    (method = "robust_fit" -> translation_equivariant rlm1) ->
    (o_n o = None -> o_gamma o = None -> line_equivariant lin2) ->
    0 < k -> (forall p, In p (points freq omM) -> 0 < snd p) ->
    fit_sds method freq (scale_spec k omM) o =
    match fit_sds method freq omM o with
    | Ok d => Ok (option_map (scale_M0 k) d)
    | Err e => Err e
    end.
  Proof.
    intros Hm HT Hng Hk Hpos.
    destruct (fit_sds_model method freq omM o Hm) as (rf & E1 & Er).
    destruct (fit_sds_model method freq (scale_spec k omM) o Hm) as (rf' & E2 & Er').
    rewrite E1, E2, Er, Er', points_scale.
    assert (D : (o_n o = None /\ o_gamma o = None) \/ (o_n o <> None \/ o_gamma o <> None)).
    { destruct (o_n o), (o_gamma o); auto; right; (left; discriminate) || (right; discriminate). }
    destruct D as [[D1 D2]|D]; [apply fit_model_scale_ab; auto|].
    apply fit_model_scale; auto. intros Hr. apply HT. unfold robust_used in Hr. apply andb_prop in Hr as [Hr _].
    now apply String.eqb_eq.
  Qed.

  (** C23/C21: what is reported fits together *)
  Lemma fit_consistent method freq omM o d :
    is_fit method ->
    fit_sds method freq omM o = Ok (Some d) ->
    (nsearch o = 0 \/ nsearch o < length (points freq omM))%nat ->
    (forall g, reported (o_gamma o) d "gamma" g -> g <> 0) ->
    exists M0 fc n g e,
      dget String.eqb d "M0" = Some (Some M0) /\ 0 < M0 /\
      reported (o_fc o) d "fc" fc /\ reported (o_n o) d "n" n /\ reported (o_gamma o) d "gamma" g /\
      dget String.eqb d "fit_error" = Some (Some e) /\
      e = sqrt (log_misfit (points freq omM) (abercrombie M0 fc n g)).
  Proof.
    intros Hm H HN HG. destruct (fit_sds_model method freq omM o Hm) as (rf & E1 & _). rewrite E1 in H.
    apply fit_model_outcome in H as [(-> & H1 & H2)|[_ H]]; [lia|].
    eapply outcome_consistent; eauto.
  Qed.

  Lemma fit_recovers freq omM o d Mt fct nt gt :
    exact1 min1 -> exactN minN -> least_squares2 lin2 ->
    0 < Mt -> gt <> 0 ->
    allowed (o_fc o) (match o_fc_lim o with Some l => Some l
      | None => Some (fst (hd (0, 0) (points freq omM)), fst (last (points freq omM) (0, 0))) end) fct ->
    (o_n o <> None \/ o_gamma o <> None ->
     allowed (o_n o) (o_n_lim o) nt /\ allowed (o_gamma o) (o_gamma_lim o) gt) ->
    ab_limits o nt gt ->
    (forall p, In p (points freq omM) -> snd p = abercrombie Mt fct nt gt (fst p)) ->
    (nsearch o = 0 \/ nsearch o < length (points freq omM))%nat ->
    fit_sds "fit" freq omM o = Ok (Some d) ->
    (forall g, reported (o_gamma o) d "gamma" g -> g <> 0) ->
    exists M0 fc n g,
      dget String.eqb d "M0" = Some (Some M0) /\
      reported (o_fc o) d "fc" fc /\ reported (o_n o) d "n" n /\ reported (o_gamma o) d "gamma" g /\
      dget String.eqb d "fit_error" = Some (Some 0) /\
      forall p, In p (points freq omM) -> snd p = abercrombie M0 fc n g (fst p).
  Proof.
    intros X1 XN L2 HM Hg A1 A2 A3 HE HN H HG.
    assert (H' := H). change (fit_sds "fit" freq omM o) with (fit_model false (present freq omM) o) in H'.
    rewrite present_points in H'.
    assert (Hne : points freq omM <> []).
    { intros E. rewrite E in H'. discriminate. }
    destruct (fit_consistent "fit" freq omM o d (or_introl eq_refl) H HN HG)
      as (M0 & fc & n & g & e & D1 & D2 & D3 & D4 & D5 & D6 & D7).
    apply fit_model_outcome in H' as [(-> & H1 & H2)|[_ H']]; [lia|].
    assert (Z : dget String.eqb d "fit_error" = Some (Some 0)).
    { eapply (outcome_recovers rlm1 lin2 min1 minN (points freq omM) o d Mt fct nt gt); eauto. }
    exists M0, fc, n, g. repeat (split; [assumption|]).
    rewrite Z in D6. apply (f_equal (fun x => match x with Some (Some r) => r | _ => 0 end)) in D6.
    rewrite D7 in D6. symmetry in D6. apply sqrt_eq_0 in D6; [|apply log_misfit_nonneg].
    apply log_misfit_zero; auto.
    - intros p Hp. rewrite (HE p Hp). apply Rdiv_lt_0_compat; [assumption|apply exp_pos].
    - intros p Hp. apply Rdiv_lt_0_compat; [assumption|apply exp_pos].
  Qed.

  (** C24 *)
  Lemma fit_keys_enough method freq omM o d :
    is_fit method -> fit_sds method freq omM o = Ok (Some d) ->
    (nsearch o = 0 \/ nsearch o < length (points freq omM))%nat ->
    same_keys d (determined o).
  Proof.
    intros Hm H HN. destruct (fit_sds_model method freq omM o Hm) as (rf & E1 & _). rewrite E1 in H.
    apply fit_model_outcome in H as [(-> & H1 & H2)|[_ H]]; [lia|].
    eapply outcome_keys; eauto.
  Qed.

  Lemma fit_few method freq omM o d :
    is_fit method -> fit_sds method freq omM o = Ok (Some d) ->
    ~ (nsearch o = 0 \/ nsearch o < length (points freq omM))%nat -> d = [].
  Proof.
    intros Hm H HN. destruct (fit_sds_model method freq omM o Hm) as (rf & E1 & _). rewrite E1 in H.
    apply fit_model_outcome in H as [(-> & H1 & H2)|[H _]]; [reflexivity|contradiction].
  Qed.

  Lemma fit_none method freq omM o : is_fit method ->
    (fit_sds method freq omM o = Ok None <->
     points freq omM = [] \/ exists np, o_num_points o = Some np /\ (length (points freq omM) < np)%nat).
  Proof.
    intros Hm. destruct (fit_sds_model method freq omM o Hm) as (rf & E1 & _). rewrite E1.
    apply fit_model_none.
  Qed.

  Definition few_opts : fopts :=
    {| o_fc := None; o_n := Some 2; o_gamma := Some 1; o_fc_lim := None;
       o_n_lim := None; o_gamma_lim := None;
       o_fc0 := 10; o_n0 := 2; o_gamma0 := 1; o_fall_back := 5; o_num_points := None |}.

  Lemma fit_empty_refuted :
    exists freq omM o d, fit_sds "fit" freq omM o = Ok (Some d) /\ dget String.eqb d "M0" = None.
  Proof. exists [1], [Some 1], few_opts, []. split; reflexivity. Qed.

  (** C25 *)
  Lemma insert_aligned freq ev v0 rho0 method so catmag ev' srt W :
    dget String.eqb ev "W" = Some (VList W) -> length W = length freq -> W <> [] ->
    v0 <> 0 -> rho0 <> 0 ->
    insert_source_properties freq ev (Some v0) (Some rho0) method so catmag = Ok (ev', srt) ->
    Permutation srt ev' /\
    exists s, dget String.eqb ev' "sds" = Some (VList s) /\ length s = length freq /\
      forall i f w, nth_error freq i = Some f -> nth_error W i = Some w ->
        nth_error s i = Some
          match w with
          | None => None
          | Some x => if Req_EM_T x 0 then None else Some (sds x f v0 rho0)
          end.
  Proof.
    intros HW HL Hne Hv Hr H. unfold SourceModel.insert_source_properties in H.
    destruct (insert_source_inplace _ _ _ _ _ _ _) as [e|] eqn:E; cbn [bind] in H; [|discriminate].
    destruct (sort_dict DUMP_ORDER e) as [srt'|] eqn:Es; cbn [bind] in H; [|discriminate].
    apply (f_equal (fun r => match r with Ok x => x | Err _ => ([], []) end)) in H. inversion H; subst e srt'; clear H.
    split.
    { assert (K : forall k, In k (map fst ev') -> In k DUMP_ORDER) by (apply known_sort; eauto).
      destruct (sort_dict_ok DUMP_ORDER ev' K) as (r & E' & Pm & _). rewrite Es in E'.
      injection E' as <-. exact Pm. }
    apply (insert_spec rlm1 lin2 min1 minN freq ev _ _ method so catmag ev' W v0 rho0) in E as [E _]; auto.
    - eexists. split; [exact E|]. split; [rewrite map_length, combine_length; lia|].
      clear -HL. intros i. revert i W HL. induction freq as [|f0 fs IH]; intros i [|w0 W] HL f w; try discriminate.
      + destruct i; discriminate.
      + destruct i; cbn [combine map nth_error].
        * intros [= ->] [= ->]. f_equal. cbn [fst snd]. unfold truthy. destruct w; [|reflexivity].
          now destruct (Req_EM_T r 0).
        * apply IH. now injection HL.
    - unfold truthy. destruct (Req_EM_T v0 0); [contradiction|reflexivity].
    - unfold truthy. destruct (Req_EM_T rho0 0); [contradiction|reflexivity].
  Qed.

  Lemma insert_Mw freq ev v0 rho0 method so catmag ev' srt W :
    dget String.eqb ev "W" = Some (VList W) -> length W = length freq -> W <> [] ->
    v0 <> 0 -> rho0 <> 0 ->
    dget String.eqb ev "M0" = None -> dget String.eqb ev "Mw" = None ->
    insert_source_properties freq ev (Some v0) (Some rho0) method so catmag = Ok (ev', srt) ->
    dget String.eqb ev' "Mw" =
      match dget String.eqb ev' "M0" with
      | Some (VNum x) => Some (VNum (moment_magnitude x))
      | Some _ => Some VNone
      | None => None
      end.
  Proof.
    intros HW HL Hne Hv Hr H0 Hw H. unfold SourceModel.insert_source_properties in H.
    destruct (insert_source_inplace _ _ _ _ _ _ _) as [e|] eqn:E; cbn [bind] in H; [|discriminate].
    destruct (sort_dict DUMP_ORDER e) as [srt'|] eqn:Es; cbn [bind] in H; [|discriminate].
    apply (f_equal (fun r => match r with Ok x => x | Err _ => ([], []) end)) in H. inversion H; subst e srt'; clear H.
    apply (insert_spec rlm1 lin2 min1 minN freq ev _ _ method so catmag ev' W v0 rho0) in E as [_ E]; auto.
    - destruct E as (d & _ & _ & K & M & _). rewrite M, (K "M0") by (cbn; tauto).
      rewrite H0, Hw. destruct (dget String.eqb d "M0") as [[x|]|]; reflexivity.
    - unfold truthy. destruct (Req_EM_T v0 0); [contradiction|reflexivity].
    - unfold truthy. destruct (Req_EM_T rho0 0); [contradiction|reflexivity].
  Qed.

  (** C26 *)
  Definition rel_events (P : evdict -> evdict -> Prop) (a b : list (string * evdict)) : Prop :=
    Forall2 (fun x y => fst x = fst y /\ P (snd x) (snd y)) a b.

  Lemma calc_rel freq conf events rh0 v0 method so events' :
    calculate freq conf events rh0 v0 method so = Ok events' ->
    truthy (orelse rh0 (c_rho0 conf)) <> None ->
    rel_events (fun r r' => recalc_event freq (orelse v0 (c_v0 conf)) (orelse rh0 (c_rho0 conf))
      (match method_truthy method with Some m => Some m | None => c_method conf end)
      (smo_or so (c_smo conf)) r = Ok r') events events'.
  Proof.
    unfold calculate_source_properties. destruct (truthy _) as [rho|]; [|congruence]. intros H _.
    revert events' H. induction events as [|[id r] l IH]; intros events' H.
    - injection H as <-. constructor.
    - cbn [mapM snd fst] in H. destruct (recalc_event _ _ _ _ _ r) as [r'|] eqn:E; cbn [bind] in H; [|discriminate].
      destruct (mapM _ l) as [l'|] eqn:El; cbn [bind] in H; [|discriminate].
      injection H as <-. constructor; [now split|]. now apply IH.
  Qed.

  Lemma calc_ok freq conf events rh0 v0 method so events' :
    rel_events (fun r r' => recalc_event freq (orelse v0 (c_v0 conf)) (orelse rh0 (c_rho0 conf))
      (match method_truthy method with Some m => Some m | None => c_method conf end)
      (smo_or so (c_smo conf)) r = Ok r') events events' ->
    truthy (orelse rh0 (c_rho0 conf)) <> None ->
    calculate freq conf events rh0 v0 method so = Ok events'.
  Proof.
    unfold calculate_source_properties. destruct (truthy _) as [rho|]; [|congruence]. intros H _.
    induction H as [|[id r] [id' r'] l l' [E1 E2] H IH]; [reflexivity|].
    cbn [fst snd] in *. subst id'. cbn [mapM fst snd]. rewrite E2. cbn [bind]. rewrite IH. reflexivity.
  Qed.

  Definition nodup_events (events : list (string * evdict)) : Prop :=
    List.Forall (fun e => NoDup (map fst (snd e))) events.

  Lemma calc_untouched freq conf events rh0 v0 method so events' :
    nodup_events events ->
    calculate freq conf events rh0 v0 method so = Ok events' ->
    rel_events (fun r r' => forall k, ~ In k ["sds"; "M0"; "fc"; "n"; "gamma"; "fit_error"; "Mw"] ->
      dget String.eqb r' k = dget String.eqb r k) events events'.
  Proof.
    intros ND H. destruct (truthy (orelse rh0 (c_rho0 conf))) as [rho|] eqn:Er.
    - apply calc_rel in H; [|congruence]. unfold nodup_events in ND.
      induction H as [|[id r] [id' r'] l l' [E1 E2] H IH]; [constructor|].
      inversion ND; subst. constructor; [|now apply IH]. split; [assumption|].
      intros k Hk. eapply recalc_untouched; eauto. cbn in *. tauto.
    - unfold calculate_source_properties in H. cbn zeta in H. rewrite Er in H. injection H as <-.
      clear. induction events; constructor; auto.
  Qed.

  Lemma calc_fresh freq conf events1 events2 rh0 v0 method so events1' :
    nodup_events events1 -> nodup_events events2 ->
    truthy (orelse rh0 (c_rho0 conf)) <> None ->
    rel_events (fun r1 r2 => dget String.eqb r1 "W" = dget String.eqb r2 "W" /\
      dget String.eqb r1 "v0" = dget String.eqb r2 "v0" /\
      forall k, In k (map fst r2) -> In k DUMP_ORDER) events1 events2 ->
    calculate freq conf events1 rh0 v0 method so = Ok events1' ->
    exists events2', calculate freq conf events2 rh0 v0 method so = Ok events2' /\
      rel_events (fun r1 r2 => forall k, In k ["sds"; "M0"; "fc"; "n"; "gamma"; "fit_error"] ->
        dget String.eqb r1 k = dget String.eqb r2 k) events1' events2'.
  Proof.
    intros N1 N2 Hr HR H. apply calc_rel in H; [|assumption].
    set (P := fun r r' => recalc_event _ _ _ _ _ r = Ok r') in H.
    assert (G : exists events2', rel_events P events2 events2' /\
      rel_events (fun r1 r2 => forall k, In k ["sds"; "M0"; "fc"; "n"; "gamma"; "fit_error"] ->
        dget String.eqb r1 k = dget String.eqb r2 k) events1' events2').
    { unfold nodup_events in *. revert N1 N2 events1' H.
      induction HR as [|[i1 r1] [i2 r2] l1 l2 [E (HW & Hv & HK)] HR IH]; intros N1 N2 events1' H.
      - inversion H; subst. exists []. split; constructor.
      - inversion H as [|x [i1' r1'] y l' [E1 E2] H']; subst. inversion N1; inversion N2; subst.
        destruct (IH ltac:(assumption) ltac:(assumption) _ H') as (l2' & A1 & A2). cbn [fst snd] in *.
        unfold P in E2.
        destruct (recalc_fresh rlm1 lin2 min1 minN freq _ _ _ _ r1 r1' r2
          ltac:(assumption) ltac:(assumption) HW ltac:(unfold num_at; now rewrite Hv) HK E2) as (r2' & B1 & B2).
        exists ((i2, r2') :: l2'). split; constructor; auto. cbn [fst snd]. split; [congruence|exact B2]. }
    destruct G as (e2 & G1 & G2). exists e2. split; [|assumption]. now apply calc_ok.
  Qed.

  Lemma calc_idempotent freq conf events rh0 v0 method so events' :
    nodup_events events ->
    calculate freq conf events rh0 v0 method so = Ok events' ->
    exists events'', calculate freq conf events' rh0 v0 method so = Ok events'' /\
      rel_events (fun r r' => forall k, dget String.eqb r k = dget String.eqb r' k) events' events''.
  Proof.
    intros ND H. destruct (truthy (orelse rh0 (c_rho0 conf))) as [rho|] eqn:Er.
    - apply calc_rel in H; [|congruence].
      set (P := fun r r' => recalc_event _ _ _ _ _ r = Ok r') in H.
      assert (G : exists e'', rel_events P events' e'' /\
        rel_events (fun r r' => forall k, dget String.eqb r k = dget String.eqb r' k) events' e'').
      { unfold nodup_events in *. induction H as [|[i r] [i' r'] l l' [E1 E2] H IH].
        - exists []. split; constructor.
        - inversion ND; subst. destruct (IH ltac:(assumption)) as (e'' & A1 & A2). cbn [fst snd] in *.
          destruct (recalc_idempotent rlm1 lin2 min1 minN freq _ _ _ _ r r' ltac:(assumption) E2) as (r'' & B1 & B2).
          exists ((i', r'') :: e''). split; constructor; auto. }
      destruct G as (e & G1 & G2). exists e. split; [|assumption]. apply calc_ok; [assumption|congruence].
    - assert (H' := H). unfold calculate_source_properties in H. cbn zeta in H. rewrite Er in H. injection H as <-.
      exists events. split; [assumption|]. clear. induction events; constructor; auto.
  Qed.

  Lemma calc_Mw freq conf events rh0 v0 method so events' id r x :
    nodup_events events -> truthy (orelse rh0 (c_rho0 conf)) <> None ->
    calculate freq conf events rh0 v0 method so = Ok events' ->
    In (id, r) events' -> dget String.eqb r "M0" = Some (VNum x) ->
    dget String.eqb r "Mw" = Some (VNum (moment_magnitude x)).
  Proof.
    intros ND Hr H Hin HM. apply calc_rel in H; [|assumption].
    assert (G : exists r0, NoDup (map fst r0) /\ recalc_event freq (orelse v0 (c_v0 conf)) (orelse rh0 (c_rho0 conf))
      (match method_truthy method with Some m => Some m | None => c_method conf end)
      (smo_or so (c_smo conf)) r0 = Ok r).
    { unfold nodup_events in ND. induction H as [|[i a] [i' a'] l l' [E1 E2] H IH]; [destruct Hin|].
      inversion ND; subst. destruct Hin as [Hin|Hin]; [|auto].
      inversion Hin; subst. cbn [fst snd] in *. eauto. }
    destruct G as (r0 & N0 & E). exact (recalc_Mw rlm1 lin2 min1 minN freq _ _ _ _ r0 r (VNum x) N0 E HM).
  Qed.

  Definition stale_conf : srcconf :=
    {| c_rho0 := Some 2700; c_v0 := Some 3500; c_method := None; c_smo := SmoNone |}.

  Lemma calc_Mw_stale :
    exists freq conf events rh0 v0 method so events' id r x,
      nodup_events events /\
      calculate freq conf events rh0 v0 method so = Ok events' /\
      In (id, r) events' /\ dget String.eqb r "M0" = None /\
      dget String.eqb r "Mw" = Some (VNum x).
  Proof.
    assert (T : forall x, x <> 0 -> truthy (Some x) = Some x).
    { intros x Hx. unfold truthy. destruct (Req_EM_T x 0); [contradiction|reflexivity]. }
    exists (Some [1]), stale_conf, [("ev", [("W", VList [None]); ("M0", VNum 1); ("Mw", VNum 5)])],
      None, None, None, SmoNone, [("ev", [("W", VList [None]); ("Mw", VNum 5); ("sds", VList [None])])],
      "ev", [("W", VList [None]); ("Mw", VNum 5); ("sds", VList [None])], 5.
    split; [|split; [|split; [now left|split; reflexivity]]].
    - constructor; [|constructor]. cbn. repeat (constructor; [cbn; intuition discriminate|]). constructor.
    - apply calc_ok.
      + constructor; [|constructor]. split; [reflexivity|]. cbn [snd fst].
        apply (recalc_ok rlm1 lin2 min1 minN [1] _ _ _ _ _ 3500).
        * change (orelse (num_at _ "v0") (orelse None (c_v0 stale_conf))) with (Some 3500). apply T. lra.
        * change (strip _) with [("W", VList [None]); ("Mw", VNum 5)].
          change (orelse (num_at _ "v0") (orelse None (c_v0 stale_conf))) with (Some 3500).
          change (orelse None (c_rho0 stale_conf)) with (Some 2700).
          unfold SourceModel.insert_source_inplace.
          change (dget String.eqb [("W", VList [None]); ("Mw", VNum 5)] "W") with (Some (VList [None])).
          unfold insert_spectra, start_spectra. rewrite !T by lra. reflexivity.
        * intros k. cbn. tauto.
      + change (orelse None (c_rho0 stale_conf)) with (Some 2700). rewrite T by lra. discriminate.
  Qed.
End Src.
