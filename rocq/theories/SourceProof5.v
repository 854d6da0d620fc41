(** Options of the source calculation: defaults and precedence. *)
From Coq Require Import String List Bool Reals Lra Lia.
From Coquelicot Require Import Coquelicot.
From Verif Require Import Base SourceModel SourceSpec SourceProof SourceProof2 SourceProof3 SourceProof4.
Import ListNotations.
Open Scope string_scope.
Open Scope list_scope.
Open Scope R_scope.

Lemma truthy_num x : x <> 0 -> truthy (Some x) = Some x.
Proof. intros Hx. unfold truthy. destruct (Req_EM_T x 0); [contradiction|reflexivity]. Qed.

Lemma orelse_num x b : x <> 0 -> orelse (Some x) b = Some x.
Proof. intros Hx. unfold orelse. now rewrite truthy_num. Qed.

Lemma density_truthy rh0 conf : has_density rh0 conf <-> truthy (orelse rh0 (c_rho0 conf)) <> None.
Proof.
  unfold has_density, orelse. split.
  - intros (x & Hx & [->|E]).
    + rewrite truthy_num by assumption. rewrite truthy_num by assumption. discriminate.
    + rewrite E. destruct (truthy rh0) as [y|] eqn:T; [|rewrite truthy_num by assumption; discriminate].
      destruct rh0 as [z|]; [|discriminate]. cbn in T. destruct (Req_EM_T z 0); [discriminate|].
      rewrite truthy_num by congruence. discriminate.
  - intros H. destruct rh0 as [z|]; cbn [truthy] in H.
    + destruct (Req_EM_T z 0).
      * destruct (c_rho0 conf) as [y|]; [|now elim H]. exists y. split; [|auto]. intros ->. apply H. cbn.
        destruct (Req_EM_T 0 0); [reflexivity|lra].
      * exists z. auto.
    + destruct (c_rho0 conf) as [y|]; [|now elim H]. exists y. split; [|auto]. intros ->. apply H. cbn.
      destruct (Req_EM_T 0 0); [reflexivity|lra].
Qed.

Section S.
  Variable rlm1 : list R -> R.
  Variable lin2 : bool -> list R -> list R -> R * R.
  Variable min1 : (R -> R) -> option (R * R) -> res R.
  Variable minN : (list R -> R) -> list R -> list (option (R * R)) -> res (list R).
  Notation calculate := (calculate_source_properties rlm1 lin2 min1 minN).

  (** C21: the model fitted by default *)
  Lemma default_model method freq omM d fc :
    is_fit method -> (2 <= length (points freq omM))%nat ->
    (forall f, In f freq -> 0 < f) ->
    fit_sds rlm1 lin2 min1 minN method freq omM fopts_default = Ok (Some d) ->
    dget String.eqb d "fc" = Some (Some fc) -> 0 < fc ->
    exists M0, 0 < M0 /\ dget String.eqb d "M0" = Some (Some M0) /\
      dget String.eqb d "fit_error" =
        Some (Some (sqrt (log_misfit (points freq omM) (fun f => M0 / (1 + (f / fc) ^ 2))))).
  Proof.
    intros Hm Hn Hf Hd Hfc Pfc.
    destruct (fit_consistent rlm1 lin2 min1 minN method freq omM fopts_default d Hm Hd)
      as (M0 & fc' & n & g & e & E1 & P & E2 & E3 & E4 & E5 & E6).
    - right. cbn. lia.
    - cbn. intros g ->. lra.
    - cbn in E2, E3, E4. exists M0. split; [exact P|]. split; [exact E1|]. rewrite E5, E6.
      assert (fc' = fc) as -> by congruence. subst n g. do 3 f_equal.
      unfold log_misfit. f_equal. f_equal. apply map_ext_in. intros [f x] I. cbn [fst snd].
      assert (Pf : 0 < f).
      { apply Hf. unfold points in I. apply in_flat_map in I. destruct I as ([f' o] & I & J).
        apply in_combine_l in I. cbn [fst snd] in J. destruct o; [|destruct J].
        destruct J as [J|[]]. injection J as <- _. exact I. }
      assert (Q : 0 < f / fc) by (apply Rdiv_lt_0_compat; assumption).
      unfold abercrombie. replace (1 * 2) with (INR 2) by (cbn; ring).
      replace (1 / 1) with (INR 1) by (cbn; lra). rewrite !Rpower_pow; [|exact Q|].
      + now rewrite pow_1.
      + rewrite Rpower_pow by exact Q. apply Rplus_lt_0_compat; [lra|]. now apply pow_lt.
  Qed.

  (** C26: given options win *)
  Lemma calc_given freq conf conf' events rho v m o : rho <> 0 -> v <> 0 -> m <> "" ->
    calculate freq conf events (Some rho) (Some v) (Some m) (Smo o) =
    calculate freq conf' events (Some rho) (Some v) (Some m) (Smo o).
  Proof.
    intros Hr Hv Hm. unfold calculate_source_properties. rewrite !orelse_num by assumption.
    cbn [method_truthy]. destruct (String.eqb_spec m ""); [contradiction|]. reflexivity.
  Qed.

  (** C26: options from the configuration *)
  Lemma calc_config freq conf events r0 v1 m1 s1 rho v m o : rho <> 0 -> v <> 0 -> m <> "" ->
    (r0 = None \/ r0 = Some 0) -> (v1 = None \/ v1 = Some 0) -> (m1 = None \/ m1 = Some "") -> (s1 = SmoNone \/ s1 = SmoEmpty) ->
    c_rho0 conf = Some rho -> c_v0 conf = Some v -> c_method conf = Some m -> c_smo conf = Smo o ->
    calculate freq conf events r0 v1 m1 s1 =
    calculate freq conf events (Some rho) (Some v) (Some m) (Smo o).
  Proof.
    intros Hr Hv Hm A1 A2 A3 A4 E1 E2 E3 E4. unfold calculate_source_properties. rewrite E1, E2, E3, E4.
    rewrite !orelse_num by assumption.
    assert (Z : forall b, orelse (Some 0) b = b) by (intros b; unfold orelse, truthy; destruct (Req_EM_T 0 0); congruence).
    assert (N : forall x b, x = None \/ x = Some 0 -> orelse x b = b) by (intros x b [-> | ->]; [reflexivity|apply Z]).
    rewrite (N r0 _ A1), (N v1 _ A2).
    assert (S : smo_or s1 (Smo o) = smo_or (Smo o) (Smo o)) by (destruct A4 as [-> | ->]; reflexivity). rewrite S.
    assert (M : method_truthy m1 = None) by (destruct A3 as [-> | ->]; reflexivity). rewrite M.
    cbn [method_truthy]. destruct (String.eqb_spec m ""); [contradiction|]. reflexivity.
  Qed.

  (** C26: no options *)
  Lemma calc_default freq conf events rho v m s1 : (s1 = SmoNone \/ s1 = SmoEmpty) -> c_smo conf = SmoEmpty ->
    calculate freq conf events rho v m s1 =
    calculate freq conf events rho v m
      (Smo {| o_fc := None; o_n := Some 2; o_gamma := Some 1; o_fc_lim := None; o_n_lim := Some (1 / 2, 10);
              o_gamma_lim := Some (1 / 2, 10); o_fc0 := 10; o_n0 := 2; o_gamma0 := 1; o_fall_back := 5; o_num_points := None |}).
  Proof.
    intros A E. unfold calculate_source_properties. rewrite E.
    assert (S : smo_or s1 SmoEmpty = SmoEmpty) by (destruct A as [-> | ->]; reflexivity). rewrite S.
    cbn [smo_or]. fold fopts_default.
    reflexivity.
  Qed.

  (** C26: the velocity of the event wins *)
  Lemma calc_velocity freq conf events rh0 v v' method so :
    (forall id r, In (id, r) events -> exists x, x <> 0 /\ dget String.eqb r "v0" = Some (VNum x)) ->
    calculate freq conf events rh0 v method so = calculate freq conf events rh0 v' method so.
  Proof.
    intros H. unfold calculate_source_properties. destruct (truthy (orelse rh0 (c_rho0 conf))) as [z|]; [|reflexivity].
    induction events as [|[id r] l IH]; [reflexivity|]. cbn [mapM].
    assert (E : forall w w' r0 m s, recalc_event rlm1 lin2 min1 minN freq w r0 m s r =
                recalc_event rlm1 lin2 min1 minN freq w' r0 m s r).
    { intros. unfold recalc_event, num_at. destruct (H id r (or_introl eq_refl)) as (x & Hx & ->).
      now rewrite !orelse_num. }
    cbn [fst snd]. rewrite (E _ (orelse v' (c_v0 conf))). rewrite IH; [reflexivity|].
    intros id' r' I. apply (H id' r'). now right.
  Qed.

  Lemma calc_fresh' freq conf events1 events2 rh0 v0 method so events1' :
    nodup_events events1 -> nodup_events events2 -> has_density rh0 conf ->
    rel_events (fun r1 r2 => dget String.eqb r1 "W" = dget String.eqb r2 "W" /\
      dget String.eqb r1 "v0" = dget String.eqb r2 "v0" /\
      forall k, In k (map fst r2) -> In k SortModel.DUMP_ORDER) events1 events2 ->
    calculate freq conf events1 rh0 v0 method so = Ok events1' ->
    exists events2',
      calculate freq conf events2 rh0 v0 method so = Ok events2' /\
      rel_events (fun r1 r2 => forall k, In k ["sds"; "M0"; "fc"; "n"; "gamma"; "fit_error"] ->
        dget String.eqb r1 k = dget String.eqb r2 k) events1' events2'.
  Proof. intros N1 N2 D. apply calc_fresh; auto. now apply density_truthy. Qed.

  Lemma calc_Mw' freq conf events rh0 v0 method so events' id r x :
    nodup_events events -> has_density rh0 conf ->
    calculate freq conf events rh0 v0 method so = Ok events' ->
    In (id, r) events' -> dget String.eqb r "M0" = Some (VNum x) ->
    dget String.eqb r "Mw" = Some (VNum (moment_magnitude x)).
  Proof. intros N D. apply calc_Mw; auto. now apply density_truthy. Qed.
End S.
