(** C135: the inversion with another unit of time, given transport parameters. *)
From Coq Require Import String List Bool Reals Lra Lia ZArith Arith.
From Verif Require Import Base Pyf PyfOps StatModel SmoothSpec RtSpec FbModel LsqfbModel LsqfbSpec GreenModel GainSpec GainProof2 GainProof4 UnitSpec UnitProof2 ClockSpec ClockProof.
Import ListNotations.
Open Scope string_scope.
Open Scope list_scope.
Open Scope R_scope.

Lemma dget_retimed k (d : list ((string * string) * (R * R))) p : dget pair_eqb (map (fun pw => (fst pw, (k * fst (snd pw), k * snd (snd pw)))) d) p =
  option_map (fun w => (k * fst w, k * snd w)) (dget pair_eqb d p).
Proof. induction d as [|[q r] d IH]; [reflexivity|]. cbn [map fst snd dget]. destruct (pair_eqb p q); [reflexivity|exact IH]. Qed.

Section I.
  Variables (k : R) (o : lopts) (st : wstate) (ty window : string) (sm : option R) (num : nat) (c0 : R).
  Hypothesis K : 0 < k.
  Hypothesis T : In ty documented_types.
  Hypothesis AL : aligned st.
  Hypothesis EV : evenly_sampled sm st.
  Hypothesis GC : l_gcoda o = coda_greens ty sm window c0.
  Hypothesis GB : l_gbulk o = bulk_greens ty num c0.

  Definition o_time := in_time k (coda_greens ty (option_map (Rmult k) sm) window (c0 / k)) (bulk_greens ty num (c0 / k)) o.

  Lemma greens_time g ps : forall ec tc, sm = None \/ Forall (fun t => exists t0 dt, evenly_spaced t t0 dt) tc ->
    greens o_time (retimed k st) g ps ec (map (map (Rmult k)) tc) = greens o st g ps ec tc.
  Proof.
    induction ps as [|p ps IH]; intros ec tc E; cbn [greens]; [reflexivity|].
    destruct ec as [|e ec]; [reflexivity|]. destruct (Nat.eqb (List.length e) 0); [reflexivity|].
    change (w_distances (retimed k st)) with (w_distances st).
    destruct (dget pair_eqb (w_distances st) p) as [r|]; [|reflexivity].
    destruct tc as [|t tc]; [reflexivity|]. cbn [map]. 
    assert (E1 : sm = None \/ exists t0 dt, evenly_spaced t t0 dt) by (destruct E as [E|E]; [now left|right; now inversion E]).
    assert (E2 : sm = None \/ Forall (fun t => exists t0 dt, evenly_spaced t t0 dt) tc) by (destruct E as [E|E]; [now left|right; now inversion E]).
    rewrite (IH ec tc E2). rewrite GC, GB. change (l_gcoda o_time) with (coda_greens ty (option_map (Rmult k) sm) window (c0 / k)).
    change (l_gbulk o_time) with (bulk_greens ty num (c0 / k)). change (l_bulk o_time) with (l_bulk o).
    rewrite (coda_ticks k K) by assumption. destruct (coda_greens ty sm window c0 r t g) as [gs|]; [|reflexivity]. cbn [bind].
    change (w_tbulk_window (retimed k st)) with (map (fun pw : string * string * (R * R) => (fst pw, (k * fst (snd pw), k * snd (snd pw)))) (w_tbulk_window st)).
    rewrite dget_retimed. destruct (dget pair_eqb (w_tbulk_window st) p) as [w|]; [|reflexivity]. cbn [option_map].
    rewrite (bulk_ticks k K) by assumption. reflexivity.
  Qed.

  Lemma ratio_pos x : 0 < x -> 0 < x / k.
  Proof. intros. now apply Rdiv_lt_0_compat. Qed.
  Lemma ratio_neg x : x < 0 -> x / k < 0.
  Proof. intros X. pose proof (ratio_pos (- x) ltac:(lra)). unfold Rdiv in *. lra. Qed.
  Lemma mult_pos x : 0 < x -> 0 < k * x.
  Proof. intros. now apply Rmult_lt_0_compat. Qed.
  Lemma mult_neg x : x < 0 -> k * x < 0.
  Proof. intros X. pose proof (mult_pos (- x) ltac:(lra)). lra. Qed.

  Lemma finf_mult x : finf (k * x) = finf x.
  Proof.
    unfold finf. pose proof (mult_pos x). pose proof (mult_neg x).
    destruct (Rtotal_order x 0) as [L|[->|L]]; [|rewrite Rmult_0_r; reflexivity|];
    destruct (Rlt_dec 0 (k * x)), (Rlt_dec 0 x), (Rlt_dec (k * x) 0), (Rlt_dec x 0); try reflexivity; try lra; exfalso; intuition lra.
  Qed.
  Lemma finf_ratio x : finf (x / k) = finf x.
  Proof.
    unfold finf. pose proof (ratio_pos x). pose proof (ratio_neg x).
    destruct (Rtotal_order x 0) as [L|[->|L]]; [|replace (0 / k) with 0 by (unfold Rdiv; ring); reflexivity|];
    destruct (Rlt_dec 0 (x / k)), (Rlt_dec 0 x), (Rlt_dec (x / k) 0), (Rlt_dec x 0); try reflexivity; try lra; exfalso; intuition lra.
  Qed.

  Lemma fmul_time b t : fmul (per_unit k b) (fmul (FNum k) t) = fmul b t.
  Proof.
    assert (P : finf k = FPInf) by (unfold finf; destruct (Rlt_dec 0 k); [reflexivity|lra]).
    destruct t as [| | |t]; cbn [fmul]; rewrite ?P; cbn [fneg]; destruct b as [| | |b]; cbn [per_unit fmul]; try reflexivity;
      rewrite ?finf_ratio, ?finf_mult; try reflexivity. f_equal. field. lra.
  Qed.

  Lemma nonzero_time bf : nonzero (option_map (per_unit k) bf) = option_map (per_unit k) (nonzero bf).
  Proof.
    destruct bf as [[| | |x]|]; try reflexivity. cbn [option_map per_unit nonzero].
    destruct (Req_EM_T (x / k) 0) as [Z|Z], (Req_EM_T x 0) as [Z'|Z']; try reflexivity; exfalso.
    - apply Rmult_integral in Z. destruct Z as [Z|Z]; [lra|]. pose proof (Rinv_0_lt_compat k K). lra.
    - apply Z. rewrite Z'. unfold Rdiv. ring.
  Qed.

  Lemma times_time : times (retimed k st) = map (fmul (FNum k)) (times st).
  Proof.
    unfold times. cbn [retimed w_tcoda w_tbulk]. rewrite map_app, concat_map, !map_map. f_equal. f_equal. apply map_ext. intros t.
    rewrite !map_map. reflexivity.
  Qed.

  Lemma rhs_time g bf fs bs : rhs o_time (retimed k st) g (option_map (per_unit k) bf) fs bs = rhs o st g bf fs bs.
  Proof.
    unfold rhs. change (pairs (retimed k st)) with (pairs st). change (w_ecoda (retimed k st)) with (w_ecoda st).
    change (w_ebulk (retimed k st)) with (w_ebulk st). change (w_tcoda (retimed k st)) with (map (map (Rmult k)) (w_tcoda st)).
    rewrite greens_time by exact EV. rewrite nonzero_time, times_time.
    destruct (nonzero bf) as [b|]; cbn [option_map]; [|reflexivity].
    rewrite map_map, (map_ext (fun x => fmul (per_unit k b) (fmul (FNum k) x)) (fmul b)) by (intros; apply fmul_time). reflexivity.
  Qed.

  Lemma near_time b : near_bounds (l_b_bounds o_time) (per_unit k b) = near_bounds (l_b_bounds o) b.
  Proof.
    unfold near_bounds. cbn [o_time in_time l_b_bounds]. destruct (l_b_bounds o) as [[lo hi]|]; [|reflexivity]. cbn [option_map fst snd].
    replace (1.01 * (lo / k)) with (1.01 * lo / k) by (unfold Rdiv; ring). replace (0.99 * (hi / k)) with (0.99 * hi / k) by (unfold Rdiv; ring).
    change (FNum (1.01 * lo / k)) with (per_unit k (FNum (1.01 * lo))). change (FNum (0.99 * hi / k)) with (per_unit k (FNum (0.99 * hi))).
    now rewrite !(fltb_unit k K).
  Qed.
  Lemma outside_time b : b_outside o_time (per_unit k b) = b_outside o b.
  Proof.
    unfold b_outside. cbn [o_time in_time l_b_bounds]. destruct (l_b_bounds o) as [[lo hi]|]; [|reflexivity]. cbn [option_map fst snd].
    change (FNum (lo / k)) with (per_unit k (FNum lo)). change (FNum (hi / k)) with (per_unit k (FNum hi)).
    now rewrite !(fltb_unit k K).
  Qed.

  Definition time_fit (f : fit) : fit :=
    {| f_err := f_err f; f_g0 := f_g0 f; f_b := per_unit k (f_b f); f_W := f_W f; f_R := f_R f |}.

  Lemma arrange_time f v : timed_result k (arrange o st f v) (arrange o_time (retimed k st) (time_fit f) (v / k)).
  Proof.
    unfold timed_result, arrange. cbn [fb_g0 fb_b fb_W fb_R fb_nstations fb_error fb_v0 time_fit f_err f_g0 f_b f_W f_R].
    change (l_fix o_time) with (l_fix o). repeat split. destruct (l_fix o); reflexivity.
  Qed.

  Section Fixed.
  Hypothesis FX : l_fix o = true.

  Lemma build_time : build o_time (retimed k st) = build o st.
  Proof. unfold build. change (l_fix o_time) with (l_fix o). rewrite FX. reflexivity. Qed.

  Lemma solve_time a bs rs g b fs : solve_at o_time (retimed k st) a bs rs g (Some (per_unit k b)) fs =
    do f <- solve_at o st a bs rs g (Some b) fs; Ok (time_fit f).
  Proof.
    unfold solve_at. change (Some (per_unit k b)) with (option_map (per_unit k) (Some b)). rewrite rhs_time.
    destruct (rhs o st g (Some b) fs bs) as [z|]; [|reflexivity]. cbn [bind].
    change (weights o_time (retimed k st) z) with (weights o st z). change (l_wls o_time) with (l_wls o).
    destruct (l_wls o z a (weights o st z)) as [[c mse]|]; [|reflexivity]. cbn [bind].
    change (l_fix o_time) with (l_fix o). change (l_coda_norm o_time) with (l_coda_norm o). rewrite FX.
    destruct (l_coda_norm o); [reflexivity|]. cbn [bind option_map].
    change (decode o_time (retimed k st) c fs rs) with (decode o st c fs rs).
    destruct (decode o st c fs rs) as [w r]. reflexivity.
  Qed.

  Lemma fixed_time v y s : invert_band o st v = Ok (y, s) ->
    exists y' s', invert_band o_time (retimed k st) (v / k) = Ok (y', s') /\ both (timed_result k) y y'.
  Proof.
    unfold invert_band. change (pairs (retimed k st)) with (pairs st). destruct (pairs st) as [|p ps]; [discriminate|].
    unfold choose. rewrite build_time. destruct (build o st) as [[[a bs] rs]|]; [|discriminate]. cbn [bind].
    change (l_fix o_time) with (l_fix o). change (l_fix_sites o_time) with (l_fix_sites o). rewrite FX.
    change (l_fix_params o_time) with (option_map (fun gb : option pyf * option pyf => (fst gb, option_map (per_unit k) (snd gb))) (l_fix_params o)).
    destruct (l_fix_params o) as [[[g|] [b|]]|]; try discriminate; cbn [option_map fst snd].
    2-4: cbn [bind]; intros [= <- <-]; do 2 eexists; split; [reflexivity|exact I].
    unfold lstsq. rewrite solve_time. destruct (solve_at o st a bs rs g (Some b) _) as [f|]; [|discriminate].
    cbn [bind snd time_fit f_g0 f_b]. rewrite (feqb_unit k K). destruct (_ && _)%bool; [|discriminate]. cbn [bind].
    change (f_b (time_fit f)) with (per_unit k (f_b f)). change (f_g0 (time_fit f)) with (f_g0 f).
    change (l_g0_bounds o_time) with (l_g0_bounds o). rewrite near_time.
    destruct (_ || _)%bool; intros [= <- <-]; do 2 eexists; (split; [reflexivity|]); [exact I|]. cbn [both]. exact (arrange_time f v).
  Qed.
  End Fixed.
End I.
