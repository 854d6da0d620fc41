(** C134: the results of a band with another unit of length. *)
From Coq Require Import String List Bool Reals Lra Lia ZArith Arith.
From Verif Require Import Base Pyf PyfOps StatModel FbModel LsqfbModel LsqfbSpec LsqfbProof2 LsqfbProof3 LsqfbProof4 GreenModel RtSpec GainSpec GainProof2 GainProof3 GainProof4 UnitSpec UnitProof UnitProof2.
Import ListNotations.
Open Scope string_scope.
Open Scope list_scope.
Open Scope R_scope.

Lemma mean_one st : pairs st <> [] -> mean_site st (fun _ => 1) 1.
Proof.
  intros NE l [_ L]. exists (map (fun _ => 1) l). split; [now rewrite map_map|]. split; [|split; [lra|]].
  - intros y I. apply in_map_iff in I. destruct I as (x & <- & _). lra.
  - rewrite map_map. assert (S : fold_right Rplus 0 (map (fun _ : string => ln 1) l) = 0).
    { clear. induction l as [|x l IH]; cbn; [reflexivity|]. rewrite IH, ln_1. ring. }
    rewrite S, ln_1. unfold Rdiv. ring.
Qed.

Lemma table_ext keys f g d : (forall x, f x = g x) -> table keys f d -> table keys g d.
Proof. intros E [A B]. split; [exact A|]. intros x v I. rewrite (B x v I). now rewrite E. Qed.

Section R.
  Variables (k : R) (o : lopts) (st : wstate) (ty window : string) (sm : option R) (num : nat) (c0 : R) (dof : list (list R) -> option (list R) -> R).
  Hypothesis K : 0 < k.
  Hypothesis T : In ty ["rt3d"; "rt2d"; "rt1d"].
  Hypothesis AL : aligned st.
  Hypothesis NU : numeric st.
  Hypothesis LS : least_squares_dof (l_wls o) dof.
  Hypothesis WP : good_weights o st.
  Hypothesis CN : l_coda_norm o = false.
  Hypothesis GC : l_gcoda o = coda_greens ty sm window c0.
  Hypothesis GB : l_gbulk o = bulk_greens ty num c0.
  Hypothesis PG : positive_greens o st.
  Let o' := in_unit k (coda_greens ty sm window (k * c0)) (bulk_greens ty num (k * c0)) o.

  Let PL : positive_on (map fst (pairs st)) (fun _ => k ^ dimension ty).
  Proof. intros x _. now apply pow_lt. Qed.
  Let PM : positive_on (map snd (pairs st)) (fun _ => 1).
  Proof. intros x _. lra. Qed.

  Lemma from_gained v y' s' : invert_band o' (stretched k st) (k * v) = Ok (y', s') ->
    exists y s, invert_band o (gained (fun _ => k ^ dimension ty) (fun _ => 1) st) v = Ok (y, s) /\ y' = option_map (unit_band k) y.
  Proof.
    intros H. pose proof (invert_unit k o st ty window sm num c0 K T AL GC GB v) as E. unfold o_unit in E. fold o' in E. rewrite E in H.
    change (gained (fun _ => k ^ dimension ty) (fun _ => 1) st) with (st_gain k st ty). destruct (invert_band o (st_gain k st ty) v) as [[y s]|]; [|discriminate]. cbn [bind fst snd] in H.
    injection H as <- _. eauto.
  Qed.

  Lemma to_unit y y1 : both (scaled_result st (fun _ => k ^ dimension ty * 1) (fun _ => 1 / 1)) y y1 ->
    both (unit_result st k (dimension ty)) y (option_map (unit_band k) y1).
  Proof.
    destruct y as [r|], y1 as [r1|]; cbn [both option_map]; try tauto.
    intros (E1 & E2 & E3 & E4 & E5 & source & site & W & W' & Rs & Rs' & P1 & P2 & FW & TW & FW' & TW' & FR & TR & FR' & TR').
    unfold unit_result, unit_band. cbn [fb_g0 fb_b fb_W fb_R fb_nstations fb_error fb_v0]. rewrite E1, E5.
    repeat (split; [congruence|]). exists source, site, W, W', Rs, Rs'.
    repeat (split; [assumption|]). split.
    - apply (table_ext _ _ _ _ (fun x => f_equal (Rmult (source x)) (Rmult_1_r (k ^ dimension ty)))). exact TW'.
    - split; [exact FR|]. split; [exact TR|]. split; [exact FR'|].
      refine (table_ext _ _ _ _ _ TR'). intros x. field.
  Qed.

  Lemma unit_go : l_fix_sites o = None -> 0 < l_R0 o -> one_network st -> l_fix o = false -> two_times st ->
    forall lo hi, l_g0_bounds o = Some (lo, hi) -> 0 < lo ->
    forall v0 y y' s s', invert_band o st v0 = Ok (y, s) -> invert_band o' (stretched k st) (k * v0) = Ok (y', s') ->
    both (unit_result st k (dimension ty)) y y'.
  Proof.
    intros FS R0 NET FX TT lo hi GBD LO v0 y y' s s' H H'. destruct (from_gained _ _ _ H') as (y1 & s1 & H1 & ->).
    apply to_unit. destruct AL as (NE & _).
    exact (gained_go (fun _ => k ^ dimension ty) (fun _ => 1) 1 o st dof AL NU LS WP CN PG PL PM FS R0 (mean_one st NE) NET FX TT lo hi GBD LO v0 y y1 s s1 H H1).
  Qed.

  Lemma unit_fixed : l_fix_sites o = None -> 0 < l_R0 o -> one_network st ->
    forall g b v0 y y' s s', l_fix o = true -> l_fix_params o = Some (Some (FNum g), Some (FNum b)) -> 0 < g ->
    invert_band o st v0 = Ok (y, s) -> invert_band o' (stretched k st) (k * v0) = Ok (y', s') ->
    both (unit_result st k (dimension ty)) y y'.
  Proof.
    intros FS R0 NET g b v0 y y' s s' FX FP G H H'. destruct (from_gained _ _ _ H') as (y1 & s1 & H1 & ->).
    apply to_unit. destruct AL as (NE & _).
    exact (gained_fixed (fun _ => k ^ dimension ty) (fun _ => 1) 1 o st dof AL NU LS WP CN PG PL PM FS R0 (mean_one st NE) NET g b v0 y y1 s s1 FX FP G H H1).
  Qed.

  Lemma unit_source : forall params, l_fix_sites o = Some params -> l_fix o = true ->
    (forall x, In x (map snd (pairs st)) -> exists v, 0 < v /\ dget String.eqb params x = Some (FNum v)) ->
    forall g b v0 y y' s s', l_fix_params o = Some (Some (FNum g), Some (FNum b)) -> 0 < g ->
    invert_band o st v0 = Ok (y, s) -> invert_band o' (stretched k st) (k * v0) = Ok (y', s') ->
    both (unit_sources st k (dimension ty)) y y'.
  Proof.
    intros params FS FX PA g b v0 y y' s s' FP G H H'. destruct (from_gained _ _ _ H') as (y1 & s1 & H1 & ->).
    pose proof (gained_source (fun _ => k ^ dimension ty) o st dof AL NU LS WP CN PG PL params FS FX PA g b v0 y y1 s s1 FP G H H1) as B.
    destruct y as [r|], y1 as [r1|]; cbn [both option_map] in *; try tauto.
    destruct B as (E1 & E2 & E3 & E4 & E5 & X).
    unfold unit_sources, unit_band. cbn [fb_g0 fb_b fb_W fb_R fb_nstations fb_error fb_v0]. rewrite E3.
    repeat (split; [congruence|]). exact X.
  Qed.
End R.
