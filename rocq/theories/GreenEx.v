(** Concrete cases for the theorems about the Green's functions in the inversion. *)
From Coq Require Import String List Bool Reals Lra Lia ZArith Arith.
From Verif Require Import Base Pyf PyfOps StatModel SmoothModel SmoothSpec SmoothProof RtModel RtSpec RtProof RtProof2 RtProof4 FbModel LsqfbModel LsqfbSpec LsqfbProof3 LsqfbProof4 LsqfbEx GreenModel GreenSpec GreenProof GreenProof2.
Import ListNotations.
Open Scope string_scope.
Open Scope list_scope.
Open Scope R_scope.

(** the values of the Green's function *)
Definition green_at (ty : string) (r c g0 t : R) : R :=
  match G_scalar ty r t c g0 with Ok x => x | Err _ => 0 end.

Lemma green_at_spec ty r c g0 : In ty documented_types -> 0 <= r -> 0 < c -> 0 < g0 ->
  green_values ty r c g0 (green_at ty r c g0) /\ forall t, r / c < t -> 0 < green_at ty r c g0 t.
Proof.
  intros T HR C G. unfold green_values, green_at. split; intros t F; destruct (G_scalar_pos ty r t c g0 T HR C G F) as (v & -> & P); auto.
Qed.

Definition t_green : list R := [20; 21; 22; 23].
Lemma spaced_green : evenly_spaced t_green 20 1.
Proof. intros i I. unfold t_green in *. cbn in I. destruct i as [|[|[|[|i]]]]; cbn; try lra. lia. Qed.
Lemma increasing_green : increasing t_green.
Proof. exact (spaced_increasing _ _ _ spaced_green Rlt_0_1). Qed.

Lemma plain_ex : In "rt3d" documented_types /\ 0 <= 10 /\ 0 < 1 /\ 0 < 1 / 5 /\ (2 <= List.length t_green)%nat /\
  increasing t_green /\ 10 / 1 < nth 0 t_green 0.
Proof. split; [cbn; auto|]. split; [lra|]. split; [lra|]. split; [lra|]. split; [cbn; lia|]. split; [exact increasing_green|cbn; lra]. Qed.

Lemma nearest_green n : nearest_int (IZR n / 1) n.
Proof. unfold nearest_int. replace (IZR n / 1 - IZR n) with 0 by field. rewrite Rabs_R0. lra. Qed.

Lemma smoothed_ex n : (n <= 5)%Z -> In "rt3d" documented_types /\ 0 <= 10 /\ 0 < 1 /\ 0 < 1 / 5 /\ (2 <= List.length t_green)%nat /\
  evenly_spaced t_green 20 1 /\ 0 < 1 /\ nearest_int (IZR n / 1) n /\
  (exists g, green_values "rt3d" 10 1 (1 / 5) g) /\ 10 / 1 < 20 - IZR ((n - 1) / 2) * 1.
Proof.
  intros N. split; [cbn; auto|]. split; [lra|]. split; [lra|]. split; [lra|]. split; [cbn; lia|]. split; [exact spaced_green|].
  split; [lra|]. split; [apply nearest_green|]. split.
  - exists (green_at "rt3d" 10 1 (1 / 5)). apply green_at_spec; [cbn; auto|lra|lra|lra].
  - assert (IZR ((n - 1) / 2) <= 2) by (apply IZR_le; apply Z.div_le_upper_bound; lia). lra.
Qed.

Lemma bulk_ex : In "rt3d" documented_types /\ 0 < 10 /\ 0 < 1 /\ 0 < 1 / 5 /\ (2 <= 50)%nat /\ 8 < 10 / 1 /\ 10 / 1 <= 12 /\
  exists g, green_values "rt3d" 10 1 (1 / 5) g.
Proof.
  split; [cbn; auto|]. repeat split; try lra; [lia|].
  exists (green_at "rt3d" 10 1 (1 / 5)). apply green_at_spec; [cbn; auto|lra|lra|lra].
Qed.

(** ** No result for exact data *)
Definition exact_energy (t : R) : pyf := FNum (3 * 1 * green_at "rt3d" 10 1 (1 / 5) t * exp (- (1 / 10 * t))).
Definition st_green : wstate :=
  {| w_energies := [tr_ex 1 "e1" "A"]; w_distances := [(("e1", "A"), 10)];
     w_tcoda := [t_green]; w_tbulk := []; w_tbulk_window := []; w_weights := [];
     w_ebulk := []; w_ecoda := [map exact_energy t_green] |}.
Definition linear_ex (b : list pyf) (a : list (list pyf)) (ws : option (list R)) : res (list pyf * pyf) :=
  let s := fsum (map (fun x => fmul (FNum (fst x)) (snd x)) (combine (repeat 1 (List.length b)) b)) in
  Ok ([s; s], FNum 0).
Definition lo_green : lopts :=
  {| l_coda_norm := false; l_fix := false; l_fix_sites := None; l_fix_params := None;
     l_R0 := 1; l_b_bounds := Some (1 / 1000, 10); l_g0_bounds := Some (1 / 1000, 1);
     l_bulk := false; l_optimize := true; l_plot_optimization := false; l_num := 7;
     l_gcoda := coda_greens "rt3d" None "flat" 1; l_gbulk := fun _ _ _ => Ok (FNum 1);
     l_wls := linear_ex; l_optim := Done (FNum (1 / 5)) |}.

Lemma linear_ex_spec : linear_solver linear_ex.
Proof.
  intros b a ws c mse H _. unfold linear_ex in H. injection H as <- _.
  exists [repeat 1 (List.length b); repeat 1 (List.length b)]. split; [|reflexivity].
  repeat (constructor; [apply repeat_length|]). constructor.
Qed.

Lemma aligned_green : LsqfbSpec.aligned st_green.
Proof.
  unfold LsqfbSpec.aligned. change (pairs st_green) with [("e1", "A")]. split; [discriminate|]. split; [reflexivity|].
  split; [constructor; [reflexivity|constructor]|]. split; [reflexivity|now left].
Qed.
Lemma front_green : behind_front st_green 1.
Proof.
  intros i p t P T. change (pairs st_green) with [("e1", "A")] in P. destruct i as [|[|i]]; cbn [nth_error] in P, T; try discriminate.
  injection P as <-. cbn in T. injection T as <-. exists 10. split; [reflexivity|]. split; [lra|]. split; [exact increasing_green|cbn; lra].
Qed.
Lemma positive_green : forall e, In e (w_ecoda st_green) -> positive_numbers e.
Proof.
  intros e [<-|[]] x X. apply in_map_iff in X. destruct X as (t & <- & I). eexists. split; [reflexivity|].
  destruct (green_at_spec "rt3d" 10 1 (1 / 5)) as [_ P]; [cbn; auto|lra|lra|lra|].
  assert (10 / 1 < t) by (cbn in I; destruct I as [<-|[<-|[<-|[<-|[]]]]]; lra).
  repeat apply Rmult_lt_0_compat; try lra; [auto|apply exp_pos].
Qed.

Lemma green_run : exists b f, rhs lo_green st_green (FNum (1 / 5)) None false [] = Ok b /\
  (exists a rs, build lo_green st_green = Ok (a, [], rs) /\ solve_at lo_green st_green a [] rs (FNum (1 / 5)) None false = Ok f) /\
  exists r s, invert_band lo_green st_green 1 = Ok (r, s).
Proof.
  destruct plain_ex as (T & HR & C & G & L & I & F).
  destruct (green_plain "rt3d" 10 t_green 1 (1 / 5) "flat" T HR C G L I F) as (gs & E & LG & _).
  assert (GR : greens lo_green st_green (FNum (1 / 5)) (pairs st_green) (w_ecoda st_green) (w_tcoda st_green) = Ok ([map FNum gs], [])).
  { change (pairs st_green) with [("e1", "A")]. unfold st_green at 2 3. cbn [w_ecoda w_tcoda greens].
    change (Nat.eqb (List.length (map exact_energy t_green)) 0) with false. cbv iota.
    change (dget pair_eqb (w_distances st_green) ("e1", "A")) with (Some 10). cbv iota.
    change (l_gcoda lo_green) with (coda_greens "rt3d" None "flat" 1). unfold coda_greens at 1. rewrite E. reflexivity. }
  assert (RH : exists b, rhs lo_green st_green (FNum (1 / 5)) None false [] = Ok b).
  { unfold rhs. rewrite GR. cbn [bind concat app].
    destruct (zip_op_total fsub (map flog (concat (w_ecoda st_green) ++ w_ebulk st_green)) (map flog ((map FNum gs ++ []) ++ []))) as (z & Z).
    { rewrite !map_length, !app_length, map_length, LG. reflexivity. }
    rewrite Z. cbn [bind nonzero]. eauto. }
  destruct RH as (b & RH).
  assert (SO : forall a rs, exists f, solve_at lo_green st_green a [] rs (FNum (1 / 5)) None false = Ok f).
  { intros a rs. unfold solve_at. rewrite RH. cbn [bind]. change (l_wls lo_green) with linear_ex. unfold linear_ex. cbn [bind].
    change (l_fix lo_green) with false. cbv iota. cbn [bind]. destruct (decode _ _ _ _ _). eauto. }
  assert (BU : exists a, build lo_green st_green = Ok (a, [], [])) by (eexists; reflexivity). destruct BU as (a & BU).
  destruct (SO a []) as (f & S). exists b, f. split; [exact RH|]. split; [eauto|].
  unfold invert_band. change (pairs st_green) with [("e1", "A")]. unfold choose. rewrite BU. cbn [bind].
  change (l_fix lo_green) with false. change (negb (l_optimize lo_green)) with false. cbv iota.
  change (l_optim lo_green) with (Done (FNum (1 / 5))). cbn [minimize bind]. unfold lstsq. rewrite S. cbn [bind].
  destruct (_ || _)%bool; eauto.
Qed.

Lemma gbulk_green r w g x : l_gbulk lo_green r w g = Ok x -> exists y, x = FNum y /\ 0 <= y.
Proof. intros [= <-]. exists 1. split; [reflexivity|lra]. Qed.

Lemma green_none : exists s, invert_band lo_green st_green 1 = Ok (None, s).
Proof.
  destruct green_run as (b & f & _ & _ & r & s & H). exists s. rewrite H.
  assert (E : r = None); [|now subst].
  refine (no_result lo_green st_green "rt3d" "flat" 1 aligned_green _ Rlt_0_1 (fun _ _ _ => eq_refl) front_green positive_green _
    gbulk_green linear_ex_spec _ _ _ _ r s 1 eq_refl eq_refl eq_refl _ H); [cbn; auto|intros x []|lra].
Qed.

(** the energies are those of the Green's function with source and site factors and
    absorption, and there is no result *)
Lemma exact_no_result : exists o st ty v0 g0 b w s,
  In ty documented_types /\ (forall r t g, l_gcoda o r t g = coda_greens ty None "flat" v0 r t g) /\
  linear_solver (l_wls o) /\ LsqfbSpec.aligned st /\ behind_front st v0 /\ l_fix o = false /\
  inside_open (l_b_bounds o) (FNum b) /\ inside_open (l_g0_bounds o) (FNum g0) /\ 0 < w /\
  (forall i p r t e, nth_error (pairs st) i = Some p -> dget pair_eqb (w_distances st) p = Some r ->
     nth_error (w_tcoda st) i = Some t -> nth_error (w_ecoda st) i = Some e ->
     Forall2 (fun t e => exists g, G_scalar ty r t v0 g0 = Ok g /\ e = FNum (w * g * exp (- (b * t)))) t e) /\
  invert_band o st v0 = Ok (None, s).
Proof.
  destruct green_none as (s & H). exists lo_green, st_green, "rt3d", 1, (1 / 5), (1 / 10), 3, s.
  split; [cbn; auto|]. split; [reflexivity|]. split; [exact linear_ex_spec|]. split; [exact aligned_green|]. split; [exact front_green|].
  split; [reflexivity|]. split; [intros lo hi [= <- <-]; eexists; split; [reflexivity|lra]|].
  split; [intros lo hi [= <- <-]; eexists; split; [reflexivity|lra]|]. split; [lra|]. split; [|exact H].
  intros i p r t e P D T E. change (pairs st_green) with [("e1", "A")] in P. destruct i as [|[|i]]; cbn [nth_error] in P; try discriminate.
  injection P as <-. cbn in D. injection D as <-. cbn [nth_error w_tcoda w_ecoda st_green] in T, E. injection T as <-. injection E as <-.
  assert (Q : forall l, (forall x, In x l -> 10 / 1 < x) -> Forall2 (fun t e => exists g, G_scalar "rt3d" 10 t 1 (1 / 5) = Ok g /\
    e = FNum (3 * g * exp (- (1 / 10 * t)))) l (map exact_energy l)).
  { induction l as [|x l IH]; intros B; cbn [map]; constructor.
    - exists (green_at "rt3d" 10 1 (1 / 5) x). split.
      + destruct (green_at_spec "rt3d" 10 1 (1 / 5)) as [V _]; [cbn; auto|lra|lra|lra|]. apply V. apply B. now left.
      + unfold exact_energy. f_equal. ring.
    - apply IH. intros y Y. apply B. now right. }
  apply Q. intros x I. cbn in I; destruct I as [<-|[<-|[<-|[<-|[]]]]]; lra.
Qed.
