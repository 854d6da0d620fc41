(** Proofs about the command "qopen rt". *)
From Coq Require Import String List Bool Reals Lra Lia Arith.
From Verif Require Import Base StatProof RtModel RtSpec RtProof RtProof4 CmdModel CmdSpec.
Import ListNotations.
Open Scope R_scope.

Lemma mapM_forall2 {A B} (f : A -> res B) : forall l l', mapM f l = Ok l' <-> Forall2 (fun a b => f a = Ok b) l l'.
Proof.
  induction l as [|a l IH]; intros l'; cbn; split; intros H.
  - injection H as <-. constructor.
  - inversion H. reflexivity.
  - destruct (f a) as [b|] eqn:E; cbn in H; [|discriminate].
    destruct (mapM f l) as [bs|]; cbn in H; [|discriminate]. injection H as <-.
    constructor; [exact E|]. now apply IH.
  - inversion H as [|x b y bs E F]; subst. rewrite E. cbn. apply IH in F. now rewrite F.
Qed.

Lemma mapM_first_err {A B} (f : A -> res B) e l : l <> [] -> (forall a, In a l -> f a = Err e) -> mapM f l = Err e.
Proof. destruct l as [|a l]; [contradiction|]. intros _ H. cbn. now rewrite H by now left. Qed.

Lemma mapM_total {A B} (f : A -> res B) l : (forall a, In a l -> exists b, f a = Ok b) -> exists bs, mapM f l = Ok bs.
Proof.
  induction l as [|a l IH]; intros H; [now exists []|].
  destruct (H a (or_introl eq_refl)) as (b & E). destruct IH as (bs & Es); [intros; apply H; now right|].
  exists (b :: bs). cbn. now rewrite E, Es.
Qed.

Lemma inverse_ok l : l <> 0 -> inverse l = Ok (1 / l).
Proof. intros H. unfold inverse. destruct (Req_EM_T l 0); [contradiction|reflexivity]. Qed.

Lemma absorb_ok c t la g x : absorb c (Some t) la g = Ok x -> x = absorbed la c t g.
Proof.
  unfold absorb, absorbed. destruct la as [a|]; [|congruence].
  destruct (Req_EM_T a 0); [discriminate|]. intros H. assert (E : x = g * exp (- c * t / a)) by congruence.
  rewrite E. do 3 f_equal. ring.
Qed.

Lemma absorb_some c t la g : la <> Some 0 -> absorb c (Some t) la g = Ok (absorbed la c t g).
Proof.
  intros H. unfold absorb, absorbed. destruct la as [a|]; [|reflexivity].
  destruct (Req_EM_T a 0) as [->|]; [contradiction|]. do 4 f_equal. ring.
Qed.

(** ** calc *)
Lemma calc_values ty r t c ls la nd out :
  main Calc [ty] (Some r) (Some t) c ls la nd = Ok out ->
  Forall2 (fun l x => exists g, G_scalar ty r t c (1 / l) = Ok g /\ x = Printed (absorbed la c t g)) ls out.
Proof.
  cbn [main length Nat.eqb negb andb]. intros H.
  destruct (mapM _ ls) as [xs|] eqn:E; cbn [bind] in H; [|discriminate]. injection H as <-.
  apply mapM_forall2 in E. induction E as [|l x ls xs E _ IH]; cbn; constructor; [|exact IH].
  unfold calc in E. cbn [negb] in E. unfold inverse in E. destruct (Req_EM_T l 0); [discriminate|]. cbn [bind] in E.
  destruct (G_scalar ty r t c (1 / l)) as [g|] eqn:G; cbn [bind] in E; [|discriminate].
  exists g. split; [reflexivity|]. apply absorb_ok in E. now rewrite E.
Qed.

Lemma calc_total ty r t c ls la nd : In ty documented_types -> (forall l, In l ls -> l <> 0) -> la <> Some 0 ->
  exists out, main Calc [ty] (Some r) (Some t) c ls la nd = Ok out.
Proof.
  intros D L A. cbn [main length Nat.eqb negb andb].
  destruct (mapM_total (calc false [ty] (Some r) (Some t) c la) ls) as (xs & ->); [|eexists; reflexivity].
  intros l I. unfold calc. cbn [negb]. rewrite inverse_ok by auto. cbn [bind].
  apply select_documented in D as [[Gc Gd] S]. unfold G_scalar. rewrite S.
  destruct (Rlt_dec (t - r / c) 0); cbn [bind]; rewrite absorb_some by assumption; eauto.
Qed.

Lemma calc_direct_values ty tys r t c ls la nd : In ty ["rt1d"; "rt2d"; "rt3d"]%string ->
  0 < c -> 0 < t -> (forall l, In l ls -> 0 < l) -> la <> Some 0 ->
  main CalcDirect (ty :: tys) r (Some t) c ls la nd =
  Ok (map (fun l => Printed (absorbed la c t (direct_energy ty t c (1 / l)))) ls).
Proof.
  intros D Pc Pt L A. cbn [main andb]. 
  assert (E : mapM (calc true (ty :: tys) r (Some t) c la) ls =
    Ok (map (fun l => absorbed la c t (direct_energy ty t c (1 / l))) ls)).
  { apply mapM_forall2. induction ls as [|l ls IH]; cbn; constructor.
    - assert (Pl : 0 < l) by (apply L; now left). assert (Pg : 0 < 1 / l) by (apply Rdiv_lt_0_compat; lra).
      unfold calc. cbn [negb]. rewrite inverse_ok by lra.
      destruct D as [<-|[<-|[<-|[]]]]; cbn [String.eqb Ascii.eqb Bool.eqb bind]; rewrite absorb_some by assumption;
        do 2 f_equal.
      + now apply (select_direct "rt1d" rt1d_coda rt1d_direct).
      + now apply (select_direct "rt2d" rt2d_coda rt2d_direct).
      + now apply (select_direct "rt3d" rt3d_coda rt3d_direct).
    - apply IH. intros l' I. apply L. now right. }
  rewrite E. cbn [bind]. f_equal. now rewrite map_map.
Qed.

Lemma calc_direct_none ty tys r t c ls la nd : ~ In ty ["rt1d"; "rt2d"; "rt3d"]%string -> ls <> [] ->
  main CalcDirect (ty :: tys) r t c ls la nd = Err ValueError.
Proof.
  intros N Hl. cbn [main andb]. rewrite (mapM_first_err _ ValueError); [reflexivity|assumption|].
  intros l _. unfold calc. cbn [negb].
  destruct (String.eqb_spec ty "rt1d"); [subst; cbn in N; tauto|].
  destruct (String.eqb_spec ty "rt2d"); [subst; cbn in N; tauto|].
  destruct (String.eqb_spec ty "rt3d"); [subst; cbn in N; tauto|]. reflexivity.
Qed.

Lemma several_types com types r t c ls la nd : com = Calc \/ com = PlotRT -> length types <> 1%nat ->
  main com types r t c ls la nd = Err ValueError.
Proof.
  intros C H. apply Nat.eqb_neq in H. unfold main. rewrite H. destruct C as [->| ->]; reflexivity.
Qed.

Lemma calc_missing ty r t c ls la nd : r = None \/ t = None -> ls <> [] -> (forall l, In l ls -> l <> 0) ->
  main Calc [ty] r t c ls la nd = Err TypeError.
Proof.
  intros M Hl L. cbn [main length Nat.eqb negb andb]. rewrite (mapM_first_err _ TypeError); [reflexivity|assumption|].
  intros l I. unfold calc. cbn [negb]. rewrite inverse_ok by auto. cbn [bind].
  destruct M as [->| ->]; [reflexivity|]. now destruct r.
Qed.

(** ** plots of the main program *)
Lemma main_curves com types r t c ls la nd out :
  com = PlotT \/ com = PlotR \/ com = PlotRT -> main com types r t c ls la nd = Ok out ->
  Forall2 (fun lt o => match com with
     | PlotT => exists pts, plot_t c (1 / fst lt) r t 1000 (negb nd) la (snd lt) = Ok pts /\ o = Curve pts
     | PlotR => exists pts, plot_r c (1 / fst lt) t r 1000 (negb nd) la (snd lt) = Ok pts /\ o = Curve pts
     | _ => exists pts, plot_rt c (1 / fst lt) t r 1000 la (snd lt) = Ok pts /\ o = Mesh pts
     end) (list_prod ls types) out.
Proof.
  intros C H. unfold main in H.
  destruct (_ && _)%bool; [discriminate|].
  set (f := fun l ty => do g0 <- inverse l;
              match com with
              | PlotT => do pts <- plot_t c g0 r t samples (negb nd) la ty; Ok (Curve pts)
              | PlotR => do pts <- plot_r c g0 t r samples (negb nd) la ty; Ok (Curve pts)
              | _ => do pts <- plot_rt c g0 t r samples la ty; Ok (Mesh pts)
              end).
  assert (G : (do outs <- mapM (fun l => mapM (f l) types) ls; Ok (concat outs)) = Ok out).
  { destruct C as [->|[->| ->]]; exact H. }
  clear H. destruct (mapM _ ls) as [outs|] eqn:E; cbn [bind] in G; [|discriminate]. injection G as <-.
  apply mapM_forall2 in E. induction E as [|l os ls outs E _ IH]; cbn [concat list_prod]; [constructor|].
  apply Forall2_app; [|exact IH]. clear IH. apply mapM_forall2 in E.
  induction E as [|ty o tys os E _ IH]; cbn [map]; constructor; [|exact IH].
  unfold f, inverse in E. destruct (Req_EM_T l 0); [discriminate|]. cbn [bind fst snd] in *.
  destruct C as [->|[->| ->]].
  - destruct (plot_t _ _ _ _ _ _ _ _) as [p|] eqn:P; cbn [bind] in E; [|discriminate]. exists p. split; [first [exact P|reflexivity]|congruence].
  - destruct (plot_r _ _ _ _ _ _ _ _) as [p|] eqn:P; cbn [bind] in E; [|discriminate]. exists p. split; [first [exact P|reflexivity]|congruence].
  - destruct (plot_rt _ _ _ _ _ _ _) as [p|] eqn:P; cbn [bind] in E; [|discriminate]. exists p. split; [first [exact P|reflexivity]|congruence].
Qed.

(** ** sample points *)
Lemma linspace0_length r N : length (linspace0 r N) = N.
Proof. unfold linspace0. now rewrite map_length, seq_length. Qed.

Lemma linspace0_nth r N k : (k < N)%nat -> nth k (linspace0 r N) 0 = INR k * (r / INR (N - 1)).
Proof.
  intros H. unfold linspace0. rewrite nth_map_in with (da := 0%nat) by now rewrite seq_length.
  now rewrite seq_nth by assumption.
Qed.

Lemma INR_pos n : (0 < n)%nat -> 0 < INR n.
Proof. intros. now apply lt_0_INR. Qed.

Lemma linspace0_inc r N : 0 < r -> increasing (linspace0 r N).
Proof.
  intros Hr i j [H1 H2]. rewrite linspace0_length in H2. rewrite !linspace0_nth by lia.
  apply Rmult_lt_compat_r; [|now apply lt_INR].
  apply Rdiv_lt_0_compat; [assumption|]. apply INR_pos. lia.
Qed.

Lemma linspace0_first r N : (0 < N)%nat -> nth 0 (linspace0 r N) 0 = 0.
Proof. intros. rewrite linspace0_nth by assumption. cbn. ring. Qed.

Lemma linspace0_last r N : (2 <= N)%nat -> nth (N - 1) (linspace0 r N) 0 = r.
Proof. intros. rewrite linspace0_nth by lia. field. apply Rgt_not_eq, INR_pos. lia. Qed.

Lemma linspace0_in x r N : 0 <= r -> In x (linspace0 r N) -> (2 <= N)%nat -> 0 <= x <= r.
Proof.
  intros Hr I HN. apply (In_nth _ _ 0) in I. destruct I as (k & Hk & <-). rewrite linspace0_length in Hk.
  rewrite linspace0_nth by assumption.
  assert (P : 0 < INR (N - 1)) by (apply INR_pos; lia).
  assert (0 <= INR k <= INR (N - 1)) by (split; [apply pos_INR|apply le_INR; lia]).
  assert (Q : 0 <= r / INR (N - 1)) by (apply Rcomplements.Rdiv_le_0_compat; assumption).
  split; [now apply Rmult_le_pos|]. replace r with (INR (N - 1) * (r / INR (N - 1))) at 2 by (field; lra).
  apply Rmult_le_compat_r; [assumption|lra].
Qed.

Lemma combine_in_nth {A B} (la : list A) (lb : list B) a b da db : length la = length lb -> In (a, b) (combine la lb) ->
  exists k, (k < length la)%nat /\ nth k la da = a /\ nth k lb db = b.
Proof.
  intros L I. apply (In_nth _ _ (da, db)) in I. destruct I as (k & Hk & E).
  rewrite combine_length, L, Nat.min_id in Hk. rewrite combine_nth in E by assumption.
  exists k. split; [lia|]. split; congruence.
Qed.

Lemma plot_r_samples c g0 r t N ty pts :
  In ty documented_types -> 0 < c -> 0 < r -> 0 <= t -> (2 <= N)%nat ->
  plot_r c g0 (Some t) (Some r) N false None ty = Ok pts ->
  map fst pts = linspace0 r N /\ forall x g, In (x, g) pts -> G_scalar ty x t c g0 = Ok g.
Proof.
  intros D Pc Pr Pt HN H. unfold plot_r in H. cbn [bind] in H.
  assert (L : (2 <= length (linspace0 r N))%nat) by now rewrite linspace0_length.
  assert (P0 : nth 0 (linspace0 r N) 0 <= c * t) by (rewrite linspace0_first by lia; apply Rmult_le_pos; lra).
  destruct (G_dists_spec ty (linspace0 r N) t c g0 false D L (linspace0_inc r N Pr))
    as (gs & Gc & Gd & E & S & Lg & A1 & A2 & A3 & _).
  rewrite E in H. cbn [bind] in H. injection H as <-. split.
  - rewrite <- (map_id (linspace0 r N)) at 2. clear - Lg. revert gs Lg. generalize (linspace0 r N).
    induction l as [|a l IH]; intros [|g gs] L; cbn in *; try discriminate; [reflexivity|]. f_equal. apply IH. lia.
  - intros x g I. apply (combine_in_nth _ _ _ _ 0 0) in I; [|congruence]. destruct I as (k & Hk & <- & <-).
    unfold G_scalar. rewrite S.
    destruct (Rlt_dec (t - nth k (linspace0 r N) 0 / c) 0) as [B|B]; rewrite <- front_iff in B by assumption.
    + f_equal. symmetry. destruct k as [|k]; [lra|].
      destruct (Rle_dec (nth k (linspace0 r N) 0) (c * t)) as [Q|Q].
      * apply (A3 (Datatypes.S k)). split; [lia|]. replace (Datatypes.S k - 1)%nat with k by lia. lra.
      * apply A2; [lia|]. replace (Datatypes.S k - 1)%nat with k by lia. lra.
    + f_equal. symmetry. apply A1; [assumption|lra].
Qed.

Lemma plot_r_defaults c g0 t N d la ty : 0 < c -> 0 < g0 ->
  plot_r c g0 (Some t) None N d la ty = plot_r c g0 (Some t) (Some (11 / 10 * (c * t))) N d la ty /\
  plot_r c g0 None None N d la ty = plot_r c g0 (Some (10 / 11 * (10 / g0) / c)) (Some (10 / g0)) N d la ty.
Proof.
  intros Pc Pg. split; unfold plot_r; cbn [bind].
  - replace (1.1 * c * t) with (11 / 10 * (c * t)) by lra. reflexivity.
  - replace 1.1 with (11 / 10) by lra. replace (10 / g0 / (11 / 10) / c) with (10 / 11 * (10 / g0) / c) by (field; lra). reflexivity.
Qed.

Lemma plot_r_no_time c g0 r N d la ty : plot_r c g0 None (Some r) N d la ty = Err TypeError.
Proof. reflexivity. Qed.

(** ** time plots *)
Lemma log10_pow x : 0 < x -> Rpower 10 (log10 x) = x.
Proof.
  intros H. unfold Rpower, log10. replace (ln x / ln 10 * ln 10) with (ln x); [now apply exp_ln|].
  field. apply Rgt_not_eq. rewrite <- ln_1. apply ln_increasing; lra.
Qed.

Lemma logspace_length a b N : length (logspace a b N) = N.
Proof. unfold logspace. now rewrite map_length, seq_length. Qed.

Lemma logspace_nth a b N k : (k < N)%nat ->
  nth k (logspace a b N) 0 = Rpower 10 (a + INR k * ((b - a) / INR (N - 1))).
Proof.
  intros H. unfold logspace. rewrite nth_map_in with (da := 0%nat) by now rewrite seq_length.
  now rewrite seq_nth by assumption.
Qed.

Lemma pow10_m3 : Rpower 10 (-3) = / 1000.
Proof.
  replace (-3) with (- INR 3) by (cbn; ring). rewrite Rpower_Ropp, Rpower_pow by lra. f_equal. ring.
Qed.

Lemma logspace_inc x N : / 1000 < x -> increasing (logspace (-3) (log10 x) N).
Proof.
  intros Hx i j [H1 H2]. rewrite logspace_length in H2. rewrite !logspace_nth by lia.
  apply Rpower_lt; [lra|]. apply Rplus_lt_compat_l, Rmult_lt_compat_r; [|now apply lt_INR].
  apply Rdiv_lt_0_compat; [|apply INR_pos; lia].
  destruct (Rlt_dec (-3) (log10 x)) as [H|H]; [lra|]. exfalso.
  assert (Q : Rpower 10 (log10 x) <= Rpower 10 (-3)).
  { apply Rle_Rpower; lra. }
  rewrite log10_pow in Q by lra. rewrite pow10_m3 in Q. lra.
Qed.

Lemma plot_times_inc c r t N : 0 < c -> 0 < r -> r / c + / 1000 < t ->
  increasing (plot_t_times c r t N).
Proof.
  intros Pc Pr Ht i j [H1 H2].
  assert (Q : 0 < r / c) by (now apply Rdiv_lt_0_compat).
  unfold plot_t_times in *. rewrite map_length in H2.
  set (L := logspace (-3) (log10 (t - r / c)) N) in *.
  assert (I : increasing L) by (apply logspace_inc; lra).
  assert (P : forall k, (k < length L)%nat -> 0 < nth k L 0).
  { intros k Hk. unfold L in *. rewrite logspace_length in Hk. rewrite logspace_nth by assumption. apply exp_pos. }
  rewrite !nth_map_in with (da := 0) by (cbn [app length]; cbn [app length] in H2; lia).
  apply Rplus_lt_compat_l.
  cbn [app length] in H2. destruct i as [|[|i]]; destruct j as [|[|j]]; cbn [app nth]; try lia.
  - replace (- 0.01 * r / c) with (- 0.01 * (r / c)) by (unfold Rdiv; ring). lra.
  - assert (0 < nth j L 0) by (apply P; lia). replace (- 0.01 * r / c) with (- 0.01 * (r / c)) by (unfold Rdiv; ring). lra.
  - apply P. lia.
  - apply I. lia.
Qed.

Lemma plot_times_length c r t N : length (plot_t_times c r t N) = S (S N).
Proof. unfold plot_t_times. rewrite map_length. cbn [app length]. now rewrite logspace_length. Qed.

Lemma plot_times_0 c r t N : nth 0 (plot_t_times c r t N) 0 = 99 / 100 * (r / c).
Proof. cbn. unfold Rdiv. lra. Qed.

Lemma plot_times_1 c r t N : nth 1 (plot_t_times c r t N) 0 = r / c.
Proof. cbn. ring. Qed.

Lemma plot_times_last c r t N : (2 <= N)%nat -> r / c < t -> nth (S N) (plot_t_times c r t N) 0 = t.
Proof.
  intros HN Ht. unfold plot_t_times. rewrite nth_map_in with (da := 0) by (cbn [app length]; rewrite logspace_length; lia).
  destruct N as [|N]; [lia|]. cbn [app nth]. rewrite logspace_nth by lia.
  replace (S N - 1)%nat with N by lia.
  replace (-3 + INR N * ((log10 (t - r / c) - -3) / INR N)) with (log10 (t - r / c))
    by (field; apply Rgt_not_eq, INR_pos; lia).
  rewrite log10_pow by lra. ring.
Qed.

Lemma plot_t_samples c g0 r t N ty pts :
  In ty documented_types -> 0 < c -> 0 < r -> r / c + / 1000 < t -> (2 <= N)%nat ->
  plot_t c g0 (Some r) (Some t) N false None ty = Ok pts ->
  length pts = S (S N) /\ fst (nth 0 pts (0, 0)) = 99 / 100 * (r / c) /\ fst (nth 1 pts (0, 0)) = r / c /\
  fst (nth (S N) pts (0, 0)) = t /\
  forall x g, In (x, g) pts -> x <> r / c -> G_scalar ty r x c g0 = Ok g.
Proof.
  intros D Pc Pr Ht HN H. unfold plot_t in H.
  set (ts := plot_t_times c r t N) in *.
  assert (Q : 0 < r / c) by (now apply Rdiv_lt_0_compat).
  assert (L : length ts = S (S N)) by apply plot_times_length.
  assert (F : nth 0 ts 0 < r / c) by (unfold ts; rewrite plot_times_0; lra).
  destruct (G_times_matches ty r ts c g0 false D Pc ltac:(lia) (plot_times_inc c r t N Pc Pr Ht) F) as (gs & E & Lg & M).
  rewrite E in H. cbn [bind] in H.
  pose proof (f_equal (fun r => match r with Ok p => p | _ => [] end) H) as EP. cbv beta iota in EP. subst pts. clear H.
  rewrite combine_length, Lg, Nat.min_id. split; [exact L|].
  rewrite !combine_nth by congruence. cbn [fst].
  split; [apply plot_times_0|]. split; [apply plot_times_1|]. split; [apply plot_times_last; [assumption|lra]|].
  intros x g I N0. apply (combine_in_nth _ _ _ _ 0 0) in I; [|congruence]. destruct I as (k & Hk & <- & <-).
  apply M; [assumption|]. intros [K1 [K2 K3]]. apply N0.
  assert (k = 1%nat) as ->; [|apply plot_times_1].
  destruct (Nat.eq_dec k 1) as [|Nk]; [assumption|]. exfalso.
  assert (B : nth 1 ts 0 <= nth (k - 1) ts 0).
  { destruct (Nat.eq_dec (k - 1) 1) as [->|]; [lra|]. apply Rlt_le, (plot_times_inc c r t N Pc Pr Ht).
    fold ts. lia. }
  unfold ts in B. rewrite plot_times_1 in B. fold ts in B. lra.
Qed.

Lemma plot_t_defaults c g0 r t N d la ty :
  plot_t c g0 None t N d la ty = plot_t c g0 (Some (10 / g0)) t N d la ty /\
  plot_t c g0 (Some r) None N d la ty = plot_t c g0 (Some r) (Some (10 * r / c)) N d la ty.
Proof. split; reflexivity. Qed.

(** ** mesh *)
Lemma plot_rt_samples c g0 r t N la ty : In ty documented_types -> 0 < c ->
  exists pts, plot_rt c g0 (Some t) (Some r) N la ty = Ok pts /\
    (forall x y, In (x, y) (map fst pts) <-> In x (linspace0 r N) /\ In y (linspace0 t N)) /\
    forall x y g, In ((x, y), g) pts ->
      exists g', G_scalar ty x y c g0 = Ok g' /\ g = absorbed la c y g'.
Proof.
  intros D Pc. unfold plot_rt.
  set (mesh := flat_map (fun t0 => map (fun r0 => (r0, t0)) (linspace0 r N)) (linspace0 t N)).
  destruct (G_arrays_matches ty (map fst mesh) (map snd mesh) c g0 D Pc) as (gs & E & L & M); [now rewrite !map_length|].
  rewrite E. cbn [bind]. rewrite map_length in L, M.
  set (hs := match la with None => gs | Some la => map (fun p => snd p * exp (- c * snd (fst p) / la)) (combine mesh gs) end).
  assert (Lh : length hs = length mesh).
  { unfold hs. destruct la; [rewrite map_length, combine_length; lia|exact L]. }
  exists (combine mesh hs). split; [reflexivity|]. split.
  - intros x y.
    assert (F : map fst (combine mesh hs) = mesh).
    { clear - Lh. clearbody hs mesh. revert hs Lh. induction mesh as [|a l IH]; intros [|h hs] L; cbn in *; try discriminate; [reflexivity|].
      f_equal. apply IH. lia. }
    rewrite F. unfold mesh. rewrite in_flat_map. split.
    + intros (t0 & I1 & I2). apply in_map_iff in I2. destruct I2 as (r0 & E0 & I2). injection E0 as <- <-. auto.
    + intros [I1 I2]. exists y. split; [exact I2|]. apply in_map_iff. eauto.
  - intros x y g I. apply (combine_in_nth _ _ _ _ (0, 0) 0) in I; [|congruence]. destruct I as (k & Hk & E1 & E2).
    specialize (M k Hk). rewrite !nth_map_in with (da := (0, 0)) in M by assumption. rewrite E1 in M. cbn [fst snd] in M.
    exists (nth k gs 0). split; [exact M|]. rewrite <- E2. unfold hs, absorbed. destruct la as [a|]; [|reflexivity].
    rewrite nth_map_in with (da := ((0, 0), 0)) by (rewrite combine_length; lia).
    rewrite combine_nth by congruence. rewrite E1. cbn [fst snd]. do 3 f_equal. ring.
Qed.

Lemma plot_rt_defaults c g0 r t N la ty :
  plot_rt c g0 None None N la ty = plot_rt c g0 (Some (10 * (10 / g0) / c)) (Some (10 / g0)) N la ty /\
  plot_rt c g0 None (Some r) N la ty = plot_rt c g0 (Some (10 * r / c)) (Some r) N la ty /\
  plot_rt c g0 (Some t) None N la ty = plot_rt c g0 (Some t) (Some (1.1 * c * t)) N la ty.
Proof. repeat split; reflexivity. Qed.

Lemma linspace0_points r N k : (k < N)%nat -> (2 <= N)%nat -> nth k (linspace0 r N) 0 = r * INR k / INR (N - 1).
Proof. intros. rewrite linspace0_nth by assumption. field. apply Rgt_not_eq, INR_pos. lia. Qed.

Lemma linspace0_iff x r N : (2 <= N)%nat -> In x (linspace0 r N) <-> exists k, (k < N)%nat /\ x = r * INR k / INR (N - 1).
Proof.
  intros HN. split.
  - intros I. apply (In_nth _ _ 0) in I. destruct I as (k & Hk & <-). rewrite linspace0_length in Hk.
    exists k. split; [assumption|]. now apply linspace0_points.
  - intros (k & Hk & ->). rewrite <- linspace0_points by assumption. apply nth_In. now rewrite linspace0_length.
Qed.

Lemma plot_r_points c g0 r t N ty pts :
  In ty documented_types -> 0 < c -> 0 < r -> 0 <= t -> (2 <= N)%nat ->
  plot_r c g0 (Some t) (Some r) N false None ty = Ok pts ->
  (length pts = N /\ forall k, (k < N)%nat -> fst (nth k pts (0, 0)) = r * INR k / INR (N - 1)) /\
  forall x g, In (x, g) pts -> G_scalar ty x t c g0 = Ok g.
Proof.
  intros D Pc Pr Pt HN H. destruct (plot_r_samples c g0 r t N ty pts D Pc Pr Pt HN H) as [E M].
  split; [|exact M]. split.
  - rewrite <- (map_length fst), E. apply linspace0_length.
  - intros k Hk. rewrite <- (map_nth fst pts (0, 0) k), E. now apply linspace0_points.
Qed.

Lemma plot_rt_points c g0 r t N la ty : In ty documented_types -> 0 < c -> (2 <= N)%nat ->
  exists pts, plot_rt c g0 (Some t) (Some r) N la ty = Ok pts /\
    (forall x y, In (x, y) (map fst pts) <->
       exists i j, (i < N)%nat /\ (j < N)%nat /\ x = r * INR i / INR (N - 1) /\ y = t * INR j / INR (N - 1)) /\
    forall x y g, In ((x, y), g) pts ->
      exists g', G_scalar ty x y c g0 = Ok g' /\ g = absorbed la c y g'.
Proof.
  intros D Pc HN. destruct (plot_rt_samples c g0 r t N la ty D Pc) as (pts & E & M & V).
  exists pts. split; [exact E|]. split; [|exact V]. intros x y. rewrite M, !linspace0_iff by assumption. split.
  - intros ((i & Hi & ->) & (j & Hj & ->)). exists i, j. auto.
  - intros (i & j & Hi & Hj & -> & ->). split; [exists i|exists j]; auto.
Qed.
