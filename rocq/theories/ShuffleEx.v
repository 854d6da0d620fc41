(** Concrete cases for C132. *)
From Coq Require Import String List Bool Reals Lra Lia ZArith Arith Permutation.
From Verif Require Import SmoothSpec GreenModel GreenEx Base Pyf PyfOps StatModel StatProof FbModel FbProof3 SiteProof LsqfbModel LsqfbSpec LsqfbProof LsqfbProof2 LsqfbProof3 LsqfbProof4 LsqfbProof5 LsqfbEx GainSpec GainProof GainProof2 GainProof3 GainProof4 GainEx ShuffleSpec ShuffleProof ShuffleProof2 ShuffleProof3 ShuffleProof4.
Import ListNotations.
Open Scope string_scope.
Open Scope list_scope.
Open Scope R_scope.

(** the observations of the example, last pair first *)
Definition turned_pairs : list (string * string) := [("e2", "A"); ("e1", "B"); ("e1", "A")].
Definition turned_ex : wstate :=
  {| w_energies := [tr_ex 3 "e2" "A"; tr_ex 2 "e1" "B"; tr_ex 1 "e1" "A"];
     w_distances := map (fun p => (p, 10)) turned_pairs;
     w_tcoda := [[1; 2]; [1; 2]; [1; 2]];
     w_tbulk := [FNum (1 / 2); FNum (1 / 2); FNum (1 / 2)];
     w_tbulk_window := map (fun p => (p, (0, 1))) turned_pairs;
     w_weights := [3; 3; 3];
     w_ebulk := map (fun p => en_ex (fst p) (snd p) (1 / 2)) turned_pairs;
     w_ecoda := map (fun p => [en_ex (fst p) (snd p) 1; en_ex (fst p) (snd p) 2]) turned_pairs |}.

Definition ob_ex (id : nat) (e s : string) : observed :=
  {| ob_trace := tr_ex id e s; ob_times := [1; 2]; ob_energies := [en_ex e s 1; en_ex e s 2];
     ob_tbulk := FNum (1 / 2); ob_ebulk := en_ex e s (1 / 2); ob_weight := 3 |}.

Lemma turned_reordered : reordered true st_ex turned_ex.
Proof.
  split; [|split].
  - exists [ob_ex 1 "e1" "A"; ob_ex 2 "e1" "B"; ob_ex 3 "e2" "A"], [ob_ex 3 "e2" "A"; ob_ex 2 "e1" "B"; ob_ex 1 "e1" "A"].
    split; [|split; repeat split].
    apply (Permutation_rev [ob_ex 1 "e1" "A"; ob_ex 2 "e1" "B"; ob_ex 3 "e2" "A"]).
  - intros [e s]. unfold turned_ex, st_ex, turned_pairs, pairs_ex. cbn [w_distances map dget pair_eqb fst snd].
    unfold pair_eqb. cbn [fst snd].
    destruct (String.eqb e "e1"), (String.eqb e "e2"), (String.eqb s "A"), (String.eqb s "B"); reflexivity.
  - intros [e s]. unfold turned_ex, st_ex, turned_pairs, pairs_ex. cbn [w_tbulk_window map dget pair_eqb fst snd].
    unfold pair_eqb. cbn [fst snd].
    destruct (String.eqb e "e1"), (String.eqb e "e2"), (String.eqb s "A"), (String.eqb s "B"); reflexivity.
Qed.

Lemma turned_aligned : aligned turned_ex.
Proof. exact (re_aligned (lo_ex true None (fun _ _ _ => Err OtherError)) _ _ turned_reordered aligned_ex). Qed.

Definition dof_1 (n m : nat) : R := 1.
Lemma wls_two_full c1 c2 : least_squares_full (wls_two c1 c2) dof_1.
Proof.
  intros n rows b ws c mse LR LB _ H. exact (wls_two_dof c1 c2 n rows b ws c mse LR LB H).
Qed.

Lemma greens_lengths_ex f s w : greens_lengths (lo_ex f s w) st_ex.
Proof. intros r t g gs _ _ H. injection H as <-. apply map_length. Qed.

Lemma turned_greens f s w g : exists gc gb,
  greens (lo_ex f s w) turned_ex g (pairs turned_ex) (w_ecoda turned_ex) (w_tcoda turned_ex) = Ok (gc, gb) /\
  Forall2 (synthetic site_ex source_ex bt_ex) (samples turned_ex) (concat gc ++ gb).
Proof.
  exists [[FNum 1; FNum 1]; [FNum 1; FNum 1]; [FNum 1; FNum 1]], [FNum 1; FNum 1; FNum 1].
  split; [reflexivity|]. repeat (constructor; [apply syn_ex|]). constructor.
Qed.

Definition turned_wls (fx : bool) :=
  let o := lo_ex fx None (fun _ _ _ => Err OtherError) in
  wls_two (truth o st_ex site_ex source_ex bt_ex) (truth o turned_ex site_ex source_ex bt_ex).
Definition shuf_ex (fx : bool) : lopts := lo_ex fx None (turned_wls fx).

Lemma site_ex_pos s : 0 < site_ex s.
Proof. unfold site_ex. destruct (String.eqb s "A"); lra. Qed.
Lemma source_ex_pos s : 0 < source_ex s.
Proof. unfold source_ex. destruct (String.eqb s "e1"); lra. Qed.

Lemma shuf_solve fx st a g : st = st_ex \/ st = turned_ex -> build (shuf_ex fx) st = Ok (a, [], []) ->
  exists f, solve_at (shuf_ex fx) st a [] [] g (bf_ex fx) false = Ok f.
Proof.
  intros ST BU.
  assert (FB : if l_fix (shuf_ex fx) then bf_ex fx = Some (FNum bt_ex) else bf_ex fx = None) by (destruct fx; reflexivity).
  assert (LL : List.length (truth (shuf_ex fx) turned_ex site_ex source_ex bt_ex) = List.length (truth (shuf_ex fx) st_ex site_ex source_ex bt_ex)).
  { rewrite (truth_length (shuf_ex fx) turned_ex turned_aligned _ _ _ (fun e _ => source_ex_pos e)).
    rewrite (truth_length (shuf_ex fx) st_ex aligned_ex _ _ _ (fun e _ => source_ex_pos e)). now destruct fx. }
  destruct ST as [-> | ->].
  - destruct (greens_ex fx None (turned_wls fx) g) as (gc & gb & GR & SY). fold (shuf_ex fx) in GR.
    exact (solvable_two (shuf_ex fx) st_ex g a [] [] gc gb site_ex source_ex bt_ex _ _ (bf_ex fx) aligned_ex (weights_ex _ _ _)
      BU GR SY (fun s _ => site_ex_pos s) (fun e _ => source_ex_pos e) eq_refl eq_refl FB eq_refl (or_introl eq_refl) LL).
  - destruct (turned_greens fx None (turned_wls fx) g) as (gc & gb & GR & SY). fold (shuf_ex fx) in GR.
    exact (solvable_two (shuf_ex fx) turned_ex g a [] [] gc gb site_ex source_ex bt_ex _ _ (bf_ex fx) turned_aligned
      (re_weights (shuf_ex fx) _ _ turned_reordered (weights_ex _ _ _))
      BU GR SY (fun s _ => site_ex_pos s) (fun e _ => source_ex_pos e) eq_refl eq_refl FB eq_refl (or_intror eq_refl) LL).
Qed.

Lemma shuf_build fx st : st = st_ex \/ st = turned_ex -> exists a, build (shuf_ex fx) st = Ok (a, [], []).
Proof. intros [-> | ->]; destruct fx; eexists; reflexivity. Qed.

Lemma shuf_choose st : st = st_ex \/ st = turned_ex -> exists s f a, build (shuf_ex false) st = Ok (a, [], []) /\
  choose (shuf_ex false) st = Ok (Some (s, f)) /\ solve_at (shuf_ex false) st a [] [] (FNum (1 / 5)) None false = Ok f.
Proof.
  intros ST. destruct (shuf_build false st ST) as (a & BU).
  assert (K : forall g, exists f, solve_at (shuf_ex false) st a [] [] g None false = Ok f) by (intros g; exact (shuf_solve false st a g ST BU)).
  assert (LO : forall s x, exists s' y, lstsq_opt (shuf_ex false) st a [] [] s x = Ok (s', y)).
  { intros s x. unfold lstsq_opt. destruct (g0_outside _ _); [eauto|]. destruct (K x) as (f & ->). cbn [bind]. eauto. }
  unfold choose. rewrite BU. cbn [bind]. change (l_fix (shuf_ex false)) with false. change (negb (l_optimize (shuf_ex false))) with false. cbv iota.
  change (l_optim (shuf_ex false)) with optim_ex. unfold optim_ex. cbn [minimize].
  destruct (LO {| r_record := []; r_g0 := [] |} (FNum (1 / 10))) as (s1 & y1 & ->). cbn [bind].
  destruct (LO s1 (FNum 5)) as (s2 & y2 & ->). cbn [bind].
  destruct (K (FNum (1 / 5))) as (f & S). unfold lstsq. rewrite S. cbn [bind]. exists (add_record (shuf_ex false) s2 f false), f, a. auto.
Qed.

Lemma shuf_go_run : (exists r s, invert_band (shuf_ex false) st_ex 3 = Ok (Some r, s)) /\
  (exists y s, invert_band (shuf_ex false) turned_ex 3 = Ok (y, s)).
Proof.
  split.
  - destruct (shuf_choose st_ex (or_introl eq_refl)) as (s & f & a & BU & C & S).
    rewrite band_unfold by exact aligned_ex. rewrite C. cbn [bind].
    destruct (greens_ex false None (turned_wls false) (FNum (1 / 5))) as (gc & gb & GR & SY).
    destruct (recover_free (shuf_ex false) st_ex (FNum (1 / 5)) a [] [] gc gb site_ex source_ex bt_ex aligned_ex (wls_two_least _ _) (weights_ex _ _ _)
        BU GR SY (fun s _ => site_ex_pos s) (fun e _ => source_ex_pos e) eq_refl (fun _ => network_stations st_ex network_ex) f eq_refl eq_refl two_times_ex ltac:(cbn; lra)
        (mean_site_ex _ (fromkeys_spec _)) S) as (E1 & E2 & _).
    rewrite E1, E2. destruct (near_ex false) as [N1 N2].
    change (l_b_bounds (shuf_ex false)) with (l_b_bounds (two_ex false)). change (l_g0_bounds (shuf_ex false)) with (l_g0_bounds (two_ex false)).
    rewrite N1, N2. cbn [orb]. eauto.
  - destruct (shuf_choose turned_ex (or_intror eq_refl)) as (s & f & a & BU & C & S).
    rewrite band_unfold by exact turned_aligned. rewrite C. cbn [bind]. destruct (_ || _)%bool; eauto.
Qed.

Lemma shuf_fixed_run : (exists r s, invert_band (shuf_ex true) st_ex 3 = Ok (Some r, s)) /\
  (exists y s, invert_band (shuf_ex true) turned_ex 3 = Ok (y, s)).
Proof.
  split.
  - destruct (shuf_build true st_ex (or_introl eq_refl)) as (a & BU).
    destruct (shuf_solve true st_ex a (FNum (1 / 5)) (or_introl eq_refl) BU) as (f & S).
    pose proof (solve_fixed_b _ _ _ _ _ _ _ _ _ (eq_refl : l_fix (shuf_ex true) = true) S) as B.
    destruct (choose_fixed (shuf_ex true) st_ex a [] [] f eq_refl eq_refl BU S B) as (s & C).
    rewrite band_unfold by exact aligned_ex. rewrite C. cbn [bind]. rewrite (solve_at_g0 _ _ _ _ _ _ _ _ _ S), B.
    destruct (near_ex true) as [N1 N2].
    change (l_b_bounds (shuf_ex true)) with (l_b_bounds (two_ex true)). change (l_g0_bounds (shuf_ex true)) with (l_g0_bounds (two_ex true)).
    rewrite N1, N2. cbn [orb]. eauto.
  - destruct (shuf_build true turned_ex (or_intror eq_refl)) as (a & BU).
    destruct (shuf_solve true turned_ex a (FNum (1 / 5)) (or_intror eq_refl) BU) as (f & S).
    pose proof (solve_fixed_b _ _ _ _ _ _ _ _ _ (eq_refl : l_fix (shuf_ex true) = true) S) as B.
    destruct (choose_fixed (shuf_ex true) turned_ex a [] [] f eq_refl eq_refl BU S B) as (s & C).
    rewrite band_unfold by exact turned_aligned. rewrite C. cbn [bind]. destruct (_ || _)%bool; eauto.
Qed.

Lemma shuf_go_hyps : reordered (l_bulk (shuf_ex false)) st_ex turned_ex /\ aligned st_ex /\ numeric st_ex /\
  least_squares_full (l_wls (shuf_ex false)) dof_1 /\ good_weights (shuf_ex false) st_ex /\
  positive_greens (shuf_ex false) st_ex /\ greens_lengths (shuf_ex false) st_ex /\ one_network st_ex /\ two_times st_ex /\
  l_g0_bounds (shuf_ex false) = Some (1 / 1000, 1) /\ eventids turned_ex <> eventids st_ex /\
  (exists r s, invert_band (shuf_ex false) st_ex 3 = Ok (Some r, s)) /\
  (exists y s, invert_band (shuf_ex false) turned_ex 3 = Ok (y, s)).
Proof.
  split; [exact turned_reordered|]. split; [exact aligned_ex|]. split; [exact numeric_ex|].
  split; [apply wls_two_full|]. split; [apply weights_ex|]. split; [apply positive_greens_ex|].
  split; [apply greens_lengths_ex|]. split; [exact network_ex|]. split; [exact two_times_ex|]. split; [reflexivity|].
  split; [discriminate|]. exact shuf_go_run.
Qed.

Lemma shuf_fixed_hyps : reordered (l_bulk (shuf_ex true)) st_ex turned_ex /\
  least_squares_full (l_wls (shuf_ex true)) dof_1 /\ good_weights (shuf_ex true) st_ex /\
  positive_greens (shuf_ex true) st_ex /\ greens_lengths (shuf_ex true) st_ex /\
  l_fix_params (shuf_ex true) = Some (Some (FNum (1 / 5)), Some (FNum bt_ex)) /\
  (exists r s, invert_band (shuf_ex true) st_ex 3 = Ok (Some r, s)) /\
  (exists y s, invert_band (shuf_ex true) turned_ex 3 = Ok (y, s)).
Proof.
  split; [exact turned_reordered|]. split; [apply wls_two_full|]. split; [apply weights_ex|].
  split; [apply positive_greens_ex|]. split; [apply greens_lengths_ex|]. split; [reflexivity|]. exact shuf_fixed_run.
Qed.

(** ** Given site responses *)
Definition shuf_sites : lopts := lo_ex true (Some params_ex) (wls_two [ln 3; ln 5] [ln 5; ln 3]).

Lemma shuf_sites_solve st rows c : aligned st -> good_weights shuf_sites st ->
  (exists gc gb, greens shuf_sites st (FNum (1 / 5)) (pairs st) (w_ecoda st) (w_tcoda st) = Ok (gc, gb) /\
     Forall2 (synthetic site_ex source_ex bt_ex) (samples st) (concat gc ++ gb)) ->
  map (fun s => snd (fst s)) (samples st) = ["A"; "A"; "B"; "B"; "A"; "A"; "A"; "B"; "A"] ->
  c = [ln 3; ln 5] \/ c = [ln 5; ln 3] -> rows <> [] -> Forall (fun row => List.length row = 2%nat) rows ->
  Forall2 (fun r y => dotr r c = y) rows (map (fun s => ln (source_ex (fst (fst s)))) (samples st)) ->
  (exists rs, build shuf_sites st =
  Ok (map (map FNum) rows, map FNum [ln 2; ln 2; ln (1 / 2); ln (1 / 2); ln 2; ln 2; ln 2; ln (1 / 2); ln 2], rs)) ->
  exists r s, invert_band shuf_sites st 3 = Ok (Some r, s).
Proof.
  intros AL GW (gc & gb & GR & SY) STA CC NR LR EX (rs & BU).
  assert (L9 : List.length (samples st) = 9%nat) by (rewrite <- (map_length (fun s => snd (fst s))), STA; reflexivity).
  set (bs := map FNum [ln 2; ln 2; ln (1 / 2); ln (1 / 2); ln 2; ln 2; ln 2; ln (1 / 2); ln 2]) in *.
  destruct (rhs_total shuf_sites st (FNum (1 / 5)) bs gc gb site_ex source_ex bt_ex AL GR SY
              (Some (FNum bt_ex)) true (fun _ => eq_sym L9)) as (z & RH).
  destruct (rhs_start shuf_sites st _ bs gc gb site_ex source_ex bt_ex AL GR SY (fun s _ => site_ex_pos s) (fun e _ => source_ex_pos e) _ _ _ RH) as [TN EZ].
  match type of EZ with bind ?x _ = _ => destruct x as [z'|] eqn:EZ'; [|discriminate] end.
  cbn [bind] in EZ. apply (add_fixed st site_ex source_ex bt_ex AL _ _ eq_refl TN) in EZ'.
  assert (EB : bs = map (fun s => FNum (ln (site_ex (snd (fst s))))) (samples st)).
  { unfold bs. rewrite <- (map_map (fun s : sample => snd (fst s)) (fun a => FNum (ln (site_ex a)))), STA. reflexivity. }
  assert (Z : z = map FNum (map (fun s => ln (source_ex (fst (fst s)))) (samples st))).
  { rewrite EZ', EB, map_map in EZ. rewrite map_map. refine (zip_map fsub _ _ _ _ _ EZ _).
    intros s _. cbn. f_equal. ring. }
  assert (S : exists f, solve_at shuf_sites st (map (map FNum) rows) bs rs (FNum (1 / 5)) (Some (FNum bt_ex)) true = Ok f).
  { unfold solve_at. rewrite RH. cbn [bind]. change (l_wls shuf_sites) with (wls_two [ln 3; ln 5] [ln 5; ln 3]).
    destruct (wls_two_ok [ln 3; ln 5] [ln 5; ln 3] z (map (map FNum) rows) (weights shuf_sites st z) c CC eq_refl) as (c' & mse & W & _).
    - exists rows, (map (fun s => ln (source_ex (fst (fst s)))) (samples st)).
      split; [reflexivity|]. split; [exact Z|]. split; [exact NR|].
      split; [destruct CC as [-> | ->]; exact LR|]. split; [exact EX|]. exact (weights_positive shuf_sites st GW z).
    - rewrite W. cbn [bind]. eexists. reflexivity. }
  destruct S as (f & S). pose proof (solve_fixed_b _ _ _ _ _ _ _ _ _ (eq_refl : l_fix shuf_sites = true) S) as B.
  destruct (choose_fixed shuf_sites st _ bs rs f eq_refl eq_refl BU S B) as (s & C).
  rewrite band_unfold by exact AL. rewrite C. cbn [bind]. rewrite (solve_at_g0 _ _ _ _ _ _ _ _ _ S), B.
  destruct (near_ex true) as [N1 N2]. change (l_b_bounds shuf_sites) with (l_b_bounds (two_ex true)).
  change (l_g0_bounds shuf_sites) with (l_g0_bounds (two_ex true)). rewrite N1, N2. cbn [orb]. eauto.
Qed.

Lemma turned_sites_build : exists rs, build shuf_sites turned_ex =
  Ok (map (map FNum) [[1; 0]; [1; 0]; [0; 1]; [0; 1]; [0; 1]; [0; 1]; [1; 0]; [0; 1]; [0; 1]],
      map FNum [ln 2; ln 2; ln (1 / 2); ln (1 / 2); ln 2; ln 2; ln 2; ln (1 / 2); ln 2], rs).
Proof.
  exists [FNum 2; FNum (1 / 2)].
  assert (F2 : flog (FNum 2) = FNum (ln 2)) by (apply flog_num; lra).
  assert (F3 : flog (FNum (1 / 2)) = FNum (ln (1 / 2))) by (apply flog_num; lra).
  unfold build. change (l_coda_norm shuf_sites) with false. change (l_fix_sites shuf_sites) with (Some params_ex).
  change (l_fix shuf_sites) with true. cbv iota.
  assert (M : mapM (row_fix_sites turned_ex params_ex) (seq 0 (List.length (block_lengths turned_ex))) =
            Ok [([FNum 1; FNum 0], FNum 2); ([FNum 0; FNum 1], FNum (1 / 2)); ([FNum 0; FNum 1], FNum 2);
                ([FNum 1; FNum 0], FNum 2); ([FNum 0; FNum 1], FNum (1 / 2)); ([FNum 0; FNum 1], FNum 2)]) by reflexivity.
  rewrite M. cbn [bind map fst snd]. rewrite F2, F3. reflexivity.
Qed.

Lemma shuf_sites_run : (exists r s, invert_band shuf_sites st_ex 3 = Ok (Some r, s)) /\
  (exists y s, invert_band shuf_sites turned_ex 3 = Ok (y, s)).
Proof.
  split.
  - apply (shuf_sites_solve st_ex [[1; 0]; [1; 0]; [1; 0]; [1; 0]; [0; 1]; [0; 1]; [1; 0]; [1; 0]; [0; 1]] [ln 3; ln 5]).
    + exact aligned_ex.
    + apply weights_ex.
    + apply greens_ex.
    + reflexivity.
    + now left.
    + discriminate.
    + repeat (constructor; [reflexivity|]); constructor.
    + repeat (constructor; [unfold source_ex; cbn; ring|]); constructor.
    + exact source_build.
  - assert (Q : exists r s, invert_band shuf_sites turned_ex 3 = Ok (Some r, s)).
    { apply (shuf_sites_solve turned_ex [[1; 0]; [1; 0]; [0; 1]; [0; 1]; [0; 1]; [0; 1]; [1; 0]; [0; 1]; [0; 1]] [ln 5; ln 3]).
      + exact turned_aligned.
      + exact (re_weights shuf_sites _ _ turned_reordered (weights_ex _ _ _)).
      + apply turned_greens.
      + reflexivity.
      + now right.
      + discriminate.
      + repeat (constructor; [reflexivity|]); constructor.
      + repeat (constructor; [unfold source_ex; cbn; ring|]); constructor.
      + exact turned_sites_build. }
    destruct Q as (r & s & Q). eauto.
Qed.

Lemma shuf_source_hyps : reordered (l_bulk shuf_sites) st_ex turned_ex /\
  least_squares_full (l_wls shuf_sites) dof_1 /\ good_weights shuf_sites st_ex /\
  positive_greens shuf_sites st_ex /\ greens_lengths shuf_sites st_ex /\ l_fix_sites shuf_sites = Some params_ex /\
  (forall x, In x (map snd (pairs st_ex)) -> exists v, 0 < v /\ dget String.eqb params_ex x = Some (FNum v)) /\
  (exists r s, invert_band shuf_sites st_ex 3 = Ok (Some r, s)) /\
  (exists y s, invert_band shuf_sites turned_ex 3 = Ok (y, s)).
Proof.
  split; [exact turned_reordered|]. split; [apply wls_two_full|]. split; [apply weights_ex|].
  split; [apply positive_greens_ex|]. split; [apply greens_lengths_ex|]. split; [reflexivity|]. split; [|exact shuf_sites_run].
  intros x I. exists (site_ex x). split; [now apply positive_site_ex|now apply params_site_ex].
Qed.

(** ** Built-in Green's functions *)
Definition st_built : wstate :=
  {| w_energies := [tr_ex 1 "e1" "A"]; w_distances := [(("e1", "A"), 10)];
     w_tcoda := [t_green]; w_tbulk := [FNum 10]; w_tbulk_window := [(("e1", "A"), (8, 12))]; w_weights := [];
     w_ebulk := [FNum 1]; w_ecoda := [map (fun _ => FNum 1) t_green] |}.
Definition lo_built : lopts :=
  {| l_coda_norm := false; l_fix := false; l_fix_sites := None; l_fix_params := None;
     l_R0 := 1; l_b_bounds := Some (1 / 1000, 10); l_g0_bounds := Some (1 / 1000, 1);
     l_bulk := true; l_optimize := true; l_plot_optimization := false; l_num := 7;
     l_gcoda := coda_greens "rt3d" (Some 3) "flat" 1; l_gbulk := bulk_greens "rt3d" 50 1;
     l_wls := linear_ex; l_optim := Done (FNum (1 / 5)) |}.

Lemma builtin_hyps : l_gcoda lo_built = coda_greens "rt3d" (Some 3) "flat" 1 /\ l_gbulk lo_built = bulk_greens "rt3d" 50 1 /\
  coda_behind st_built 3 1 /\ bulk_around st_built 1 /\ coda_of st_built 10 t_green /\ bulk_of st_built 10 (8, 12).
Proof.
  split; [reflexivity|]. split; [reflexivity|]. split; [|split; [|split]].
  - intros r t (i & p & P & T & D). destruct i as [|[|i]]; cbn in P; try discriminate. injection P as <-.
    cbn in T. injection T as <-. cbn in D. injection D as <-. exists 20, 1, 3%Z.
    split; [lra|]. split; [cbn; lia|]. split; [exact spaced_green|]. split; [lra|]. split; [exact (nearest_green 3)|].
    split; [lia|]. change ((3 - 1) / 2)%Z with 1%Z. lra.
  - intros r w (p & P & D & W). cbn in P. destruct P as [<-|[]]. cbn in D, W. injection D as <-. injection W as <-. cbn [fst snd]. lra.
  - exists 0%nat, ("e1", "A"). auto.
  - exists ("e1", "A"). cbn. auto.
Qed.
