(** Lemmas for C134: the inversion with another unit of length. *)
From Coq Require Import String List Bool Reals Lra Lia ZArith Arith.
From Verif Require Import Base Pyf PyfOps StatModel FbModel LsqfbModel LsqfbSpec GreenModel RtSpec GainSpec GainProof2 GainProof4 UnitSpec UnitProof.
Import ListNotations.
Open Scope string_scope.
Open Scope list_scope.
Open Scope R_scope.

Lemma dget_stretched k d p : dget pair_eqb (map (fun pr : (string * string) * R => (fst pr, k * snd pr)) d) p = option_map (Rmult k) (dget pair_eqb d p).
Proof. induction d as [|[q r] d IH]; [reflexivity|]. cbn [map fst snd dget]. destruct (pair_eqb p q); [reflexivity|exact IH]. Qed.

Lemma combine_const {A B C} (l : list A) (m : list B) (f : B -> C) : List.length m = List.length l ->
  map (fun pe => f (snd pe)) (combine l m) = map f m.
Proof. revert m. induction l as [|x l IH]; intros [|y m] L; try discriminate; [reflexivity|]. cbn. f_equal. apply IH. now injection L. Qed.

Lemma log_shift m e g : 0 < m -> fsub (flog e) (flog (per_unit m g)) = fsub (flog (fmul (FNum (m * 1)) e)) (flog g).
Proof.
  intros M. assert (P : forall x, 0 < x -> 0 < x / m) by (intros; now apply Rdiv_lt_0_compat).
  assert (Q : forall x, x < 0 -> x / m < 0) by (intros x X; specialize (P (- x) ltac:(lra)); unfold Rdiv in *; lra).
  assert (P2 : forall x, 0 < x -> 0 < m * 1 * x) by (intros; apply Rmult_lt_0_compat; lra).
  assert (Q2 : forall x, x < 0 -> m * 1 * x < 0) by (intros x X; specialize (P2 (- x) ltac:(lra)); lra).
  assert (G : match g with FNum y => 0 < y /\ flog (per_unit m g) = FNum (ln y - ln m) /\ flog g = FNum (ln y) \/ flog (per_unit m g) = flog g /\ (flog g = FNan \/ flog g = FNInf)
    | _ => flog (per_unit m g) = flog g /\ (flog g = FNan \/ flog g = FPInf) end).
  { destruct g as [| | |y]; cbn [per_unit flog]; auto.
    destruct (Rtotal_order y 0) as [L|[->|L]].
    - right. pose proof (Q y L). destruct (Rlt_dec 0 (y / m)); [lra|]. destruct (Rlt_dec (y / m) 0); [|lra].
      destruct (Rlt_dec 0 y); [lra|]. destruct (Rlt_dec y 0); [auto|lra].
    - right. replace (0 / m) with 0 by (unfold Rdiv; ring). destruct (Rlt_dec 0 0); [lra|auto].
    - left. pose proof (P y L). destruct (Rlt_dec 0 (y / m)); [|lra]. destruct (Rlt_dec 0 y); [|lra].
      unfold Rdiv in *. rewrite ln_mult, ln_Rinv by (assumption || now apply Rinv_0_lt_compat). auto. }
  assert (E : match e with FNum x => 0 < x /\ flog (fmul (FNum (m * 1)) e) = FNum (ln x + ln m) /\ flog e = FNum (ln x) \/ flog (fmul (FNum (m * 1)) e) = flog e /\ (flog e = FNan \/ flog e = FNInf)
    | _ => flog (fmul (FNum (m * 1)) e) = flog e /\ (flog e = FNan \/ flog e = FPInf) end).
  { destruct e as [| | |x]; cbn [fmul]; unfold finf; try (destruct (Rlt_dec 0 (m * 1)); [|lra]); cbn [flog fneg]; auto.
    destruct (Rtotal_order x 0) as [L|[->|L]].
    - right. pose proof (Q2 x L). destruct (Rlt_dec 0 (m * 1 * x)); [lra|]. destruct (Rlt_dec (m * 1 * x) 0); [|lra].
      destruct (Rlt_dec 0 x); [lra|]. destruct (Rlt_dec x 0); [auto|lra].
    - right. rewrite Rmult_0_r. destruct (Rlt_dec 0 0); [lra|auto].
    - left. pose proof (P2 x L). destruct (Rlt_dec 0 (m * 1 * x)); [|lra]. destruct (Rlt_dec 0 x); [|lra].
      rewrite ln_mult by lra. split; [exact L|]. split; [|reflexivity]. f_equal. rewrite Rmult_1_r. ring. }
  assert (G' : (exists y, flog (per_unit m g) = FNum (y - ln m) /\ flog g = FNum y) \/ flog (per_unit m g) = flog g /\ (flog g = FNan \/ flog g = FNInf \/ flog g = FPInf)).
  { destruct g; try tauto. destruct G as [(_ & A & B)|(A & B)]; [left; eauto|tauto]. }
  assert (E' : (exists x, flog (fmul (FNum (m * 1)) e) = FNum (x + ln m) /\ flog e = FNum x) \/ flog (fmul (FNum (m * 1)) e) = flog e /\ (flog e = FNan \/ flog e = FNInf \/ flog e = FPInf)).
  { destruct e; try tauto. destruct E as [(_ & A & B)|(A & B)]; [left; eauto|tauto]. }
  clear G E. destruct G' as [(y & -> & ->)|(-> & [->|[->| ->]])], E' as [(x & -> & ->)|(-> & [->|[->| ->]])]; cbn; try reflexivity.
  f_equal. ring.
Qed.

Section I.
  Variables (k : R) (o : lopts) (st : wstate) (ty window : string) (sm : option R) (num : nat) (c0 : R).
  Hypothesis K : 0 < k.
  Hypothesis T : In ty ["rt3d"; "rt2d"; "rt1d"].
  Hypothesis AL : aligned st.
  Hypothesis GC : l_gcoda o = coda_greens ty sm window c0.
  Hypothesis GB : l_gbulk o = bulk_greens ty num c0.

  Definition o_unit := in_unit k (coda_greens ty sm window (k * c0)) (bulk_greens ty num (k * c0)) o.
  Definition m_unit := k ^ dimension ty.
  Definition st_gain := gained (fun _ => m_unit) (fun _ => 1) st.

  Lemma m_unit_pos : 0 < m_unit.
  Proof. now apply pow_lt. Qed.

  Lemma greens_unit g ps : forall ec tc, greens o_unit (stretched k st) (per_unit k g) ps ec tc =
    do y <- greens o st g ps ec tc; Ok (map (map (per_unit m_unit)) (fst y), map (per_unit m_unit) (snd y)).
  Proof.
    induction ps as [|p ps IH]; intros ec tc; cbn [greens]; [reflexivity|].
    destruct ec as [|e ec]; [reflexivity|]. destruct (Nat.eqb (List.length e) 0); [reflexivity|].
    cbn [stretched w_distances w_tbulk_window]. rewrite dget_stretched.
    destruct (dget pair_eqb (w_distances st) p) as [r|]; [|reflexivity]. cbn [option_map].
    destruct tc as [|t tc]; [reflexivity|]. rewrite GC, GB. cbn [o_unit in_unit l_gcoda l_gbulk l_bulk].
    rewrite (coda_unit k K) by assumption. fold m_unit.
    destruct (coda_greens ty sm window c0 r t g) as [gs|]; [|reflexivity]. cbn [overs bind].
    destruct (l_bulk o).
    - destruct (dget pair_eqb (w_tbulk_window st) p) as [w|]; [|reflexivity].
      rewrite (bulk_unit k K) by assumption. fold m_unit. destruct (bulk_greens ty num c0 r w g) as [x|]; [|reflexivity]. cbn [bind].
      fold o_unit. change (greens o_unit _ (per_unit k g) ps ec tc) with (greens o_unit (stretched k st) (per_unit k g) ps ec tc).
      rewrite IH. destruct (greens o st g ps ec tc) as [[gcs gbs]|]; reflexivity.
    - cbn [bind]. change (greens _ _ (per_unit k g) ps ec tc) with (greens o_unit (stretched k st) (per_unit k g) ps ec tc).
      rewrite IH. destruct (greens o st g ps ec tc) as [[gcs gbs]|]; reflexivity.
  Qed.

  Lemma gain_coda : w_ecoda st_gain = map (map (fmul (FNum (m_unit * 1)))) (w_ecoda st).
  Proof. destruct AL as (_ & LE & _). exact (combine_const _ _ (map (fmul (FNum (m_unit * 1)))) LE). Qed.
  Lemma gain_bulk : w_ebulk st_gain = map (fmul (FNum (m_unit * 1))) (w_ebulk st).
  Proof.
    destruct AL as (_ & _ & _ & _ & [E|L]).
    - unfold st_gain, gained. cbn [w_ebulk]. rewrite E. now destruct (pairs st).
    - exact (combine_const _ _ (fmul (FNum (m_unit * 1))) L).
  Qed.

  Lemma zip_shift es : forall gs, zip_op fsub (map flog es) (map flog (map (per_unit m_unit) gs)) =
    zip_op fsub (map flog (map (fmul (FNum (m_unit * 1))) es)) (map flog gs).
  Proof.
    induction es as [|e es IH]; intros [|g gs]; try reflexivity. cbn [map zip_op]. rewrite IH.
    destruct (zip_op fsub _ _) as [z|]; [|reflexivity]. cbn [bind]. do 2 f_equal. exact (log_shift _ _ _ m_unit_pos).
  Qed.

  Lemma rhs_unit g bf fs bs : rhs o_unit (stretched k st) (per_unit k g) bf fs bs = rhs o st_gain g bf fs bs.
  Proof.
    unfold rhs. rewrite greens_unit. unfold st_gain at 1 2 3. rewrite (gained_greens _ _ o st AL g).
    change (pairs (stretched k st)) with (pairs st). change (w_ecoda (stretched k st)) with (w_ecoda st).
    change (w_tcoda (stretched k st)) with (w_tcoda st). change (w_ebulk (stretched k st)) with (w_ebulk st).
    rewrite gain_coda, gain_bulk.
    destruct (greens o st g (pairs st) (w_ecoda st) (w_tcoda st)) as [[gc gb]|]; [|reflexivity]. cbn [bind fst snd].
    rewrite <- !concat_map, <- !map_app, zip_shift. reflexivity.
  Qed.

  (** results in the other unit *)
  Definition unit_fit (f : fit) : fit :=
    {| f_err := f_err f; f_g0 := per_unit k (f_g0 f); f_b := f_b f; f_W := f_W f; f_R := f_R f |}.
  Definition unit_state (s : rstate) : rstate :=
    {| r_record := map unit_fit (r_record s); r_g0 := map (fun p => (fst p, per_unit k (snd p))) (r_g0 s) |}.

  Lemma div_lt a b : a / k < b / k <-> a < b.
  Proof.
    unfold Rdiv. split; intros H.
    - apply (Rmult_lt_reg_r (/ k)); [now apply Rinv_0_lt_compat|exact H].
    - apply Rmult_lt_compat_r; [now apply Rinv_0_lt_compat|exact H].
  Qed.
  Lemma fltb_unit a b : fltb (per_unit k a) (per_unit k b) = fltb a b.
  Proof.
    destruct a as [| | |a], b as [| | |b]; try reflexivity. cbn [per_unit fltb]. unfold rltb.
    destruct (Rlt_dec (a / k) (b / k)) as [H|H], (Rlt_dec a b) as [H1|H1]; try reflexivity; exfalso; pose proof (div_lt a b); tauto.
  Qed.
  Lemma fleb_unit a b : fleb (per_unit k a) (per_unit k b) = fleb a b.
  Proof. destruct a as [| | |a], b as [| | |b]; try reflexivity. cbn [per_unit fleb]. f_equal. exact (fltb_unit (FNum b) (FNum a)). Qed.
  Lemma feqb_unit a b : feqb (per_unit k a) (per_unit k b) = feqb a b.
  Proof. unfold feqb. now rewrite !fleb_unit. Qed.
  Lemma outside_unit g : g0_outside o_unit (per_unit k g) = g0_outside o g.
  Proof.
    unfold g0_outside. cbn [o_unit in_unit l_g0_bounds]. destruct (l_g0_bounds o) as [[lo hi]|]; [|reflexivity]. cbn [option_map fst snd].
    change (FNum (lo / k)) with (per_unit k (FNum lo)). change (FNum (hi / k)) with (per_unit k (FNum hi)). now rewrite !fleb_unit.
  Qed.
  Lemma near_unit g : near_bounds (l_g0_bounds o_unit) (per_unit k g) = near_bounds (l_g0_bounds o) g.
  Proof.
    unfold near_bounds. cbn [o_unit in_unit l_g0_bounds]. destruct (l_g0_bounds o) as [[lo hi]|]; [|reflexivity]. cbn [option_map fst snd].
    replace (1.01 * (lo / k)) with (1.01 * lo / k) by (unfold Rdiv; ring). replace (0.99 * (hi / k)) with (0.99 * hi / k) by (unfold Rdiv; ring).
    change (FNum (1.01 * lo / k)) with (per_unit k (FNum (1.01 * lo))). change (FNum (0.99 * hi / k)) with (per_unit k (FNum (0.99 * hi))).
    now rewrite !fltb_unit.
  Qed.

  Lemma solve_unit a bs rs g bf fs : solve_at o_unit (stretched k st) a bs rs (per_unit k g) bf fs =
    do f <- solve_at o st_gain a bs rs g bf fs; Ok (unit_fit f).
  Proof.
    unfold solve_at. rewrite rhs_unit. destruct (rhs o st_gain g bf fs bs) as [z|]; [|reflexivity]. cbn [bind].
    change (weights o_unit (stretched k st) z) with (weights o st_gain z). change (l_wls o_unit) with (l_wls o).
    destruct (l_wls o z a (weights o st_gain z)) as [[c mse]|]; [|reflexivity]. cbn [bind].
    change (l_fix o_unit) with (l_fix o). change (l_coda_norm o_unit) with (l_coda_norm o).
    change (decode o_unit (stretched k st) c fs rs) with (decode o st_gain c fs rs).
    change (b_outside o_unit) with (b_outside o). rewrite outside_unit.
    match goal with |- bind ?x _ = _ => destruct x as [[b err]|] end; [|reflexivity]. cbn [bind].
    destruct (decode o st_gain c fs rs) as [w r]. reflexivity.
  Qed.

  Lemma existsb_unit f l : existsb (fun x => feqb (f_g0 x) (per_unit k (f_g0 f))) (map unit_fit l) = existsb (fun x => feqb (f_g0 x) (f_g0 f)) l.
  Proof. induction l as [|x l IH]; [reflexivity|]. cbn [map existsb unit_fit f_g0]. now rewrite feqb_unit, IH. Qed.

  Lemma add_unit s f opt : add_record o_unit (unit_state s) (unit_fit f) opt = unit_state (add_record o s f opt).
  Proof.
    unfold add_record. change (l_plot_optimization o_unit) with (l_plot_optimization o). change (l_num o_unit) with (l_num o).
    destruct (l_plot_optimization o && opt)%bool; cbn [unit_state r_record r_g0]; cbn [unit_fit f_g0 f_err]; rewrite existsb_unit, map_length;
      match goal with |- context [if ?b then _ else _] => destruct b end; unfold unit_state; cbn [r_record r_g0]; rewrite ?map_app; reflexivity.
  Qed.

  Lemma lstsq_unit a bs rs s g bf fs : lstsq o_unit (stretched k st) a bs rs (unit_state s) (per_unit k g) bf fs =
    do y <- lstsq o st_gain a bs rs s g bf fs; Ok (unit_state (fst y), unit_fit (snd y)).
  Proof.
    unfold lstsq. rewrite solve_unit. destruct (solve_at o st_gain a bs rs g bf fs) as [f|]; [|reflexivity]. cbn [bind fst snd].
    now rewrite add_unit.
  Qed.

  Lemma minimize_unit a bs rs p : forall s, minimize o_unit (stretched k st) a bs rs (optim_unit k p) (unit_state s) =
    do y <- minimize o st_gain a bs rs p s; Ok (unit_state (fst y), per_unit k (snd y)).
  Proof.
    induction p as [x f IH|x|e]; intros s; cbn [optim_unit minimize]; [|reflexivity..].
    unfold lstsq_opt. rewrite outside_unit. destruct (g0_outside o x); [cbn [bind]; apply IH|].
    rewrite solve_unit. destruct (solve_at o st_gain a bs rs x None false) as [y|]; [|reflexivity]. cbn [bind].
    rewrite add_unit. apply IH.
  Qed.

  Definition unit_chosen (y : option (rstate * fit)) := option_map (fun sf : rstate * fit => (unit_state (fst sf), unit_fit (snd sf))) y.

  Lemma choose_unit : choose o_unit (stretched k st) = do y <- choose o st_gain; Ok (unit_chosen y).
  Proof.
    unfold choose. change (build o_unit (stretched k st)) with (build o st). unfold st_gain at 1. rewrite (gained_build _ _ o st AL). fold st_gain.
    destruct (build o st) as [[[a bs] r]|]; [|reflexivity]. cbn [bind].
    change {| r_record := []; r_g0 := [] |} with (unit_state {| r_record := []; r_g0 := [] |}) at 1 2 3.
    change (l_fix o_unit) with (l_fix o). change (l_fix_sites o_unit) with (l_fix_sites o). change (l_optimize o_unit) with (l_optimize o).
    destruct (l_fix o).
    - cbn [o_unit in_unit l_fix_params]. destruct (l_fix_params o) as [[[g|] [b|]]|]; try reflexivity. cbn [option_map fst snd].
      fold o_unit. rewrite lstsq_unit. destruct (lstsq o st_gain a bs r _ g (Some b) _) as [[s f]|]; [|reflexivity]. cbn [bind fst snd unit_fit f_g0 f_b].
      rewrite feqb_unit. destruct (_ && _)%bool; reflexivity.
    - destruct (negb (l_optimize o)).
      + cbn [o_unit in_unit l_g0_bounds]. destruct (l_g0_bounds o) as [[g1 g2]|]; [|reflexivity]. cbn [option_map fst snd].
        replace (FNum ((g1 / k + g2 / k) / 2)) with (per_unit k (FNum ((g1 + g2) / 2))) by (cbn; f_equal; unfold Rdiv; ring).
        fold o_unit. rewrite lstsq_unit. destruct (lstsq o st_gain a bs r _ _ None false) as [[s f]|]; reflexivity.
      + change (l_optim o_unit) with (optim_unit k (l_optim o)). rewrite minimize_unit.
        destruct (minimize o st_gain a bs r (l_optim o) _) as [[s g]|]; [|reflexivity]. cbn [bind fst snd].
        rewrite lstsq_unit. destruct (lstsq o st_gain a bs r s g None false) as [[s1 f]|]; reflexivity.
  Qed.

  Definition unit_band (r : fbresult) : fbresult :=
    {| fb_g0 := option_map (per_unit k) (fb_g0 r); fb_b := fb_b r; fb_W := fb_W r; fb_R := fb_R r;
       fb_nstations := fb_nstations r; fb_error := fb_error r; fb_v0 := k * fb_v0 r |}.

  Lemma invert_unit v : invert_band o_unit (stretched k st) (k * v) =
    do y <- invert_band o st_gain v; Ok (option_map unit_band (fst y), unit_state (snd y)).
  Proof.
    rewrite (band_unfold o_unit (stretched k st)) by exact AL. rewrite (band_unfold o st_gain) by exact (gained_aligned _ _ st AL).
    rewrite choose_unit. destruct (choose o st_gain) as [[[s f]|]|]; [|reflexivity..]. cbn [bind unit_chosen option_map fst snd].
    change (l_b_bounds o_unit) with (l_b_bounds o). cbn [unit_fit f_b f_g0]. rewrite near_unit.
    destruct (_ || _)%bool; [reflexivity|]. cbn [bind option_map fst snd]. do 3 f_equal.
    unfold arrange, unit_band. cbn [fb_g0 fb_b fb_W fb_R fb_nstations fb_error fb_v0].
    change (l_fix o_unit) with (l_fix o). destruct (l_fix o); reflexivity.
  Qed.
End I.
