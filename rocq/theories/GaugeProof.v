(** C141: uniqueness of the least squares solution and factors of the events. *)
From Coq Require Import String List Bool Reals Arith Lia Lra Permutation Relation_Operators.
From Verif Require Import Base PySort Pyf StatModel StatProof SiteModel SiteSpec MergeProof SiteProof SiteProof2 SiteProof3 SiteProof4 SiteProof5 GaugeSpec.
Import ListNotations.
Open Scope list_scope.
Open Scope R_scope.

(** ** two minima have the same residuals *)
Lemma row_value_mid row x y : row_value row (fun k => (x k + y k) / 2) = (row_value row x + row_value row y) / 2.
Proof.
  destruct row as [c b]. unfold row_value. cbn [fst snd].
  rewrite (rsum_ext (fun p : nat * R => snd p * ((x (fst p) + y (fst p)) / 2)) (fun p => / 2 * (snd p * x (fst p) + snd p * y (fst p))))
    by (intros; field).
  rewrite rsum_scale, rsum_plus. field.
Qed.

Lemma minima_rows rows x y : (forall z, sse rows x <= sse rows z) -> (forall z, sse rows y <= sse rows z) ->
  forall row, In row rows -> row_value row x = row_value row y.
Proof.
  intros Hx Hy. specialize (Hx (fun k => (x k + y k) / 2)). specialize (Hy (fun k => (x k + y k) / 2)).
  set (dd := fun row : list (nat * R) * R => ((row_value row x - row_value row y) / 2) * ((row_value row x - row_value row y) / 2)).
  assert (E : sse rows (fun k => (x k + y k) / 2) = (sse rows x + sse rows y) / 2 - rsum (map dd rows)).
  { unfold sse. rewrite (rsum_ext (fun row => row_value row (fun k => (x k + y k) / 2) * row_value row (fun k => (x k + y k) / 2))
      (fun row => / 2 * (row_value row x * row_value row x + row_value row y * row_value row y) + (-1) * dd row))
      by (intros row _; rewrite row_value_mid; unfold dd; field).
    rewrite rsum_plus, !rsum_scale, rsum_plus. field. }
  rewrite E in Hx, Hy. assert (Z : rsum (map dd rows) <= 0) by lra. clear E Hx Hy.
  induction rows as [|r rows IH]; intros row Hr; [destruct Hr|]. cbn [map] in Z. rewrite rsum_cons in Z.
  assert (0 <= dd r) by apply Rle_0_sqr.
  assert (0 <= rsum (map dd rows)) by (apply rsum_nonneg; intros; apply Rle_0_sqr).
  destruct Hr as [<-|Hr]; [|apply IH; auto; lra].
  assert (D : dd r = 0) by lra. unfold dd in D. apply Rmult_integral in D. lra.
Qed.

Section Loop.
Variables (station : staopt) (nsta : string -> nat).
Notation final := (final station nsta).

Lemma rows_same_levels x y l : (forall row, In row (srows (final l)) -> row_value row x = row_value row y) ->
  (forall o, In o l -> exists k r, dget String.eqb (slast (final l)) (osta o) = Some (k, r) /\ x k - y k = x (oev o) - y (oev o)).
Proof.
  induction l as [|o l IH] using rev_ind; [intros _ o []|]. intros H.
  destruct (step_rows station nsta l o) as [EL ER]. rewrite ER in H.
  assert (H1 : forall row, In row (srows (final l)) -> row_value row x = row_value row y) by (intros; apply H, in_or_app; auto).
  specialize (IH H1). rewrite EL. intros o' Ho'.
  destruct (String.eqb_spec (osta o') (osta o)) as [Es|Ne].
  - rewrite Es, (dget_dset_eq _ string_eqb_spec). exists (oev o), (oval o). split; [reflexivity|].
    apply in_app_iff in Ho' as [Ho'|[<-|[]]]; [|reflexivity].
    destruct (IH o' Ho') as (k & r & Hd & Hv). rewrite Es in Hd. rewrite Hd in H.
    specialize (H ([(oev o, 1); (k, -1)], ln r - ln (oval o)) ltac:(apply in_or_app; right; now left)).
    unfold row_value in H. cbn [map fst snd] in H. unfold rsum in H. cbn [fold_right] in H. lra.
  - rewrite (dget_dset_neq _ string_eqb_spec) by auto. apply in_app_iff in Ho' as [Ho'|[<-|[]]]; [auto|congruence].
Qed.

Lemma rows_same_equal x y l o1 o2 : (forall row, In row (srows (final l)) -> row_value row x = row_value row y) ->
  In o1 l -> In o2 l -> osta o1 = osta o2 -> x (oev o1) - y (oev o1) = x (oev o2) - y (oev o2).
Proof.
  intros H H1 H2 E. destruct (rows_same_levels x y l H o1 H1) as (k & r & D1 & V1).
  destruct (rows_same_levels x y l H o2 H2) as (k' & r' & D2 & V2). rewrite E in D1. rewrite D1 in D2.
  injection D2 as <- <-. lra.
Qed.

(** a common shift is excluded by the normalisation *)
Lemma no_shift resp l x y c : sused (final l) <> [] -> (forall o, In o l -> nsta (osta o) = count_of l (osta o)) ->
  (forall o, In o l -> x (oev o) - y (oev o) = c) ->
  row_value (norm_row station nsta resp l) x = row_value (norm_row station nsta resp l) y -> c = 0.
Proof.
  intros Hne HC H. rewrite !norm_row_value by assumption.
  rewrite (rsum_ext (fun o => fac_of nsta o * lev x o) (fun o => fac_of nsta o * lev y o + c * (fac_of nsta o * 1))).
  2:{ intros o Ho. unfold used in Ho. apply filter_In in Ho as [Ho _]. specialize (H o Ho). unfold lev.
      replace (x (oev o)) with (y (oev o) + c) by lra. ring. }
  rewrite rsum_plus, rsum_scale, weights_one by assumption. intros E.
  assert (N : INR (List.length (sused (final l))) <> 0) by (apply not_0_INR; destruct (sused (final l)); [congruence|discriminate]).
  assert (F : (rsum (map (fun o => fac_of nsta o * lev y o) (used station l)) + c * INR (List.length (sused (final l)))) / INR (List.length (sused (final l)))
    = rsum (map (fun o => fac_of nsta o * lev y o) (used station l)) / INR (List.length (sused (final l))) + c) by (field; exact N).
  lra.
Qed.

(** ** values multiplied by factors of the events *)
Variable A : nat -> R.
Hypothesis APos : forall k, 0 < A k.
Definition gobs (o : obs) : obs := {| oev := oev o; osta := osta o; oval := oval o * A (oev o) |}.

Lemma lev_gobs x o : 0 < oval o -> lev x (gobs o) = lev (fun k => x k + ln (A k)) o.
Proof. intros P. unfold lev, gobs. cbn [oev oval]. rewrite ln_mult by auto. ring. Qed.

Definition glast (v : nat * R) : nat * R := (fst v, snd v * A (fst v)).

Lemma final_gobs l : (forall o, In o l -> 0 < oval o) ->
  (forall s, dget String.eqb (slast (final (map gobs l))) s = option_map glast (dget String.eqb (slast (final l)) s)) /\
  sused (final (map gobs l)) = sused (final l) /\
  Forall2 (fun row row' => forall x, row_value row' x = row_value row (fun k => x k + ln (A k))) (srows (final l)) (srows (final (map gobs l))).
Proof.
  induction l as [|o l IH] using rev_ind; intros P; [repeat split; constructor|].
  destruct (IH (fun o' Ho' => P o' (in_or_app _ _ _ (or_introl Ho')))) as (I1 & I2 & I3).
  assert (Po : 0 < oval o) by (apply P, in_or_app; right; now left).
  rewrite map_app. cbn [map].
  destruct (step_rows station nsta l o) as [EL ER]. destruct (step_rows station nsta (map gobs l) (gobs o)) as [EL' ER'].
  destruct (step_norm station nsta l o) as (_ & _ & EU). destruct (step_norm station nsta (map gobs l) (gobs o)) as (_ & _ & EU').
  rewrite EL, EL', ER, ER', EU, EU', I2. cbn [gobs osta oev oval].
  split; [|split; [reflexivity|]].
  - intros s. destruct (String.eqb_spec s (osta o)) as [->|Ne].
    + rewrite !(dget_dset_eq _ string_eqb_spec). reflexivity.
    + rewrite !(dget_dset_neq _ string_eqb_spec) by auto. apply I1.
  - apply Forall2_app; [exact I3|]. rewrite I1. destruct (dget String.eqb (slast (final l)) (osta o)) as [[kl Rl]|] eqn:E; [|constructor].
    cbn [option_map glast fst snd]. constructor; [|constructor]. intros x.
    apply final_last in E as (o2 & H2 & _ & <- & <-). assert (P2 : 0 < oval o2) by (apply P, in_or_app; now left).
    unfold row_value. cbn [map fst snd]. unfold rsum. cbn [fold_right]. rewrite !ln_mult by auto. ring.
Qed.

Lemma used_gobs l : used station (map gobs l) = map gobs (used station l).
Proof. unfold used. induction l as [|o l IH]; cbn; [reflexivity|]. destruct (norm_station station (osta o)); cbn; now rewrite IH. Qed.

Lemma sse_gobs resp l rows rows' x : (forall o, In o l -> 0 < oval o) ->
  align_rows station nsta resp l = Ok rows -> align_rows station nsta resp (map gobs l) = Ok rows' ->
  sse rows' x = sse rows (fun k => x k + ln (A k)).
Proof.
  intros P H H'. apply align_rows_ok in H as [-> Hne]. apply align_rows_ok in H' as [-> Hne'].
  destruct (final_gobs l P) as (_ & EU & F2). rewrite !sse_app. f_equal.
  - unfold sse. clear - F2. induction F2 as [|r r' L L' HR _ IH]; [reflexivity|]. cbn [map]. rewrite !rsum_cons, HR, IH. reflexivity.
  - unfold sse. cbn [map]. unfold rsum. cbn [fold_right].
    assert (E : row_value (norm_row station nsta resp (map gobs l)) x = row_value (norm_row station nsta resp l) (fun k => x k + ln (A k))).
    { rewrite !norm_row_value by assumption. rewrite EU, used_gobs, map_map. f_equal. f_equal. apply rsum_ext. intros o Ho.
      unfold used in Ho. apply filter_In in Ho as [Ho _]. rewrite lev_gobs by auto. reflexivity. }
    now rewrite E.
Qed.

Lemma count_gobs l s : count_of (map gobs l) s = count_of l s.
Proof. unfold count_of. induction l as [|o l IH]; cbn; [reflexivity|]. destruct (String.eqb (osta o) s); cbn; now rewrite IH. Qed.
End Loop.

(** ** sorting *)
Lemma insert_map {X Y} (le : X -> X -> bool) (le' : Y -> Y -> bool) (g : X -> Y) : (forall a b, le' (g a) (g b) = le a b) ->
  forall x l, insert le' (g x) (map g l) = map g (insert le x l).
Proof. intros H x. induction l as [|y l IH]; cbn; [reflexivity|]. rewrite H. destruct (le x y); cbn; now rewrite ?IH. Qed.

Lemma pysort_map {X Y} (le : X -> X -> bool) (le' : Y -> Y -> bool) (g : X -> Y) : (forall a b, le' (g a) (g b) = le a b) ->
  forall l, pysort le' (map g l) = map g (pysort le l).
Proof. intros H. induction l as [|y l IH]; cbn; [reflexivity|]. rewrite IH. now apply insert_map. Qed.

(** ** events with factors *)
Lemma at_by_freq f l i : at_ (by_freq f l) i = times_entry (at_ l i) (f i).
Proof.
  unfold by_freq, at_. assert (G : forall m, nth i (map (fun p => times_entry (snd p) (f (fst p))) (combine (seq m (List.length l)) l)) ENone
    = times_entry (nth i l ENone) (f (m + i)%nat)).
  { revert i. induction l as [|e l IH]; intros i m; [cbn; now destruct i|]. destruct i as [|i]; cbn.
    - now rewrite Nat.add_0_r.
    - rewrite IH. now rewrite Nat.add_succ_comm. }
  apply (G 0%nat).
Qed.

Lemma by_freq_length f l : List.length (by_freq f l) = List.length l.
Proof. unfold by_freq. rewrite map_length, combine_length, seq_length. lia. Qed.

Lemma valid_times e k : valid (times_entry e k) = valid e.
Proof. now destruct e. Qed.

Lemma response_regauged f ev i s : response_of (regauged f ev) i s = option_map (fun v => v * f i) (response_of ev i s).
Proof.
  unfold response_of, regauged. cbn [evR]. induction (evR ev) as [|[s' l] d IH]; [reflexivity|]. cbn [map fst snd dget].
  destruct (String.eqb s s'); [|exact IH]. rewrite at_by_freq. now destruct (at_ l i).
Qed.

Lemma energy_regauged f ev i : energy_of (regauged f ev) i = option_map (fun v => v * / f i) (energy_of ev i).
Proof. unfold energy_of, regauged. cbn [evW]. rewrite at_by_freq. now destruct (at_ (evW ev) i). Qed.

Lemma keys_regauged f ev : map fst (evR (regauged f ev)) = map fst (evR ev).
Proof. unfold regauged. cbn [evR]. rewrite map_map. reflexivity. Qed.

Lemma area_regauged ignore f ev i : event_area ignore i (regauged f ev) = event_area ignore i ev.
Proof.
  unfold event_area, regauged. cbn [evR]. induction (evR ev) as [|[s l] d IH]; [reflexivity|]. cbn [map filter fst snd].
  rewrite at_by_freq, valid_times. destruct (valid (at_ l i) && _); cbn [map fst]; now rewrite IH.
Qed.

Lemma wf_regauged Nf f ev : well_formed Nf ev -> well_formed Nf (regauged f ev).
Proof.
  intros (A & B & C). split; [now rewrite keys_regauged|]. split; [unfold regauged; cbn; now rewrite by_freq_length|].
  unfold regauged. cbn [evR]. apply Forall_forall. intros p Hp. apply in_map_iff in Hp as (q & <- & Hq). cbn [snd].
  rewrite by_freq_length. rewrite Forall_forall in C. auto.
Qed.

Definition gev (a : string -> nat -> R) (p : string * evres) : string * evres := (fst p, regauged (a (fst p)) (snd p)).

Lemma present_regauged a events : present_events (regauged_events a events) = map (gev a) (present_events events).
Proof.
  unfold present_events, regauged_events. induction events as [|[id [e|]] l IH]; cbn; [reflexivity| |exact IH]. now rewrite IH.
Qed.

Lemma sorted_regauged a events : sort_events (regauged_events a events) = map (gev a) (sort_events events).
Proof.
  unfold sort_events. fold (present_events (regauged_events a events)). fold (present_events events). rewrite present_regauged.
  now apply pysort_map.
Qed.

Section Lists.
Variables (a : string -> nat -> R) (i : nat) (L : list (string * evres)).
Let evs := map snd L.
Let evs' := map snd (map (gev a) L).

Lemma areas_regauged pick ignore : find_areas pick evs' i ignore = find_areas pick evs i ignore.
Proof.
  unfold find_areas. replace (event_areas ignore i evs') with (event_areas ignore i evs); [reflexivity|].
  unfold event_areas. f_equal. unfold evs, evs'. rewrite !map_map. apply map_ext. intros p. unfold gev. cbn [snd]. now rewrite area_regauged.
Qed.

Lemma nstations_regauged s : nstations evs' i s = nstations evs i s.
Proof.
  unfold nstations, evs, evs'. induction L as [|[id ev] l IH]; [reflexivity|]. cbn [map flat_map gev fst snd].
  rewrite !filter_app, !app_length, IH. f_equal. unfold regauged. cbn [evR]. clear IH.
  induction (evR ev) as [|[s' r] d IHd]; [reflexivity|]. cbn [map filter fst snd]. rewrite at_by_freq, valid_times.
  destruct (String.eqb s' s && valid (at_ r i)); cbn [List.length]; now rewrite IHd.
Qed.

Definition Afac (k : nat) : R := match nth_error L k with Some p => a (fst p) i | None => 1 end.

Lemma observations_regauged area : observations evs' i area = map (gobs Afac) (observations evs i area).
Proof.
  unfold observations, enum, evs, evs'. rewrite !map_length.
  assert (G : forall M m F, (forall j p, nth_error M j = Some p -> F (m + j)%nat = a (fst p) i) ->
    flat_map (fun p : nat * evres => flat_map (fun q => if negb (inb String.eqb (fst q) area) then []
      else match at_ (snd q) i with ENum r => [{| oev := fst p; osta := fst q; oval := r |}] | _ => [] end) (evR (snd p)))
      (combine (seq m (List.length M)) (map snd (map (gev a) M))) =
    map (gobs F) (flat_map (fun p : nat * evres => flat_map (fun q => if negb (inb String.eqb (fst q) area) then []
      else match at_ (snd q) i with ENum r => [{| oev := fst p; osta := fst q; oval := r |}] | _ => [] end) (evR (snd p)))
      (combine (seq m (List.length M)) (map snd M)))).
  { clear. induction M as [|[id ev] M IH]; intros m F H; [reflexivity|].
    cbn [List.length seq map combine flat_map gev fst snd]. rewrite map_app. f_equal.
    - specialize (H 0%nat _ eq_refl). rewrite Nat.add_0_r in H. cbn [fst] in H. unfold regauged. cbn [evR].
      induction (evR ev) as [|[s r] d IHd]; [reflexivity|]. cbn [map flat_map fst snd]. rewrite map_app, IHd. f_equal.
      destruct (negb (inb String.eqb s area)); [reflexivity|]. rewrite at_by_freq.
      destruct (at_ r i); cbn; try reflexivity. unfold gobs. cbn. now rewrite H.
    - apply IH. intros j p Hj. rewrite Nat.add_succ_comm. apply H. exact Hj. }
  apply G. intros j p Hj. unfold Afac. cbn. now rewrite Hj.
Qed.
End Lists.
