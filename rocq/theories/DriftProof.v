(** C140: the alignment of site responses with errors. *)
From Coq Require Import String List Bool Reals Arith Lia Lra Permutation Relation_Operators.
From Verif Require Import Base PySort Pyf StatModel StatProof StatSpec SourceModel SiteModel SiteSpec MergeProof SiteProof SiteProof2 SiteProof3 SiteProof4 SiteProof5
  NoiseSpec JitterProof DriftSpec.
Import ListNotations.
Open Scope list_scope.
Open Scope R_scope.

Lemma rsum_abs_pos {A} (f : A -> R) l : 0 <= rsum (map (fun a => Rabs (f a)) l).
Proof. apply rsum_nonneg. intros. apply Rabs_pos. Qed.

(** sum of the moduli from the sum of squares *)
Lemma abs_sum (rows : list (list (nat * R) * R)) x e : 0 <= e -> sse rows x <= INR (List.length rows) * (e * e) ->
  rsum (map (fun row => Rabs (row_value row x)) rows) <= INR (List.length rows) * e.
Proof.
  intros He H. destruct rows as [|r0 rows0] eqn:E; [cbn; unfold rsum; cbn; lra|]. rewrite <- E in *.
  assert (N : map (fun row => row_value row x) rows <> []) by (subst rows; discriminate).
  pose proof (mean_abs _ N) as M. rewrite map_map, map_length in M.
  assert (P : 0 < INR (List.length rows)) by (apply lt_0_INR; subst rows; cbn; lia).
  assert (Q : sqrt (mean_square (map (fun row => row_value row x) rows)) <= e).
  { rewrite <- (sqrt_square e) by exact He. apply sqrt_le_1_alt. unfold mean_square. rewrite map_map, map_length.
    apply (Rmult_le_reg_r (INR (List.length rows))); [exact P|]. unfold sse in H.
    rewrite (rsum_ext (fun row => row_value row x ^ 2) (fun row => row_value row x * row_value row x)) by (intros; ring).
    replace (rsum (map (fun row => row_value row x * row_value row x) rows) / INR (List.length rows) * INR (List.length rows))
      with (rsum (map (fun row => row_value row x * row_value row x) rows)) by (field; lra). lra. }
  assert (K : rsum (map (fun row => Rabs (row_value row x)) rows) / INR (List.length rows) <= e) by lra.
  apply (Rmult_le_compat_r (INR (List.length rows))) in K; [|lra].
  replace (rsum (map (fun row => Rabs (row_value row x)) rows) / INR (List.length rows) * INR (List.length rows))
    with (rsum (map (fun row => Rabs (row_value row x)) rows)) in K by (field; lra). lra.
Qed.

Section Loop.
Variables (station : staopt) (nsta : string -> nat).
Notation final := (final station nsta).
Let total x l := rsum (map (fun row => Rabs (row_value row x)) (srows (final l))).

Lemma rows_number l : (List.length (srows (final l)) <= List.length l)%nat.
Proof.
  induction l as [|o l IH] using rev_ind; [cbn; lia|]. destruct (step_rows station nsta l o) as [_ ->].
  rewrite !app_length. destruct (dget _ _ _) as [[k r]|]; cbn; lia.
Qed.

(** levels of one station *)
Lemma total_levels x l :
  (forall o, In o l -> exists k r, dget String.eqb (slast (final l)) (osta o) = Some (k, r) /\ Rabs (x k + ln r - lev x o) <= total x l) /\
  (forall o1 o2, In o1 l -> In o2 l -> osta o1 = osta o2 -> Rabs (lev x o1 - lev x o2) <= total x l).
Proof.
  induction l as [|o l IH] using rev_ind; [split; [intros o []|intros o1 o2 []]|]. destruct IH as [IH1 IH2].
  destruct (step_rows station nsta l o) as [EL ER].
  assert (T0 : 0 <= total x l) by apply rsum_abs_pos.
  assert (TM : total x l <= total x (l ++ [o])).
  { unfold total. rewrite ER, map_app, rsum_app.
    match goal with |- _ <= _ + rsum (map ?f ?m) => pose proof (rsum_abs_pos (fun row => row_value row x) m) end. lra. }
  assert (NEW : forall o', In o' l -> osta o' = osta o -> Rabs (lev x o - lev x o') <= total x (l ++ [o])).
  { intros o' Ho' Es. destruct (IH1 o' Ho') as (k & r & Hd & Hv). rewrite Es in Hd.
    unfold total. rewrite ER, Hd, map_app, rsum_app. fold (total x l). cbn [map]. unfold rsum at 1. cbn [fold_right].
    unfold row_value at 1. cbn [map fst snd]. unfold rsum at 1. cbn [fold_right].
    replace (lev x o - lev x o') with ((1 * x (oev o) + (-1 * x k + 0) - (ln r - ln (oval o))) + (x k + ln r - lev x o'))
      by (unfold lev; ring).
    eapply Rle_trans; [apply Rabs_triang|]. lra. }
  split.
  - intros o' Ho'. rewrite EL. destruct (String.eqb_spec (osta o') (osta o)) as [Es|Ne].
    + rewrite Es, (dget_dset_eq _ string_eqb_spec). exists (oev o), (oval o). split; [reflexivity|].
      change (x (oev o) + ln (oval o)) with (lev x o).
      apply in_app_iff in Ho' as [Ho'|[<-|[]]]; [now apply NEW|]. unfold Rminus. rewrite Rplus_opp_r, Rabs_R0. lra.
    + rewrite (dget_dset_neq _ string_eqb_spec) by auto. apply in_app_iff in Ho' as [Ho'|[<-|[]]]; [|congruence].
      destruct (IH1 o' Ho') as (k & r & Hd & Hv). exists k, r. split; [exact Hd|]. lra.
  - intros o1 o2 H1 H2 E. apply in_app_iff in H1 as [H1|[<-|[]]]; apply in_app_iff in H2 as [H2|[<-|[]]].
    + specialize (IH2 o1 o2 H1 H2 E). lra.
    + rewrite Rabs_minus_sym. now apply NEW.
    + now apply NEW.
    + unfold Rminus. rewrite Rplus_opp_r, Rabs_R0. lra.
Qed.

(** nearly consistent data *)
Lemma nearly_consistent resp l rows x x0 e : 0 <= e -> align_rows station nsta resp l = Ok rows ->
  (forall o, In o l -> nsta (osta o) = count_of l (osta o)) ->
  (forall y, sse rows x <= sse rows y) ->
  (forall o1 o2, In o1 l -> In o2 l -> osta o1 = osta o2 -> Rabs (lev x0 o1 - lev x0 o2) <= e) ->
  forall o1 o2, In o1 l -> In o2 l -> osta o1 = osta o2 -> Rabs (lev x o1 - lev x o2) <= INR (List.length l) * e.
Proof.
  intros He H HC Hmin H0. apply align_rows_ok in H as [-> Hne].
  set (c := row_value (norm_row station nsta resp l) x0).
  destruct (shift_sse station nsta resp l x0 (- c) Hne HC) as [E1 E2].
  assert (Z : sse (srows (final l) ++ [norm_row station nsta resp l]) (fun k => x0 k + - c) <= INR (List.length (srows (final l))) * (e * e)).
  { rewrite sse_app, E1.
    replace (sse [norm_row station nsta resp l] (fun k => x0 k + - c)) with 0
      by (unfold sse; cbn [map]; unfold rsum; cbn [fold_right]; rewrite E2; fold c; ring).
    assert (B : forall row, In row (srows (final l)) -> row_value row x0 * row_value row x0 <= e * e).
    { intros row Hr. apply rows_shape in Hr as (o1 & o2 & P1 & P2 & P3 & ->). rewrite pair_row_value.
      specialize (H0 o1 o2 P1 P2 P3). pose proof (Rsqr_abs (lev x0 o1 - lev x0 o2)) as Q. unfold Rsqr in Q. rewrite Q.
      apply Rmult_le_compat; auto using Rabs_pos. }
    rewrite Rplus_0_r. clear - B. unfold sse. induction (srows (final l)) as [|r rs IH]; [cbn; unfold rsum; cbn; lra|].
    cbn [map List.length]. rewrite rsum_cons, S_INR. specialize (IH (fun row Hr => B row (or_intror Hr))).
    specialize (B r (or_introl eq_refl)). lra. }
  assert (M := Hmin (fun k => x0 k + - c)). rewrite sse_app in M.
  assert (N := sse_nonneg [norm_row station nsta resp l] x).
  pose proof (abs_sum (srows (final l)) x e He ltac:(lra)) as A.
  intros o1 o2 P1 P2 P3. pose proof (proj2 (total_levels x l) o1 o2 P1 P2 P3) as T. unfold total in T.
  pose proof (le_INR _ _ (rows_number l)). assert (INR (List.length (srows (final l))) * e <= INR (List.length l) * e) by (apply Rmult_le_compat_r; lra).
  lra.
Qed.
End Loop.

(** number of observations *)
Lemma observations_number evs i area : (List.length (observations evs i area) <= number_of_responses evs i)%nat.
Proof.
  unfold observations, number_of_responses, enum. generalize 0%nat. induction evs as [|ev evs IH]; intros k; [cbn; lia|].
  cbn [seq List.length combine flat_map]. rewrite !app_length. specialize (IH (Datatypes.S k)).
  apply Nat.add_le_mono; [|exact IH]. cbn [fst snd]. clear IH. induction (evR ev) as [|[s l] d IHd]; [cbn; lia|].
  cbn [flat_map fst snd]. rewrite !app_length. apply Nat.add_le_mono; [|exact IHd].
  destruct (negb (inb String.eqb s area)); destruct (at_ l i); cbn; lia.
Qed.

Lemma number_perm evs evs' i : Permutation evs evs' -> number_of_responses evs i = number_of_responses evs' i.
Proof.
  intros P. unfold number_of_responses. apply Permutation_length. induction P; cbn.
  - constructor.
  - now apply Permutation_app_head.
  - rewrite !app_assoc. apply Permutation_app_tail, Permutation_app_comm.
  - eapply Permutation_trans; eauto.
Qed.

Lemma up_to_ln d x y : 0 < x -> 0 < y -> (up_to d x y <-> Rabs (ln x - ln y) <= d).
Proof.
  intros X Y. unfold up_to. pose proof (exp_pos d). pose proof (exp_pos (- d)).
  assert (EX : x = exp (ln x)) by (symmetry; now apply exp_ln). assert (EY : y = exp (ln y)) by (symmetry; now apply exp_ln).
  assert (LE : forall a b, exp a <= exp b <-> a <= b).
  { intros a b. split; intros [H1|H1]; [left; now apply exp_lt_inv|right; now apply exp_inv|left; now apply exp_increasing|right; now rewrite H1]. }
  assert (L : exp (- d) * y = exp (- d + ln y)) by (rewrite exp_plus; congruence).
  assert (U : exp d * y = exp (d + ln y)) by (rewrite exp_plus; congruence).
  rewrite L, U. generalize (LE (- d + ln y) (ln x)) (LE (ln x) (d + ln y)). rewrite <- EX. intros LA LB. rewrite LA, LB.
  split; [intros [A B]; apply Rabs_le; lra|]. unfold Rabs. destruct (Rcase_abs _); lra.
Qed.

Section Align.
Variables (pick : list string -> string) (rlm : list R -> R * R) (lsq : nat -> list (list (nat * R) * R) -> nat -> R).
Hypothesis pickP : chooses_member pick.
Hypothesis lsqP : least_squares lsq.
Variables (events : list (string * option evres)) (Rm : option (list (string * list (option R))))
  (station : staopt) (resp : response) (ignore : option (list string)) (Nf : nat).
Let evs0 := map snd (present_events events).
Hypothesis WF0 : Forall (well_formed Nf) evs0.
Variables (out : list (string * evres)) (Rm' : list (string * list (option R))).
Hypothesis OK : align_site_responses pick rlm lsq events Rm station resp ignore = Ok (out, Rm').
Variable i : nat.
Hypothesis Hi : (i < Nf)%nat.
Hypothesis HC : complete i evs0.
Let sorted := sort_events events.
Let evs := map snd sorted.

(** responses which are nearly consistent nearly agree after the alignment *)
Lemma align_errors (c : string -> R) (rs : string -> R) eps : 0 <= eps ->
  (forall id, 0 < c id) -> (forall s, 0 < rs s) ->
  (forall id ev s v, In (id, ev) (present_events events) -> response_of ev i s = Some v -> up_to eps v (c id * rs s)) ->
  forall n ev1 ev2 s t v1 v2, In ev1 (map snd out) -> In ev2 (map snd out) -> steps evs0 ignore i n s t ->
    response_of ev1 i s = Some v1 -> response_of ev2 i t = Some v2 ->
    up_to (2 * (INR (number_of_responses evs0 i) * INR (n + 1) + INR n) * eps) (v1 * rs t) (v2 * rs s).
Proof.
  intros Heps Hc Hrs Hcons.
  assert (HP : positive_responses i evs0).
  { intros ev s v Hev Hr. unfold evs0 in Hev. apply in_map_iff in Hev as ([id ev'] & <- & Hin). cbn [snd] in Hr.
    destruct (Hcons id ev' s v Hin Hr) as [A _]. eapply Rlt_le_trans; [|exact A].
    apply Rmult_lt_0_compat; [apply exp_pos|]. apply Rmult_lt_0_compat; auto. }
  destruct (align_outcome pick rlm lsq pickP lsqP events Rm station resp ignore Nf WF0 out Rm' OK i Hi HC)
    as (evs' & HO & HL & WF' & OC). fold sorted evs in HO, HL.
  assert (ES := out_snd events out evs' HO HL). rewrite ES in *.
  intros n ev1 ev2 s t v1 v2 H1 H2 ST R1 R2.
  apply (In_nth _ _ ev0) in H1 as (k1 & Hk1 & <-). apply (In_nth _ _ ev0) in H2 as (k2 & Hk2 & <-).
  destruct OC as [[H0 _]|(area & x & rows & r & LA & ER & EA & Hmin & HK)].
  { fold sorted evs in H0. destruct (H0 k1 s ltac:(lia)) as (_ & E & _). congruence. }
  fold sorted evs in LA, EA, HK.
  assert (CNT := fun o => observations_count evs i area o (uniq events Nf WF0)).
  set (l := observations evs i area) in *.
  set (x0 := fun k => - ln (c (fst (nth k sorted (""%string, ev0))))).
  assert (OP : forall o, In o l -> 0 < oval o) by (intros o Ho; exact (positive_obs events Nf WF0 i area o HP Ho)).
  assert (OV : forall o, In o l -> Rabs (lev x0 o - ln (rs (osta o))) <= eps).
  { intros o Ho. pose proof (OP o Ho) as Po. apply (observations_response _ _ _ _ (uniq events Nf WF0)) in Ho as (ev & Hev & _ & Hr).
    fold sorted evs in Hev. apply nth_error_nth with (d := ev0) in Hev.
    assert (Hk : (oev o < List.length sorted)%nat).
    { destruct (Nat.lt_ge_cases (oev o) (List.length sorted)) as [|G]; [assumption|]. exfalso.
      unfold evs in Hev. rewrite nth_overflow in Hev by (rewrite map_length; assumption). subst ev. discriminate. }
    assert (In (nth (oev o) sorted (""%string, ev0)) sorted) by now apply nth_In.
    assert (E : nth (oev o) sorted (""%string, ev0) = (fst (nth (oev o) sorted (""%string, ev0)), ev)).
    { assert (M := map_nth snd sorted (""%string, ev0) (oev o)). cbn [snd] in M. fold evs in M.
      rewrite Hev in M. rewrite M. apply surjective_pairing. }
    assert (IN : In (fst (nth (oev o) sorted (""%string, ev0)), ev) (present_events events)).
    { rewrite <- E. eapply Permutation_in; [apply Permutation_sym, sort_events_perm|exact H]. }
    pose proof (Hcons _ ev (osta o) _ IN Hr) as U. apply up_to_ln in U; [|exact Po|apply Rmult_lt_0_compat; auto].
    rewrite ln_mult in U by auto. unfold lev, x0.
    replace (- ln (c (fst (nth (oev o) sorted (""%string, ev0)))) + ln (oval o) - ln (rs (osta o)))
      with (ln (oval o) - (ln (c (fst (nth (oev o) sorted (""%string, ev0)))) + ln (rs (osta o)))) by ring. exact U. }
  set (N := INR (number_of_responses evs0 i)).
  assert (LN : INR (List.length l) <= N).
  { apply le_INR. unfold l. eapply Nat.le_trans; [apply observations_number|]. apply Nat.eq_le_incl. symmetry.
    apply number_perm. exact (evs_perm events). }
  assert (EQ : forall o1 o2, In o1 l -> In o2 l -> osta o1 = osta o2 -> Rabs (lev x o1 - lev x o2) <= 2 * N * eps).
  { intros o1 o2 Ho1 Ho2 E.
    pose proof (nearly_consistent station (nstations evs i) r l rows x x0 (2 * eps) ltac:(lra) EA CNT Hmin) as Q.
    apply Rle_trans with (INR (List.length l) * (2 * eps)).
    - apply Q; auto. intros p1 p2 Hp1 Hp2 Ep. pose proof (OV p1 Hp1) as A. pose proof (OV p2 Hp2) as B. rewrite Ep in A.
      rewrite Rabs_minus_sym in B.
      replace (lev x0 p1 - lev x0 p2) with ((lev x0 p1 - ln (rs (osta p2))) + (ln (rs (osta p2)) - lev x0 p2)) by ring.
      eapply Rle_trans; [apply Rabs_triang|]. lra.
    - apply (Rmult_le_compat_r (2 * eps)) in LN; lra. }
  set (d := fun o => lev x o - ln (rs (osta o))).
  assert (SE : forall o1 o2, In o1 l -> In o2 l -> oev o1 = oev o2 -> Rabs (d o1 - d o2) <= 2 * eps).
  { intros o1 o2 Ho1 Ho2 E. pose proof (OV o1 Ho1) as A. pose proof (OV o2 Ho2) as B. rewrite Rabs_minus_sym in B.
    replace (d o1 - d o2) with ((lev x0 o1 - ln (rs (osta o1))) + (ln (rs (osta o2)) - lev x0 o2))
      by (unfold d, lev; rewrite E; ring).
    eapply Rle_trans; [apply Rabs_triang|]. lra. }
  assert (SS : forall o1 o2, In o1 l -> In o2 l -> osta o1 = osta o2 -> Rabs (d o1 - d o2) <= 2 * N * eps).
  { intros o1 o2 Ho1 Ho2 E. replace (d o1 - d o2) with (lev x o1 - lev x o2) by (unfold d; rewrite E; ring). now apply EQ. }
  assert (CH : forall m a b, steps evs0 ignore i m a b -> In a area -> forall o1 o2, In o1 l -> In o2 l -> osta o1 = a -> osta o2 = b ->
    Rabs (d o1 - d o2) <= 2 * (N * INR (m + 1) + INR m) * eps).
  { assert (HA := proj2 (proj2 (proj1 LA))).
    induction 1 as [a|m a u b HE H IH]; intros Ha o1 o2 Ho1 Ho2 E1 E2.
    - rewrite Nat.add_0_l. cbn [INR]. replace (2 * (N * 1 + 0) * eps) with (2 * N * eps) by ring. apply SS; auto. congruence.
    - apply (common_perm events ignore) in HE. fold sorted evs in HE.
      destruct (HA a Ha) as (_ & HB). assert (Hb : In u area) by (apply HB; now apply rt_step).
      destruct HE as (_ & _ & ev & Hev & Ra & Rb).
      apply (In_nth _ _ ev0) in Hev as (k & Hk & Ek).
      destruct (response_of ev i a) as [va|] eqn:Va; [|congruence]. destruct (response_of ev i u) as [vb|] eqn:Vb; [|congruence].
      assert (Hkn : nth_error evs k = Some ev) by (rewrite <- Ek; now apply nth_error_nth').
      assert (Oa : In {| oev := k; osta := a; oval := va |} l).
      { apply (observations_response _ _ _ _ (uniq events Nf WF0)). exists ev. auto. }
      assert (Ob : In {| oev := k; osta := u; oval := vb |} l).
      { apply (observations_response _ _ _ _ (uniq events Nf WF0)). exists ev. auto. }
      pose proof (SS _ _ Ho1 Oa E1) as T1. pose proof (SE _ _ Oa Ob eq_refl) as T2.
      pose proof (IH Hb _ _ Ob Ho2 eq_refl E2) as T3.
      replace (d o1 - d o2) with ((d o1 - d {| oev := k; osta := a; oval := va |}) +
        ((d {| oev := k; osta := a; oval := va |} - d {| oev := k; osta := u; oval := vb |}) +
        (d {| oev := k; osta := u; oval := vb |} - d o2))) by ring.
      eapply Rle_trans; [apply Rabs_triang|]. eapply Rle_trans; [apply Rplus_le_compat_l, Rabs_triang|].
      replace (Datatypes.S m + 1)%nat with (Datatypes.S (m + 1)) by lia. rewrite !S_INR.
      replace (2 * (N * (INR (m + 1) + 1) + (INR m + 1)) * eps) with (2 * N * eps + (2 * eps + 2 * (N * INR (m + 1) + INR m) * eps)) by ring.
      lra. }
  assert (OB : forall k s v, (k < List.length evs')%nat -> response_of (nth k evs' ev0) i s = Some v ->
    exists o, In o l /\ osta o = s /\ In s area /\ ln v = lev x o /\ 0 < v).
  { intros k u v Hk Hr. destruct (HK k ltac:(lia)) as [HKr _]. rewrite HKr in Hr.
    destruct (inb String.eqb u area) eqn:Ea; [|discriminate]. apply inb_str in Ea.
    destruct (response_of (nth k evs ev0) i u) as [w|] eqn:EW; [|discriminate]. cbn [option_map] in Hr. apply Some_inj in Hr.
    assert (Ho : In {| oev := k; osta := u; oval := w |} l).
    { apply (observations_response _ _ _ _ (uniq events Nf WF0)). exists (nth k evs ev0). cbn.
      split; [apply nth_error_nth'; fold sorted evs; lia|auto]. }
    exists {| oev := k; osta := u; oval := w |}. split; [exact Ho|]. split; [reflexivity|]. split; [exact Ea|].
    assert (P := OP _ Ho). cbn in P. subst v. split.
    - unfold lev. cbn [oev oval]. rewrite ln_mult, ln_exp; [ring|assumption|apply exp_pos].
    - apply Rmult_lt_0_compat; [assumption|apply exp_pos]. }
  destruct (OB k1 s v1 Hk1 R1) as (o1 & Ho1 & E1 & A1 & L1 & P1). destruct (OB k2 t v2 Hk2 R2) as (o2 & Ho2 & E2 & A2 & L2 & P2).
  assert (D := CH n s t ST A1 o1 o2 Ho1 Ho2 E1 E2). unfold d in D. rewrite <- L1, <- L2, E1, E2 in D.
  apply up_to_ln; try (apply Rmult_lt_0_compat; auto). rewrite !ln_mult by auto.
  replace (ln v1 + ln (rs t) - (ln v2 + ln (rs s))) with (ln v1 - ln (rs s) - (ln v2 - ln (rs t))) by ring. exact D.
Qed.

(** an event of the output comes from an event of the input *)
Lemma align_origin id ev' : In (id, ev') out -> exists ev f, In (id, ev) (present_events events) /\ 0 < f /\
  (forall s v', response_of ev' i s = Some v' -> exists v, response_of ev i s = Some v /\ v' = v * f) /\
  (forall w', energy_of ev' i = Some w' -> exists w, energy_of ev i = Some w /\ w' = w / f).
Proof.
  intros H.
  destruct (align_outcome pick rlm lsq pickP lsqP events Rm station resp ignore Nf WF0 out Rm' OK i Hi HC)
    as (evs' & HO & HL & WF' & OC). fold sorted evs in HO, HL.
  assert (LE : List.length evs = List.length sorted) by (unfold evs; apply map_length).
  apply (In_nth _ _ (""%string, ev0)) in H as (k & Hk & Ek).
  assert (Hke : (k < List.length evs)%nat).
  { rewrite HO, combine_length, map_length in Hk. lia. }
  pose proof (out_nth events out evs' k HO HL Hke ""%string) as ON. fold sorted in ON. rewrite Ek in ON.
  injection ON as EI EV.
  exists (nth k evs ev0).
  assert (IN : In (id, nth k evs ev0) (present_events events)).
  { eapply Permutation_in; [apply Permutation_sym, sort_events_perm|]. fold sorted.
    assert (E : nth k sorted (""%string, ev0) = (id, nth k evs ev0)).
    { pose proof (map_nth fst sorted (""%string, ev0) k) as M1. pose proof (map_nth snd sorted (""%string, ev0) k) as M2.
      cbn [fst snd] in M1, M2. fold evs in M2. rewrite EI, M1, M2. apply surjective_pairing. }
    rewrite <- E. apply nth_In. lia. }
  destruct OC as [[H0 _]|(area & x & rows & r & LA & ER & EA & Hmin & HK)].
  - exists 1. split; [exact IN|]. split; [lra|]. fold sorted evs in H0. split.
    + intros s v' Hr. destruct (H0 k s Hke) as (_ & E & _). congruence.
    + intros w' Hw. destruct (H0 k ""%string Hke) as (_ & _ & E). congruence.
  - exists (exp (x k)). split; [exact IN|]. split; [apply exp_pos|]. fold sorted evs in HK.
    destruct (HK k Hke) as [HR HW]. rewrite EV. split.
    + intros s v'. rewrite HR. destruct (inb String.eqb s area); [|discriminate].
      destruct (response_of (nth k evs ev0) i s) as [v|]; [|discriminate]. intros E. exists v. split; [reflexivity|]. cbn in E. congruence.
    + intros w' Hw. apply HW in Hw as (w & s & A & _ & B). exists w. auto.
Qed.

(** energies of the sources after the alignment *)
Lemma energy_errors (c rs E : string -> R) eps : 0 <= eps ->
  (forall id, 0 < c id) -> (forall s, 0 < rs s) -> (forall id, 0 < E id) ->
  (forall id ev s v, In (id, ev) (present_events events) -> response_of ev i s = Some v -> up_to eps v (c id * rs s)) ->
  (forall id ev w, In (id, ev) (present_events events) -> energy_of ev i = Some w -> up_to eps w (E id / c id)) ->
  forall n id1 id2 ev1 ev2 s t w1 w2, In (id1, ev1) out -> In (id2, ev2) out -> steps evs0 ignore i n s t ->
    response_of ev1 i s <> None -> response_of ev2 i t <> None ->
    energy_of ev1 i = Some w1 -> energy_of ev2 i = Some w2 ->
    up_to ((2 * (INR (number_of_responses evs0 i) * INR (n + 1) + INR n) + 4) * eps) (w1 * E id2) (w2 * E id1).
Proof.
  intros Heps Hc Hrs HE Hcons Hen n id1 id2 ev1 ev2 s t w1 w2 I1 I2 ST R1 R2 W1 W2.
  destruct (response_of ev1 i s) as [v1|] eqn:V1; [|congruence]. destruct (response_of ev2 i t) as [v2|] eqn:V2; [|congruence].
  pose proof (align_errors c rs eps Heps Hc Hrs Hcons n ev1 ev2 s t v1 v2
    (in_map snd _ _ I1) (in_map snd _ _ I2) ST V1 V2) as U.
  set (D := 2 * (INR (number_of_responses evs0 i) * INR (n + 1) + INR n)) in *.
  destruct (align_origin id1 ev1 I1) as (e1 & f1 & J1 & P1 & HR1 & HW1).
  destruct (align_origin id2 ev2 I2) as (e2 & f2 & J2 & P2 & HR2 & HW2).
  destruct (HR1 s v1 V1) as (u1 & Q1 & ->). destruct (HR2 t v2 V2) as (u2 & Q2 & ->).
  destruct (HW1 w1 W1) as (y1 & Y1 & ->). destruct (HW2 w2 W2) as (y2 & Y2 & ->).
  assert (POS : forall x y, 0 < y -> up_to eps x y -> 0 < x).
  { intros x y Hy [A _]. eapply Rlt_le_trans; [|exact A]. apply Rmult_lt_0_compat; [apply exp_pos|exact Hy]. }
  assert (C1 : 0 < c id1 * rs s) by (apply Rmult_lt_0_compat; auto).
  assert (C2 : 0 < c id2 * rs t) by (apply Rmult_lt_0_compat; auto).
  assert (D1 : 0 < E id1 / c id1) by (apply Rdiv_lt_0_compat; auto).
  assert (D2 : 0 < E id2 / c id2) by (apply Rdiv_lt_0_compat; auto).
  pose proof (Hcons _ _ _ _ J1 Q1) as A1. pose proof (Hcons _ _ _ _ J2 Q2) as A2.
  pose proof (Hen _ _ _ J1 Y1) as B1. pose proof (Hen _ _ _ J2 Y2) as B2.
  assert (U1 : 0 < u1) by exact (POS _ _ C1 A1). assert (U2 : 0 < u2) by exact (POS _ _ C2 A2).
  assert (Z1 : 0 < y1) by exact (POS _ _ D1 B1). assert (Z2 : 0 < y2) by exact (POS _ _ D2 B2).
  pose proof (Hc id1) as K1. pose proof (Hc id2) as K2. pose proof (HE id1) as E1. pose proof (HE id2) as E2.
  pose proof (Hrs s) as S1. pose proof (Hrs t) as S2.
  apply up_to_ln in A1; auto. apply up_to_ln in A2; auto. apply up_to_ln in B1; auto. apply up_to_ln in B2; auto.
  apply up_to_ln in U; [|repeat apply Rmult_lt_0_compat; auto|repeat apply Rmult_lt_0_compat; auto].
  apply up_to_ln; [apply Rmult_lt_0_compat; auto; now apply Rdiv_lt_0_compat|apply Rmult_lt_0_compat; auto; now apply Rdiv_lt_0_compat|].
  assert (LD : forall a b, 0 < a -> 0 < b -> ln (a / b) = ln a - ln b).
  { intros a b Ha Hb. unfold Rdiv. rewrite ln_mult by (auto; now apply Rinv_0_lt_compat). rewrite ln_Rinv by exact Hb. ring. }
  rewrite !ln_mult in * by (auto using Rdiv_lt_0_compat, Rmult_lt_0_compat). rewrite !LD in * by auto.
  assert (AB : forall a b, Rabs a <= b -> - b <= a <= b) by (intros a b; unfold Rabs; destruct (Rcase_abs a); lra).
  apply AB in A1. apply AB in A2. apply AB in B1. apply AB in B2. apply AB in U. apply Rabs_le.
  replace ((D + 4) * eps) with (D * eps + 4 * eps) by ring. lra.
Qed.
End Align.
