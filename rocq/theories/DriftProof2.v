(** C140: mean site responses after the alignment. *)
From Coq Require Import String List Bool Reals Arith Lia Lra Permutation.
From Verif Require Import Base PySort Pyf StatModel StatProof SiteModel SiteSpec MergeProof SiteProof SiteProof2 SiteProof3 SiteProof4 SiteProof5 SiteProof6 SiteProof7
  SiteProof8 SiteProof9 NoiseSpec DriftSpec DriftProof.
Import ListNotations.
Open Scope list_scope.
Open Scope R_scope.

Lemma extremes (v : list R) : v <> [] -> exists lo hi, In lo v /\ In hi v /\ forall x, In x v -> lo <= x <= hi.
Proof.
  induction v as [|a v IH]; [congruence|]. intros _. destruct v as [|b v].
  - exists a, a. split; [now left|]. split; [now left|]. intros x [->|[]]. lra.
  - destruct (IH ltac:(discriminate)) as (lo & hi & L & H & B).
    exists (if Rle_dec a lo then a else lo), (if Rle_dec hi a then a else hi).
    split; [destruct (Rle_dec a lo); [now left|now right]|]. split; [destruct (Rle_dec hi a); [now left|now right]|].
    intros x [<-|Hx].
    + destruct (Rle_dec a lo), (Rle_dec hi a); lra.
    + specialize (B x Hx). destruct (Rle_dec a lo), (Rle_dec hi a); lra.
Qed.

Lemma sum_between lo hi (v : list R) : (forall x, In x v -> lo <= x <= hi) ->
  INR (List.length v) * lo <= rsum v <= INR (List.length v) * hi.
Proof.
  induction v as [|a v IH]; intros H; [cbn; unfold rsum; cbn; lra|]. cbn [List.length]. rewrite S_INR, rsum_cons.
  specialize (IH (fun x Hx => H x (or_intror Hx))). specialize (H a (or_introl eq_refl)). lra.
Qed.

Lemma mean_between (v : list R) : v <> [] -> exists lo hi, In lo v /\ In hi v /\ lo <= rsum v / INR (List.length v) <= hi.
Proof.
  intros N. destruct (extremes v N) as (lo & hi & L & H & B). exists lo, hi. split; [exact L|]. split; [exact H|].
  pose proof (sum_between lo hi v B) as S.
  assert (P : 0 < INR (List.length v)) by (apply lt_0_INR; destruct v; [congruence|cbn; lia]).
  split; apply (Rmult_le_reg_r (INR (List.length v))); auto; unfold Rdiv; rewrite Rmult_assoc, Rinv_l, Rmult_1_r by lra; lra.
Qed.

Lemma log_positive l : (forall x, In x l -> 0 < x) -> map log_masked (map FNum l) = map Some (map ln l).
Proof.
  intros P. rewrite !map_map. apply map_ext_in. intros x Hx. cbn. specialize (P x Hx). destruct (Rlt_dec 0 x); [reflexivity|lra].
Qed.

Lemma unmasked_some v : unmasked (map Some v) = v.
Proof. induction v as [|a v IH]; cbn; [reflexivity|now rewrite IH]. Qed.

Lemma gmean_between rlm l fb a : between_data rlm -> l <> [] -> (forall x, In x l -> 0 < x) ->
  gmean rlm (map FNum l) None true fb = Ok (Some a) -> exists lo hi, In lo l /\ In hi l /\ lo <= a <= hi.
Proof.
  intros HB NE P. unfold gmean, gstat. rewrite log_positive by exact P. cbn [bind]. unfold robust_stat. rewrite unmasked_some.
  assert (N : map ln l <> []) by (destruct l; [congruence|discriminate]).
  intros H.
  assert (Q : forall m, (exists lo hi, In lo (map ln l) /\ In hi (map ln l) /\ lo <= m <= hi) -> exp m = a ->
    exists lo hi, In lo l /\ In hi l /\ lo <= a <= hi).
  { intros m (lo & hi & L & Hh & B) <-. apply in_map_iff in L as (x & <- & Hx). apply in_map_iff in Hh as (y & <- & Hy).
    exists x, y. split; [exact Hx|]. split; [exact Hy|].
    assert (M : forall u w, u <= w -> exp u <= exp w) by (intros u w [K|K]; [left; now apply exp_increasing|right; now rewrite K]).
    pose proof (M _ _ (proj1 B)) as M1. pose proof (M _ _ (proj2 B)) as M2. rewrite exp_ln in M1, M2 by auto. lra. }
  destruct (List.length (map ln l) <? fb)%nat.
  - unfold weighted_stat, average in H. rewrite unmasked_some in H. destruct (map ln l) as [|x v] eqn:E; [congruence|]. rewrite <- E in *.
    cbn [fst option_map] in H. assert (X : exp (rsum (map ln l) / INR (List.length (map ln l))) = a) by congruence.
    apply (Q _ (mean_between _ N) X).
  - destruct (ptp0 (map ln l)); cbn [fst option_map] in H.
    + assert (X : exp (rsum (map ln l) / INR (List.length (map ln l))) = a) by congruence. apply (Q _ (mean_between _ N) X).
    + assert (X : exp (fst (rlm (map ln l))) = a) by congruence. apply (Q _ (HB _ N) X).
Qed.

Section Align.
Variables (pick : list string -> string) (rlm : list R -> R * R) (lsq : nat -> list (list (nat * R) * R) -> nat -> R).
Hypothesis pickP : chooses_member pick.
Hypothesis lsqP : least_squares lsq.
Variables (events : list (string * option evres)) (Rm : option (list (string * list (option R))))
  (station : staopt) (resp : response) (ignore : option (list string)) (Nf : nat).
Hypothesis WF0 : Forall (well_formed Nf) (map snd (present_events events)).
Variables (out : list (string * evres)) (Rm' : list (string * list (option R))).
Hypothesis OK : align_site_responses pick rlm lsq events Rm station resp ignore = Ok (out, Rm').

Lemma mean_errors : between_data rlm ->
  (forall i, (i < Nf)%nat -> complete i (map snd (present_events events)) /\ positive_responses i (map snd (present_events events))) ->
  forall i, (i < Nf)%nat -> forall (c rs : string -> R) eps, 0 <= eps -> (forall id, 0 < c id) -> (forall s, 0 < rs s) ->
  (forall id ev s v, In (id, ev) (present_events events) -> response_of ev i s = Some v -> up_to eps v (c id * rs s)) ->
  forall n s t ls lt a b, steps (map snd (present_events events)) ignore i n s t ->
    responses (map snd out) i s <> [] -> responses (map snd out) i t <> [] ->
    dget String.eqb Rm' s = Some ls -> dget String.eqb Rm' t = Some lt -> nth i ls None = Some a -> nth i lt None = Some b ->
    up_to (2 * (INR (number_of_responses (map snd (present_events events)) i) * INR (n + 1) + INR n) * eps) (a * rs t) (b * rs s).
Proof.
  intros HB HG i Hi c rs eps Heps Hc Hrs Hcons n s t ls lt a b ST Ns Nt Ds Dt Ea Eb.
  destruct (HG i Hi) as [HC HP].
  pose proof (align_errors pick rlm lsq pickP lsqP events Rm station resp ignore Nf WF0 out Rm' OK i Hi HC c rs eps Heps Hc Hrs Hcons n) as AE.
  assert (POS : forall u x, In x (responses (map snd out) i u) -> 0 < x).
  { intros u x Hx. apply responses_In in Hx as (ev & Hev & Hr). apply in_map_iff in Hev as ([id ev'] & E & Hin). cbn in E. subst ev'.
    destruct (align_origin pick rlm lsq pickP lsqP events Rm station resp ignore Nf WF0 out Rm' OK i Hi HC id ev Hin) as (e & f & J & F & HR & _).
    destruct (HR u x Hr) as (v & Hv & ->). apply Rmult_lt_0_compat; [|exact F].
    apply (HP e u v); [|exact Hv]. change e with (snd (id, e)). now apply in_map. }
  assert (RNG : forall u l x, responses (map snd out) i u <> [] -> dget String.eqb Rm' u = Some l -> nth i l None = Some x ->
    exists lo hi, In lo (responses (map snd out) i u) /\ In hi (responses (map snd out) i u) /\ lo <= x <= hi).
  { intros u l x N D E.
    destruct (align_means pick rlm lsq pickP events Rm station resp ignore Nf WF0 out Rm' lsqP OK HG u) as [A _].
    destruct A as (l' & D' & _ & G); [exists i; auto|]. rewrite D in D'. injection D' as <-.
    destruct (G i Hi) as [GM _]. rewrite E in GM.
    apply (gmean_between rlm _ 5 x HB N (POS u) GM). }
  destruct (RNG s ls a Ns Ds Ea) as (lo1 & hi1 & L1 & H1 & B1).
  destruct (RNG t lt b Nt Dt Eb) as (lo2 & hi2 & L2 & H2 & B2).
  apply responses_In in L1 as (e1 & I1 & L1). apply responses_In in H1 as (e2 & I2 & H1).
  apply responses_In in L2 as (e3 & I3 & L2). apply responses_In in H2 as (e4 & I4 & H2).
  destruct (AE e1 e4 s t _ _ I1 I4 ST L1 H2) as [X _]. destruct (AE e2 e3 s t _ _ I2 I3 ST H1 L2) as [_ Y].
  set (D := 2 * (INR (number_of_responses (map snd (present_events events)) i) * INR (n + 1) + INR n) * eps) in *.
  pose proof (Hrs s) as P1. pose proof (Hrs t) as P2. pose proof (exp_pos D). pose proof (exp_pos (- D)).
  split.
  - apply Rle_trans with (lo1 * rs t); [|apply Rmult_le_compat_r; lra]. apply Rle_trans with (exp (- D) * (hi2 * rs s)); [|exact X].
    apply Rmult_le_compat_l; [lra|]. apply Rmult_le_compat_r; lra.
  - apply Rle_trans with (hi1 * rs t); [apply Rmult_le_compat_r; lra|]. apply Rle_trans with (exp D * (lo2 * rs s)); [exact Y|].
    apply Rmult_le_compat_l; [lra|]. apply Rmult_le_compat_r; lra.
Qed.
End Align.
