(** Lemmas on radiative transfer in one dimension (C130). *)
From Coq Require Import String List Bool Reals Lra Lia Arith.
From Coquelicot Require Import Coquelicot.
From Verif Require Import Base RtModel RtSpec RtProof RtProof2 RtProof9 BeamSpec.
Import ListNotations.
Open Scope R_scope.

Lemma radius (A : nat -> R) p : (forall k, 0 <= A k <= / INR (fact k)) -> Rbar_lt (Rabs p) (CV_radius A).
Proof.
  intros HA. set (Y := Rabs p + 1). assert (HY : 0 <= Y) by (unfold Y; pose proof (Rabs_pos p); lra).
  apply Rbar_lt_le_trans with (Finite Y); [unfold Y; cbn; lra|].
  apply Rbar_not_lt_le. intros L. rewrite <- (Rabs_pos_eq Y HY) in L. apply CV_disk_outside in L.
  apply L. apply ex_series_lim_0, ex_pseries_R, ex_series_bessel; assumption.
Qed.

Lemma B0_derive p : is_derive (PSeries B0) p (PSeries B1 p).
Proof.
  pose proof (is_derive_PSeries B0 p (radius B0 p B0_bound)) as D.
  replace (PSeries B1 p) with (PSeries (PS_derive B0) p); [exact D|].
  apply PSeries_ext. intros k. unfold PS_derive, B0, B1. rewrite fact_S, S_INR. pose proof (fact_ne k). pose proof (pos_INR k).
  field. split; lra.
Qed.

Definition B2 : nat -> R := PS_derive B1.

Lemma B1_derive p : is_derive (PSeries B1) p (PSeries B2 p).
Proof. exact (is_derive_PSeries B1 p (radius B1 p B1_bound)). Qed.

(** the Bessel equation *)
Lemma bessel_equation p : PSeries B0 p = PSeries B1 p + p * PSeries B2 p.
Proof.
  assert (E1 : ex_pseries B1 p) by (apply CV_radius_inside, radius, B1_bound).
  assert (E2 : ex_pseries B2 p).
  { apply CV_radius_inside. unfold B2. rewrite (CV_radius_derive B1). apply radius, B1_bound. }
  rewrite <- (PSeries_incr_1 B2 p), <- PSeries_plus; [|exact E1|].
  2:{ apply ex_pseries_incr_1. exact E2. }
  apply PSeries_ext. intros k. unfold PS_plus, PS_incr_1, B2, PS_derive, plus. cbn -[B0 B1 INR].
  destruct k as [|k]; cbn -[B0 B1 INR fact].
  - unfold zero. cbn -[B0 B1]. unfold B0, B1. cbn. field.
  - unfold B0, B1. rewrite !fact_S, !S_INR. pose proof (fact_ne k). pose proof (pos_INR k). field. repeat split; lra.
Qed.

(** ** the waves to the right ([s] = 1) and to the left ([s] = - 1) *)
Section Beam.
Variables c g0 : R.
Hypothesis Hc : 0 < c.
Hypothesis Hg : 0 < g0.
Let k := g0 / 2.
Let q := (k / 2) ^ 2.

Definition place (x t : R) : R := q * ((c * t) ^ 2 - x ^ 2).
Definition beam (s x t : R) : R :=
  1 / 4 * exp (- (k * (c * t))) * (k * PSeries B0 (place x t) + 2 * q * (c * t + s * x) * PSeries B1 (place x t)).

Lemma place_t x t : is_derive (fun t => place x t) t (2 * q * c * (c * t)).
Proof. unfold place. auto_derive; [trivial|]. ring. Qed.

Lemma place_x x t : is_derive (fun x => place x t) x (- (2 * q * x)).
Proof. unfold place. auto_derive; [trivial|]. ring. Qed.

Lemma comp_t (f : R -> R) d x t : is_derive f (place x t) d -> is_derive (fun t => f (place x t)) t (2 * q * c * (c * t) * d).
Proof. intros D. apply (is_derive_comp f (fun t => place x t) t d (2 * q * c * (c * t))); [exact D|apply place_t]. Qed.

Lemma comp_x (f : R -> R) d x t : is_derive f (place x t) d -> is_derive (fun x => f (place x t)) x (- (2 * q * x) * d).
Proof. intros D. apply (is_derive_comp f (fun x => place x t) x d (- (2 * q * x))); [exact D|apply place_x]. Qed.

Lemma beam_t s x t : is_derive (fun t => beam s x t) t
  (- (k * c) * beam s x t + 1 / 4 * exp (- (k * (c * t))) *
   (k * (2 * q * c * (c * t) * PSeries B1 (place x t)) +
    (2 * q * c * PSeries B1 (place x t) + 2 * q * (c * t + s * x) * (2 * q * c * (c * t) * PSeries B2 (place x t))))).
Proof.
  assert (D0 := comp_t _ _ x t (B0_derive (place x t))). assert (D1 := comp_t _ _ x t (B1_derive (place x t))).
  unfold beam. set (u := fun t : R => PSeries B0 (place x t)). set (v := fun t : R => PSeries B1 (place x t)).
  match type of D0 with is_derive _ _ ?d => change (is_derive u t d) in D0 end. match type of D1 with is_derive _ _ ?d => change (is_derive v t d) in D1 end.
  change (PSeries B0 (place x t)) with (u t). change (PSeries B1 (place x t)) with (v t) in *.
  apply (is_derive_ext (fun t => 1 / 4 * exp (- (k * (c * t))) * (k * u t + 2 * q * (c * t + s * x) * v t))); [reflexivity|].
  clearbody u v. auto_derive.
  - split; [eexists; exact D0|]. split; [eexists; exact D1|trivial].
  - apply is_derive_unique in D0. apply is_derive_unique in D1. change (fun x => u x) with u. change (fun x => v x) with v.
    rewrite D0, D1. ring.
Qed.

Lemma beam_x s x t : is_derive (fun x => beam s x t) x
  (1 / 4 * exp (- (k * (c * t))) *
   (k * (- (2 * q * x) * PSeries B1 (place x t)) +
    (2 * q * s * PSeries B1 (place x t) + 2 * q * (c * t + s * x) * (- (2 * q * x) * PSeries B2 (place x t))))).
Proof.
  assert (D0 := comp_x _ _ x t (B0_derive (place x t))). assert (D1 := comp_x _ _ x t (B1_derive (place x t))).
  unfold beam. set (u := fun x : R => PSeries B0 (place x t)). set (v := fun x : R => PSeries B1 (place x t)).
  match type of D0 with is_derive _ _ ?d => change (is_derive u x d) in D0 end. match type of D1 with is_derive _ _ ?d => change (is_derive v x d) in D1 end.
  change (PSeries B0 (place x t)) with (u x). change (PSeries B1 (place x t)) with (v x) in *.
  apply (is_derive_ext (fun x => 1 / 4 * exp (- (k * (c * t))) * (k * u x + 2 * q * (c * t + s * x) * v x))); [reflexivity|].
  clearbody u v. auto_derive.
  - split; [eexists; exact D0|]. split; [eexists; exact D1|trivial].
  - apply is_derive_unique in D0. apply is_derive_unique in D1. change (fun x => u x) with u. change (fun x => v x) with v.
    rewrite D0, D1. ring.
Qed.

Lemma beam_transport : transport (beam 1) (beam (-1)) c g0.
Proof.
  intros x t _. do 4 eexists. split; [apply beam_t|]. split; [apply beam_x|]. split; [apply beam_t|]. split; [apply beam_x|].
  intros E. unfold E. clear E.
  assert (B := bessel_equation (place x t)). set (b0 := PSeries B0 _) in *. set (b1 := PSeries B1 _) in *. set (b2 := PSeries B2 _) in *.
  assert (P : place x t = q * ((c * t) ^ 2 - x ^ 2)) by reflexivity.
  unfold beam. fold b0 b1. set (e := exp _). assert (G : g0 = 2 * k) by (unfold k; field). assert (Q : q = k ^ 2 / 4) by (unfold q; field).
  rewrite B, P, G, Q. split; field.
Qed.

Lemma beam_sum x t : - (c * t) < x < c * t ->
  ok_value (G_scalar "rt1d" (Rabs x) t c g0) = beam 1 x t + beam (-1) x t.
Proof.
  intros Hx. assert (HT : 0 < c * t) by lra. set (r := Rabs x).
  assert (Hr : 0 <= r < c * t) by (unfold r; split; [apply Rabs_pos|apply Rabs_def1; lra]).
  assert (RR : r ^ 2 = x ^ 2) by (unfold r; apply pow2_abs).
  unfold G_scalar. destruct (Rlt_dec (t - r / c) 0) as [L|_].
  { exfalso. apply (Rmult_lt_compat_r c) in L; [|assumption]. replace ((t - r / c) * c) with (c * t - r) in L by (field; lra). lra. }
  cbn [select String.eqb Ascii.eqb Bool.eqb ok_value]. unfold rt1d_coda, iv0, iv1, beam, place.
  set (T := c * t) in *. replace (c ^ 2 * t ^ 2) with (T ^ 2) by (unfold T; ring).
  assert (S0 : 0 < T ^ 2 - r ^ 2).
  { assert (0 < (T - r) * (T + r)) by (apply Rmult_lt_0_compat; lra). nra. }
  set (s := sqrt (T ^ 2 - r ^ 2)). assert (SP : 0 < s) by now apply sqrt_lt_R0.
  assert (Q : s ^ 2 = T ^ 2 - r ^ 2) by (unfold s; apply pow2_sqrt; lra).
  replace ((s / 2 / (1 / g0) / 2) ^ 2) with (q * (T ^ 2 - x ^ 2)).
  2:{ rewrite <- RR, <- Q. unfold q, k. field. lra. }
  replace (- c * t / 2 / (1 / g0)) with (- (k * T)) by (unfold T, k; field; lra).
  change (fun k => / (INR (fact k) * INR (fact k))) with B0. change (fun k => / (INR (fact k) * INR (fact (S k)))) with B1.
  set (b0 := PSeries B0 _). set (b1 := PSeries B1 _). set (e := exp _). clearbody b0 b1 e. unfold q, k. field. split; lra.
Qed.

Lemma beam_sym x t : beam 1 (- x) t = beam (-1) x t.
Proof. unfold beam, place. replace ((- x) ^ 2) with (x ^ 2) by ring. f_equal. f_equal. f_equal. f_equal. ring. Qed.

Lemma B_zero A : PSeries A 0 = A O.
Proof. apply PSeries_0. Qed.

Lemma beam_front s x t : s * x = - (c * t) -> s ^ 2 = 1 -> beam s x t = c * g0 / 2 * rt1d_direct t c g0 / (2 * c).
Proof.
  intros X SS. assert (XX : x ^ 2 = (c * t) ^ 2).
  { replace ((c * t) ^ 2) with ((s * x) ^ 2) by (rewrite X; ring). rewrite Rpow_mult_distr, SS. ring. }
  unfold beam, place. rewrite XX. replace (q * ((c * t) ^ 2 - (c * t) ^ 2)) with 0 by ring. rewrite !B_zero, X.
  unfold rt1d_direct, B0. replace (- c * t / 2 / (1 / g0)) with (- (k * (c * t))) by (unfold k; field; lra). cbn [fact INR]. unfold k. field. lra.
Qed.

Lemma beam_cont s x t : continuous (fun x => beam s x t) x.
Proof. apply (@ex_derive_continuous R_AbsRing R_NormedModule). eexists. apply beam_x. Qed.

Lemma beam_sources : sources (beam 1) (beam (-1)) (fun t => rt1d_direct t c g0) c g0.
Proof.
  intros t Ht. split.
  - rewrite <- (beam_front (-1) (c * t) t) by ring.
    apply (filterlim_filter_le_1 (F := locally (c * t)) (G := at_left (c * t))); [apply filter_le_within|]. apply beam_cont.
  - rewrite <- (beam_front 1 (- (c * t)) t) by ring.
    apply (filterlim_filter_le_1 (F := locally (- (c * t))) (G := at_right (- (c * t)))); [apply filter_le_within|]. apply beam_cont.
Qed.

Lemma direct_extinction : extinction (fun t => rt1d_direct t c g0) c g0.
Proof.
  split.
  - unfold rt1d_direct. replace (- c * 0 / 2 / (1 / g0)) with 0 by (field; lra). rewrite exp_0. ring.
  - assert (F : forall t, rt1d_direct t c g0 = 1 / 2 * exp (- (k * c * t))).
    { intros t. unfold rt1d_direct. f_equal. f_equal. unfold k. field. lra. }
    intros t. apply (is_derive_ext (fun t => 1 / 2 * exp (- (k * c * t)))); [intros y; symmetry; apply F|]. rewrite F.
    auto_derive; [trivial|]. unfold k at 1. field.
Qed.
End Beam.

Lemma rt1d_transfer c g0 : 0 < c -> 0 < g0 ->
  exists right left : R -> R -> R,
    (forall x t, - (c * t) < x < c * t ->
       ok_value (G_scalar "rt1d" (Rabs x) t c g0) = right x t + left x t /\ right (- x) t = left x t) /\
    transport right left c g0 /\
    sources right left (fun t => rt1d_direct t c g0) c g0.
Proof.
  intros Hc Hg. exists (beam c g0 1), (beam c g0 (-1)). split.
  - intros x t H. split; [now apply beam_sum|apply beam_sym].
  - split; [now apply beam_transport|now apply beam_sources].
Qed.
