(** Proofs for TiltProps.v. *)
From Coq Require Import String List Reals Lra Lia Arith Permutation.
From Verif Require Import Base DepModel LineModel LineSpec LineProof TiltSpec.
Import ListNotations.
Open Scope R_scope.

Lemma wsum_perm f d d' : Permutation d d' -> wsum f d = wsum f d'.
Proof.
  induction 1 as [|[[y x] w] l l' _ I|[[y x] w] [[y' x'] w'] l|]; cbn [wsum]; try lra.
Qed.

Lemma misfit_perm d d' a b : Permutation d d' -> misfit d a b = misfit d' a b.
Proof. intros P. rewrite !misfit_wsum. now apply wsum_perm. Qed.

Lemma misfit_moved d k s h l e A B : k <> 0 ->
  misfit (map (moved k s h l e) d) A B = k ^ 2 * misfit d ((A * l - s) / k) ((A * e + B - h) / k).
Proof.
  intros K. induction d as [|[[y x] w] d I]; cbn [misfit map moved]; [ring|]. rewrite I. field. exact K.
Qed.

Lemma misfit_reweighted d q A B : misfit (map (reweighted q) d) A B = q * misfit d A B.
Proof. induction d as [|[[y x] w] d I]; cbn [misfit map reweighted]; [ring|]. rewrite I. ring. Qed.

Lemma perm_positive d d' : Permutation d d' -> positive_weights d -> positive_weights d'.
Proof. intros P H y x w I. apply (H y x w). apply (Permutation_in _ (Permutation_sym P) I). Qed.

Lemma perm_places d d' : Permutation d d' -> two_places d -> two_places d'.
Proof.
  intros P (y1 & x1 & w1 & y2 & x2 & w2 & I1 & I2 & N). exists y1, x1, w1, y2, x2, w2.
  split; [exact (Permutation_in _ P I1)|]. split; [exact (Permutation_in _ P I2)|exact N].
Qed.

Lemma moved_positive d k s h l e : positive_weights d -> positive_weights (map (moved k s h l e) d).
Proof.
  intros H y x w I. apply in_map_iff in I. destruct I as ([[y0 x0] w0] & E & I). cbn in E. injection E as _ _ <-. exact (H _ _ _ I).
Qed.

Lemma moved_places d k s h l e : l <> 0 -> two_places d -> two_places (map (moved k s h l e) d).
Proof.
  intros L (y1 & x1 & w1 & y2 & x2 & w2 & I1 & I2 & N). apply (in_map (moved k s h l e)) in I1. apply (in_map (moved k s h l e)) in I2.
  do 6 eexists. split; [exact I1|]. split; [exact I2|]. intros E. apply N. apply (Rmult_eq_reg_l l); [lra|exact L].
Qed.

Lemma reweighted_positive d q : 0 < q -> positive_weights d -> positive_weights (map (reweighted q) d).
Proof.
  intros Q H y x w I. apply in_map_iff in I. destruct I as ([[y0 x0] w0] & E & I). cbn in E. injection E as _ _ <-.
  apply Rmult_lt_0_compat; [exact Q|exact (H _ _ _ I)].
Qed.

Lemma reweighted_places d q : two_places d -> two_places (map (reweighted q) d).
Proof.
  intros (y1 & x1 & w1 & y2 & x2 & w2 & I1 & I2 & N). apply (in_map (reweighted q)) in I1. apply (in_map (reweighted q)) in I2.
  do 6 eexists. split; [exact I1|]. split; [exact I2|exact N].
Qed.

Lemma tilt_order fit : fits_least_squares fit -> forall y x method w d y' x' method' w' d',
  data_of y x w d -> data_of y' x' w' d' -> method <> "robust"%string -> method' <> "robust"%string ->
  (w <> None -> method = "weighted"%string) -> (w' <> None -> method' = "weighted"%string) ->
  positive_weights d -> two_places d -> Permutation d d' ->
  linear_fit fit y x None method w = linear_fit fit y' x' None method' w'.
Proof.
  intros F y x method w d y' x' method' w' d' D D' M M' W W' P T Q.
  assert (N : d <> []) by (intros ->; destruct T as (? & ? & ? & ? & ? & ? & [] & _)).
  destruct (fit_closest fit F _ _ _ _ _ D P N M W) as (a & b & E & L). rewrite E. symmetry.
  apply (proj2 (fit_only fit F _ _ _ _ _ a b D' M' W' (perm_positive _ _ Q P) (perm_places _ _ Q T))).
  intros a' b'. rewrite <- !(misfit_perm _ _ _ _ Q). apply L.
Qed.

Lemma tilt_moved fit : fits_least_squares fit -> forall k s h l e y x method w d y' x' w' a b, k <> 0 -> l <> 0 ->
  data_of y x w d -> data_of y' x' w' (map (moved k s h l e) d) -> method <> "robust"%string ->
  (w <> None -> method = "weighted"%string) -> (w' <> None -> method = "weighted"%string) ->
  positive_weights d -> two_places d -> linear_fit fit y x None method w = Ok (a, b) ->
  linear_fit fit y' x' None method w' = Ok ((k * a + s) / l, k * b + h - (k * a + s) / l * e).
Proof.
  intros F k s h l e y x method w d y' x' w' a b K L D D' M W W' P T E.
  apply (proj2 (fit_only fit F _ _ _ _ _ _ _ D' M W' (moved_positive _ _ _ _ _ _ P) (moved_places _ _ _ _ _ _ L T))).
  pose proof (proj1 (fit_only fit F _ _ _ _ _ a b D M W P T) E) as LE. intros A B. rewrite !misfit_moved by exact K.
  apply Rmult_le_compat_l; [apply pow2_ge_0|].
  replace (((k * a + s) / l * l - s) / k) with a by (field; now split).
  replace (((k * a + s) / l * e + (k * b + h - (k * a + s) / l * e) - h) / k) with b by (field; now split). apply LE.
Qed.

Lemma tilt_weights fit : fits_least_squares fit -> forall q y x w d w', 0 < q ->
  data_of y x w d -> data_of y x w' (map (reweighted q) d) -> positive_weights d -> two_places d ->
  linear_fit fit y x None "weighted" w = linear_fit fit y x None "weighted" w'.
Proof.
  intros F q y x w d w' Q D D' P T. assert (M : "weighted"%string <> "robust"%string) by discriminate.
  assert (N : d <> []) by (intros ->; destruct T as (? & ? & ? & ? & ? & ? & [] & _)).
  destruct (fit_closest fit F _ _ _ _ _ D P N M (fun _ => eq_refl)) as (a & b & E & L). rewrite E. symmetry.
  apply (proj2 (fit_only fit F _ _ _ _ _ a b D' M (fun _ => eq_refl) (reweighted_positive _ _ Q P) (reweighted_places _ _ T))).
  intros a' b'. rewrite !misfit_reweighted. apply Rmult_le_compat_l; [lra|apply L].
Qed.

(** ** residuals *)
Lemma misfit_step d a b u v : misfit d (a + u) (b + v) = misfit d a b
  - 2 * (u * wsum (fun y x => (y - (a * x + b)) * x) d + v * wsum (fun y x => y - (a * x + b)) d) + wsum (fun y x => (u * x + v) ^ 2) d.
Proof. induction d as [|[[y x] w] d I]; cbn [misfit wsum]; [ring|]. rewrite I. ring. Qed.

Lemma wsum_square d u v : wsum (fun y x => (u * x + v) ^ 2) d =
  u ^ 2 * wsum (fun y x => x ^ 2) d + 2 * u * v * wsum (fun y x => x) d + v ^ 2 * wsum (fun y x => 1) d.
Proof. induction d as [|[[y x] w] d I]; cbn [wsum]; [ring|]. rewrite I. ring. Qed.

Lemma no_slope m q : (forall t : R, 0 <= - 2 * t * m + t ^ 2 * q) -> m = 0.
Proof.
  intros H. assert (Q : 0 <= q) by (pose proof (H 1); pose proof (H (-1)); lra).
  pose proof (H (m / (q + 1))) as A. replace (- 2 * (m / (q + 1)) * m + (m / (q + 1)) ^ 2 * q) with (- (m ^ 2 * ((q + 2) / (q + 1) ^ 2))) in A by (field; lra).
  assert (0 < (q + 2) / (q + 1) ^ 2) by (apply Rdiv_lt_0_compat; [lra|apply pow_lt; lra]). assert (m ^ 2 = 0) by nra. nra.
Qed.

Lemma tilt_residuals fit : fits_least_squares fit -> forall y x method w d a b, data_of y x w d ->
  method <> "robust"%string -> (w <> None -> method = "weighted"%string) -> positive_weights d -> two_places d ->
  (linear_fit fit y x None method w = Ok (a, b) <->
   wsum (fun y x => y - (a * x + b)) d = 0 /\ wsum (fun y x => (y - (a * x + b)) * x) d = 0).
Proof.
  intros F y x method w d a b D M W P T. rewrite (fit_only fit F _ _ _ _ _ a b D M W P T). split.
  - intros L. split; [apply (no_slope _ (wsum (fun y x => 1) d))|apply (no_slope _ (wsum (fun y x => x ^ 2) d))]; intros t.
    + pose proof (L (a + 0) (b + t)) as A. rewrite misfit_step, wsum_square in A. lra.
    + pose proof (L (a + t) (b + 0)) as A. rewrite misfit_step, wsum_square in A. lra.
  - intros [R0 R1] a' b'. replace a' with (a + (a' - a)) by ring. replace b' with (b + (b' - b)) by ring.
    rewrite misfit_step, R0, R1. assert (0 <= wsum (fun y x => ((a' - a) * x + (b' - b)) ^ 2) d) by (apply wsum_ge0; [exact P|intros; apply pow2_ge_0]). lra.
Qed.
