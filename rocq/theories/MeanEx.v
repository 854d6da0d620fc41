(** Concrete cases used in the examples of MeanProps. *)
From Coq Require Import List Bool Reals Lra Lia.
From Verif Require Import Base Pyf StatModel StatSpec StatProof NoiseSpec JitterProof MeanSpec MeanProof.
Import ListNotations.
Open Scope R_scope.

(** one per cent more, and values which do not count *)
Definition mean_a : list pyf := [FNum (101 / 100); FNan; FNum 4; FNum (-3)].
Definition mean_b : list pyf := [FNum 1; FPInf; FNum 4; FNum 0].

Lemma valid_101 : valid (FNum (101 / 100)) = Some (101 / 100).
Proof. unfold valid. destruct (Rlt_dec 0 (101 / 100)); [reflexivity|lra]. Qed.
Lemma valid_zero : valid (FNum 0) = None.
Proof. unfold valid. destruct (Rlt_dec 0 0); [lra|reflexivity]. Qed.

Lemma up_101 : up_to (1 / 10) (101 / 100) 1.
Proof.
  pose proof (exp_ineq1_le (1 / 10)) as A. pose proof (exp_increasing (- (1 / 10)) 0) as C. rewrite exp_0 in C.
  split; lra.
Qed.

Lemma up_same : up_to (1 / 10) 4 4.
Proof.
  pose proof (exp_ineq1_le (1 / 10)) as A. pose proof (exp_increasing (- (1 / 10)) 0) as C. rewrite exp_0 in C.
  split; lra.
Qed.

Lemma mean_near : Forall2 (near_datum (1 / 10)) mean_a mean_b.
Proof.
  unfold mean_a, mean_b, near_datum. constructor; [|constructor; [|constructor; [|constructor; [|constructor]]]].
  - rewrite valid_101, valid1. exact up_101.
  - exact I.
  - rewrite valid4. exact up_same.
  - rewrite validm, valid_zero. exact I.
Qed.

Lemma mean_below : Forall2 below_datum mean_b mean_a.
Proof.
  unfold mean_a, mean_b, below_datum. constructor; [|constructor; [|constructor; [|constructor; [|constructor]]]].
  - rewrite valid_101, valid1. lra.
  - exact I.
  - rewrite valid4. lra.
  - rewrite validm, valid_zero. exact I.
Qed.

Lemma mean_valid : valid_data mean_a = [101 / 100; 4].
Proof. unfold mean_a. cbn [valid_data]. rewrite valid_101, valid4, validm. reflexivity. Qed.

Lemma mean_weights : weights_ok (Some [1; 0; 2; 3]).
Proof. intros w I. repeat (destruct I as [<-|I]; [lra|]). destruct I. Qed.
