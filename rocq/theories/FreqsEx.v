(** Concrete cases for the theorems about frequency bands. *)
From Coq Require Import List Reals Lra.
From Verif Require Import Base FreqsModel.
Import ListNotations.
Open Scope R_scope.

Lemma centres_ex : NoDup (map (fun b : R * R => (fst b + snd b) / 2) [(2, 4); (1, 2); (4, 8)]).
Proof.
  cbn [map fst snd]. repeat (apply NoDup_cons; [cbn [In]; intros H;
    repeat (destruct H as [H|H]; [lra|]); exact H|]). apply NoDup_nil.
Qed.

Lemma below_min_ex : 0 < 3 /\ 3 < 4 /\ 0 < 1 /\ 0 < 1 /\ 4 < 3 * Rpower 2 1 /\ 3 * Rpower 2 1 <= 7.
Proof. rewrite Rpower_1 by lra. lra. Qed.
