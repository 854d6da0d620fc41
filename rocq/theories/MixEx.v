(** Concrete cases for C148. *)
From Coq Require Import String List Bool Reals ZArith Arith Lra Lia.
From Verif Require Import Base SmoothModel SmoothSpec SmoothEx MixSpec.
Import ListNotations.
Open Scope string_scope.
Open Scope list_scope.
Open Scope R_scope.

Lemma mix_ex : length [1; 2; 6; 4] = length [5; 5; 5; 5] /\
  smooth [1; 2; 6; 4] (Some 3%Z) "flat" (Some "reflect") = Ok [5 / 3; 3; 4; 14 / 3] /\
  smooth [5; 5; 5; 5] (Some 3%Z) "flat" (Some "reflect") = Ok [5; 5; 5; 5].
Proof. split; [reflexivity|]. split; [exact ex_reflect|exact ex_const]. Qed.

Lemma order_ex : Forall2 Rle [1; 2; 6; 4] [1; 3; 7; 4].
Proof. repeat (apply Forall2_cons; [lra|]). apply Forall2_nil. Qed.

Lemma within_ex : within 1 [1; 2; 6; 4] [2; 2; 5; 4].
Proof. unfold within. repeat (apply Forall2_cons; [apply Rabs_le; lra|]). apply Forall2_nil. Qed.

Lemma sin_ex : forall s, Rabs (4 * s + 1 - (4 * s + 1 + sin s)) <= 1.
Proof. intros s. pose proof (SIN_bound s). apply Rabs_le. lra. Qed.
