(** Proofs for LineProps.v: data of different length. *)
From Coq Require Import String List Reals Lra Lia Arith.
From Verif Require Import Base LineModel LineSpec.
Import ListNotations.
Open Scope R_scope.

Lemma column_repeated n v : column n [v] = column n (repeat v n).
Proof.
  unfold column. rewrite repeat_length, Nat.eqb_refl. cbn [length]. destruct (Nat.eqb_spec 1 n) as [<-|N]; reflexivity.
Qed.

Lemma minus_repeated y v m : minus_line y [v] m = minus_line y (repeat v (length y)) m.
Proof.
  unfold minus_line. rewrite repeat_length, Nat.eqb_refl.
  assert (E : map (fun u => u - m * v) y = map (fun q => fst q - m * snd q) (combine y (repeat v (length y)))).
  { induction y as [|u y IH]; cbn [map combine repeat length]; [reflexivity|]. now rewrite IH. }
  rewrite <- E. destruct (Nat.eqb_spec (length [v]) (length y)) as [L|L]; [|reflexivity].
  destruct y as [|u [|u' y]]; [discriminate|reflexivity|discriminate].
Qed.

Lemma fit_repeated fit y v m method w :
  linear_fit fit y [v] m method w = linear_fit fit y (repeat v (length y)) m method w.
Proof. unfold linear_fit. destruct m as [m|]; [now rewrite minus_repeated|now rewrite column_repeated]. Qed.

Lemma fit_lengths fit y x m method w : length x <> length y -> length x <> 1%nat ->
  linear_fit fit y x m method w = Err ValueError.
Proof.
  intros L O. unfold linear_fit. destruct m as [m|].
  - unfold minus_line. rewrite (proj2 (Nat.eqb_neq _ _) L).
    destruct x as [|v [|v' x]]; [|now destruct O|].
    + destruct y as [|u [|u' y]]; reflexivity.
    + destruct y as [|u [|u' y]]; reflexivity.
  - unfold column. rewrite (proj2 (Nat.eqb_neq _ _) L). destruct x as [|v [|v' x]]; [reflexivity|now destruct O|reflexivity].
Qed.
