From Coq Require Import String List Bool Reals ZArith Arith Lra Lia.
From Verif Require Import Base Pyf StatModel StatProof SmoothModel SmoothSpec SmoothProof.
Import ListNotations.
Open Scope string_scope.
Open Scope list_scope.
Open Scope R_scope.

Ltac smooth_eval :=
  lazy -[Rplus Rmult Ropp Rinv Rdiv Rminus IZR]; repeat (f_equal; try (field; lra); try lra).

Lemma ex_none : smooth [1; 2; 6; 4] (Some 3%Z) "flat" None = Ok [3; 4].
Proof. smooth_eval. Qed.

Lemma ex_zeros : smooth [1; 2; 6; 4] (Some 3%Z) "flat" (Some "zeros") = Ok [1; 3; 4; 10 / 3].
Proof. smooth_eval. Qed.

Lemma ex_clip : smooth [1; 2; 6; 4] (Some 3%Z) "flat" (Some "clip") = Ok [4 / 3; 3; 4; 14 / 3].
Proof. smooth_eval. Qed.

Lemma ex_reflect : smooth [1; 2; 6; 4] (Some 3%Z) "flat" (Some "reflect") = Ok [5 / 3; 3; 4; 14 / 3].
Proof. smooth_eval. Qed.

Lemma ex_reflect_rev : smooth [4; 6; 2; 1] (Some 3%Z) "flat" (Some "reflect") = Ok [16 / 3; 4; 3; 4 / 3].
Proof. smooth_eval. Qed.

Lemma ex_const : smooth [5; 5; 5; 5] (Some 3%Z) "flat" (Some "reflect") = Ok [5; 5; 5; 5].
Proof. smooth_eval. Qed.

Lemma ex_spaced : evenly_spaced [1; 3; 5] 1 2.
Proof. intros [|[|[|i]]] H; cbn in *; try lra. lia. Qed.

Lemma ex_near3 : nearest_int (6 / 2) 3.
Proof. left. replace (6 / 2 - IZR 3) with 0 by lra. rewrite Rabs_R0. lra. Qed.

Lemma ex_near2 : nearest_int (5 / 2) 2.
Proof. right. replace (5 / 2 - IZR 2) with (1 / 2) by lra. rewrite Rabs_pos_eq by lra. split; [lra|reflexivity]. Qed.

Lemma ex_func : exists out, smooth_func (fun s => 4 * s + 1) [1; 3; 5] (Some 6) "flat" = Ok out /\ out <> [].
Proof.
  destruct (sf_length (fun s => 4 * s + 1) [1; 3; 5] 1 2 6 "flat" 3 ex_spaced) as (out & H & L);
    [cbn; lia|lra|exact ex_near3|cbn; tauto|].
  exists out. split; [exact H|]. intros ->. discriminate.
Qed.

Lemma smooth_func_two : exists f t t0 dt wl out,
  evenly_spaced t t0 dt /\ (2 <= length t)%nat /\ 0 < dt < wl /\
  smooth_func f t (Some wl) "flat" = Ok out /\ length out <> length t.
Proof.
  exists (fun s => s), [1; 3; 5], 1, 2, 5.
  destruct (sf_length (fun s => s) [1; 3; 5] 1 2 5 "flat" 2 ex_spaced) as (out & H & L);
    [cbn; lia|lra|exact ex_near2|cbn; tauto|].
  exists out. split; [exact ex_spaced|]. split; [cbn; lia|]. split; [lra|]. split; [exact H|].
  rewrite L. cbn. lia.
Qed.

Lemma reflect_not_reversible : exists x out,
  smooth x (Some 3%Z) "flat" (Some "reflect") = Ok out /\
  smooth (rev x) (Some 3%Z) "flat" (Some "reflect") <> Ok (rev out).
Proof.
  exists [1; 2; 6; 4], [5 / 3; 3; 4; 14 / 3]. split; [exact ex_reflect|].
  cbn [rev app]. rewrite ex_reflect_rev. intros H.
  apply (f_equal (fun r => match r with Ok (a :: _) => a | _ => 0 end)) in H. cbn in H. lra.
Qed.
