(** Concrete cases of the arrangement of panels. *)
From Coq Require Import List Bool Arith ZArith Lia.
From Verif Require Import Base GridModel GridSpec GridProof.
Import ListNotations.

Lemma ex_sds_column : exists max_nobs k nx xlabel,
  1 <= k /\ nx <> Some 0 /\ ~ exists l, plot_all_sds max_nobs k nx xlabel = Ok l.
Proof.
  exists 3, 2, (Some 1), true. split; [lia |]. split; [discriminate |]. intros [l E]. vm_compute in E. discriminate E.
Qed.

Lemma ex_sites_none : exists max_nobs finite nx,
  finite <> [] /\ nx <> Some 0 /\ ~ exists l, plot_sites max_nobs finite nx = Ok l.
Proof.
  exists 0, [false; false], None. split; [discriminate |]. split; [discriminate |]. intros [l E]. vm_compute in E. discriminate E.
Qed.

Lemma ex_even : exists num main ps, plot_optimization num num = Ok (main, ps) /\ ~ NoDup (map fst ps).
Proof.
  exists 4. eexists. eexists. split; [vm_compute; reflexivity |]. cbn. intros N.
  inversion N as [| ? ? _ N1]; inversion N1 as [| ? ? _ N2]; inversion N2 as [| ? ? N3 _].
  apply N3. left. reflexivity.
Qed.

Lemma ex_two : exists num nrec, 1 <= nrec <= num /\ ~ exists r, plot_optimization num nrec = Ok r.
Proof. exists 2, 1. split; [lia |]. intros [r E]. vm_compute in E. discriminate E. Qed.

(** The optimum is the first of eight tried values. *)
Lemma ex_best : exists num tried best main ps,
  num < length tried /\ In best tried /\
  plot_optimization num (length (recorded num tried best)) = Ok (main, ps) /\ forall p, In p ps -> snd p <> None.
Proof.
  exists 7, [1; 2; 3; 4; 5; 6; 7; 8]%Z, 1%Z. eexists. eexists. split; [cbn; lia |]. split; [left; reflexivity |].
  split; [vm_compute; reflexivity |]. intros p I. cbn in I.
  repeat (destruct I as [<- | I]; [discriminate |]). destruct I.
Qed.

Lemma ex_xlabel : exists k nx c r gs, 1 <= k /\ 1 <= nx /\ get_grid k (Some nx) = Ok (c, r, gs) /\
  forall i, i < k -> xlabelled (set_gridlabels i c r k false false true true) = false.
Proof.
  exists 2, 5, 5, 1, (1, 5). split; [lia |]. split; [lia |]. split; [reflexivity |].
  intros i H. destruct i as [| [| i]]; [reflexivity | reflexivity | lia].
Qed.

Lemma ex_best_panel : exists main ps p,
  plot_optimization 3 (length (recorded 3 [1; 2; 3; 4]%Z 3%Z)) = Ok (main, ps) /\
  nth_error ps 2 = Some p /\ snd p = None.
Proof. eexists. eexists. eexists. split; [vm_compute; reflexivity |]. split; reflexivity. Qed.

Lemma nothing_ex : ~ In true [false; false] /\ Some 4 <> Some 0.
Proof. split; [|discriminate]. cbn. intuition discriminate. Qed.
