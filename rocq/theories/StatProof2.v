(** The weighted errors of geometric means. *)
From Coq Require Import List Bool Reals Lra Lia Arith.
From Verif Require Import Base Pyf StatModel StatSpec StatSpec2 StatProof.
Import ListNotations.
Open Scope R_scope.

Lemma gstat_weighted rlm data ws fb : (2 <= length (valid_data data))%nat ->
  length ws = length data -> (forall w, In w ws -> 0 < w) ->
  gstat rlm data (Some ws) true false fb =
    Ok (Some (ln (weighted_geometric_mean (valid_weighted data ws))), Some (weighted_log_deviation (valid_weighted data ws))).
Proof.
  intros H2 HL Hw. unfold gstat, weighted_stat. rewrite unmasked_log, map_length.
  assert (E : (length (valid_data data) <? 2)%nat = false) by now apply Nat.ltb_ge. rewrite E.
  set (l := valid_weighted data ws).
  assert (Hlen : length l = length (valid_data data)).
  { unfold l. rewrite <- (valid_weighted_snd data ws HL). now rewrite map_length. }
  assert (Hpos : forall x, In x (map fst l) -> 0 < x).
  { intros x Hx. apply in_map_iff in Hx as (p & <- & Hp). apply Hw. eapply valid_weighted_w; eauto. }
  assert (Hs : 0 < rsum (map fst l)).
  { apply rsum_pos; [intros Hn; rewrite Hn in Hlen; cbn in Hlen; lia|].
    intros p Hp. apply Hpos. now apply in_map. }
  assert (A : average (map log_masked data) (Some ws) = Some (ln (weighted_geometric_mean l))).
  { unfold average. rewrite wunmasked_log, !map_map. cbn [fst snd]. fold l. change (map (fun x => fst x) l) with (map fst l).
    destruct (Req_EM_T _ 0) as [Z|Z]; [lra|]. f_equal. unfold weighted_geometric_mean, Rpower at 1.
    rewrite ln_exp, rsum_wln. change (fold_right Rplus 0 (map fst l)) with (rsum (map fst l)).
    unfold Rdiv. apply Rmult_comm. }
  rewrite A. unfold average. rewrite wunmasked_map, wunmasked_log, !map_map. cbn [fst snd]. fold l.
  change (map (fun x => fst x) l) with (map fst l).
  destruct (Req_EM_T (rsum (map fst l)) 0) as [Z|Z]; [lra|]. cbv iota.
  destruct (sum_sq_le (map fst l) Hpos) as [_ Hlt]. rewrite map_map, map_length in Hlt. specialize (Hlt ltac:(lia)).
  destruct (Req_EM_T _ 0) as [Z2|Z2]; [exfalso|reflexivity].
  set (S := rsum (map fst l)) in *.
  assert (rsum (map (fun x => fst x ^ 2) l) / S ^ 2 < 1).
  { apply Rmult_lt_reg_r with (S ^ 2); [nra|]. unfold Rdiv. rewrite Rmult_assoc, Rinv_l by nra. lra. }
  lra.
Qed.

Lemma exp_bar m s : 0 < m -> m - (exp (ln m) - exp (ln m - s)) = m / exp s /\ m + (exp (ln m + s) - exp (ln m)) = m * exp s.
Proof.
  intros P. unfold Rminus at 3. rewrite !exp_plus, exp_Ropp, exp_ln by exact P. split; [unfold Rdiv|]; ring.
Qed.

Lemma gerr_weighted rlm data ws fb : (2 <= length (valid_data data))%nat ->
  length ws = length data -> (forall w, In w ws -> 0 < w) ->
  let m := weighted_geometric_mean (valid_weighted data ws) in
  let s := weighted_log_deviation (valid_weighted data ws) in
  exists lo up, gerr rlm data (Some ws) true false fb = Ok (Some (m, lo, up)) /\ m - lo = m / exp s /\ m + up = m * exp s.
Proof.
  intros H2 HL Hw m s. unfold gerr. rewrite (gstat_weighted rlm data ws fb H2 HL Hw). cbn [bind]. fold m s.
  assert (P : 0 < m) by (unfold m, weighted_geometric_mean, Rpower; apply exp_pos).
  eexists. eexists. rewrite (exp_ln m P) at 1. split; [reflexivity|]. exact (exp_bar m s P).
Qed.
