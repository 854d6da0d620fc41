(** Properties C06 - C08: geometric means (/repo/qopen/util.py:65-147). *)
From Coq Require Import List Bool Reals Lra Lia Permutation.
From Verif Require Import Base Pyf StatModel StatSpec StatSpec2 StatProof StatProof2.
Import ListNotations.
Open Scope R_scope.

(** C06: the plain mean is the n-th root of the product of the valid data. *)
Theorem C06_gmean_plain : forall rlm data fb,
  gmean rlm data None false fb =
  Ok (match valid_data data with [] => None | l => Some (geometric_mean l) end).
Proof. exact gmean_plain. Qed.
Print Assumptions C06_gmean_plain.

Example C06_gmean_plain_ex : valid_data data_ex = [1; 4] /\ geometric_mean [1; 4] = 2.
Proof.
  split; [exact valid_data_ex|]. unfold geometric_mean. cbn [length].
  replace (prod [1; 4]) with (2 * 2) by (unfold prod; cbn; ring).
  replace (INR 2) with 2 by reflexivity.
  rewrite <- (Rpower_mult_distr 2 2) by lra. rewrite <- Rpower_plus.
  replace (/ 2 + / 2) with 1 by field. apply Rpower_1. lra.
Qed.

(** C06: the weighted mean is the weighted root of the weighted product of the
    valid data; masked if their weights sum to zero. *)
Theorem C06_gmean_weighted : forall rlm data ws fb,
  gmean rlm data (Some ws) false fb =
  Ok (let l := valid_weighted data ws in
      if Req_EM_T (rsum (map fst l)) 0 then None else Some (weighted_geometric_mean l)).
Proof. exact gmean_weighted. Qed.
Print Assumptions C06_gmean_weighted.

Example C06_gmean_weighted_ex : valid_weighted data_ex [1; 2; 3; 4; 5] = [(1, 1); (5, 4)].
Proof. unfold data_ex, valid_weighted. now rewrite valid1, valid4, validm. Qed.

(** C06: the mean lies between bounds of the valid data. *)
Theorem C06_gmean_bounds : forall rlm data ws fb a b m,
  0 < a -> (forall x, In x (valid_data data) -> a <= x <= b) ->
  match ws with None => True | Some ws => length ws = length data /\ forall w, In w ws -> 0 <= w end ->
  gmean rlm data ws false fb = Ok (Some m) -> a <= m <= b.
Proof. exact gmean_bounds. Qed.
Print Assumptions C06_gmean_bounds.

Example C06_gmean_bounds_ex : exists m,
  (forall x, In x (valid_data data_ex) -> 1 <= x <= 4) /\
  (length [1; 2; 3; 4; 0] = length data_ex /\ forall w, In w [1; 2; 3; 4; 0] -> 0 <= w) /\
  gmean (fun _ => (0, 0)) data_ex (Some [1; 2; 3; 4; 0]) false 5 = Ok (Some m).
Proof.
  eexists. split; [|split; [split; [reflexivity|]|]].
  - rewrite valid_data_ex. cbn. intros x [<-|[<-|[]]]; lra.
  - cbn. intros w H. decompose [or] H; subst; lra.
  - rewrite gmean_weighted. cbn zeta.
    replace (valid_weighted data_ex [1; 2; 3; 4; 0]) with [(1, 1); (0, 4)]
      by (unfold data_ex, valid_weighted; now rewrite valid1, valid4, validm).
    destruct (Req_EM_T _ 0) as [E|E]; [unfold rsum in E; cbn in E; lra|]. reflexivity.
Qed.

(** C06: scaling the data scales the mean. *)
Theorem C06_gmean_homogeneous : forall rlm data ws fb k,
  0 < k ->
  gmean rlm (map (fscale k) data) ws false fb =
  match gmean rlm data ws false fb with Ok m => Ok (option_map (Rmult k) m) | Err e => Err e end.
Proof. exact gmean_scale. Qed.
Print Assumptions C06_gmean_homogeneous.

Example C06_gmean_homogeneous_ex : 0 < 3 /\ map (fscale 3) [FNum 1; FNan] = [FNum (3 * 1); FNan].
Proof. split; [lra|reflexivity]. Qed.

(** C06: the order of the data does not matter. *)
Theorem C06_gmean_order : forall rlm data data' fb,
  Permutation data data' -> gmean rlm data None false fb = gmean rlm data' None false fb.
Proof. exact gmean_perm. Qed.
Print Assumptions C06_gmean_order.

Example C06_gmean_order_ex : Permutation [FNum 1; FNan; FNum 4] [FNan; FNum 4; FNum 1].
Proof. apply (Permutation_app_comm [FNum 1] [FNan; FNum 4]). Qed.

(** C06: nor does the order of weighted data. *)
Theorem C06_gmean_order_weighted : forall rlm data ws data' ws' fb,
  length ws = length data -> length ws' = length data' ->
  Permutation (combine data ws) (combine data' ws') ->
  gmean rlm data (Some ws) false fb = gmean rlm data' (Some ws') false fb.
Proof. exact gmean_perm_weighted. Qed.
Print Assumptions C06_gmean_order_weighted.

Example C06_gmean_order_weighted_ex :
  Permutation (combine [FNum 1; FNan] [2; 3]) (combine [FNan; FNum 1] [3; 2]).
Proof. cbn. apply perm_swap. Qed.

(** C06: rescaling the weights changes nothing. *)
Theorem C06_gmean_weight_scale : forall rlm data ws fb k, k <> 0 ->
  gmean rlm data (Some (map (Rmult k) ws)) false fb = gmean rlm data (Some ws) false fb.
Proof. exact gmean_wscale. Qed.
Print Assumptions C06_gmean_weight_scale.

Example C06_gmean_weight_scale_ex : 7 <> 0 /\ map (Rmult 7) [1; 2] = [7 * 1; 7 * 2].
Proof. split; [lra|reflexivity]. Qed.

(** C06: equal weights give the unweighted mean. *)
Theorem C06_gmean_equal_weights : forall rlm data fb w, w <> 0 ->
  gmean rlm data (Some (repeat w (length data))) false fb = gmean rlm data None false fb.
Proof. exact gmean_equal_weights. Qed.
Print Assumptions C06_gmean_equal_weights.

Example C06_gmean_equal_weights_ex : repeat 2 (length [FNum 1; FNan]) = [2; 2].
Proof. reflexivity. Qed.

(** C06: integer weights act like repetition. *)
Theorem C06_gmean_integer_weights : forall rlm data ns fb, length ns = length data ->
  gmean rlm data (Some (map INR ns)) false fb =
  gmean rlm (concat (map (fun p => repeat (fst p) (snd p)) (combine data ns))) None false fb.
Proof. exact gmean_repeat. Qed.
Print Assumptions C06_gmean_integer_weights.

Example C06_gmean_integer_weights_ex :
  concat (map (fun p => repeat (fst p) (snd p)) (combine [FNum 1; FNan; FNum 4] [2; 1; 3]%nat)) =
  [FNum 1; FNum 1; FNan; FNum 4; FNum 4; FNum 4].
Proof. reflexivity. Qed.

(** C07: one entry per column, None exactly for columns without valid data;
    plain and robust means. *)
Theorem C07_gmeanlist : forall rlm rows ncols robust fb, (0 < fb)%nat ->
  exists r, gmeanlist rlm rows ncols None robust fb = Ok r /\ length r = ncols /\
    forall j, (j < ncols)%nat ->
      (nth j r None = None <-> valid_data (map (fun row => nth j row FNan) rows) = []).
Proof. exact gmeanlist_spec. Qed.
Print Assumptions C07_gmeanlist.

Example C07_gmeanlist_ex :
  valid_data (map (fun row => nth 0 row FNan) [[FNum 1; FNan]; [FNum 4; FNum (-3)]]) = [1; 4] /\
  valid_data (map (fun row => nth 1 row FNan) [[FNum 1; FNan]; [FNum 4; FNum (-3)]]) = [].
Proof. cbn [map nth]. unfold valid_data. now rewrite valid1, valid4, validm. Qed.

(** C07: the same for weighted means with positive weights. *)
Theorem C07_gmeanlist_weighted : forall rlm rows ncols ws fb,
  length ws = length rows -> (forall w, In w ws -> 0 < w) ->
  exists r, gmeanlist rlm rows ncols (Some ws) false fb = Ok r /\ length r = ncols /\
    forall j, (j < ncols)%nat ->
      (nth j r None = None <-> valid_data (map (fun row => nth j row FNan) rows) = []).
Proof. exact gmeanlist_weighted_spec. Qed.
Print Assumptions C07_gmeanlist_weighted.

Example C07_gmeanlist_weighted_ex :
  length [1; 2] = length [[FNum 1; FNan]; [FNum 4; FNum (-3)]] /\ forall w, In w [1; 2] -> 0 < w.
Proof. split; [reflexivity|]. cbn. intros w [<-|[<-|[]]]; lra. Qed.

(** C07: entry j is the mean of column j, whatever the kind of mean. *)
Theorem C07_gmeanlist_column : forall rlm rows ncols ws robust fb r j,
  gmeanlist rlm rows ncols ws robust fb = Ok r -> (j < ncols)%nat ->
  gmean rlm (map (fun row => nth j row FNan) rows) ws robust fb = Ok (nth j r None).
Proof. exact gmeanlist_column. Qed.
Print Assumptions C07_gmeanlist_column.

Example C07_gmeanlist_column_ex : exists r,
  gmeanlist (fun _ => (0, 0)) [[FNum 1; FNan]; [FNum 4; FNum (-3)]] 2 None true 5 = Ok r.
Proof. destruct (gmeanlist_spec (fun _ => (0, 0)) [[FNum 1; FNan]; [FNum 4; FNum (-3)]] 2 true 5) as (r & H & _); [lia|]. eauto. Qed.

(** C07: below the fall-back count the robust mean is the plain mean. *)
Theorem C07_robust_fall_back : forall rlm data fb, (length (valid_data data) < fb)%nat ->
  gmean rlm data None true fb = gmean rlm data None false fb.
Proof. exact gmean_robust_few. Qed.
Print Assumptions C07_robust_fall_back.

Example C07_robust_fall_back_ex : (length (valid_data data_ex) < 5)%nat.
Proof. rewrite valid_data_ex. cbn. lia. Qed.

(** C07: identical data have their common value as mean, robust or not. *)
Theorem C07_identical_data : forall rlm data fb x robust, (0 < fb)%nat ->
  valid_data data <> [] -> (forall y, In y (valid_data data) -> y = x) ->
  gmean rlm data None robust fb = Ok (Some x).
Proof. exact gmean_identical. Qed.
Print Assumptions C07_identical_data.

Example C07_identical_data_ex :
  valid_data [FNum 4; FNan; FNum 4] <> [] /\
  forall y, In y (valid_data [FNum 4; FNan; FNum 4]) -> y = 4.
Proof.
  unfold valid_data. rewrite valid4. cbn. split; [discriminate|]. intros y [<-|[<-|[]]]; reflexivity.
Qed.

(** C07: weights are refused by the robust mean, not ignored. *)
Theorem C07_robust_weights : forall rlm data ws unbiased fb,
  gmean rlm data (Some ws) true fb = Err NotImplementedError /\
  gerr rlm data (Some ws) unbiased true fb = Err NotImplementedError.
Proof. exact robust_weights. Qed.
Print Assumptions C07_robust_weights.

Example C07_robust_weights_ex :
  gmean (fun _ => (0, 0)) data_ex (Some [1; 2; 3]) true 5 = Err NotImplementedError.
Proof. exact (proj1 (robust_weights (fun _ => (0, 0)) data_ex [1; 2; 3] true 5)). Qed.

(** C08: shape of the error bars. *)
Theorem C08_gerr : forall rlm data ws unbiased fb m lo up,
  gerr rlm data ws unbiased false fb = Ok (Some (m, lo, up)) ->
  0 < m /\ 0 < m - lo /\ 0 <= lo <= up /\ (m - lo) * (m + up) = m * m.
Proof. exact gerr_shape. Qed.
Print Assumptions C08_gerr.

(** C08: the error bars exist for two or more valid data. *)
Theorem C08_gerr_exists : forall rlm data ws unbiased fb,
  (2 <= length (valid_data data))%nat ->
  match ws with None => True | Some ws => length ws = length data /\ forall w, In w ws -> 0 < w end ->
  exists m lo up, gerr rlm data ws unbiased false fb = Ok (Some (m, lo, up)).
Proof. exact gerr_exists. Qed.
Print Assumptions C08_gerr_exists.

Example C08_gerr_exists_ex :
  (2 <= length (valid_data data_ex))%nat /\ length [1; 2; 3; 4; 5] = length data_ex /\
  forall w, In w [1; 2; 3; 4; 5] -> 0 < w.
Proof.
  rewrite valid_data_ex. split; [cbn; lia|]. split; [reflexivity|].
  cbn. intros w H. decompose [or] H; subst; lra.
Qed.

Example C08_gerr_ex : exists m lo up,
  gerr (fun _ => (0, 0)) data_ex (Some [1; 2; 3; 4; 5]) true false 5 = Ok (Some (m, lo, up)).
Proof. apply gerr_exists; apply C08_gerr_exists_ex. Qed.

(** C08: with weights the error bars span one weighted standard deviation of the logarithms. *)
Theorem C08_gerr_weighted : forall rlm data ws fb, (2 <= length (valid_data data))%nat ->
  length ws = length data -> (forall w, In w ws -> 0 < w) ->
  let m := weighted_geometric_mean (valid_weighted data ws) in
  let s := weighted_log_deviation (valid_weighted data ws) in
  exists lo up, gerr rlm data (Some ws) true false fb = Ok (Some (m, lo, up)) /\ m - lo = m / exp s /\ m + up = m * exp s.
Proof. exact gerr_weighted. Qed.
Print Assumptions C08_gerr_weighted.

Example C08_gerr_weighted_ex :
  (2 <= length (valid_data data_ex))%nat /\ length [1; 2; 3; 4; 5] = length data_ex /\
  forall w, In w [1; 2; 3; 4; 5] -> 0 < w.
Proof. exact C08_gerr_exists_ex. Qed.

(** C08: the same shape for robust errors (the scale estimate of the robust fit
    is not negative). *)
Theorem C08_gerr_robust : forall rlm data fb m lo up,
  (forall v, 0 <= snd (rlm v)) ->
  gerr rlm data None true true fb = Ok (Some (m, lo, up)) ->
  0 < m /\ 0 < m - lo /\ 0 <= lo <= up /\ (m - lo) * (m + up) = m * m.
Proof. exact gerr_shape_robust. Qed.
Print Assumptions C08_gerr_robust.

Example C08_gerr_robust_ex : exists m lo up,
  gerr (fun _ => (0, 1)) data_ex None true true 2 = Ok (Some (m, lo, up)).
Proof.
  unfold gerr, gstat. cbn [bind]. unfold robust_stat. rewrite unmasked_log, valid_data_ex.
  cbn [map length]. change (2 <? 2)%nat with false. cbv iota.
  destruct (ptp0 _); do 3 eexists; reflexivity.
Qed.

(** C08: the unbiased error is at least the biased one. *)
Theorem C08_gerr_unbiased : forall rlm data ws fb m lo up m' lo' up',
  match ws with None => True | Some ws => length ws = length data /\ forall w, In w ws -> 0 < w end ->
  gerr rlm data ws true false fb = Ok (Some (m, lo, up)) ->
  gerr rlm data ws false false fb = Ok (Some (m', lo', up')) ->
  m = m' /\ lo' <= lo /\ up' <= up.
Proof. exact gerr_unbiased. Qed.
Print Assumptions C08_gerr_unbiased.

Example C08_gerr_unbiased_ex : exists m lo up,
  gerr (fun _ => (0, 0)) data_ex (Some [1; 2; 3; 4; 5]) false false 5 = Ok (Some (m, lo, up)).
Proof. apply gerr_exists; apply C08_gerr_exists_ex. Qed.

(** C08: equal weights give the unweighted errors. *)
Theorem C08_gerr_equal_weights : forall rlm data w unbiased fb,
  0 < w -> (2 <= length (valid_data data))%nat ->
  gerr rlm data (Some (repeat w (length data))) unbiased false fb = gerr rlm data None unbiased false fb.
Proof. exact gerr_equal_weights. Qed.
Print Assumptions C08_gerr_equal_weights.

Example C08_gerr_equal_weights_ex : 0 < 3 /\ (2 <= length (valid_data data_ex))%nat.
Proof. rewrite valid_data_ex. cbn. split; [lra|lia]. Qed.

(** C08: below the fall-back count the robust errors are the plain unbiased ones. *)
Theorem C08_gerr_fall_back : forall rlm data fb unbiased, (length (valid_data data) < fb)%nat ->
  gerr rlm data None unbiased true fb = gerr rlm data None true false fb.
Proof. exact gerr_robust_few. Qed.
Print Assumptions C08_gerr_fall_back.

Example C08_gerr_fall_back_ex : (length (valid_data data_ex) < 5)%nat /\ exists m lo up,
  gerr (fun _ => (0, 0)) data_ex None true false 5 = Ok (Some (m, lo, up)).
Proof.
  split; [rewrite valid_data_ex; cbn; lia|]. exact (gerr_plain_ex 5).
Qed.
