(** Property C139: mean values of data with errors.  Theorems only. *)
From Coq Require Import List Reals Lra Lia.
From Verif Require Import Base Pyf StatModel StatSpec StatProof NoiseSpec MeanSpec MeanProof MeanEx.
Import ListNotations.
Open Scope R_scope.

(** C139: if all valid data change by factors between exp(-d) and exp(d), the mean, with or without
    weights, changes by such a factor, or is missing for both.  The robust mean is included as far as
    it falls back to the plain one. *)
Theorem C139_mean : forall rlm d data data' ws robust fb, weights_ok ws -> plain robust ws (length (valid_data data)) fb ->
  Forall2 (near_datum d) data data' ->
  exists m m', gmean rlm data ws robust fb = Ok m /\ gmean rlm data' ws robust fb = Ok m' /\
    both_means (fun a b => 0 < b /\ up_to d a b) m m'.
Proof. exact mean_errors. Qed.
Print Assumptions C139_mean.

Example C139_mean_ex : weights_ok (Some [1; 0; 2; 3]) /\ Forall2 (near_datum (1 / 10)) mean_a mean_b /\
  plain false (Some [1; 0; 2; 3]) (length (valid_data mean_a)) 5 /\ plain true None (length (valid_data mean_a)) 5.
Proof.
  split; [exact mean_weights|]. split; [exact mean_near|]. split; [now left|]. right. split; [reflexivity|].
  rewrite mean_valid. cbn. lia.
Qed.

(** C139: larger data have a larger mean. *)
Theorem C139_monotone : forall rlm data data' ws robust fb, weights_ok ws -> plain robust ws (length (valid_data data)) fb ->
  Forall2 below_datum data data' ->
  exists m m', gmean rlm data ws robust fb = Ok m /\ gmean rlm data' ws robust fb = Ok m' /\ both_means Rle m m'.
Proof. exact mean_monotone. Qed.
Print Assumptions C139_monotone.

Example C139_monotone_ex : weights_ok (Some [1; 0; 2; 3]) /\ Forall2 below_datum mean_b mean_a /\
  plain false (Some [1; 0; 2; 3]) (length (valid_data mean_b)) 5.
Proof. split; [exact mean_weights|]. split; [exact mean_below|now left]. Qed.

(** C139: the same for the columns of a table, as for the means over events and for the mean site responses. *)
Theorem C139_list : forall rlm d rows rows' ncols ws robust fb, weights_ok ws -> plain robust ws (length rows) fb ->
  Forall2 (Forall2 (near_datum d)) rows rows' ->
  exists l l', gmeanlist rlm rows ncols ws robust fb = Ok l /\ gmeanlist rlm rows' ncols ws robust fb = Ok l' /\
    length l = ncols /\ Forall2 (both_means (fun a b => 0 < b /\ up_to d a b)) l l'.
Proof. exact list_errors. Qed.
Print Assumptions C139_list.

Example C139_list_ex : weights_ok None /\ plain true None (length [mean_a; mean_b]) 5 /\
  Forall2 (Forall2 (near_datum (1 / 10))) [mean_a; mean_a] [mean_b; mean_b].
Proof.
  split; [exact I|]. split; [right; split; [reflexivity|cbn; lia]|]. constructor; [exact mean_near|]. constructor; [exact mean_near|constructor].
Qed.

(** C139: the error of the logarithms of n data changes by at most d, or by d sqrt(n / (n - 1)) if it is the
    unbiased one. *)
Theorem C139_spread : forall rlm d data data' unbiased fb, 0 <= d -> Forall2 (near_datum d) data data' ->
  let n := length (valid_data data) in (2 <= n)%nat ->
  exists m s m' s', gstat rlm data None unbiased false fb = Ok (Some m, Some s) /\
    gstat rlm data' None unbiased false fb = Ok (Some m', Some s') /\
    Rabs (s - s') <= d * sqrt (INR n / INR (n - (if unbiased then 1 else 0))).
Proof. exact spread_errors. Qed.
Print Assumptions C139_spread.

Example C139_spread_ex : 0 <= 1 / 10 /\ Forall2 (near_datum (1 / 10)) mean_a mean_b /\ (2 <= length (valid_data mean_a))%nat.
Proof. split; [lra|]. split; [exact mean_near|]. rewrite mean_valid. cbn. lia. Qed.
