From Coq Require Import List Bool Reals Lra Lia Arith Permutation.
From Verif Require Import Base Pyf StatModel StatSpec.
Import ListNotations.
Open Scope R_scope.

(** ** sums *)
Lemma rsum_app a b : rsum (a ++ b) = rsum a + rsum b.
Proof. unfold rsum. induction a as [|x a IH]; cbn; [ring|]. rewrite IH. ring. Qed.

Lemma rsum_cons x l : rsum (x :: l) = x + rsum l.
Proof. reflexivity. Qed.

Lemma rsum_scale {A} k (f : A -> R) l : rsum (map (fun x => k * f x) l) = k * rsum (map f l).
Proof. induction l as [|x l IH]; [cbn; ring|]. cbn [map]. rewrite !rsum_cons, IH. ring. Qed.

Lemma rsum_plus {A} (f g : A -> R) l : rsum (map (fun x => f x + g x) l) = rsum (map f l) + rsum (map g l).
Proof. induction l as [|x l IH]; [cbn; ring|]. cbn [map]. rewrite !rsum_cons, IH. ring. Qed.

Lemma rsum_const {A} k (l : list A) : rsum (map (fun _ => k) l) = INR (length l) * k.
Proof.
  induction l as [|x l IH]; [cbn; ring|]. cbn [map length]. rewrite rsum_cons, IH, S_INR. ring.
Qed.

Lemma rsum_le {A} (f g : A -> R) l : (forall x, In x l -> f x <= g x) -> rsum (map f l) <= rsum (map g l).
Proof.
  induction l as [|x l IH]; intros H; [cbn; lra|]. cbn [map]. rewrite !rsum_cons.
  apply Rplus_le_compat; [apply H; now left|apply IH; intros; apply H; now right].
Qed.

Lemma rsum_ext {A} (f g : A -> R) l : (forall x, In x l -> f x = g x) -> rsum (map f l) = rsum (map g l).
Proof. intros H. f_equal. now apply map_ext_in. Qed.

Lemma rsum_nonneg {A} (f : A -> R) l : (forall x, In x l -> 0 <= f x) -> 0 <= rsum (map f l).
Proof.
  intros H. replace 0 with (rsum (map (fun _ : A => 0) l)) by (rewrite rsum_const; ring).
  now apply rsum_le.
Qed.

Lemma rsum_pos {A} (f : A -> R) l : l <> [] -> (forall x, In x l -> 0 < f x) -> 0 < rsum (map f l).
Proof.
  destruct l as [|x l]; [congruence|]. intros _ H. cbn [map]. rewrite rsum_cons.
  assert (0 < f x) by (apply H; now left).
  assert (0 <= rsum (map f l)) by (apply rsum_nonneg; intros; left; apply H; now right). lra.
Qed.

Lemma rsum_perm l l' : Permutation l l' -> rsum l = rsum l'.
Proof. induction 1; rewrite ?rsum_cons in *; try lra; reflexivity. Qed.

Lemma rsum_map_perm {A} (f : A -> R) l l' : Permutation l l' -> rsum (map f l) = rsum (map f l').
Proof. intros H. apply rsum_perm. now apply Permutation_map. Qed.

(** ** valid data *)
Lemma valid_pos x r : valid x = Some r -> 0 < r.
Proof. destruct x; cbn; try discriminate. destruct (Rlt_dec 0 x); [|discriminate]. intros [= <-]; auto. Qed.

Lemma log_masked_valid x : log_masked x = option_map ln (valid x).
Proof. destruct x; cbn; try reflexivity. now destruct (Rlt_dec 0 x). Qed.

Lemma valid_data_pos l x : In x (valid_data l) -> 0 < x.
Proof.
  induction l as [|a l IH]; cbn; [tauto|].
  destruct (valid a) eqn:E; cbn; [|assumption].
  intros [<-|H]; [now apply valid_pos in E|auto].
Qed.

Lemma valid_weighted_pos l ws p : In p (valid_weighted l ws) -> 0 < snd p.
Proof.
  revert ws. induction l as [|a l IH]; intros [|w ws]; cbn; try tauto.
  destruct (valid a) eqn:E; cbn; [|apply IH].
  intros [<-|H]; [now apply valid_pos in E|eauto].
Qed.

Lemma valid_weighted_w l ws p : In p (valid_weighted l ws) -> In (fst p) ws.
Proof.
  revert ws. induction l as [|a l IH]; intros [|w ws]; cbn; try tauto.
  destruct (valid a); cbn; intros H.
  - destruct H as [<-|H]; [now left|]. right. eapply IH; eauto.
  - right. eapply IH; eauto.
Qed.

Lemma unmasked_log l : unmasked (map log_masked l) = map ln (valid_data l).
Proof.
  induction l as [|a l IH]; cbn; [reflexivity|]. rewrite log_masked_valid.
  destruct (valid a); cbn; now rewrite IH.
Qed.

Lemma wunmasked_log l ws : wunmasked (map log_masked l) ws =
  map (fun p => (fst p, ln (snd p))) (valid_weighted l ws).
Proof.
  revert ws. induction l as [|a l IH]; intros [|w ws]; cbn; try reflexivity; rewrite ?log_masked_valid;
  destruct (valid a); cbn; try reflexivity; now rewrite IH.
Qed.

Lemma valid_weighted_snd l ws : length ws = length l ->
  map snd (valid_weighted l ws) = valid_data l.
Proof.
  revert ws. induction l as [|a l IH]; intros [|w ws]; cbn; try discriminate; auto.
  intros [= H]. destruct (valid a); cbn; now rewrite IH.
Qed.

(** ** logs of products *)
Lemma prod_pos l : (forall x, In x l -> 0 < x) -> 0 < prod l.
Proof.
  induction l as [|x l IH]; intros H; cbn; [lra|].
  apply Rmult_lt_0_compat; [apply H; now left|apply IH; intros; apply H; now right].
Qed.

Lemma rsum_ln l : (forall x, In x l -> 0 < x) -> rsum (map ln l) = ln (prod l).
Proof.
  induction l as [|x l IH]; intros H; cbn; [now rewrite ln_1|].
  change (ln x + rsum (map ln l) = ln (x * prod l)).
  rewrite ln_mult; [|apply H; now left|apply prod_pos; intros; apply H; now right].
  rewrite IH; [reflexivity|]. intros; apply H; now right.
Qed.

Lemma rsum_wln (l : list (R * R)) :
  rsum (map (fun p => fst p * ln (snd p)) l) = ln (prod (map (fun p => Rpower (snd p) (fst p)) l)).
Proof.
  rewrite <- rsum_ln.
  - rewrite map_map. f_equal. apply map_ext. intros p. unfold Rpower. now rewrite ln_exp.
  - intros x Hx. apply in_map_iff in Hx as (p & <- & _). apply exp_pos.
Qed.

(** ** gmean against the specification *)
Lemma gmean_plain rlm data fb :
  gmean rlm data None false fb =
  Ok (match valid_data data with [] => None | l => Some (geometric_mean l) end).
Proof.
  unfold gmean, gstat, weighted_stat, average. cbn [bind fst]. rewrite unmasked_log.
  assert (Hp := valid_data_pos data).
  destruct (valid_data data) as [|x l] eqn:E; [reflexivity|]. rewrite <- E in *.
  destruct (map ln (valid_data data)) as [|y m] eqn:E2; [rewrite E in E2; discriminate|].
  rewrite <- E2. cbn [option_map]. do 2 f_equal.
  unfold geometric_mean, Rpower. rewrite map_length, rsum_ln by assumption.
  f_equal. unfold Rdiv. ring.
Qed.

Lemma gmean_weighted rlm data ws fb :
  gmean rlm data (Some ws) false fb =
  Ok (let l := valid_weighted data ws in
      if Req_EM_T (rsum (map fst l)) 0 then None else Some (weighted_geometric_mean l)).
Proof.
  unfold gmean, gstat, weighted_stat, average. cbn [bind fst]. rewrite wunmasked_log.
  rewrite !map_map. cbn [fst snd]. cbn zeta.
  destruct (Req_EM_T _ 0) as [E|E]; [reflexivity|]. cbn [option_map]. do 2 f_equal.
  unfold weighted_geometric_mean, Rpower at 1. rewrite rsum_wln.
  f_equal. apply Rmult_comm.
Qed.

(** ** laws of the specification, as laws of gmean *)
Definition within (a b : R) (l : list R) := forall x, In x l -> a <= x <= b.

Lemma ln_le x y : 0 < x -> x <= y -> ln x <= ln y.
Proof. intros H [H1|<-]; [left; now apply ln_increasing|right; reflexivity]. Qed.

Lemma exp_le x y : x <= y -> exp x <= exp y.
Proof. intros [H|<-]; [left; now apply exp_increasing|right; reflexivity]. Qed.

Lemma exp_between a b y : 0 < a -> 0 < b -> ln a <= y <= ln b -> a <= exp y <= b.
Proof.
  intros Ha Hb [H1 H2]. split.
  - rewrite <- (exp_ln a) at 1 by assumption. now apply exp_le.
  - rewrite <- (exp_ln b) by assumption. now apply exp_le.
Qed.

Lemma weighted_bounds (l : list (R * R)) a b :
  0 < a -> (forall p, In p l -> 0 <= fst p) -> (forall p, In p l -> a <= snd p <= b) ->
  0 < rsum (map fst l) ->
  a <= weighted_geometric_mean l <= b.
Proof.
  intros Ha Hw Hb Hs.
  assert (Hb0 : 0 < b).
  { destruct l as [|p l]; [cbn in Hs; lra|]. specialize (Hb p (or_introl eq_refl)). lra. }
  unfold weighted_geometric_mean, Rpower at 1 3. fold (rsum (map fst l)).
  rewrite <- rsum_wln. apply exp_between; try assumption.
  set (S := rsum (map fst l)) in *.
  assert (Hlo : ln a * S <= rsum (map (fun p => fst p * ln (snd p)) l)).
  { unfold S. rewrite <- rsum_scale. apply rsum_le. intros p Hp.
    assert (ln a <= ln (snd p)) by (apply ln_le; [assumption|now apply Hb]).
    specialize (Hw p Hp). nra. }
  assert (Hhi : rsum (map (fun p => fst p * ln (snd p)) l) <= ln b * S).
  { unfold S. rewrite <- rsum_scale. apply rsum_le. intros p Hp.
    assert (ln (snd p) <= ln b) by (apply ln_le; [specialize (Hb p Hp); lra|now apply Hb]).
    specialize (Hw p Hp). nra. }
  split; apply Rmult_le_reg_l with S; try assumption;
    rewrite <- Rmult_assoc, Rinv_r, Rmult_1_l by lra; lra.
Qed.

Lemma plain_as_weighted l w : w <> 0 -> l <> [] -> (forall x, In x l -> 0 < x) ->
  geometric_mean l = weighted_geometric_mean (map (fun x => (w, x)) l).
Proof.
  intros Hw Hl Hp. unfold geometric_mean, weighted_geometric_mean, Rpower at 1 2.
  f_equal. rewrite <- rsum_wln. rewrite <- rsum_ln by assumption.
  fold (rsum (map fst (map (fun x => (w, x)) l))).
  rewrite !map_map. cbn [fst snd]. rewrite rsum_const, rsum_scale.
  assert (INR (length l) <> 0).
  { apply not_0_INR. destruct l; [congruence|cbn; lia]. }
  field. split; assumption.
Qed.

Lemma gmean_bounds rlm data ws fb a b m :
  0 < a -> (forall x, In x (valid_data data) -> a <= x <= b) ->
  match ws with None => True | Some ws => length ws = length data /\ forall w, In w ws -> 0 <= w end ->
  gmean rlm data ws false fb = Ok (Some m) -> a <= m <= b.
Proof.
  intros Ha Hb Hw. destruct ws as [ws|].
  - destruct Hw as [HL Hw]. rewrite gmean_weighted. cbn zeta.
    destruct (Req_EM_T _ 0) as [E|E]; [discriminate|]. intros [= <-].
    assert (Hf : forall p, In p (valid_weighted data ws) -> 0 <= fst p)
      by (intros p Hp; apply Hw; eapply valid_weighted_w; eauto).
    apply weighted_bounds; auto.
    + intros p Hp. apply Hb. rewrite <- (valid_weighted_snd data ws HL). now apply in_map.
    + assert (0 <= rsum (map fst (valid_weighted data ws))) by now apply rsum_nonneg. lra.
  - rewrite gmean_plain. assert (Hp := valid_data_pos data).
    destruct (valid_data data) as [|x l] eqn:E; [discriminate|]. rewrite <- E in *. intros [= <-].
    rewrite (plain_as_weighted (valid_data data) 1); [|lra|rewrite E; discriminate|assumption].
    apply weighted_bounds; auto.
    + intros p H. apply in_map_iff in H as (y & <- & _). cbn. lra.
    + intros p H. apply in_map_iff in H as (y & <- & Hy). cbn. auto.
    + rewrite map_map. apply rsum_pos; [rewrite E; discriminate|]. cbn. intros; lra.
Qed.

Lemma valid_fscale k x : 0 < k -> valid (fscale k x) = option_map (Rmult k) (valid x).
Proof.
  intros Hk. destruct x; cbn; try reflexivity.
  destruct (Rlt_dec 0 x), (Rlt_dec 0 (k * x)); try reflexivity; exfalso; nra.
Qed.

Lemma valid_data_fscale k l : 0 < k -> valid_data (map (fscale k) l) = map (Rmult k) (valid_data l).
Proof.
  intros Hk. induction l as [|a l IH]; cbn; [reflexivity|]. rewrite valid_fscale by assumption.
  destruct (valid a); cbn; now rewrite IH.
Qed.

Lemma valid_weighted_fscale k l ws : 0 < k ->
  valid_weighted (map (fscale k) l) ws = map (fun p => (fst p, k * snd p)) (valid_weighted l ws).
Proof.
  intros Hk. revert ws. induction l as [|a l IH]; intros [|w ws]; cbn; try reflexivity.
  rewrite valid_fscale by assumption.
  destruct (valid a); cbn; now rewrite IH.
Qed.

Lemma wgm_scale k l : 0 < k -> (forall p, In p l -> 0 < snd p) -> rsum (map fst l) <> 0 ->
  weighted_geometric_mean (map (fun p => (fst p, k * snd p)) l) = k * weighted_geometric_mean l.
Proof.
  intros Hk Hp Hs. unfold weighted_geometric_mean.
  rewrite !map_map. cbn [fst snd].
  fold (rsum (map fst l)). replace (fold_right Rplus 0 (map (fun x : R * R => fst x) l)) with (rsum (map fst l)) by reflexivity.
  set (S := rsum (map fst l)) in *.
  unfold Rpower at 1 3.
  assert (E1 : ln (prod (map (fun x => Rpower (k * snd x) (fst x)) l)) =
               S * ln k + rsum (map (fun p => fst p * ln (snd p)) l)).
  { rewrite <- rsum_ln.
    2:{ intros x Hx. apply in_map_iff in Hx as (p & <- & _). apply exp_pos. }
    rewrite map_map. unfold S.
    rewrite (rsum_ext _ (fun p => ln k * fst p + fst p * ln (snd p))).
    - rewrite rsum_plus, rsum_scale. ring.
    - intros p H. unfold Rpower. rewrite ln_exp, ln_mult by auto. ring. }
  rewrite E1, <- rsum_wln.
  rewrite Rmult_plus_distr_l, <- Rmult_assoc, Rinv_l, Rmult_1_l by assumption.
  rewrite exp_plus, exp_ln by assumption. reflexivity.
Qed.

Lemma gmean_scale rlm data ws fb k :
  0 < k ->
  gmean rlm (map (fscale k) data) ws false fb =
  match gmean rlm data ws false fb with Ok m => Ok (option_map (Rmult k) m) | Err e => Err e end.
Proof.
  intros Hk. destruct ws as [ws|].
  - rewrite !gmean_weighted, valid_weighted_fscale by assumption. cbn zeta.
    rewrite map_map. cbn [fst].
    change (fun x : R * R => fst x) with (@fst R R).
    destruct (Req_EM_T _ 0) as [E|E]; [reflexivity|].
    cbn [option_map]. do 2 f_equal. apply wgm_scale; auto. intros; eapply valid_weighted_pos; eauto.
  - rewrite !gmean_plain, valid_data_fscale by assumption.
    assert (Hp := valid_data_pos data).
    destruct (valid_data data) as [|x l] eqn:E; [reflexivity|].
    cbn [map option_map]. do 2 f_equal.
    assert (Hl : (x :: l) <> []) by discriminate.
    change (k * x :: map (Rmult k) l) with (map (Rmult k) (x :: l)). set (v := x :: l) in *.
    rewrite (plain_as_weighted (map (Rmult k) v) 1), (plain_as_weighted v 1); try assumption; try lra.
    + rewrite map_map. rewrite <- (wgm_scale k (map (fun x => (1, x)) v)).
      * now rewrite map_map.
      * assumption.
      * intros p H. apply in_map_iff in H as (y & <- & Hy). cbn. auto.
      * rewrite map_map. cbn [fst]. apply Rgt_not_eq. apply rsum_pos; [assumption|]. intros; lra.
    + unfold v. cbn. discriminate.
    + intros y H. apply in_map_iff in H as (z & <- & Hz). apply Rmult_lt_0_compat; auto.
Qed.

(** order *)
Lemma valid_weighted_combine l ws : length ws = length l ->
  valid_weighted l ws = flat_map (fun p => match valid (fst p) with Some r => [(snd p, r)] | None => [] end)
    (combine l ws).
Proof.
  revert ws. induction l as [|a l IH]; intros [|w ws]; cbn; try discriminate; auto.
  intros [= H]. rewrite IH by assumption. now destruct (valid a).
Qed.

Lemma flat_map_perm {A B} (f : A -> list B) l l' : Permutation l l' ->
  Permutation (flat_map f l) (flat_map f l').
Proof.
  induction 1; cbn; auto.
  - now apply Permutation_app_head.
  - rewrite !app_assoc. apply Permutation_app_tail, Permutation_app_comm.
  - etransitivity; eauto.
Qed.

Lemma valid_data_flat l : valid_data l = flat_map (fun x => match valid x with Some r => [r] | None => [] end) l.
Proof. induction l as [|a l IH]; cbn; [reflexivity|]. rewrite IH. now destruct (valid a). Qed.

Lemma prod_perm l l' : Permutation l l' -> prod l = prod l'.
Proof. induction 1; cbn in *; try (change (x * prod l = x * prod l'); rewrite IHPermutation; reflexivity); auto.
  - change (y * (x * prod l) = x * (y * prod l)). ring.
  - congruence.
Qed.

Lemma wgm_perm l l' : Permutation l l' -> weighted_geometric_mean l = weighted_geometric_mean l'.
Proof.
  intros H. unfold weighted_geometric_mean.
  rewrite (prod_perm _ _ (Permutation_map (fun p => Rpower (snd p) (fst p)) H)).
  f_equal. f_equal. apply (rsum_map_perm fst _ _ H).
Qed.

Lemma gmean_perm rlm data data' fb : Permutation data data' ->
  gmean rlm data None false fb = gmean rlm data' None false fb.
Proof.
  intros H. rewrite !gmean_plain.
  assert (Hp : Permutation (valid_data data) (valid_data data'))
    by (rewrite !valid_data_flat; now apply flat_map_perm).
  destruct (valid_data data) as [|x l] eqn:E; destruct (valid_data data') as [|x' l'] eqn:E'.
  - reflexivity.
  - apply Permutation_nil in Hp. discriminate.
  - apply Permutation_sym, Permutation_nil in Hp. discriminate.
  - unfold geometric_mean. now rewrite (prod_perm _ _ Hp), (Permutation_length Hp).
Qed.

Lemma gmean_perm_weighted rlm data ws data' ws' fb :
  length ws = length data -> length ws' = length data' ->
  Permutation (combine data ws) (combine data' ws') ->
  gmean rlm data (Some ws) false fb = gmean rlm data' (Some ws') false fb.
Proof.
  intros L L' H. rewrite !gmean_weighted. cbn zeta.
  assert (Hp : Permutation (valid_weighted data ws) (valid_weighted data' ws'))
    by (rewrite !valid_weighted_combine by assumption; now apply flat_map_perm).
  rewrite (rsum_map_perm fst _ _ Hp), (wgm_perm _ _ Hp). reflexivity.
Qed.

(** weights *)
Lemma valid_weighted_wscale k l ws :
  valid_weighted l (map (Rmult k) ws) = map (fun p => (k * fst p, snd p)) (valid_weighted l ws).
Proof.
  revert ws. induction l as [|a l IH]; intros [|w ws]; cbn; try reflexivity.
  destruct (valid a); cbn; now rewrite IH.
Qed.

Lemma wgm_wscale k l : k <> 0 -> rsum (map fst l) <> 0 ->
  weighted_geometric_mean (map (fun p => (k * fst p, snd p)) l) = weighted_geometric_mean l.
Proof.
  intros Hk Hs. unfold weighted_geometric_mean.
  rewrite !map_map. cbn [fst snd].
  fold (rsum (map fst l)). fold (rsum (map (fun x : R * R => k * fst x) l)).
  rewrite rsum_scale. set (S := rsum (map fst l)) in *.
  unfold Rpower at 1 3. rewrite <- rsum_wln. 
  replace (ln (prod (map (fun x => Rpower (snd x) (k * fst x)) l))) with
    (k * rsum (map (fun p => fst p * ln (snd p)) l)).
  - f_equal. change (rsum (map (fun x : R * R => fst x) l)) with S. field. split; assumption.
  - rewrite <- rsum_ln.
    2:{ intros x Hx. apply in_map_iff in Hx as (p & <- & _). apply exp_pos. }
    rewrite map_map, <- rsum_scale. apply rsum_ext. intros p _. unfold Rpower. rewrite ln_exp. ring.
Qed.

Lemma gmean_wscale rlm data ws fb k : k <> 0 ->
  gmean rlm data (Some (map (Rmult k) ws)) false fb = gmean rlm data (Some ws) false fb.
Proof.
  intros Hk. rewrite !gmean_weighted, valid_weighted_wscale. cbn zeta.
  rewrite map_map. cbn [fst]. rewrite rsum_scale.
  destruct (Req_EM_T (rsum (map fst (valid_weighted data ws))) 0) as [E|E].
  - rewrite E, Rmult_0_r. now destruct (Req_EM_T 0 0).
  - destruct (Req_EM_T _ 0) as [E'|E'].
    + exfalso. apply Rmult_integral in E'. tauto.
    + rewrite wgm_wscale by assumption. reflexivity.
Qed.

Lemma valid_weighted_const w l : valid_weighted l (repeat w (length l)) = map (fun x => (w, x)) (valid_data l).
Proof. induction l as [|a l IH]; cbn; [reflexivity|]. destruct (valid a); cbn; now rewrite IH. Qed.

Lemma gmean_equal_weights rlm data fb w : w <> 0 ->
  gmean rlm data (Some (repeat w (length data))) false fb = gmean rlm data None false fb.
Proof.
  intros Hw. rewrite gmean_weighted, gmean_plain, valid_weighted_const. cbn zeta.
  assert (Hp := valid_data_pos data).
  rewrite map_map. cbn [fst]. rewrite rsum_const.
  destruct (valid_data data) as [|x l] eqn:E.
  - cbn. rewrite Rmult_0_l. now destruct (Req_EM_T 0 0).
  - destruct (Req_EM_T _ 0) as [E'|E'].
    + exfalso. apply Rmult_integral in E' as [E'|E']; [|tauto].
      apply (not_0_INR (length (x :: l))); [cbn; lia|assumption].
    + do 2 f_equal. symmetry. apply plain_as_weighted; auto; discriminate.
Qed.

(** repetition *)
Lemma valid_data_app a b : valid_data (a ++ b) = valid_data a ++ valid_data b.
Proof. induction a as [|x a IH]; cbn; [reflexivity|]. destruct (valid x); cbn; now rewrite IH. Qed.

Lemma valid_data_repeat x n : valid_data (repeat x n) =
  match valid x with Some r => repeat r n | None => [] end.
Proof. induction n as [|n IH]; cbn; [now destruct (valid x)|]. rewrite IH. now destruct (valid x). Qed.

Lemma rsum_repeat x n : rsum (repeat x n) = INR n * x.
Proof. induction n as [|n IH]; [cbn; ring|]. cbn [repeat]. rewrite rsum_cons, IH, S_INR. ring. Qed.

Lemma map_repeat_ {A B} (f : A -> B) x n : map f (repeat x n) = repeat (f x) n.
Proof. induction n as [|n IH]; cbn; [reflexivity|now rewrite IH]. Qed.

Lemma repeat_weights data ns : length ns = length data ->
  let v := valid_data (concat (map (fun p => repeat (fst p) (snd p)) (combine data ns))) in
  let w := valid_weighted data (map INR ns) in
  INR (length v) = rsum (map fst w) /\
  rsum (map ln v) = rsum (map (fun p => fst p * ln (snd p)) w).
Proof.
  revert ns. induction data as [|a data IH]; intros [|n ns]; cbn [combine map concat valid_weighted valid_data]; try discriminate.
  - intros _. cbn. split; reflexivity.
  - intros [= H]. cbn [fst snd]. rewrite valid_data_app, valid_data_repeat.
    specialize (IH ns H). cbn zeta in *. destruct IH as [IH1 IH2].
    destruct (valid a) as [r|]; cbn [app].
    + rewrite app_length, repeat_length, plus_INR, map_app, rsum_app, map_repeat_, rsum_repeat.
      cbn [map fst snd]. rewrite !rsum_cons. cbn [fst snd]. rewrite IH1, IH2. split; reflexivity.
    + split; assumption.
Qed.

Lemma gmean_repeat rlm data ns fb : length ns = length data ->
  gmean rlm data (Some (map INR ns)) false fb =
  gmean rlm (concat (map (fun p => repeat (fst p) (snd p)) (combine data ns))) None false fb.
Proof.
  intros H. rewrite gmean_weighted, gmean_plain. cbn zeta.
  destruct (repeat_weights data ns H) as [H1 H2]. cbn zeta in *.
  set (v := valid_data (concat _)) in *. set (w := valid_weighted _ _) in *.
  rewrite <- H1.
  assert (Hp : forall x, In x v -> 0 < x) by (intros; eapply valid_data_pos; eauto).
  destruct v as [|x v'] eqn:E.
  - cbn [length INR]. now destruct (Req_EM_T 0 0).
  - rewrite <- E in *. destruct (Req_EM_T _ 0) as [E'|E'].
    + exfalso. rewrite E in E'. apply (not_0_INR (length (x :: v'))); [cbn; lia|assumption].
    + do 2 f_equal. unfold weighted_geometric_mean, geometric_mean, Rpower at 1 3.
      rewrite <- rsum_wln, <- rsum_ln by assumption. fold (rsum (map fst w)). now rewrite H1, H2.
Qed.

(** ** gmeanlist *)
Lemma mapM_length {A B} (f : A -> res B) l r : mapM f l = Ok r -> length r = length l.
Proof.
  revert r. induction l as [|a l IH]; cbn; intros r.
  - intros [= <-]. reflexivity.
  - destruct (f a); cbn; [|discriminate]. destruct (mapM f l); cbn; [|discriminate].
    intros [= <-]. cbn. f_equal. now apply IH.
Qed.

Lemma mapM_nth {A B} (f : A -> res B) l r k da db : mapM f l = Ok r -> (k < length l)%nat ->
  f (nth k l da) = Ok (nth k r db).
Proof.
  revert r k. induction l as [|a l IH]; cbn; intros r k; [lia|].
  destruct (f a) eqn:E; cbn; [|discriminate]. destruct (mapM f l) eqn:E2; cbn; [|discriminate].
  intros [= <-] Hk. destruct k as [|k]; cbn; [assumption|]. apply IH; [reflexivity|lia].
Qed.

Lemma mapM_ok {A B} (f : A -> res B) l : (forall a, In a l -> exists b, f a = Ok b) -> exists r, mapM f l = Ok r.
Proof.
  induction l as [|a l IH]; cbn; intros H; [eauto|].
  destruct (H a (or_introl eq_refl)) as [b ->]. cbn.
  destruct IH as [r ->]; [auto|]. cbn. eauto.
Qed.

Lemma unmasked_Some v : unmasked (map Some v) = v.
Proof. induction v as [|x v IH]; cbn; [reflexivity|now rewrite IH]. Qed.

Lemma gmean_robust_few rlm data fb : (length (valid_data data) < fb)%nat ->
  gmean rlm data None true fb = gmean rlm data None false fb.
Proof.
  intros H. unfold gmean, gstat, robust_stat. cbn [bind]. rewrite unmasked_log, map_length.
  apply Nat.ltb_lt in H. rewrite H. cbn [fst].
  unfold weighted_stat, average. cbn [fst]. rewrite unmasked_Some, unmasked_log. reflexivity.
Qed.

Lemma ptp0_spec x v : (forall y, In y v -> y = x) -> ptp0 v = true.
Proof.
  destruct v as [|z v]; [reflexivity|]. intros H. cbn. apply forallb_forall. intros y Hy.
  destruct (Req_EM_T y z); [reflexivity|]. exfalso. apply n.
  rewrite (H y), (H z); [reflexivity|now left|now right].
Qed.

Lemma gmean_identical rlm data fb x robust : (0 < fb)%nat ->
  valid_data data <> [] -> (forall y, In y (valid_data data) -> y = x) ->
  gmean rlm data None robust fb = Ok (Some x).
Proof.
  intros Hfb Hne Hx.
  assert (Hp := valid_data_pos data).
  assert (Hplain : gmean rlm data None false fb = Ok (Some x)).
  { rewrite gmean_plain. destruct (valid_data data) as [|y l] eqn:E; [congruence|].
    rewrite <- E in *. do 2 f_equal. unfold geometric_mean.
    assert (0 < x) by (rewrite <- (Hx y) by (rewrite E; now left); apply Hp; rewrite E; now left).
    unfold Rpower. rewrite <- rsum_ln by assumption.
    rewrite (rsum_ext ln (fun _ => ln x)) by (intros z Hz; now rewrite (Hx z Hz)).
    rewrite rsum_const. rewrite <- Rmult_assoc, Rinv_l, Rmult_1_l.
    - now apply exp_ln.
    - apply not_0_INR. rewrite E. cbn. lia. }
  destruct robust; [|assumption].
  destruct (Nat.lt_ge_cases (length (valid_data data)) fb) as [L|L].
  { now rewrite gmean_robust_few. }
  unfold gmean, gstat, robust_stat in *. cbn [bind] in *. rewrite unmasked_log, map_length.
  apply Nat.ltb_ge in L. rewrite L.
  rewrite (ptp0_spec (ln x)).
  2:{ intros y H. apply in_map_iff in H as (z & <- & Hz). now rewrite (Hx z Hz). }
  cbn [fst].
  unfold weighted_stat, average in Hplain. cbn [fst] in Hplain. rewrite unmasked_log in Hplain.
  destruct (map ln (valid_data data)) as [|y m] eqn:E2.
  - destruct (valid_data data); [congruence|discriminate].
  - rewrite <- E2, map_length in Hplain. rewrite <- E2. exact Hplain.
Qed.

Lemma gmean_None_iff rlm data robust fb : (0 < fb)%nat ->
  exists m, gmean rlm data None robust fb = Ok m /\ (m = None <-> valid_data data = []).
Proof.
  intros Hfb.
  destruct (Nat.lt_ge_cases (length (valid_data data)) fb) as [L|L].
  - assert (E : gmean rlm data None robust fb = gmean rlm data None false fb).
    { destruct robust; [|reflexivity]. now apply gmean_robust_few. }
    rewrite E, gmean_plain. destruct (valid_data data); eexists; split; eauto; split; congruence.
  - destruct robust.
    + unfold gmean, gstat, robust_stat. cbn [bind]. rewrite unmasked_log, map_length.
      apply Nat.ltb_ge in L as L'. rewrite L'.
      destruct (ptp0 _); cbn [fst option_map]; eexists; (split; [reflexivity|]); split; try discriminate;
      intros E; rewrite E in L; cbn in L; lia.
    + rewrite gmean_plain. destruct (valid_data data); eexists; split; eauto; split; congruence.
Qed.

Lemma gmeanlist_spec rlm rows ncols robust fb : (0 < fb)%nat ->
  exists r, gmeanlist rlm rows ncols None robust fb = Ok r /\ length r = ncols /\
    forall j, (j < ncols)%nat ->
      (nth j r None = None <-> valid_data (map (fun row => nth j row FNan) rows) = []).
Proof.
  intros Hfb. unfold gmeanlist.
  destruct (mapM_ok (fun j => gmean rlm (column rows j) None robust fb) (seq 0 ncols)) as [r Hr].
  { intros j _. destruct (gmean_None_iff rlm (column rows j) robust fb Hfb) as (m & -> & _). eauto. }
  exists r. split; [assumption|]. split.
  - rewrite (mapM_length _ _ _ Hr). apply seq_length.
  - intros j Hj. assert (H := mapM_nth _ _ _ j 0%nat None Hr). rewrite seq_length, seq_nth in H by assumption.
    specialize (H Hj). cbn [Nat.add] in H.
    destruct (gmean_None_iff rlm (column rows j) robust fb Hfb) as (m & Hm & Hi).
    rewrite Hm in H. injection H as ->. exact Hi.
Qed.

Lemma gmeanlist_weighted_spec rlm rows ncols ws fb :
  length ws = length rows -> (forall w, In w ws -> 0 < w) ->
  exists r, gmeanlist rlm rows ncols (Some ws) false fb = Ok r /\ length r = ncols /\
    forall j, (j < ncols)%nat ->
      (nth j r None = None <-> valid_data (map (fun row => nth j row FNan) rows) = []).
Proof.
  intros HL Hw. unfold gmeanlist.
  destruct (mapM_ok (fun j => gmean rlm (column rows j) (Some ws) false fb) (seq 0 ncols)) as [r Hr].
  { intros j _. rewrite gmean_weighted. eauto. }
  exists r. split; [assumption|]. split.
  - rewrite (mapM_length _ _ _ Hr). apply seq_length.
  - intros j Hj. assert (H := mapM_nth _ _ _ j 0%nat None Hr). rewrite seq_length, seq_nth in H by assumption.
    specialize (H Hj). cbn [Nat.add] in H. rewrite gmean_weighted in H. cbn zeta in H.
    fold (column rows j).
    assert (HL' : length ws = length (column rows j)) by (unfold column; now rewrite map_length).
    rewrite <- (valid_weighted_snd _ _ HL').
    destruct (valid_weighted (column rows j) ws) as [|p l] eqn:E.
    + cbn in H. destruct (Req_EM_T 0 0); [|congruence]. injection H as <-. cbn. tauto.
    + destruct (Req_EM_T _ 0) as [E'|E'].
      * exfalso. assert (0 < rsum (map fst (p :: l))); [|lra].
        apply rsum_pos; [discriminate|]. intros q Hq. apply Hw. apply (valid_weighted_w (column rows j)).
        now rewrite E.
      * injection H as <-. cbn. split; discriminate.
Qed.

Lemma gmeanlist_column rlm rows ncols ws robust fb r j :
  gmeanlist rlm rows ncols ws robust fb = Ok r -> (j < ncols)%nat ->
  gmean rlm (map (fun row => nth j row FNan) rows) ws robust fb = Ok (nth j r None).
Proof.
  intros Hr Hj. assert (H := mapM_nth _ _ _ j 0%nat None Hr). rewrite seq_length, seq_nth in H by assumption.
  exact (H Hj).
Qed.

(** ** gerr *)
Lemma gerr_shape rlm data ws unbiased fb m lo up :
  gerr rlm data ws unbiased false fb = Ok (Some (m, lo, up)) ->
  0 < m /\ 0 < m - lo /\ 0 <= lo <= up /\ (m - lo) * (m + up) = m * m.
Proof.
  unfold gerr, gstat. cbn [bind].
  destruct (weighted_stat _ _ _) as [mean std] eqn:E.
  destruct mean as [mean|]; [|discriminate]. destruct std as [err|]; [|discriminate].
  intros [= <- <- <-].
  assert (He : 0 <= err).
  { unfold weighted_stat in E. injection E as _ E.
    destruct (length _ <? 2)%nat; [discriminate|]. destruct ws as [ws|].
    - destruct (average _ _) as [var|]; [|discriminate]. destruct unbiased.
      + destruct (Req_EM_T _ 0); [discriminate|]. injection E as <-. apply sqrt_pos.
      + injection E as <-. apply sqrt_pos.
    - destruct (_ <=? 0)%nat; [discriminate|]. injection E as <-. apply sqrt_pos. }
  assert (H1 := exp_pos mean). assert (H2 := exp_pos (mean - err)).
  assert (E1 : exp (mean - err) = exp mean * exp (- err)) by (rewrite <- exp_plus; f_equal; ring).
  assert (E2 : exp (mean + err) = exp mean * exp err) by (now rewrite exp_plus).
  assert (E3 : exp (- err) * exp err = 1).
  { rewrite <- exp_plus. replace (- err + err) with 0 by ring. apply exp_0. }
  assert (1 <= exp err) by (rewrite <- exp_0; now apply exp_le).
  assert (0 < exp (- err)) by apply exp_pos.
  rewrite E1, E2. set (M := exp mean) in *. set (a := exp (- err)) in *. set (b := exp err) in *.
  assert (a <= 1) by nra.
  assert (2 <= a + b).
  { assert (0 <= (1 - a) * (b - 1)) by (apply Rmult_le_pos; lra). lra. }
  split; [assumption|]. split; [nra|]. split; [split; nra|].
  replace ((M - (M - M * a)) * (M + (M * b - M))) with (M * M * (a * b)) by ring. rewrite E3. ring.
Qed.

Lemma gerr_shape_robust rlm data fb m lo up :
  (forall v, 0 <= snd (rlm v)) ->
  gerr rlm data None true true fb = Ok (Some (m, lo, up)) ->
  0 < m /\ 0 < m - lo /\ 0 <= lo <= up /\ (m - lo) * (m + up) = m * m.
Proof.
  intros Hr. unfold gerr, gstat. cbn [bind].
  destruct (robust_stat _ _ _) as [mean std] eqn:E.
  destruct mean as [mean|]; [|discriminate]. destruct std as [err|]; [|discriminate].
  intros [= <- <- <-].
  assert (He : 0 <= err).
  { unfold robust_stat in E. destruct (length _ <? fb)%nat.
    - unfold weighted_stat in E. injection E as _ E.
      destruct (length _ <? 2)%nat; [discriminate|].
      destruct (_ <=? 0)%nat; [discriminate|]. injection E as <-. apply sqrt_pos.
    - destruct (ptp0 _); injection E as _ <-; [lra|apply Hr]. }
  assert (H1 := exp_pos mean). assert (H2 := exp_pos (mean - err)).
  assert (E1 : exp (mean - err) = exp mean * exp (- err)) by (rewrite <- exp_plus; f_equal; ring).
  assert (E2 : exp (mean + err) = exp mean * exp err) by (now rewrite exp_plus).
  assert (E3 : exp (- err) * exp err = 1).
  { rewrite <- exp_plus. replace (- err + err) with 0 by ring. apply exp_0. }
  assert (1 <= exp err) by (rewrite <- exp_0; now apply exp_le).
  assert (0 < exp (- err)) by apply exp_pos.
  rewrite E1, E2. set (M := exp mean) in *. set (a := exp (- err)) in *. set (b := exp err) in *.
  assert (a <= 1) by nra.
  assert (2 <= a + b).
  { assert (0 <= (1 - a) * (b - 1)) by (apply Rmult_le_pos; lra). lra. }
  split; [assumption|]. split; [nra|]. split; [split; nra|].
  replace ((M - (M - M * a)) * (M + (M * b - M))) with (M * M * (a * b)) by ring. rewrite E3. ring.
Qed.

Lemma wunmasked_map l ws f : wunmasked (map (option_map f) l) ws =
  map (fun p => (fst p, f (snd p))) (wunmasked l ws).
Proof.
  revert ws. induction l as [|[x|] l IH]; intros [|w ws]; cbn; try reflexivity; now rewrite IH.
Qed.

Lemma sum_sq_le (l : list R) : (forall x, In x l -> 0 < x) ->
  rsum (map (fun x => x ^ 2) l) <= rsum l ^ 2 /\
  ((2 <= length l)%nat -> rsum (map (fun x => x ^ 2) l) < rsum l ^ 2).
Proof.
  induction l as [|x l IH]; intros H; [cbn; split; [lra|lia]|].
  assert (Hx : 0 < x) by (apply H; now left).
  destruct IH as [IH1 IH2]; [intros; apply H; now right|].
  cbn [map]. rewrite !rsum_cons.
  assert (Hs : 0 <= rsum l).
  { rewrite <- (map_id l). apply rsum_nonneg. intros; left; apply H; now right. }
  split; [nra|]. cbn [length]. intros HL.
  assert (0 < rsum l).
  { rewrite <- (map_id l). apply rsum_pos; [destruct l; [cbn in HL; lia|discriminate]|].
    intros; apply H; now right. }
  nra.
Qed.

(** the error exists as soon as there are two valid data *)
Lemma gerr_exists rlm data ws unbiased fb :
  (2 <= length (valid_data data))%nat ->
  match ws with None => True | Some ws => length ws = length data /\ forall w, In w ws -> 0 < w end ->
  exists m lo up, gerr rlm data ws unbiased false fb = Ok (Some (m, lo, up)).
Proof.
  intros H2 Hw. unfold gerr, gstat, weighted_stat. cbn [bind]. rewrite unmasked_log, map_length.
  assert (E : (length (valid_data data) <? 2)%nat = false) by now apply Nat.ltb_ge. rewrite E.
  destruct ws as [ws|].
  - destruct Hw as [HL Hw]. unfold average at 2 3. rewrite wunmasked_map, wunmasked_log, !map_map.
    cbn [fst snd]. set (l := valid_weighted data ws).
    assert (Hlen : length l = length (valid_data data)).
    { unfold l. rewrite <- (valid_weighted_snd data ws HL). now rewrite map_length. }
    assert (Hpos : forall x, In x (map fst l) -> 0 < x).
    { intros x Hx. apply in_map_iff in Hx as (p & <- & Hp). apply Hw. eapply valid_weighted_w; eauto. }
    assert (Hs : 0 < rsum (map fst l)).
    { apply rsum_pos; [intros Hn; rewrite Hn in Hlen; cbn in Hlen; lia|].
      intros p Hp. apply Hpos. now apply in_map. }
    destruct (average (map log_masked data) (Some ws)) as [m|] eqn:Em.
    2:{ unfold average in Em. rewrite wunmasked_log, map_map in Em. cbn [fst] in Em. fold l in Em.
        change (fun x : R * R => fst x) with (@fst R R) in Em.
        destruct (Req_EM_T _ 0); [lra|discriminate]. }
    destruct (Req_EM_T (rsum (map (fun x => fst x) l)) 0) as [Z|Z]; [change (rsum (map fst l) = 0) in Z; lra|].
    destruct unbiased; [|do 3 eexists; reflexivity].
    destruct (sum_sq_le (map fst l) Hpos) as [_ Hlt]. rewrite map_map in Hlt.
    rewrite map_length in Hlt. specialize (Hlt ltac:(lia)).
    destruct (Req_EM_T _ 0) as [Z2|Z2]; [exfalso|do 3 eexists; reflexivity].
    change (rsum (map (fun x => fst x) l)) with (rsum (map fst l)) in Z2.
    set (S := rsum (map fst l)) in *.
    assert (rsum (map (fun x => fst x ^ 2) l) / S ^ 2 < 1).
    { apply Rmult_lt_reg_r with (S ^ 2); [nra|]. unfold Rdiv. rewrite Rmult_assoc, Rinv_l by nra. lra. }
    lra.
  - unfold average. rewrite unmasked_log.
    destruct (map ln (valid_data data)) as [|y m] eqn:E2.
    { destruct (valid_data data); [cbn in H2; lia|discriminate]. }
    destruct (_ <=? 0)%nat eqn:E3.
    + apply Nat.leb_le in E3. destruct unbiased; lia.
    + do 3 eexists. reflexivity.
Qed.

Lemma sqrt_le_ a b : a <= b -> sqrt a <= sqrt b.
Proof. intros. now apply sqrt_le_1_alt. Qed.

Lemma Some_inj {A} (x y : A) : Some x = Some y -> x = y.
Proof. congruence. Qed.

(** unbiased errors are at least the biased ones *)
Lemma gerr_unbiased rlm data ws fb m lo up m' lo' up' :
  match ws with None => True | Some ws => length ws = length data /\ forall w, In w ws -> 0 < w end ->
  gerr rlm data ws true false fb = Ok (Some (m, lo, up)) ->
  gerr rlm data ws false false fb = Ok (Some (m', lo', up')) ->
  m = m' /\ lo' <= lo /\ up' <= up.
Proof.
  intros Hw. unfold gerr, gstat. cbn [bind].
  destruct (weighted_stat _ _ true) as [[mean|] [err|]] eqn:E; try discriminate.
  destruct (weighted_stat _ _ false) as [[mean'|] [err'|]] eqn:E'; try discriminate.
  intros [= <- <- <-] [= <- <- <-].
  assert (Hm : mean = mean') by (unfold weighted_stat in E, E'; congruence). subst mean'.
  assert (He : err' <= err).
  { unfold weighted_stat in E, E'. assert (Em := f_equal fst E). apply (f_equal snd) in E, E'. cbn [fst snd] in *.
    rewrite unmasked_log, map_length in *.
    destruct (length (valid_data data) <? 2)%nat eqn:E2; [discriminate|]. apply Nat.ltb_ge in E2.
    destruct ws as [ws|].
    - destruct Hw as [HL Hw]. rewrite Em in *.
      destruct (average _ _) as [var|] eqn:Ev in E; [|discriminate]. rewrite Ev in E'.
      apply Some_inj in E'. subst err'.
      destruct (Req_EM_T _ 0) as [Z|Z]; [discriminate|]. apply Some_inj in E. subst err.
      apply sqrt_le_. rewrite wunmasked_log, !map_map in Z |- *. cbn [fst snd] in *.
      set (l := valid_weighted data ws) in *.
      assert (Hlen : length l = length (valid_data data)).
      { unfold l. rewrite <- (valid_weighted_snd data ws HL). now rewrite map_length. }
      assert (Hpos : forall x, In x (map fst l) -> 0 < x).
      { intros x Hx. apply in_map_iff in Hx as (p & <- & Hp). apply Hw. eapply valid_weighted_w; eauto. }
      assert (Hs : 0 < rsum (map fst l)).
      { apply rsum_pos; [intros Hn; rewrite Hn in Hlen; cbn in Hlen; lia|].
        intros p Hp. apply Hpos. now apply in_map. }
      destruct (sum_sq_le (map fst l) Hpos) as [_ Hlt]. rewrite map_map, map_length in Hlt.
      specialize (Hlt ltac:(lia)).
      change (rsum (map (fun x => fst x) l)) with (rsum (map fst l)) in *.
      set (S := rsum (map fst l)) in *.
      assert (Hq : 0 <= rsum (map (fun x => fst x ^ 2) l) / S ^ 2 < 1).
      { split.
        - apply Rmult_le_pos; [|left; apply Rinv_0_lt_compat; nra].
          apply rsum_nonneg. intros; apply pow2_ge_0.
        - apply Rmult_lt_reg_r with (S ^ 2); [nra|]. unfold Rdiv. rewrite Rmult_assoc, Rinv_l by nra. lra. }
      set (q := rsum (map (fun x => fst x ^ 2) l) / S ^ 2) in *.
      assert (Hvar : 0 <= var).
      { unfold average in Ev. rewrite wunmasked_map, wunmasked_log, !map_map in Ev. cbn [fst snd] in Ev.
        fold l in Ev. destruct (Req_EM_T _ 0); [discriminate|]. apply Some_inj in Ev. subst var.
        apply Rmult_le_pos; [|left; apply Rinv_0_lt_compat; assumption].
        apply rsum_nonneg. intros p Hp. apply Rmult_le_pos; [left; apply Hpos; now apply in_map|apply pow2_ge_0]. }
      apply Rmult_le_reg_r with (1 - q); [lra|]. unfold Rdiv. rewrite Rmult_assoc, Rinv_l by lra. nra.
    - destruct (_ <=? 0)%nat eqn:E3 in E; [discriminate|]. destruct (_ <=? 0)%nat in E'; [discriminate|].
      apply Some_inj in E, E'. subst err err'. apply sqrt_le_.
      apply Rmult_le_compat_l.
      + apply rsum_nonneg. intros; apply pow2_ge_0.
      + apply Nat.leb_gt in E3. apply Rinv_le_contravar; [now apply lt_0_INR|]. apply le_INR. lia. }
  split; [reflexivity|]. split.
  - assert (exp (mean - err) <= exp (mean - err')) by (apply exp_le; lra). lra.
  - assert (exp (mean + err') <= exp (mean + err)) by (apply exp_le; lra). lra.
Qed.

(** equal weights *)
Lemma weighted_stat_equal_weights data w unbiased : 0 < w -> (2 <= length (valid_data data))%nat ->
  weighted_stat (map log_masked data) (Some (repeat w (length data))) unbiased =
  weighted_stat (map log_masked data) None unbiased.
Proof.
  intros Hw H2.
  assert (Em : average (map log_masked data) (Some (repeat w (length data))) =
               average (map log_masked data) None).
  { unfold average. rewrite wunmasked_log, unmasked_log, valid_weighted_const, !map_map. cbn [fst snd].
    rewrite rsum_const, rsum_scale.
    destruct (map ln (valid_data data)) as [|y m] eqn:E; [destruct (valid_data data); [cbn in H2; lia|discriminate]|].
    rewrite <- E, map_length.
    assert (0 < INR (length (valid_data data))) by (apply lt_0_INR; lia).
    destruct (Req_EM_T _ 0) as [Z|Z]; [nra|]. f_equal. field. split; lra. }
  unfold weighted_stat. rewrite Em. f_equal.
  destruct (average (map log_masked data) None) as [m|] eqn:Ea.
  2:{ unfold average in Ea. rewrite unmasked_log in Ea. destruct (valid_data data); [cbn in H2; lia|discriminate]. }
  rewrite unmasked_log, map_length.
  assert (E : (length (valid_data data) <? 2)%nat = false) by now apply Nat.ltb_ge. rewrite E.
  unfold average. rewrite wunmasked_map, wunmasked_log, valid_weighted_const, !map_map. cbn [fst snd].
  rewrite !rsum_const, !rsum_scale.
  set (n := length (valid_data data)) in *. set (Q := rsum (map (fun x => (ln x - m) ^ 2) (valid_data data))).
  assert (Hn : 2 <= INR n) by (replace 2 with (INR 2) by reflexivity; now apply le_INR).
  destruct (Req_EM_T (INR n * w) 0) as [Z|Z]; [nra|].
  destruct unbiased.
  - assert (Eden : 1 - INR n * w ^ 2 / (INR n * w) ^ 2 = (INR n - 1) / INR n) by (field; split; lra).
    rewrite Eden.
    assert (0 < (INR n - 1) / INR n) by (apply Rdiv_lt_0_compat; lra).
    destruct (Req_EM_T ((INR n - 1) / INR n) 0); [lra|].
    assert ((n - 1 <=? 0)%nat = false) as -> by (apply Nat.leb_gt; lia).
    do 2 f_equal. rewrite minus_INR by lia. change (INR 1) with 1. field. lra.
  - rewrite Nat.sub_0_r. assert ((n <=? 0)%nat = false) as -> by (apply Nat.leb_gt; lia).
    do 2 f_equal. field. lra.
Qed.

Lemma gerr_equal_weights rlm data w unbiased fb : 0 < w -> (2 <= length (valid_data data))%nat ->
  gerr rlm data (Some (repeat w (length data))) unbiased false fb = gerr rlm data None unbiased false fb.
Proof. intros. unfold gerr, gstat. cbn [bind]. now rewrite weighted_stat_equal_weights. Qed.

(** ** sample data *)
Lemma valid1 : valid (FNum 1) = Some 1.
Proof. cbn. destruct (Rlt_dec 0 1); [reflexivity|lra]. Qed.
Lemma valid4 : valid (FNum 4) = Some 4.
Proof. cbn. destruct (Rlt_dec 0 4); [reflexivity|lra]. Qed.
Lemma validm : valid (FNum (-3)) = None.
Proof. cbn. destruct (Rlt_dec 0 (-3)); [lra|reflexivity]. Qed.

(** sample data: two valid and three invalid entries *)
Definition data_ex := [FNum 1; FNan; FNum (-3); FPInf; FNum 4].
Lemma valid_data_ex : valid_data data_ex = [1; 4].
Proof. unfold data_ex, valid_data. now rewrite valid1, valid4, validm. Qed.

(** C07: robust means with weights *)
Lemma robust_weights rlm data ws unbiased fb :
  gmean rlm data (Some ws) true fb = Err NotImplementedError /\
  gerr rlm data (Some ws) unbiased true fb = Err NotImplementedError.
Proof. split; reflexivity. Qed.

(** C08: few values *)
Lemma gerr_robust_few rlm data fb unbiased : (length (valid_data data) < fb)%nat ->
  gerr rlm data None unbiased true fb = gerr rlm data None true false fb.
Proof.
  intros H. unfold gerr, gstat, robust_stat. cbn [bind]. rewrite unmasked_log, map_length.
  destruct (Nat.ltb_spec (length (valid_data data)) fb); [|lia].
  assert (E : forall l l', unmasked l = unmasked l' -> weighted_stat l None true = weighted_stat l' None true).
  { intros l l' E. unfold weighted_stat, average. now rewrite E. }
  rewrite (E (map Some (map ln (valid_data data))) (map log_masked data)); [reflexivity|].
  rewrite unmasked_log. clear. induction (map ln (valid_data data)) as [|x l IH]; [reflexivity|]. cbn. now f_equal.
Qed.

Lemma gerr_plain_ex fb : exists m lo up, gerr (fun _ => (0, 0)) data_ex None true false fb = Ok (Some (m, lo, up)).
Proof.
  unfold gerr, gstat. cbn [bind]. unfold weighted_stat, average. rewrite unmasked_log, valid_data_ex. cbn. do 3 eexists. reflexivity.
Qed.
