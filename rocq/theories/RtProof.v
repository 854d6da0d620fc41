From Coq Require Import String List Bool Reals Lra Lia Arith.
From Coquelicot Require Import Coquelicot.
From Verif Require Import Base RtModel RtSpec.
Import ListNotations.
Open Scope R_scope.

(** ** elementary *)

Lemma ltb0_true x : ltb0 x = true <-> x < 0.
Proof. unfold ltb0. destruct (Rlt_dec x 0); split; intros; auto; congruence. Qed.

Lemma ltb0_false x : ltb0 x = false <-> 0 <= x.
Proof. unfold ltb0. destruct (Rlt_dec x 0); split; intros; try lra; congruence. Qed.

Lemma front_iff c t r : 0 < c -> (c * t - r < 0 <-> t - r / c < 0).
Proof.
  intros Hc. replace (c * t - r) with (c * (t - r / c)) by (field; lra).
  split; intros H.
  - apply Rmult_lt_reg_l with c; lra.
  - rewrite <- (Rmult_0_r c). now apply Rmult_lt_compat_l.
Qed.

Lemma front_iff2 c t r : 0 < c -> (r / c < t <-> r < c * t).
Proof.
  intros Hc. split; intros H.
  - apply Rmult_lt_reg_r with (/ c); [now apply Rinv_0_lt_compat|].
    replace (c * t * / c) with t by (field; lra). exact H.
  - apply Rmult_lt_reg_r with c; [lra|]. unfold Rdiv.
    rewrite Rmult_assoc, Rinv_l by lra. lra.
Qed.

Lemma select_documented ty :
  In ty documented_types <-> exists cd, select ty = Some cd.
Proof.
  unfold select, documented_types. cbn [In]. split.
  - intros [<-|[<-|[<-|[<-|[<-|[<-|[<-|[<-|[<-|[]]]]]]]]]]; cbn; eauto.
  - intros (cd & H).
    repeat match type of H with
           | context [String.eqb ty ?s] => destruct (String.eqb_spec ty s); [subst; tauto|]
           end.
    discriminate.
Qed.

Lemma select_unknown ty : ~ In ty documented_types -> select ty = None.
Proof.
  intros H. destruct (select ty) eqn:E; [|reflexivity].
  exfalso. apply H. apply select_documented. eauto.
Qed.

(** ** causality *)

Lemma G_scalar_causal ty r t c g0 :
  t < r / c -> G_scalar ty r t c g0 = Ok 0.
Proof. intros H. unfold G_scalar. destruct (Rlt_dec (t - r / c) 0); [reflexivity|lra]. Qed.

Lemma G_scalar_unknown ty r t c g0 :
  ~ In ty documented_types -> r / c <= t -> G_scalar ty r t c g0 = Err UnboundLocalError.
Proof.
  intros H Ht. unfold G_scalar. rewrite (select_unknown _ H).
  destruct (Rlt_dec (t - r / c) 0); [lra|reflexivity].
Qed.

(** ** counting in monotone vectors *)

Lemma increasing_tail a l : increasing (a :: l) -> increasing l.
Proof. intros H i j Hij. apply (H (S i) (S j)). cbn. lia. Qed.

Lemma count_prefix (p : R -> bool) l :
  increasing l ->
  (forall x y, x < y -> p y = true -> p x = true) ->
  forall k, (k < length l)%nat ->
    (p (nth k l 0) = true <-> (k < count_nonzero p l)%nat).
Proof.
  intros Hinc Hp. induction l as [|a l IH]; intros k Hk; [cbn in Hk; lia|].
  unfold count_nonzero in *. cbn [filter].
  specialize (IH (increasing_tail _ _ Hinc)).
  destruct (p a) eqn:Ea; cbn [length].
  - destruct k as [|k]; cbn [nth].
    + rewrite Ea. split; [lia|reflexivity].
    + cbn in Hk. rewrite IH by lia. lia.
  - assert (Hnil : filter p l = []).
    { destruct (filter p l) as [|b m] eqn:Ef; [reflexivity|].
      assert (Hb : In b (filter p l)) by (rewrite Ef; left; reflexivity).
      apply filter_In in Hb. destruct Hb as [Hb Hpb].
      apply (In_nth _ _ 0) in Hb. destruct Hb as (j & Hj & Hjb).
      assert (a < b).
      { rewrite <- Hjb. apply (Hinc 0%nat (S j)). cbn. lia. }
      rewrite (Hp a b) in Ea; auto; discriminate. }
    rewrite Hnil. cbn. split; [|lia]. intros H.
    destruct k as [|k]; cbn [nth] in H; [congruence|].
    cbn in Hk. apply IH in H; [|lia]. rewrite Hnil in H. cbn in H. lia.
Qed.

Lemma count_suffix (p : R -> bool) l :
  increasing l ->
  (forall x y, x < y -> p x = true -> p y = true) ->
  forall k, (k < length l)%nat ->
    (p (nth k l 0) = true <-> (length l - count_nonzero p l <= k)%nat).
Proof.
  intros Hinc Hp.
  assert (Hlen : (count_nonzero p l + length (filter (fun x => negb (p x)) l))%nat = length l).
  { unfold count_nonzero. clear. induction l as [|a l IH]; cbn; [reflexivity|].
    destruct (p a); cbn; lia. }
  intros k Hk.
  assert (Hmono : forall x y, x < y -> negb (p y) = true -> negb (p x) = true).
  { intros x y Hxy Hy. destruct (p x) eqn:E; [|reflexivity].
    rewrite (Hp x y Hxy E) in Hy. discriminate. }
  assert (H := count_prefix (fun x => negb (p x)) l Hinc Hmono k Hk). cbv beta in H.
  unfold count_nonzero in *.
  destruct (p (nth k l 0)); cbn [negb] in H.
  - split; intros; [|reflexivity].
    destruct (Nat.le_gt_cases (length l - length (filter p l)) k); [assumption|].
    assert (false = true) by (apply H; lia). discriminate.
  - split; intros; [discriminate|].
    assert (k < length (filter (fun x => negb (p x)) l))%nat by (apply H; reflexivity). lia.
Qed.

Lemma count_le p l : (count_nonzero p l <= length l)%nat.
Proof. unfold count_nonzero. induction l as [|a l IH]; cbn; [lia|]. destruct (p a); cbn; lia. Qed.

Lemma set_nth_length l i v : length (set_nth l i v) = length l.
Proof. revert i; induction l as [|a l IH]; intros [|i]; cbn; auto. Qed.

Lemma set_nth_eq l i v d : (i < length l)%nat -> nth i (set_nth l i v) d = v.
Proof. revert i; induction l as [|a l IH]; intros [|i] H; cbn in *; try lia; auto. apply IH; lia. Qed.

Lemma set_nth_neq l i k v d : k <> i -> nth k (set_nth l i v) d = nth k l d.
Proof.
  revert i k; induction l as [|a l IH]; intros [|i] [|k] H; cbn; try reflexivity; try lia.
  apply IH. lia.
Qed.

Lemma nth_map_in {A} (f : A -> R) (l : list A) k da d : (k < length l)%nat ->
  nth k (map f l) d = f (nth k l da).
Proof. intros H. rewrite nth_indep with (d' := f da) by now rewrite map_length. apply map_nth. Qed.

Lemma nth_skipn {A} (l : list A) n k d : nth k (skipn n l) d = nth (n + k) l d.
Proof.
  revert l; induction n as [|n IH]; intros l; [reflexivity|].
  destruct l as [|a l]; cbn; [now destruct k|]. apply IH.
Qed.

(** entry k of zeros-then-coda *)
Lemma nth_split_map (f g : R -> R) (ts : list R) n k : (k < length ts)%nat ->
  nth k (map f (firstn n ts) ++ map g (skipn n ts)) 0 =
  if (k <? n)%nat then f (nth k ts 0) else g (nth k ts 0).
Proof.
  intros Hk. destruct (Nat.ltb_spec k n).
  - rewrite app_nth1 by (rewrite map_length, firstn_length; lia).
    rewrite nth_map_in with (da := 0) by (rewrite firstn_length; lia).
    f_equal. rewrite <- (firstn_skipn n ts) at 2.
    rewrite app_nth1 by (rewrite firstn_length; lia). reflexivity.
  - rewrite app_nth2 by (rewrite map_length, firstn_length; lia).
    rewrite map_length, firstn_length, Nat.min_l by lia.
    rewrite nth_map_in with (da := 0) by (rewrite skipn_length; lia).
    rewrite nth_skipn. do 2 f_equal. lia.
Qed.

Lemma G_times_length ty r ts c g0 d gs :
  G_times ty r ts c g0 d = Ok gs -> length gs = length ts.
Proof.
  unfold G_times. destruct ts as [|t0 [|t1 ts]]; try discriminate.
  destruct (select ty) as [[Gc Gd]|]; try discriminate.
  set (l := t0 :: t1 :: ts).
  destruct (d && _ && _); intros [= <-]; rewrite ?set_nth_length, app_length, !map_length,
    firstn_length, skipn_length; lia.
Qed.

(** time vector: the sample of the impulse and all others *)
Lemma G_times_spec ty r ts c g0 d :
  In ty documented_types -> 0 < c -> (2 <= length ts)%nat -> increasing ts ->
  exists gs Gc Gd, G_times ty r ts c g0 d = Ok gs /\ select ty = Some (Gc, Gd) /\
    length gs = length ts /\
    (forall k, (k < length ts)%nat -> nth k ts 0 < r / c -> nth k gs 0 = 0) /\
    (forall k, (0 < k < length ts)%nat -> r / c <= nth (k - 1) ts 0 ->
       nth k gs 0 = Gc r (nth k ts 0) c g0) /\
    (forall k, impulse_sample ts (r / c) k ->
       nth k gs 0 = if d then Gd (r / c) c g0 / (nth 1 ts 0 - nth 0 ts 0) / c else 0) /\
    (r / c <= nth 0 ts 0 -> nth 0 gs 0 = 0).
Proof.
  intros Hty Hc Hlen Hinc.
  apply select_documented in Hty as [[Gc Gd] Hsel].
  destruct ts as [|t0 [|t1 ts]]; [cbn in Hlen; lia|cbn in Hlen; lia|].
  set (l := t0 :: t1 :: ts) in *.
  set (p := fun t => ltb0 (c * t - r)).
  set (i := count_nonzero p l).
  set (G_ := map (fun _ => 0) (firstn (i + 1) l) ++ map (fun t => Gc r t c g0) (skipn (i + 1) l)).
  assert (HG : length G_ = length l).
  { unfold G_. rewrite app_length, !map_length, firstn_length, skipn_length. lia. }
  assert (Hcnt : forall k, (k < length l)%nat -> (nth k l 0 < r / c <-> (k < i)%nat)).
  { intros k Hk. unfold i. rewrite <- (count_prefix p l Hinc); [|intros x y Hxy|exact Hk].
    - unfold p. rewrite ltb0_true, front_iff by assumption. lra.
    - unfold p. rewrite !ltb0_true, !front_iff by assumption. lra. }
  assert (Hi : (i <= length l)%nat) by apply count_le.
  assert (HGk : forall k, (k < length l)%nat -> nth k G_ 0 =
      if (k <? i + 1)%nat then 0 else Gc r (nth k l 0) c g0).
  { intros k Hk. unfold G_. now rewrite nth_split_map. }
  set (out := if d && (0 <? i)%nat && (i <? length l)%nat
              then set_nth G_ i (Gd (r / c) c g0 / (t1 - t0) / c) else G_).
  exists out, Gc, Gd.
  split; [|split; [assumption|split; [|split; [|split; [|split]]]]].
  - unfold G_times. fold l. rewrite Hsel. cbn zeta. fold p. fold i. fold G_.
    unfold out. now destruct (d && _ && _).
  - unfold out. destruct (d && _ && _); rewrite ?set_nth_length; assumption.
  - intros k Hk Hlt. apply Hcnt in Hlt; [|assumption].
    assert (E : nth k G_ 0 = 0).
    { rewrite HGk by assumption. destruct (Nat.ltb_spec k (i + 1)); [reflexivity|lia]. }
    unfold out. destruct (d && _ && _); [rewrite set_nth_neq by lia|]; assumption.
  - intros k Hk Hge.
    assert (~ (k - 1 < i)%nat) by (rewrite <- Hcnt by lia; lra).
    assert (E : nth k G_ 0 = Gc r (nth k l 0) c g0).
    { rewrite HGk by lia. destruct (Nat.ltb_spec k (i + 1)); [lia|reflexivity]. }
    unfold out. destruct (d && _ && _); [rewrite set_nth_neq by lia|]; assumption.
  - intros k [Hk [H1 H2]].
    assert (k - 1 < i)%nat by (apply Hcnt; [lia|assumption]).
    assert (~ (k < i)%nat) by (rewrite <- Hcnt by lia; lra).
    assert (k = i) by lia. subst k. unfold out.
    replace (0 <? i)%nat with true by (symmetry; apply Nat.ltb_lt; lia).
    replace (i <? length l)%nat with true by (symmetry; apply Nat.ltb_lt; lia).
    destruct d; cbn [andb].
    + rewrite set_nth_eq by lia. reflexivity.
    + rewrite HGk by lia. destruct (Nat.ltb_spec i (i + 1)); [reflexivity|lia].
  - intros H0. assert (~ (0 < i)%nat) by (rewrite <- Hcnt by (cbn; lia); lra).
    assert (i = 0)%nat by lia. unfold out.
    replace (0 <? i)%nat with false by (symmetry; apply Nat.ltb_ge; lia).
    rewrite andb_false_r. cbn [andb]. rewrite HGk by (cbn; lia).
    destruct (Nat.ltb_spec 0 (i + 1)); [reflexivity|lia].
Qed.

Lemma G_times_matches ty r ts c g0 d :
  In ty documented_types -> 0 < c -> (2 <= length ts)%nat -> increasing ts ->
  nth 0 ts 0 < r / c ->
  exists gs, G_times ty r ts c g0 d = Ok gs /\ length gs = length ts /\
    forall k, (k < length ts)%nat -> ~ impulse_sample ts (r / c) k ->
      G_scalar ty r (nth k ts 0) c g0 = Ok (nth k gs 0).
Proof.
  intros Hty Hc Hlen Hinc H0.
  destruct (G_times_spec ty r ts c g0 d Hty Hc Hlen Hinc)
    as (gs & Gc & Gd & HG & Hsel & HL & Hbefore & Hafter & _ & _).
  exists gs. split; [assumption|]. split; [assumption|].
  intros k Hk Hni. unfold G_scalar. rewrite Hsel.
  destruct (Rlt_dec (nth k ts 0 - r / c) 0) as [Hlt|Hge].
  - rewrite Hbefore; [reflexivity|assumption|lra].
  - destruct k as [|k]; [lra|].
    rewrite Hafter; [reflexivity|lia|].
    destruct (Rle_dec (r / c) (nth (S k - 1) ts 0)); [assumption|].
    exfalso. apply Hni. split; [lia|lra].
Qed.

(** ** distance vectors *)
Lemma G_dists_spec ty rs t c g0 d :
  In ty documented_types -> (2 <= length rs)%nat -> increasing rs ->
  exists gs Gc Gd, G_dists ty rs t c g0 d = Ok gs /\ select ty = Some (Gc, Gd) /\
    length gs = length rs /\
    (forall k, (k < length rs)%nat -> nth k rs 0 <= c * t -> nth k gs 0 = Gc (nth k rs 0) t c g0) /\
    (forall k, (0 < k < length rs)%nat -> c * t < nth (k - 1) rs 0 -> nth k gs 0 = 0) /\
    (forall k, first_beyond rs (c * t) k ->
       nth k gs 0 = if d then Gd t c g0 / (nth 1 rs 0 - nth 0 rs 0) else 0) /\
    (c * t < nth 0 rs 0 -> nth 0 gs 0 = if d then Gd t c g0 / (nth 1 rs 0 - nth 0 rs 0) else 0).
Proof.
  intros Hty Hlen Hinc.
  apply select_documented in Hty as [[Gc Gd] Hsel].
  destruct rs as [|r0 [|r1 rs]]; [cbn in Hlen; lia|cbn in Hlen; lia|].
  set (l := r0 :: r1 :: rs) in *.
  set (p := fun r => ltb0 (c * t - r)).
  set (cnt := count_nonzero p l).
  set (i := (length l - cnt)%nat).
  set (G_ := map (fun r => Gc r t c g0) (firstn i l) ++ map (fun _ => 0) (skipn i l)).
  assert (HG : length G_ = length l).
  { unfold G_. rewrite app_length, !map_length, firstn_length, skipn_length. lia. }
  assert (Hcnt : forall k, (k < length l)%nat -> (c * t < nth k l 0 <-> (i <= k)%nat)).
  { intros k Hk. unfold i, cnt. rewrite <- (count_suffix p l Hinc); [|intros x y Hxy|exact Hk].
    - unfold p. rewrite ltb0_true. lra.
    - unfold p. rewrite !ltb0_true. lra. }
  assert (Hi : (cnt <= length l)%nat) by apply count_le.
  assert (HGk : forall k, (k < length l)%nat -> nth k G_ 0 =
      if (k <? i)%nat then Gc (nth k l 0) t c g0 else 0).
  { intros k Hk. unfold G_. now rewrite nth_split_map. }
  set (out := if d && negb (Nat.eqb cnt 0)
              then set_nth G_ i (Gd t c g0 / (r1 - r0)) else G_).
  assert (Hfb : forall k, (k < length l)%nat -> k = i -> nth k out 0 =
     if d then Gd t c g0 / (nth 1 l 0 - nth 0 l 0) else 0).
  { intros k Hk ->. unfold out. destruct (Nat.eqb_spec cnt 0) as [E|E].
    - unfold i in Hk. lia.
    - destruct d; cbn [andb negb].
      + rewrite set_nth_eq by lia. reflexivity.
      + rewrite HGk by lia. destruct (Nat.ltb_spec i i); [lia|reflexivity]. }
  exists out, Gc, Gd.
  split; [|split; [assumption|split; [|split; [|split; [|split]]]]].
  - unfold G_dists. fold l. rewrite Hsel. cbn zeta. fold p. fold cnt. fold i. fold G_.
    unfold out. now destruct (d && _).
  - unfold out. destruct (d && _); rewrite ?set_nth_length; assumption.
  - intros k Hk Hle.
    assert (~ (i <= k)%nat) by (rewrite <- Hcnt by assumption; lra).
    assert (E : nth k G_ 0 = Gc (nth k l 0) t c g0).
    { rewrite HGk by assumption. destruct (Nat.ltb_spec k i); [reflexivity|lia]. }
    unfold out. destruct (d && _); [rewrite set_nth_neq by lia|]; assumption.
  - intros k Hk Hgt. apply Hcnt in Hgt; [|lia].
    assert (E : nth k G_ 0 = 0).
    { rewrite HGk by lia. destruct (Nat.ltb_spec k i); [lia|reflexivity]. }
    unfold out. destruct (d && _); [rewrite set_nth_neq by lia|]; assumption.
  - intros k [Hk [H1 H2]]. apply Hfb; [lia|].
    apply Hcnt in H2; [|lia].
    assert (~ (i <= k - 1)%nat) by (rewrite <- Hcnt by lia; lra). lia.
  - intros H0. apply Hcnt in H0; [|cbn; lia]. apply Hfb; [cbn; lia|lia].
Qed.

Lemma G_dists_matches ty rs t c g0 d :
  In ty documented_types -> 0 < c -> (2 <= length rs)%nat -> increasing rs ->
  nth 0 rs 0 <= c * t ->
  exists gs, G_dists ty rs t c g0 d = Ok gs /\ length gs = length rs /\
    forall k, (k < length rs)%nat -> ~ first_beyond rs (c * t) k ->
      G_scalar ty (nth k rs 0) t c g0 = Ok (nth k gs 0).
Proof.
  intros Hty Hc Hlen Hinc H0.
  destruct (G_dists_spec ty rs t c g0 d Hty Hlen Hinc)
    as (gs & Gc & Gd & HG & Hsel & HL & Hin & Hout & _ & _).
  exists gs. split; [assumption|]. split; [assumption|].
  intros k Hk Hni. unfold G_scalar. rewrite Hsel.
  destruct (Rlt_dec (t - nth k rs 0 / c) 0) as [Hlt|Hge].
  - rewrite <- front_iff in Hlt by assumption.
    destruct k as [|k]; [lra|].
    rewrite Hout; [reflexivity|lia|].
    destruct (Rlt_dec (c * t) (nth (S k - 1) rs 0)); [assumption|].
    exfalso. apply Hni. split; [lia|lra].
  - rewrite <- front_iff in Hge by assumption.
    rewrite Hin; [reflexivity|assumption|lra].
Qed.

(** two arrays, point by point *)
Lemma G_arrays_matches ty rs ts c g0 :
  In ty documented_types -> 0 < c -> length rs = length ts ->
  exists gs, G_arrays ty rs ts c g0 false = Ok gs /\ length gs = length rs /\
    forall k, (k < length rs)%nat ->
      G_scalar ty (nth k rs 0) (nth k ts 0) c g0 = Ok (nth k gs 0).
Proof.
  intros Hty Hc HL. apply select_documented in Hty as [[Gc Gd] Hsel].
  unfold G_arrays. rewrite Hsel, <- HL, Nat.eqb_refl. cbn [negb].
  eexists. split; [reflexivity|]. split.
  - rewrite map_length, combine_length. lia.
  - intros k Hk. rewrite nth_map_in with (da := (0, 0)) by (rewrite combine_length; lia).
    rewrite combine_nth by assumption. cbn [fst snd].
    unfold G_scalar. rewrite Hsel.
    destruct (Rlt_dec (nth k ts 0 - nth k rs 0 / c) 0) as [H|H].
    + rewrite <- front_iff in H by assumption. apply ltb0_true in H. now rewrite H.
    + rewrite <- front_iff in H by assumption.
      assert (ltb0 (c * nth k ts 0 - nth k rs 0) = false) as -> by (apply ltb0_false; lra).
      reflexivity.
Qed.
