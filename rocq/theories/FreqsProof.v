(** Lemmas about the frequency bands. *)
From Coq Require Import List Bool Reals Lra Lia ZArith Sorted Permutation.
From Verif Require Import Base PySort FreqsModel FreqsSpec.
Import ListNotations.
Open Scope R_scope.

Lemma reqb_spec a b : reqb a b = true <-> a = b.
Proof. unfold reqb. destruct (Req_EM_T a b); split; congruence. Qed.

Lemma pow2_pos x : 0 < pow2 x.
Proof. unfold pow2, Rpower. apply exp_pos. Qed.

Lemma pow2_lt x y : x < y -> pow2 x < pow2 y.
Proof. intros. unfold pow2. apply Rpower_lt; lra. Qed.

Lemma pow2_0 : pow2 0 = 1.
Proof. unfold pow2. apply Rpower_O. lra. Qed.

Lemma ln2_pos : 0 < ln 2.
Proof. rewrite <- ln_1. apply ln_increasing; lra. Qed.

(** dictionaries with distinct keys keep all items *)
Lemma dict_of_nodup_gen {V} (l d : list (R * V)) :
  NoDup (map fst (d ++ l)) -> dupdate reqb d l = d ++ l.
Proof.
  revert d. induction l as [|[k v] l IH]; intros d ND.
  - now rewrite app_nil_r.
  - change (dupdate reqb d ((k, v) :: l)) with (dupdate reqb (dset reqb d k v) l).
    assert (E : dset reqb d k v = d ++ [(k, v)]).
    { assert (NI : ~ In k (map fst d)).
      { rewrite map_app in ND. cbn [map fst] in ND. apply NoDup_remove_2 in ND.
        intros H. apply ND. apply in_or_app. now left. }
      clear - NI. induction d as [|[k' v'] d IH]; cbn; auto.
      destruct (reqb k k') eqn:E.
      - apply reqb_spec in E. subst. exfalso. apply NI. now left.
      - f_equal. apply IH. intros H. apply NI. now right. }
    rewrite E, IH; rewrite <- app_assoc; auto.
Qed.

Lemma dict_of_nodup {V} (l : list (R * V)) :
  NoDup (map fst l) -> dict_of reqb l = l.
Proof. intros. unfold dict_of. now rewrite dict_of_nodup_gen. Qed.

Lemma dupdate_keys_in {V} (l d : list (R * V)) x :
  In x (map fst (dupdate reqb d l)) <-> In x (map fst d) \/ In x (map fst l).
Proof.
  revert d. induction l as [|[k v] l IH]; intros d; [cbn; tauto|].
  change (dupdate reqb d ((k, v) :: l)) with (dupdate reqb (dset reqb d k v) l).
  rewrite IH. rewrite (dset_in_keys reqb reqb_spec). cbn. intuition.
Qed.

(** [int] of the exponent: the largest k with max / 2^(k step) >= min *)
Lemma rint_floor x : 0 <= x -> (0 <= rint x)%Z /\ IZR (rint x) <= x < IZR (rint x) + 1.
Proof.
  intros H. unfold rint. destruct (Rle_dec 0 x); [|lra].
  destruct (base_Int_part x) as [A B].
  assert (0 <= Int_part x)%Z.
  { apply Z.lt_succ_r. apply lt_IZR. rewrite succ_IZR. lra. }
  repeat split; auto; lra.
Qed.

Lemma freq_ge_iff max min step k :
  0 < min -> min <= max -> 0 < step ->
  min <= max / pow2 (step * INR k) <-> INR k <= ln (max / min) / step / ln 2.
Proof.
  intros Hm HM Hs. pose proof ln2_pos as L2.
  assert (P := pow2_pos (step * INR k)).
  assert (E : ln (max / min) / step / ln 2 = ln (max / min) / (step * ln 2)).
  { field. lra. }
  rewrite E.
  assert (Hq : 0 < max / min) by (apply Rdiv_lt_0_compat; lra).
  assert (Hsl : 0 < step * ln 2) by (apply Rmult_lt_0_compat; lra).
  transitivity (pow2 (step * INR k) <= max / min).
  - split; intros H.
    + apply (Rmult_le_reg_r min); [lra|].
      replace (max / min * min) with max by (field; lra).
      apply (Rmult_le_compat_r (pow2 (step * INR k))) in H; [|lra].
      replace (max / pow2 (step * INR k) * pow2 (step * INR k)) with max in H
        by (field; lra). lra.
    + apply (Rmult_le_reg_r (pow2 (step * INR k))); [lra|].
      replace (max / pow2 (step * INR k) * pow2 (step * INR k)) with max by (field; lra).
      apply (Rmult_le_compat_r min) in H; [|lra].
      replace (max / min * min) with max in H by (field; lra). lra.
  - unfold pow2, Rpower. split; intros H.
    + apply (Rmult_le_reg_r (step * ln 2)); [lra|].
      replace (ln (max / min) / (step * ln 2) * (step * ln 2)) with (ln (max / min))
        by (field; lra).
      replace (INR k * (step * ln 2)) with (step * INR k * ln 2) by ring.
      rewrite <- (ln_exp (step * INR k * ln 2)).
      destruct H as [H|H].
      * left. apply ln_increasing; [apply exp_pos|exact H].
      * right. now rewrite H.
    + apply (Rmult_le_compat_r (step * ln 2)) in H; [|lra].
      replace (ln (max / min) / (step * ln 2) * (step * ln 2)) with (ln (max / min))
        in H by (field; lra).
      replace (INR k * (step * ln 2)) with (step * INR k * ln 2) in H by ring.
      rewrite <- (exp_ln (max / min)) by lra.
      destruct H as [H|H].
      * left. now apply exp_increasing.
      * right. now rewrite H.
Qed.

Section Auto.
  Variables (max min step width : R).
  Hypothesis Hmin : 0 < min.
  Hypothesis Hmax : min <= max.
  Hypothesis Hstep : 0 < step.

  (** the number of octave steps *)
  Let n := Z.to_nat (rint (ln (max / min) / step / ln 2) + 1).

  Lemma exponent_nonneg : 0 <= ln (max / min) / step / ln 2.
  Proof.
    pose proof ln2_pos. assert (0 <= ln (max / min)).
    { destruct (Req_dec max min) as [->|N].
      - unfold Rdiv. rewrite Rinv_r by lra. rewrite ln_1. lra.
      - left. rewrite <- ln_1. apply ln_increasing; [lra|].
        apply (Rmult_lt_reg_r min); [lra|]. unfold Rdiv.
        rewrite Rmult_assoc, Rinv_l; lra. }
    apply Rmult_le_pos; [apply Rmult_le_pos|]; auto; left;
      apply Rinv_0_lt_compat; lra.
  Qed.

  Lemma auto_count k : (k < n)%nat <-> min <= max / pow2 (step * INR k).
  Proof.
    rewrite freq_ge_iff by auto.
    destruct (rint_floor _ exponent_nonneg) as (Z0 & A & B).
    unfold n. set (x := ln (max / min) / step / ln 2) in *.
    rewrite INR_IZR_INZ. split; intros H.
    - assert (Z.of_nat k <= rint x)%Z by lia.
      apply IZR_le in H0. lra.
    - assert (IZR (Z.of_nat k) < IZR (rint x + 1)) by (rewrite plus_IZR; lra).
      apply lt_IZR in H0. lia.
  Qed.

  Lemma auto_pos : (0 < n)%nat.
  Proof. apply auto_count. cbn [INR]. rewrite Rmult_0_r, pow2_0. lra. Qed.

  Lemma auto_cfreqs_ok :
    auto_cfreqs (Some max) (Some min) (Some step)
    = Ok (map (fun k => max / pow2 (step * INR k)) (rev (seq 0 n))).
  Proof.
    unfold auto_cfreqs.
    assert (Hq : 0 < max / min) by (apply Rdiv_lt_0_compat; lra).
    destruct (Req_EM_T min 0); [lra|].
    destruct (Rlt_dec (max / min) 0); [lra|].
    destruct (Req_EM_T (max / min) 0); [lra|].
    destruct (Req_EM_T step 0); [lra|].
    cbv zeta. rewrite map_map. reflexivity.
  Qed.

  Lemma auto_sorted :
    StronglySorted Rlt (map (fun k => max / pow2 (step * INR k)) (rev (seq 0 n))).
  Proof.
    generalize n. intros m. induction m as [|m IH]; [constructor|].
    rewrite seq_S, rev_app_distr. cbn [rev app map].
    constructor; [exact IH|].
    apply Forall_forall. intros y Hy. apply in_map_iff in Hy.
    destruct Hy as (k & <- & Hk). rewrite <- in_rev in Hk. apply in_seq in Hk.
    assert (INR k < INR (0 + m)) by (apply lt_INR; lia).
    apply Rmult_lt_compat_l; [lra|].
    assert (pow2 (step * INR k) < pow2 (step * INR (0 + m))).
    { apply pow2_lt. now apply Rmult_lt_compat_l. }
    apply Rinv_lt_contravar; auto. apply Rmult_lt_0_compat; apply pow2_pos.
  Qed.
End Auto.

Lemma sorted_nodup (l : list R) : StronglySorted Rlt l -> NoDup l.
Proof.
  induction 1 as [|x l S IH F]; constructor; auto.
  intros H. rewrite Forall_forall in F. apply F in H. lra.
Qed.

(** the band around f *)
Definition around (w f : R) : R * R :=
  (f - f * (pow2 w - 1) / (pow2 w + 1), f + f * (pow2 w - 1) / (pow2 w + 1)).

Lemma bands_around_items w cf :
  bands_around (Some w) cf = Ok (dict_of reqb (map (fun f => (f, around w f)) cf)).
Proof.
  unfold bands_around. do 2 f_equal. induction cf as [|f cf IH]; cbn; auto.
  now rewrite IH.
Qed.

Lemma around_octaves w f : 0 < f -> 0 < w -> octave_band w f (around w f).
Proof.
  intros Hf Hw. unfold octave_band, around. cbn [fst snd].
  assert (1 < pow2 w) by (rewrite <- pow2_0; now apply pow2_lt).
  assert (Hp : 0 < f * 2 / (pow2 w + 1)).
  { apply Rmult_lt_0_compat; [lra|]. apply Rinv_0_lt_compat; lra. }
  split; [|split].
  - replace (f - f * (pow2 w - 1) / (pow2 w + 1)) with (f * 2 / (pow2 w + 1))
      by (field; lra). lra.
  - lra.
  - fold (pow2 w). field. lra.
Qed.

(** C36: the automatic bands *)
Lemma freqs_auto_ok max min step width :
  0 < min -> min <= max -> 0 < step -> 0 < width ->
  exists fb,
    get_freqs (Some max) (Some min) (Some step) (Some width) None None = Ok fb /\
    (forall f, In f (map fst fb) <->
       min <= f /\ exists k : nat, f = max / Rpower 2 (INR k * step)) /\
    StronglySorted Rlt (map fst fb) /\
    last (map fst fb) 0 = max /\
    (forall f b, In (f, b) fb -> octave_band width f b).
Proof.
  intros Hm HM Hs Hw. unfold get_freqs.
  rewrite auto_cfreqs_ok by auto. cbn [bind]. rewrite bands_around_items.
  set (n := Z.to_nat _).
  assert (SS := auto_sorted max min step Hm HM Hs). fold n in SS.
  set (cf := map _ _) in *.
  assert (FK : map fst (map (fun f => (f, around width f)) cf) = cf).
  { rewrite map_map. cbn [fst]. apply map_id. }
  rewrite dict_of_nodup by (rewrite FK; now apply sorted_nodup).
  eexists. split; [reflexivity|]. rewrite FK.
  assert (CF : forall f, In f cf -> min <= f).
  { intros f H. apply in_map_iff in H. destruct H as (k & <- & Hk).
    rewrite <- in_rev in Hk. apply in_seq in Hk.
    apply (proj1 (auto_count max min step Hm HM Hs k)). fold n. lia. }
  split; [|split; [exact SS|split]].
  - intros f. split.
    + intros H. split; [now apply CF|]. apply in_map_iff in H.
      destruct H as (k & <- & _). exists k. now rewrite (Rmult_comm (INR k)).
    + intros (G & k & ->). unfold cf. apply in_map_iff. exists k.
      rewrite (Rmult_comm (INR k)) in *. split; [reflexivity|].
      rewrite <- in_rev. apply in_seq. split; [lia|].
      apply (auto_count max min step Hm HM Hs k) in G. fold n in G. lia.
  - unfold cf. pose proof (auto_pos max min step Hm HM Hs) as P. fold n in P.
    destruct n as [|m]; [lia|]. cbn [seq rev]. rewrite map_app. cbn [map].
    rewrite last_last. cbn [INR]. rewrite Rmult_0_r, pow2_0. field.
  - intros f b H. apply in_map_iff in H. destruct H as (g & E & Hg).
    injection E as -> <-. apply around_octaves; auto.
    apply CF in Hg. lra.
Qed.

(** C36: bands around given central frequencies *)
Lemma dict_of_keys {V} (l : list (R * V)) x :
  In x (map fst (dict_of reqb l)) <-> In x (map fst l).
Proof. unfold dict_of. rewrite dupdate_keys_in. cbn. tauto. Qed.

Lemma dict_of_incl {V} (l : list (R * V)) kv :
  In kv (dict_of reqb l) -> In kv l.
Proof.
  unfold dict_of. assert (G : forall d, In kv (dupdate reqb d l) -> In kv d \/ In kv l).
  { induction l as [|[k v] l IH]; intros d H; [now left|].
    change (dupdate reqb d ((k, v) :: l)) with (dupdate reqb (dset reqb d k v) l) in H.
    apply IH in H. destruct H as [H|H]; [|right; now right].
    assert (Q : In kv d \/ kv = (k, v)).
    { clear IH. induction d as [|[k' v'] d IHd]; cbn in H.
      - destruct H as [H|[]]. now right.
      - destruct (reqb k k') eqn:E.
        + apply reqb_spec in E. subst k'. destruct H as [H|H]; [now right|left; now right].
        + destruct H as [H|H]; [left; now left|]. destruct (IHd H); [left; now right|now right]. }
    destruct Q as [Q| ->]; [now left|right; now left]. }
  intros H. apply G in H. destruct H as [[]|H]. exact H.
Qed.

Lemma freqs_centres_ok max min step width cf :
  0 < width -> (forall f, In f cf -> 0 < f) ->
  exists fb,
    get_freqs max min step (Some width) (Some cf) None = Ok fb /\
    NoDup (map fst fb) /\
    (forall f, In f (map fst fb) <-> In f cf) /\
    (NoDup cf -> map fst fb = cf) /\
    (forall f b, In (f, b) fb -> octave_band width f b).
Proof.
  intros Hw Hf. unfold get_freqs. cbn [bind]. rewrite bands_around_items.
  eexists. split; [reflexivity|].
  assert (FK : map fst (map (fun f => (f, around width f)) cf) = cf).
  { rewrite map_map. cbn [fst]. apply map_id. }
  split; [|split; [|split]].
  - unfold dict_of. apply (dupdate_nodup reqb reqb_spec). constructor.
  - intros f. rewrite dict_of_keys, FK. tauto.
  - intros ND. rewrite dict_of_nodup by now rewrite FK. exact FK.
  - intros f b H. apply dict_of_incl in H. apply in_map_iff in H.
    destruct H as (g & E & Hg). injection E as -> <-. apply around_octaves; auto.
Qed.

(** C37: given bands *)
Lemma map_nodup_inj_perm {A B} (f : A -> B) l l' :
  Permutation l l' -> NoDup (map f l) -> NoDup (map f l').
Proof. intros P. apply Permutation_NoDup. now apply Permutation_map. Qed.

Lemma band_leb_le a b : band_leb a b = true <-> band_le a b.
Proof.
  unfold band_leb, band_le, rleb. destruct (Req_EM_T (fst a) (fst b)).
  - destruct (Rle_dec (snd a) (snd b)); split; intros H; try discriminate; auto.
    destruct H as [H|[_ H]]; lra.
  - destruct (Rle_dec (fst a) (fst b)); split; intros H; try discriminate; auto.
    + left. lra.
    + destruct H as [H|[H _]]; lra.
Qed.

Lemma bands_sorted l : StronglySorted band_le (pysort band_leb l).
Proof.
  assert (H : StronglySorted (fun a b => band_leb a b = true) (pysort band_leb l)).
  { apply pysort_sorted.
    - intros x y. rewrite !band_leb_le. unfold band_le.
      destruct (total_order_T (fst x) (fst y)) as [[A|A]|A]; [tauto| |tauto].
      destruct (Rle_dec (snd x) (snd y)) as [B|B]; [tauto|]. right. right. split; lra.
    - intros x y z. rewrite !band_leb_le. unfold band_le. lra. }
  induction H as [|a l' S IH F]; constructor; auto.
  eapply Forall_impl; [|exact F]. intros b. now rewrite band_leb_le.
Qed.

Lemma freqs_given_ok max min step width cf fbands :
  NoDup (map (fun b => (fst b + snd b) / 2) fbands) ->
  exists fb,
    get_freqs max min step width cf (Some fbands) = Ok fb /\
    Permutation (map snd fb) fbands /\
    (forall b, In b fbands -> dget reqb fb ((fst b + snd b) / 2) = Some b) /\
    (forall f b, In (f, b) fb -> f = (fst b + snd b) / 2) /\
    StronglySorted band_le (map snd fb).
Proof.
  intros ND. unfold get_freqs.
  exists (bands_given fbands). split.
  { destruct cf; reflexivity. }
  unfold bands_given.
  set (it := map (fun b => let '(f1, f2) := b in (/ 2 * (f1 + f2), (f1, f2)))
                 (pysort band_leb fbands)).
  assert (PP := pysort_perm band_leb fbands).
  assert (FK : map fst it = map (fun b => (fst b + snd b) / 2) (pysort band_leb fbands)).
  { unfold it. rewrite map_map. apply map_ext. intros [a b]. cbn. lra. }
  assert (NK : NoDup (map fst it)).
  { rewrite FK. apply (map_nodup_inj_perm _ fbands); [now apply Permutation_sym|exact ND]. }
  rewrite dict_of_nodup by exact NK.
  split; [|split; [|split]].
  - unfold it. rewrite map_map.
    rewrite (map_ext _ (fun b => b)) by now intros [a b].
    rewrite map_id. exact PP.
  - intros b Hb. apply (dget_nodup reqb reqb_spec); auto.
    unfold it. apply in_map_iff. exists b. split.
    + destruct b as [x y]. cbn [fst snd]. f_equal. lra.
    + now apply (Permutation_in _ (Permutation_sym PP)).
  - intros f b H. unfold it in H. apply in_map_iff in H.
    destruct H as ([x y] & E & _). injection E as <- <-. cbn [fst snd]. lra.
  - unfold it. rewrite map_map. rewrite (map_ext _ (fun b => b)) by now intros [a b].
    rewrite map_id. apply bands_sorted.
Qed.

(** of the bands with the same centre the narrowest is kept *)
Lemma dupdate_last {V} (l d : list (R * V)) k :
  dget reqb (dupdate reqb d l) k
  = match find (fun kv => reqb (fst kv) k) (rev l) with Some kv => Some (snd kv) | None => dget reqb d k end.
Proof.
  revert d. induction l as [|[k' v] l IH]; intros d; [reflexivity|].
  change (dupdate reqb d ((k', v) :: l)) with (dupdate reqb (dset reqb d k' v) l).
  rewrite IH. cbn [rev]. clear IH.
  assert (G : forall m, find (fun kv : R * V => reqb (fst kv) k) (m ++ [(k', v)]) =
            match find (fun kv => reqb (fst kv) k) m with Some x => Some x
            | None => if reqb k' k then Some (k', v) else None end).
  { induction m as [|y m IH]; cbn; [reflexivity|]. destruct (reqb (fst y) k); auto. }
  rewrite G. destruct (find _ (rev l)) as [x|]; [reflexivity|].
  destruct (reqb k' k) eqn:E.
  - apply reqb_spec in E. rewrite E. apply (dget_dset_eq _ reqb_spec).
  - apply (dget_dset_neq _ reqb_spec). intros Q.
    rewrite (proj2 (reqb_spec k' k) (eq_sym Q)) in E || rewrite (proj2 (reqb_spec k' k) Q) in E. discriminate.
Qed.

Lemma find_last_sorted (l : list (R * R)) f b :
  StronglySorted band_le l -> find (fun b => reqb (/ 2 * (fst b + snd b)) f) (rev l) = Some b ->
  forall a, In a l -> centre a = f -> fst a <= fst b.
Proof.
  intros S. induction S as [|x l S IH F]; [discriminate|].
  cbn [rev]. intros H a Ha Hf.
  assert (G : forall m, find (fun b => reqb (/ 2 * (fst b + snd b)) f) (m ++ [x]) =
            match find (fun b => reqb (/ 2 * (fst b + snd b)) f) m with Some y => Some y
            | None => if reqb (/ 2 * (fst x + snd x)) f then Some x else None end).
  { induction m as [|y m IHm]; cbn; [reflexivity|]. destruct (reqb (/ 2 * (fst y + snd y)) f); auto. }
  rewrite G in H. clear G.
  destruct (find _ (rev l)) as [y|] eqn:Ey.
  - injection H as ->. destruct Ha as [->|Ha]; [|now apply IH].
    apply find_some in Ey. destruct Ey as [Ey _]. apply in_rev in Ey.
    rewrite Forall_forall in F. apply F in Ey. unfold band_le in Ey. lra.
  - destruct (reqb (/ 2 * (fst x + snd x)) f) eqn:E; [|discriminate]. injection H as <-.
    destruct Ha as [->|Ha]; [lra|]. exfalso.
    assert (Q : In a (rev l)) by now apply -> in_rev.
    apply (find_none _ _ Ey) in Q. unfold centre in Hf.
    replace (/ 2 * (fst a + snd a)) with f in Q by lra.
    rewrite (proj2 (reqb_spec f f) eq_refl) in Q. discriminate.
Qed.

Lemma freqs_given_narrowest max min step width cf fbands :
  exists fb,
    get_freqs max min step width cf (Some fbands) = Ok fb /\
    NoDup (map fst fb) /\
    (forall f b, In (f, b) fb <->
       In b fbands /\ centre b = f /\ forall a, In a fbands -> centre a = f -> fst a <= fst b).
Proof.
  unfold get_freqs. exists (bands_given fbands).
  split; [destruct cf; reflexivity|]. unfold bands_given.
  set (it := map (fun b => let '(f1, f2) := b in (/ 2 * (f1 + f2), (f1, f2))) (pysort band_leb fbands)).
  assert (ND : NoDup (map fst (dict_of reqb it))).
  { unfold dict_of. apply (dupdate_nodup reqb reqb_spec). constructor. }
  split; [exact ND|]. intros f b.
  assert (FF : forall l, find (fun kv => reqb (fst kv) f)
                  (rev (map (fun b : R * R => let '(f1, f2) := b in (/ 2 * (f1 + f2), (f1, f2))) l))
             = option_map (fun b => (/ 2 * (fst b + snd b), b)) (find (fun b => reqb (/ 2 * (fst b + snd b)) f) (rev l))).
  { intros l. rewrite <- map_rev. induction (rev l) as [|[x y] m IH]; [reflexivity|]. cbn.
    destruct (reqb (/ 2 * (x + y)) f); [reflexivity|exact IH]. }
  assert (GG : dget reqb (dict_of reqb it) f = find (fun b => reqb (/ 2 * (fst b + snd b)) f) (rev (pysort band_leb fbands))).
  { unfold dict_of. rewrite dupdate_last. unfold it. rewrite FF.
    destruct (find _ (rev (pysort band_leb fbands))); reflexivity. }
  transitivity (dget reqb (dict_of reqb it) f = Some b).
  { split; [now apply (dget_nodup reqb reqb_spec)|]. apply (dget_In reqb reqb_spec). }
  rewrite GG. split.
  - intros H. pose proof H as H'. apply find_some in H'. destruct H' as [I E].
    apply reqb_spec in E. apply in_rev in I. apply (proj1 (pysort_in band_leb _ _)) in I.
    split; [exact I|]. split; [unfold centre; lra|]. intros a Ha Hf.
    apply (find_last_sorted _ f b (bands_sorted fbands) H); [now apply pysort_in|exact Hf].
  - intros (I & E & M).
    destruct (find _ (rev (pysort band_leb fbands))) as [c|] eqn:Ec.
    + f_equal. pose proof Ec as H'. apply find_some in H'. destruct H' as [Ic Ef].
      apply reqb_spec in Ef. apply in_rev in Ic. apply (proj1 (pysort_in band_leb _ _)) in Ic.
      assert (fst b <= fst c).
      { apply (find_last_sorted _ f c (bands_sorted fbands) Ec); [now apply pysort_in|exact E]. }
      assert (fst c <= fst b) by (apply M; [exact Ic|unfold centre; lra]).
      unfold centre in *. destruct b, c. cbn [fst snd] in *. f_equal; lra.
    + exfalso. assert (Q : In b (rev (pysort band_leb fbands))).
      { apply -> in_rev. now apply pysort_in. }
      apply (find_none _ _ Ec) in Q. unfold centre in E.
      replace (/ 2 * (fst b + snd b)) with f in Q by lra.
      rewrite (proj2 (reqb_spec f f) eq_refl) in Q. discriminate.
Qed.

(** C36: max below min *)
Lemma freqs_below_min max min step width :
  0 < max -> max < min -> 0 < step -> 0 < width ->
  exists fb,
    get_freqs (Some max) (Some min) (Some step) (Some width) None None = Ok fb /\
    (max * Rpower 2 step <= min -> fb = []) /\
    (min < max * Rpower 2 step -> exists b, fb = [(max, b)] /\ octave_band width max b).
Proof.
  intros Hm HM Hs Hw. unfold get_freqs, auto_cfreqs.
  assert (Hq : 0 < max / min) by (apply Rdiv_lt_0_compat; lra).
  destruct (Req_EM_T min 0); [lra|]. destruct (Rlt_dec (max / min) 0); [lra|].
  destruct (Req_EM_T (max / min) 0); [lra|]. destruct (Req_EM_T step 0); [lra|].
  cbv zeta. cbn [bind]. set (x := ln (max / min) / step / ln 2).
  pose proof ln2_pos as L2.
  assert (Hsl : 0 < step * ln 2) by (apply Rmult_lt_0_compat; lra).
  assert (EX : x * (step * ln 2) = ln (max / min)) by (unfold x; field; lra).
  assert (LN : ln (max / min) = ln max - ln min) by (unfold Rdiv; rewrite ln_mult, ln_Rinv by (try apply Rinv_0_lt_compat; lra); lra).
  assert (NX : x < 0).
  { apply (Rmult_lt_reg_r (step * ln 2)); [exact Hsl|]. rewrite EX, Rmult_0_l, LN.
    assert (ln max < ln min) by (apply ln_increasing; lra). lra. }
  assert (PW : ln (max * Rpower 2 step) = ln max + step * ln 2).
  { rewrite ln_mult; [|lra|apply pow2_pos]. unfold Rpower. now rewrite ln_exp. }
  unfold rint. destruct (Rle_dec 0 x); [lra|].
  destruct (base_Int_part (- x)) as [A B].
  rewrite map_map. rewrite bands_around_items. eexists. split; [reflexivity|]. split.
  - intros H.
    assert (1 <= - x).
    { apply (Rmult_le_reg_r (step * ln 2)); [exact Hsl|].
      replace (- x * (step * ln 2)) with (- (x * (step * ln 2))) by ring. rewrite EX, LN.
      assert (ln (max * Rpower 2 step) <= ln min).
      { destruct H as [H| ->]; [|lra]. left. apply ln_increasing; [|exact H].
        apply Rmult_lt_0_compat; [lra|apply pow2_pos]. }
      lra. }
    assert (1 <= Int_part (- x))%Z.
    { apply Z.lt_succ_r. apply lt_IZR. rewrite succ_IZR. lra. }
    replace (Z.to_nat (- Int_part (- x) + 1)) with 0%nat by lia. reflexivity.
  - intros H.
    assert (- x < 1).
    { apply (Rmult_lt_reg_r (step * ln 2)); [exact Hsl|].
      replace (- x * (step * ln 2)) with (- (x * (step * ln 2))) by ring. rewrite EX, LN.
      assert (ln min < ln (max * Rpower 2 step)) by (apply ln_increasing; lra). lra. }
    assert (Int_part (- x) = 0)%Z.
    { assert (0 <= Int_part (- x))%Z by (apply Z.lt_succ_r; apply lt_IZR; rewrite succ_IZR; lra).
      assert (Int_part (- x) < 1)%Z by (apply lt_IZR; lra). lia. }
    replace (Z.to_nat (- Int_part (- x) + 1)) with 1%nat by lia.
    cbn [seq rev app map INR]. rewrite Rmult_0_r, pow2_0.
    replace (max / 1) with max by field.
    exists (around width max). split; [reflexivity|]. now apply around_octaves.
Qed.

(** the last of the bands with the same centre wins *)
Lemma freqs_given_lost :
  exists fbands fb b,
    In b fbands /\
    get_freqs None None None None None (Some fbands) = Ok fb /\
    ~ In b (map snd fb).
Proof.
  exists [(1, 5); (2, 4)], [(3, (2, 4))], (1, 5).
  split; [now left|]. split.
  - unfold get_freqs. cbn [bind]. unfold bands_given.
    assert (S : pysort band_leb [(1, 5); (2, 4)] = [(1, 5); (2, 4)]).
    { cbn [pysort insert]. unfold band_leb, rleb. cbn [fst snd].
      destruct (Req_EM_T 1 2); [lra|]. destruct (Rle_dec 1 2); [reflexivity|lra]. }
    rewrite S. cbn [map].
    replace (/ 2 * (1 + 5)) with 3 by lra. replace (/ 2 * (2 + 4)) with 3 by lra.
    unfold dict_of, dupdate. cbn [fold_left fst snd dset].
    unfold reqb. destruct (Req_EM_T 3 3); [reflexivity|lra].
  - cbn [map snd]. intros [H|[]]. apply (f_equal fst) in H. cbn [fst] in H. lra.
Qed.

(** C36: missing or zero values *)
Lemma freqs_errors max min step width :
  (max = None \/ min = None \/ step = None -> get_freqs max min step width None None = Err TypeError) /\
  (forall x y, max = Some x -> step = Some y -> min = Some 0 -> get_freqs max min step width None None = Err ZeroDivisionError) /\
  (forall cf, cf <> [] -> get_freqs max min step None (Some cf) None = Err TypeError).
Proof.
  split; [|split].
  - intros [-> |[-> | ->]]; [|destruct max|destruct max, min]; reflexivity.
  - intros x y -> -> ->. unfold get_freqs, auto_cfreqs. destruct (Req_EM_T 0 0) as [_|C]; [reflexivity|contradiction C; reflexivity].
  - intros cf _. reflexivity.
Qed.
