(** The least squares system of the alignment. *)
From Coq Require Import String List Bool Reals Arith Lia Lra Permutation.
From Verif Require Import Base StatModel StatProof SiteModel SiteSpec MergeProof SiteProof SiteProof2.
Import ListNotations.
Open Scope list_scope.
Open Scope R_scope.

(** ** sums over dictionaries *)
Lemma dict_add_sum A k fac (x : nat -> R) :
  rsum (map (fun p => snd p * x (fst p)) (dict_add A k fac)) =
  rsum (map (fun p => snd p * x (fst p)) A) + fac * x k.
Proof.
  unfold dict_add. induction A as [|[j v] A IH]; cbn [dset dget].
  - cbn. lra.
  - destruct (Nat.eqb_spec k j) as [->|Ne].
    + cbn [map fst snd]. rewrite !rsum_cons. ring.
    + cbn [map fst snd]. rewrite !rsum_cons, IH. ring.
Qed.

Lemma dict_add_keys A k fac p : In p (dict_add A k fac) -> fst p = k \/ exists q, In q A /\ fst q = fst p.
Proof.
  intros H. unfold dict_add in H.
  assert (In (fst p) (map fst (dset Nat.eqb A k (match dget Nat.eqb A k with Some v => v | None => 0 end + fac)))) by now apply in_map.
  apply (dset_in_keys Nat.eqb Nat.eqb_eq) in H0. destruct H0 as [->|H0]; [auto|].
  apply in_map_iff in H0 as (q & Hq & Hin). right. exists q. auto.
Qed.

Lemma rsum_group (f : obs -> R) (S : list string) : NoDup S -> forall l,
  (forall o, In o l -> In (osta o) S) ->
  rsum (map f l) = rsum (map (fun s => rsum (map f (filter (fun o => String.eqb (osta o) s) l))) S).
Proof.
  intros ND. induction l as [|o l IH]; intros H.
  - cbn. symmetry. transitivity (rsum (map (fun _ : string => 0) S)); [apply rsum_ext; reflexivity|].
    rewrite rsum_const. ring.
  - cbn [map]. rewrite rsum_cons, IH by (intros; apply H; now right).
    assert (Ho := H o (or_introl eq_refl)). clear IH H.
    induction S as [|s S IHS]; [destruct Ho|]. inversion ND; subst. cbn [map]. rewrite !rsum_cons.
    cbn [filter]. destruct (String.eqb_spec (osta o) s) as [E|Ne].
    + cbn [map]. rewrite rsum_cons. subst s.
      assert (Z : rsum (map (fun s => rsum (map f (if String.eqb (osta o) s then o :: filter (fun o => String.eqb (osta o) s) l else filter (fun o => String.eqb (osta o) s) l))) S)
        = rsum (map (fun s => rsum (map f (filter (fun o => String.eqb (osta o) s) l))) S)).
      { apply rsum_ext. intros s Hs. destruct (String.eqb_spec (osta o) s); [subst; contradiction|reflexivity]. }
      rewrite Z. ring.
    + destruct Ho as [E|Ho]; [congruence|]. specialize (IHS H2 Ho). cbn [filter] in IHS. lra.
Qed.

(** ** state after the loop *)
Section Loop.
Variables (station : staopt) (nsta : string -> nat).
Notation norm := (norm_station station).
Definition fac_of (o : obs) : R := 1 / INR (nsta (osta o)).
Definition init_state : astate := {| sA := []; sb := 0; sused := []; slast := []; srows := [] |}.
Definition final (l : list obs) : astate := fold_left (align_step station nsta) l init_state.
Definition used (l : list obs) : list obs := filter (fun o => norm (osta o)) l.

Lemma final_snoc l o : final (l ++ [o]) = align_step station nsta (final l) o.
Proof. unfold final. now rewrite fold_left_app. Qed.

Lemma used_snoc l o : used (l ++ [o]) = used l ++ if norm (osta o) then [o] else [].
Proof. unfold used. rewrite filter_app. cbn. now destruct (norm (osta o)). Qed.

Lemma step_norm l o :
  sA (final (l ++ [o])) = (if norm (osta o) then dict_add (sA (final l)) (oev o) (1 / INR (nsta (osta o))) else sA (final l)) /\
  sb (final (l ++ [o])) = (if norm (osta o) then sb (final l) - ln (oval o) * (1 / INR (nsta (osta o))) else sb (final l)) /\
  sused (final (l ++ [o])) = (if norm (osta o) then
    (if inb String.eqb (osta o) (sused (final l)) then sused (final l) else sused (final l) ++ [osta o]) else sused (final l)).
Proof.
  rewrite final_snoc. unfold align_step. destruct (norm (osta o)); cbn [slast sA sb sused];
  destruct (dget String.eqb (slast (final l)) (osta o)) as [[kl Rl]|]; auto.
Qed.

Lemma final_norm l x :
  rsum (map (fun p => snd p * x (fst p)) (sA (final l))) = rsum (map (fun o => fac_of o * x (oev o)) (used l)) /\
  sb (final l) = - rsum (map (fun o => ln (oval o) * fac_of o) (used l)) /\
  NoDup (sused (final l)) /\
  (forall s, In s (sused (final l)) <-> exists o, In o (used l) /\ osta o = s) /\
  (forall p, In p (sA (final l)) -> exists o, In o l /\ oev o = fst p).
Proof.
  induction l as [|o l IH] using rev_ind.
  - cbn. split; [reflexivity|]. split; [unfold rsum; cbn; lra|]. split; [constructor|].
    split; [|tauto]. intros s. split; [tauto|]. intros (o & [] & _).
  - destruct IH as (I1 & I2 & I3 & I4 & I5). destruct (step_norm l o) as (-> & -> & ->). rewrite used_snoc.
    destruct (norm (osta o)) eqn:Hn.
    + rewrite !map_app, !rsum_app, dict_add_sum, I1, I2.
      split; [unfold fac_of; cbn; unfold rsum; cbn; lra|].
      split; [unfold fac_of; cbn; unfold rsum; cbn; lra|].
      split; [|split].
      * destruct (inb String.eqb (osta o) (sused (final l))) eqn:Hi; [exact I3|]. apply inb_str_false in Hi.
        apply Permutation_NoDup with (osta o :: sused (final l)); [apply Permutation_cons_append|]. now constructor.
      * intros s.
        assert (Q : In s (if inb String.eqb (osta o) (sused (final l)) then sused (final l) else sused (final l) ++ [osta o])
                    <-> In s (sused (final l)) \/ s = osta o).
        { destruct (inb String.eqb (osta o) (sused (final l))) eqn:Hi.
          - apply inb_str in Hi. split; [auto|]. intros [H| ->]; auto.
          - rewrite in_app_iff. cbn. split; intros [H|H]; auto. destruct H as [<-|[]]; auto. }
        rewrite Q, I4. split.
        -- intros [(q & Hq & <-)| ->]; [exists q|exists o]; rewrite in_app_iff; cbn; auto.
        -- intros (q & Hq & <-). apply in_app_iff in Hq as [Hq|[<-|[]]]; eauto.
      * intros p Hp. apply dict_add_keys in Hp as [->|(q & Hq & <-)].
        -- exists o. rewrite in_app_iff. cbn. auto.
        -- destruct (I5 q Hq) as (o' & Ho' & Ee). exists o'. rewrite in_app_iff. auto.
    + rewrite app_nil_r. split; [exact I1|]. split; [exact I2|]. split; [exact I3|]. split; [exact I4|].
      intros p Hp. destruct (I5 p Hp) as (o' & Ho' & Ee). exists o'. rewrite in_app_iff. auto.
Qed.

Lemma step_rows l o : 
  slast (final (l ++ [o])) = dset String.eqb (slast (final l)) (osta o) (oev o, oval o) /\
  srows (final (l ++ [o])) = srows (final l) ++
    match dget String.eqb (slast (final l)) (osta o) with
    | Some (kl, Rl) => [([(oev o, 1); (kl, -1)], ln Rl - ln (oval o))]
    | None => []
    end.
Proof.
  rewrite final_snoc. unfold align_step. destruct (norm (osta o)); cbn [slast srows];
  destruct (dget String.eqb (slast (final l)) (osta o)) as [[kl Rl]|]; cbn [slast srows]; rewrite ?app_nil_r; auto.
Qed.

(** shape of the rows *)
Lemma final_last l s k r : dget String.eqb (slast (final l)) s = Some (k, r) ->
  exists o, In o l /\ osta o = s /\ oev o = k /\ oval o = r.
Proof.
  induction l as [|o l IH] using rev_ind; [discriminate|]. destruct (step_rows l o) as [-> _].
  destruct (String.eqb_spec s (osta o)) as [->|Ne].
  - rewrite (dget_dset_eq _ string_eqb_spec). intros [= <- <-]. exists o. rewrite in_app_iff. cbn. auto.
  - rewrite (dget_dset_neq _ string_eqb_spec) by auto. intros H. destruct (IH H) as (o' & Ho & E). exists o'. rewrite in_app_iff. auto.
Qed.

Lemma rows_shape l row : In row (srows (final l)) ->
  exists o1 o2, In o1 l /\ In o2 l /\ osta o1 = osta o2 /\
    row = ([(oev o1, 1); (oev o2, -1)], ln (oval o2) - ln (oval o1)).
Proof.
  induction l as [|o l IH] using rev_ind; [intros []|]. destruct (step_rows l o) as [_ ->].
  rewrite in_app_iff. intros [H|H].
  - destruct (IH H) as (o1 & o2 & H1 & H2 & H3). exists o1, o2. rewrite !in_app_iff. auto.
  - destruct (dget String.eqb (slast (final l)) (osta o)) as [[kl Rl]|] eqn:E; [|destruct H].
    destruct H as [<-|[]]. apply final_last in E as (o2 & H2 & Hs & <- & <-).
    exists o, o2. rewrite !in_app_iff. cbn. auto.
Qed.

Definition lev (x : nat -> R) (o : obs) : R := x (oev o) + ln (oval o).

Lemma pair_row_value x o1 o2 :
  row_value ([(oev o1, 1); (oev o2, -1)], ln (oval o2) - ln (oval o1)) x = lev x o1 - lev x o2.
Proof. unfold row_value, lev. cbn [map fst snd]. unfold rsum. cbn [fold_right]. ring. Qed.

(** equal levels from rows without residual *)
Lemma rows_zero_levels x l : (forall row, In row (srows (final l)) -> row_value row x = 0) ->
  (forall o, In o l -> exists k r, dget String.eqb (slast (final l)) (osta o) = Some (k, r) /\ x k + ln r = lev x o).
Proof.
  induction l as [|o l IH] using rev_ind; [intros _ o []|]. intros H.
  destruct (step_rows l o) as [EL ER]. rewrite ER in H.
  assert (H1 : forall row, In row (srows (final l)) -> row_value row x = 0) by (intros; apply H, in_or_app; auto).
  specialize (IH H1). rewrite EL. intros o' Ho'.
  destruct (String.eqb_spec (osta o') (osta o)) as [Es|Ne].
  - rewrite Es, (dget_dset_eq _ string_eqb_spec). exists (oev o), (oval o). split; [reflexivity|].
    apply in_app_iff in Ho' as [Ho'|[<-|[]]]; [|reflexivity].
    destruct (IH o' Ho') as (k & r & Hd & Hv). rewrite Es in Hd. rewrite Hd in H.
    specialize (H ([(oev o, 1); (k, -1)], ln r - ln (oval o)) ltac:(apply in_or_app; right; now left)).
    unfold row_value in H. cbn [map fst snd] in H. unfold rsum in H. cbn [fold_right] in H. lra.
  - rewrite (dget_dset_neq _ string_eqb_spec) by auto. apply in_app_iff in Ho' as [Ho'|[<-|[]]]; [auto|congruence].
Qed.

Lemma rows_zero_equal x l o1 o2 : (forall row, In row (srows (final l)) -> row_value row x = 0) ->
  In o1 l -> In o2 l -> osta o1 = osta o2 -> lev x o1 = lev x o2.
Proof.
  intros H H1 H2 E. destruct (rows_zero_levels x l H o1 H1) as (k & r & D1 & V1).
  destruct (rows_zero_levels x l H o2 H2) as (k' & r' & D2 & V2). rewrite E in D1. rewrite D1 in D2.
  injection D2 as <- <-. lra.
Qed.

(** the normalisation row *)
Definition norm_row (resp : R) (l : list obs) : list (nat * R) * R :=
  let n := INR (List.length (sused (final l))) in
  (map (fun p => (fst p, snd p / n)) (sA (final l)), sb (final l) / n + ln resp).

Lemma align_rows_ok resp l rows : align_rows station nsta resp l = Ok rows ->
  rows = srows (final l) ++ [norm_row resp l] /\ sused (final l) <> [].
Proof.
  unfold align_rows. fold (final l). change (fold_left (align_step station nsta) l {| sA := []; sb := 0; sused := []; slast := []; srows := [] |}) with (final l).
  unfold norm_row. destruct (sused (final l)) as [|s0 l0]; [discriminate|].
  intros H. split; [|discriminate].
  symmetry. exact (f_equal (fun r => match r with Ok x => x | Err _ => [] end) H).
Qed.

Lemma norm_row_value resp l x : sused (final l) <> [] ->
  row_value (norm_row resp l) x =
  rsum (map (fun o => fac_of o * lev x o) (used l)) / INR (List.length (sused (final l))) - ln resp.
Proof.
  intros Hne. set (n := INR (List.length (sused (final l)))).
  assert (Hn : n <> 0). { unfold n. apply not_0_INR. destruct (sused (final l)); [congruence|discriminate]. }
  destruct (final_norm l x) as (I1 & I2 & _). unfold row_value, norm_row. fold n. cbn [fst snd].
  rewrite map_map. cbn [fst snd].
  rewrite (rsum_ext _ (fun p => / n * (snd p * x (fst p)))) by (intros; field; exact Hn).
  rewrite rsum_scale, I1, I2.
  rewrite (rsum_ext (fun o => fac_of o * lev x o) (fun o => fac_of o * x (oev o) + ln (oval o) * fac_of o))
    by (intros; unfold lev; ring).
  rewrite rsum_plus. field. exact Hn.
Qed.

(** each station counted with total weight 1 *)
Definition count_of (l : list obs) (s : string) : nat := List.length (filter (fun o => String.eqb (osta o) s) l).

Lemma used_filter l s : norm s = true ->
  filter (fun o => String.eqb (osta o) s) (used l) = filter (fun o => String.eqb (osta o) s) l.
Proof.
  intros Hs. unfold used. induction l as [|o l IH]; cbn; [reflexivity|].
  destruct (norm (osta o)) eqn:E; cbn; destruct (String.eqb_spec (osta o) s); rewrite ?IH; auto. subst; congruence.
Qed.

Lemma weighted_groups l (f : obs -> R) : (forall o, In o l -> nsta (osta o) = count_of l (osta o)) ->
  rsum (map (fun o => fac_of o * f o) (used l)) =
  rsum (map (fun s => rsum (map f (filter (fun o => String.eqb (osta o) s) l)) / INR (count_of l s)) (sused (final l))).
Proof.
  intros HC. destruct (final_norm l (fun _ => 0)) as (_ & _ & ND & HU & _).
  rewrite (rsum_group _ (sused (final l)) ND (used l)) by (intros o Ho; apply HU; eauto).
  apply rsum_ext. intros s Hs. apply HU in Hs as (o & Ho & <-). unfold used in Ho. apply filter_In in Ho as [Ho Hn].
  rewrite used_filter by assumption.
  rewrite (rsum_ext (fun o0 => fac_of o0 * f o0) (fun o0 => / INR (count_of l (osta o)) * f o0)).
  - rewrite rsum_scale. unfold Rdiv. ring.
  - intros o' Ho'. apply filter_In in Ho' as [Ho' E]. apply String.eqb_eq in E. unfold fac_of. rewrite E, HC by assumption.
    unfold Rdiv. ring.
Qed.

Lemma weights_one l : (forall o, In o l -> nsta (osta o) = count_of l (osta o)) ->
  rsum (map (fun o => fac_of o * 1) (used l)) = INR (List.length (sused (final l))).
Proof.
  intros HC. rewrite (weighted_groups l (fun _ => 1) HC).
  rewrite (rsum_ext _ (fun _ => 1)).
  - rewrite rsum_const. ring.
  - intros s Hs. destruct (final_norm l (fun _ => 0)) as (_ & _ & _ & HU & _). apply HU in Hs as (o & Ho & <-).
    unfold used in Ho. apply filter_In in Ho as [Ho _]. rewrite rsum_const. fold (count_of l (osta o)).
    assert (INR (count_of l (osta o)) <> 0).
    { apply not_0_INR. unfold count_of. intros E. apply length_zero_iff_nil in E.
      assert (In o (filter (fun o0 => String.eqb (osta o0) (osta o)) l)) by (apply filter_In; split; [assumption|apply String.eqb_refl]).
      rewrite E in H. destruct H. }
    field. assumption.
Qed.

Lemma sse_app r1 r2 x : sse (r1 ++ r2) x = sse r1 x + sse r2 x.
Proof. unfold sse. now rewrite map_app, rsum_app. Qed.

Lemma sse_zero rows x : sse rows x = 0 -> forall row, In row rows -> row_value row x = 0.
Proof.
  unfold sse. induction rows as [|row rows IH]; intros H r Hr; [destruct Hr|].
  cbn [map] in H. rewrite rsum_cons in H.
  assert (0 <= row_value row x * row_value row x) by apply Rle_0_sqr.
  assert (0 <= rsum (map (fun row => row_value row x * row_value row x) rows)) by (apply rsum_nonneg; intros; apply Rle_0_sqr).
  destruct Hr as [<-|Hr]; [|apply IH; auto; lra].
  destruct (Rmult_integral (row_value row x) (row_value row x)); auto. lra.
Qed.

Lemma sse_nonneg rows x : 0 <= sse rows x.
Proof. unfold sse. apply rsum_nonneg. intros. apply Rle_0_sqr. Qed.

Lemma lev_shift x c o : lev (fun k => x k + c) o = lev x o + c * 1.
Proof. unfold lev. ring. Qed.

(** a shift of all unknowns moves only the normalisation row *)
Lemma shift_sse resp l x c : sused (final l) <> [] -> (forall o, In o l -> nsta (osta o) = count_of l (osta o)) ->
  sse (srows (final l)) (fun k => x k + c) = sse (srows (final l)) x /\
  row_value (norm_row resp l) (fun k => x k + c) = row_value (norm_row resp l) x + c.
Proof.
  intros Hne HC. split.
  - unfold sse. apply rsum_ext. intros row Hr. apply rows_shape in Hr as (o1 & o2 & _ & _ & _ & ->).
    rewrite !pair_row_value, !lev_shift. ring.
  - rewrite !norm_row_value by assumption.
    rewrite (rsum_ext (fun o => fac_of o * lev (fun k => x k + c) o) (fun o => fac_of o * lev x o + c * (fac_of o * 1)))
      by (intros; rewrite lev_shift; ring).
    rewrite rsum_plus, rsum_scale, weights_one by assumption. field.
    apply not_0_INR. destruct (sused (final l)); [congruence|discriminate].
Qed.

(** the normalisation is met exactly by every least squares solution *)
Lemma norm_exact resp l rows x : align_rows station nsta resp l = Ok rows ->
  (forall o, In o l -> nsta (osta o) = count_of l (osta o)) ->
  (forall y, sse rows x <= sse rows y) -> row_value (norm_row resp l) x = 0.
Proof.
  intros H HC Hmin. apply align_rows_ok in H as [-> Hne].
  set (c := row_value (norm_row resp l) x).
  specialize (Hmin (fun k => x k + - c)). rewrite !sse_app in Hmin.
  destruct (shift_sse resp l x (- c) Hne HC) as [E1 E2]. rewrite E1 in Hmin.
  unfold sse in Hmin at 2 4. cbn [map] in Hmin. unfold rsum in Hmin. cbn [fold_right] in Hmin.
  rewrite E2 in Hmin. fold c in Hmin.
  assert (0 <= c * c) by apply Rle_0_sqr.
  assert (c * c = 0) by lra. destruct (Rmult_integral c c); auto.
Qed.

(** consistent data are fitted without residual *)
Lemma consistent_exact resp l rows x x0 : align_rows station nsta resp l = Ok rows ->
  (forall o, In o l -> nsta (osta o) = count_of l (osta o)) ->
  (forall y, sse rows x <= sse rows y) ->
  (forall o1 o2, In o1 l -> In o2 l -> osta o1 = osta o2 -> lev x0 o1 = lev x0 o2) ->
  forall o1 o2, In o1 l -> In o2 l -> osta o1 = osta o2 -> lev x o1 = lev x o2.
Proof.
  intros H HC Hmin H0. apply align_rows_ok in H as [-> Hne].
  set (c := row_value (norm_row resp l) x0).
  destruct (shift_sse resp l x0 (- c) Hne HC) as [E1 E2].
  assert (Z : sse (srows (final l) ++ [norm_row resp l]) (fun k => x0 k + - c) = 0).
  { rewrite sse_app, E1.
    assert (Z1 : sse (srows (final l)) x0 = 0).
    { unfold sse. transitivity (rsum (map (fun _ : list (nat * R) * R => 0) (srows (final l)))).
      - apply rsum_ext. intros row Hr. apply rows_shape in Hr as (o1 & o2 & P1 & P2 & P3 & ->).
        rewrite pair_row_value, (H0 o1 o2 P1 P2 P3). ring.
      - rewrite rsum_const. ring. }
    rewrite Z1. unfold sse. cbn [map]. unfold rsum. cbn [fold_right]. rewrite E2. fold c. ring. }
  assert (M := Hmin (fun k => x0 k + - c)). rewrite Z in M.
  assert (N := sse_nonneg (srows (final l) ++ [norm_row resp l]) x).
  assert (S0 := sse_zero _ _ (Rle_antisym _ _ M N)).
  intros o1 o2. apply rows_zero_equal. intros row Hr. apply S0, in_or_app. auto.
Qed.

(** columns *)
Lemma rows_columns resp l rows n : align_rows station nsta resp l = Ok rows -> (forall o, In o l -> (oev o < n)%nat) ->
  forall row p, In row rows -> In p (fst row) -> (fst p < n)%nat.
Proof.
  intros H HL. apply align_rows_ok in H as [-> _]. intros row p Hr Hp. apply in_app_iff in Hr as [Hr|[<-|[]]].
  - apply rows_shape in Hr as (o1 & o2 & H1 & H2 & _ & ->). cbn in Hp. destruct Hp as [<-|[<-|[]]]; cbn; auto.
  - unfold norm_row in Hp. cbn in Hp. apply in_map_iff in Hp as (q & <- & Hq). cbn.
    destruct (final_norm l (fun _ => 0)) as (_ & _ & _ & _ & HA). destruct (HA q Hq) as (o & Ho & <-). auto.
Qed.
End Loop.

(** ** observations *)
Lemma observations_In evs i area o : In o (observations evs i area) <->
  exists ev l, nth_error evs (oev o) = Some ev /\ In (osta o, l) (evR ev) /\ In (osta o) area /\ at_ l i = ENum (oval o).
Proof.
  unfold observations. rewrite in_flat_map. split.
  - intros ([k ev] & Hk & H). apply enum_In in Hk. cbn [fst snd] in H. apply in_flat_map in H as ([s l] & Hs & H). cbn [fst snd] in H.
    destruct (inb String.eqb s area) eqn:E; cbn in H; [|destruct H]. apply inb_str in E.
    destruct (at_ l i) eqn:Ea; try (destruct H; fail). destruct H as [<-|[]]. cbn. eauto 6.
  - intros (ev & l & Hk & Hs & Ha & Ev). exists (oev o, ev). split; [now apply enum_In|]. cbn [fst snd].
    apply in_flat_map. exists (osta o, l). split; [exact Hs|]. cbn [fst snd].
    apply inb_str in Ha. rewrite Ha. cbn. rewrite Ev. left. now destruct o.
Qed.

Lemma observations_response evs i area o : unique_stations evs ->
  (In o (observations evs i area) <->
   exists ev, nth_error evs (oev o) = Some ev /\ In (osta o) area /\ response_of ev i (osta o) = Some (oval o)).
Proof.
  intros U. unfold unique_stations in U. rewrite Forall_forall in U. rewrite observations_In. split.
  - intros (ev & l & H1 & H2 & H3 & H4). exists ev. split; [exact H1|]. split; [exact H3|].
    unfold response_of. apply (dget_map_In _ _ _ (U ev (nth_error_In _ _ H1))) in H2. rewrite H2, H4. reflexivity.
  - intros (ev & H1 & H2 & H3). unfold response_of in H3. destruct (dget String.eqb (evR ev) (osta o)) as [l|] eqn:E; [|discriminate].
    exists ev, l. split; [exact H1|]. split; [now apply (dget_In _ string_eqb_spec)|]. split; [exact H2|].
    destruct (at_ l i); try discriminate. congruence.
Qed.

(** the observations of one station in order *)
Definition station_obs (i : nat) (s : string) (p : nat * evres) : list obs :=
  match response_of (snd p) i s with Some r => [{| oev := fst p; osta := s; oval := r |}] | None => [] end.

Lemma filter_flat_map {A B} (f : B -> bool) (g : A -> list B) l : filter f (flat_map g l) = flat_map (fun a => filter f (g a)) l.
Proof. induction l as [|a l IH]; cbn; [reflexivity|]. now rewrite filter_app, IH. Qed.

Lemma flat_map_ext_in {A B} (f g : A -> list B) l : (forall a, In a l -> f a = g a) -> flat_map f l = flat_map g l.
Proof. induction l as [|a l IH]; intros H; cbn; [reflexivity|]. rewrite H by now left. f_equal. apply IH. intros. apply H. now right. Qed.

Lemma filter_station evs i area s : unique_stations evs -> In s area ->
  filter (fun o => String.eqb (osta o) s) (observations evs i area) = flat_map (station_obs i s) (enum evs).
Proof.
  intros U Hs. unfold observations. rewrite filter_flat_map. apply flat_map_ext_in. intros [k ev] Hk. cbn [fst snd].
  unfold unique_stations in U. rewrite Forall_forall in U. apply enum_In, nth_error_In in Hk. apply U in Hk. clear U.
  unfold station_obs, response_of. cbn [fst snd]. apply inb_str in Hs.
  induction (evR ev) as [|[s' l] d IH]; [reflexivity|]. cbn [flat_map fst snd]. inversion Hk; subst.
  rewrite filter_app, IH by assumption. clear IH. cbn [dget]. destruct (String.eqb_spec s s') as [<-|Ne].
  - rewrite Hs. cbn [negb].
    assert (N : dget String.eqb d s = None) by (apply (dget_None _ string_eqb_spec); assumption). rewrite N.
    destruct (at_ l i); cbn; rewrite ?String.eqb_refl; reflexivity.
  - destruct (inb String.eqb s' area); cbn; [|reflexivity]. destruct (at_ l i); cbn; try reflexivity.
    destruct (String.eqb_spec s' s); [congruence|reflexivity].
Qed.

Lemma responses_enum evs i s : responses evs i s = map oval (flat_map (station_obs i s) (enum evs)).
Proof.
  unfold responses, enum. generalize 0%nat. induction evs as [|ev evs IH]; intros k; cbn; [reflexivity|].
  rewrite map_app. rewrite <- (IH (S k)). f_equal. unfold station_obs. cbn. now destruct (response_of ev i s).
Qed.

Lemma nstations_responses evs i s : unique_stations evs -> nstations evs i s = List.length (responses evs i s).
Proof.
  intros U. unfold nstations, responses. induction U as [|ev evs Hev U IH]; [reflexivity|].
  cbn [flat_map]. rewrite filter_app, !app_length, IH. f_equal. clear IH U. unfold response_of.
  induction (evR ev) as [|[s' l] d IHd]; [reflexivity|]. inversion Hev; subst. cbn [filter fst snd dget].
  rewrite (String.eqb_sym s' s). destruct (String.eqb_spec s s') as [<-|Ne]; cbn [andb].
  - assert (N : dget String.eqb d s = None) by (apply (dget_None _ string_eqb_spec); assumption).
    rewrite N in IHd. specialize (IHd H2). cbn in IHd. destruct (at_ l i); cbn; rewrite IHd; reflexivity.
  - apply IHd. assumption.
Qed.

Lemma observations_count evs i area o : unique_stations evs -> In o (observations evs i area) ->
  nstations evs i (osta o) = count_of (observations evs i area) (osta o).
Proof.
  intros U Ho. apply observations_response in Ho as (ev & _ & Ha & _); [|exact U].
  unfold count_of. rewrite filter_station, nstations_responses, responses_enum, map_length by assumption. reflexivity.
Qed.

Lemma observations_columns evs i area o : In o (observations evs i area) -> (oev o < List.length evs)%nat.
Proof. intros H. apply observations_In in H as (ev & l & H & _). apply nth_error_Some. congruence. Qed.
