(** Mean site responses, success and failure of the alignment, a concrete solver. *)
From Coq Require Import String List Bool Reals Arith Lia Lra Permutation Relation_Operators.
From Verif Require Import Base PySort Pyf StatModel StatSpec StatProof SiteModel SiteSpec MergeProof SiteProof SiteProof2 SiteProof3 SiteProof4 SiteProof5.
Import ListNotations.
Open Scope list_scope.
Open Scope R_scope.

(** ** _collectR *)
Definition station_rows (evs : list evres) (s : string) : list (list pyf) :=
  flat_map (fun ev => match dget String.eqb (evR ev) s with Some l => [map epyf l] | None => [] end) evs.

Definition rows_of (ps : list (string * list entry)) (s : string) : list (list pyf) :=
  flat_map (fun p => if String.eqb s (fst p) then [map epyf (snd p)] else []) ps.

Definition collect_step (d : list (string * list (list pyf))) (p : string * list entry) :=
  dset String.eqb d (fst p) (match dget String.eqb d (fst p) with Some l => l | None => [] end ++ [map epyf (snd p)]).

Lemma collect_fold ps s : 
  dget String.eqb (fold_left collect_step ps []) s = match rows_of ps s with [] => None | l => Some l end /\
  NoDup (map fst (fold_left collect_step ps [])).
Proof.
  induction ps as [|p ps IH] using rev_ind; [cbn; split; [reflexivity|constructor]|].
  rewrite fold_left_app. cbn [fold_left]. unfold rows_of in *. rewrite flat_map_app. cbn [flat_map]. rewrite app_nil_r.
  destruct IH as [IH ND]. set (d := fold_left collect_step ps []) in *. unfold collect_step. split.
  - destruct (String.eqb_spec s (fst p)) as [->|Ne].
    + rewrite (dget_dset_eq _ string_eqb_spec), IH. destruct (flat_map _ ps); reflexivity.
    + rewrite (dget_dset_neq _ string_eqb_spec) by auto. now rewrite app_nil_r.
  - now apply (dset_nodup _ string_eqb_spec).
Qed.

Lemma rows_of_events evs s : unique_stations evs -> rows_of (flat_map evR evs) s = station_rows evs s.
Proof.
  intros U. unfold rows_of, station_rows. induction U as [|ev evs Hev U IH]; [reflexivity|].
  cbn [flat_map]. rewrite flat_map_app, IH. f_equal. clear IH U.
  induction (evR ev) as [|[k l] d IHd]; [reflexivity|]. inversion Hev; subst. cbn [flat_map fst snd dget].
  destruct (String.eqb_spec s k) as [->|Ne]; [|now apply IHd].
  rewrite IHd by assumption.
  assert (N : dget String.eqb d k = None) by (apply (dget_None _ string_eqb_spec); assumption). now rewrite N.
Qed.

Lemma collectR_get evs s : unique_stations evs ->
  dget String.eqb (collectR evs) s = match station_rows evs s with [] => None | l => Some l end.
Proof. intros U. rewrite <- rows_of_events by assumption. apply (collect_fold (flat_map evR evs) s). Qed.

Lemma collectR_nodup evs : NoDup (map fst (collectR evs)).
Proof. apply (collect_fold (flat_map evR evs) ""). Qed.

(** ** mean responses *)
Section Mean.
Variables (rlm : list R -> R * R) (Nf : nat).

Definition mean_step (acc : res (list (string * list (option R)))) (p : string * list (list pyf)) :=
  do Rm <- acc;
  if forallb (forallb fisnan) (snd p) then Ok Rm
  else do l <- gmeanlist rlm (snd p) Nf None true 5; Ok (dset String.eqb Rm (fst p) l).

Lemma mean_fold ps : NoDup (map fst ps) -> forall Rm0, exists Rm1,
  fold_left mean_step ps (Ok Rm0) = Ok Rm1 /\
  (forall s, ~ In s (map fst ps) -> dget String.eqb Rm1 s = dget String.eqb Rm0 s) /\
  (forall s rows, In (s, rows) ps ->
     if forallb (forallb fisnan) rows then dget String.eqb Rm1 s = dget String.eqb Rm0 s
     else exists l, gmeanlist rlm rows Nf None true 5 = Ok l /\ dget String.eqb Rm1 s = Some l).
Proof.
  induction ps as [|[s rows] ps IH]; intros ND Rm0.
  - exists Rm0. split; [reflexivity|]. split; [auto|]. intros s rows [].
  - inversion ND; subst. cbn [fold_left]. unfold mean_step at 2. cbn [bind fst snd].
    destruct (gmeanlist_spec rlm rows Nf true 5 ltac:(lia)) as (l & El & _).
    set (Rm2 := if forallb (forallb fisnan) rows then Rm0 else dset String.eqb Rm0 s l).
    assert (E : (if forallb (forallb fisnan) rows then Ok Rm0 else do l0 <- gmeanlist rlm rows Nf None true 5; Ok (dset String.eqb Rm0 s l0)) = Ok Rm2).
    { unfold Rm2. rewrite El. cbn [bind]. now destruct (forallb (forallb fisnan) rows). }
    rewrite E. destruct (IH H2 Rm2) as (Rm1 & E1 & A1 & A2). exists Rm1. split; [exact E1|].
    assert (K : forall s', s' <> s -> dget String.eqb Rm2 s' = dget String.eqb Rm0 s').
    { intros s' Hs. unfold Rm2. destruct (forallb (forallb fisnan) rows); [reflexivity|]. apply (dget_dset_neq _ string_eqb_spec); auto. }
    split.
    + intros s' Hs. cbn in Hs. rewrite A1 by tauto. apply K. intuition.
    + intros s' rows' [[= <- <-]|Hin].
      * rewrite (A1 s H1). unfold Rm2. destruct (forallb (forallb fisnan) rows); [reflexivity|].
        exists l. split; [exact El|]. apply (dget_dset_eq _ string_eqb_spec).
      * assert (Ne : s' <> s). { intros ->. apply H1. now apply (in_map fst) in Hin. }
        specialize (A2 s' rows' Hin). rewrite (K s' Ne) in A2. exact A2.
Qed.

Lemma mean_responses_eq evs Rm0 : mean_responses rlm evs Nf Rm0 = fold_left mean_step (collectR evs) (Ok Rm0).
Proof. reflexivity. Qed.

Lemma mean_responses_ok evs Rm0 : exists Rm1, mean_responses rlm evs Nf Rm0 = Ok Rm1.
Proof. destruct (mean_fold (collectR evs) (collectR_nodup evs) Rm0) as (Rm1 & H & _). exists Rm1. exact H. Qed.

Lemma gmean_valid_ext d1 d2 rob fb : valid_data d1 = valid_data d2 -> gmean rlm d1 None rob fb = gmean rlm d2 None rob fb.
Proof.
  intros H. unfold gmean, gstat. destruct rob; cbn [bind].
  - unfold robust_stat. rewrite !unmasked_log, H. reflexivity.
  - unfold weighted_stat, average. cbn [fst]. rewrite !unmasked_log, H. reflexivity.
Qed.

Lemma valid_column evs i s : (forall ev s r, In ev evs -> response_of ev i s = Some r -> 0 < r) ->
  valid_data (column (station_rows evs s) i) = responses evs i s.
Proof.
  intros HP. unfold column, station_rows, responses. rewrite map_flat_map, valid_data_flat.
  induction evs as [|ev evs IH]; [reflexivity|]. cbn [flat_map]. rewrite flat_map_app, IH by (intros; eapply HP; [right|]; eauto). f_equal.
  assert (P := fun r => HP ev s r (or_introl eq_refl)). unfold response_of in *.
  destruct (dget String.eqb (evR ev) s) as [l|]; [|reflexivity]. cbn [map flat_map]. rewrite app_nil_r.
  change FNan with (epyf ENone). rewrite map_nth. fold (at_ l i).
  destruct (at_ l i) as [| |r]; cbn [epyf]; try reflexivity. specialize (P r eq_refl).
  unfold StatSpec.valid. destruct (Rlt_dec 0 r); [reflexivity|contradiction].
Qed.

Lemma valid_responses evs i s : (forall ev s r, In ev evs -> response_of ev i s = Some r -> 0 < r) ->
  valid_data (map FNum (responses evs i s)) = responses evs i s.
Proof.
  intros HP. assert (P : forall r, In r (responses evs i s) -> 0 < r).
  { intros r Hr. apply responses_In in Hr as (ev & Hev & Hr). eauto. }
  rewrite valid_data_flat. induction (responses evs i s) as [|r l IH]; [reflexivity|]. cbn [map flat_map].
  rewrite IH by (intros; apply P; now right). unfold StatSpec.valid. destruct (Rlt_dec 0 r); [reflexivity|].
  exfalso. apply n. apply P. now left.
Qed.

(** the mean of a station with aligned responses and of other stations *)
Lemma mean_responses_spec evs Rm0 Rm1 s : Forall (well_formed Nf) evs ->
  (forall i ev s r, (i < Nf)%nat -> In ev evs -> response_of ev i s = Some r -> 0 < r) ->
  mean_responses rlm evs Nf Rm0 = Ok Rm1 ->
  ((exists i, (i < Nf)%nat /\ responses evs i s <> []) -> exists l, dget String.eqb Rm1 s = Some l /\ List.length l = Nf /\
     forall i, (i < Nf)%nat -> gmean rlm (map FNum (responses evs i s)) None true 5 = Ok (nth i l None) /\
       (nth i l None = None <-> responses evs i s = [])) /\
  ((forall i, (i < Nf)%nat -> responses evs i s = []) -> dget String.eqb Rm1 s = dget String.eqb Rm0 s).
Proof.
  intros WF HP H. assert (U := wf_unique Nf evs WF).
  destruct (mean_fold (collectR evs) (collectR_nodup evs) Rm0) as (Rm1' & E & A1 & A2).
  rewrite mean_responses_eq, E in H. injection H as ->.
  assert (NN : forall i, (i < Nf)%nat -> responses evs i s <> [] -> forallb (forallb fisnan) (station_rows evs s) = false).
  { intros i Hi Hr. destruct (forallb (forallb fisnan) (station_rows evs s)) eqn:F; [|reflexivity]. exfalso. apply Hr.
    rewrite <- (valid_column evs i s (fun ev s r => HP i ev s r Hi)). rewrite forallb_forall in F.
    rewrite valid_data_flat. unfold column.
    assert (Z : forall rows, (forall row, In row rows -> forallb fisnan row = true) ->
      flat_map (fun x => match StatSpec.valid x with Some r => [r] | None => [] end) (map (fun row => nth i row FNan) rows) = []).
    { induction rows as [|row rows IHr]; intros HF; [reflexivity|]. cbn [map flat_map]. rewrite IHr by (intros; apply HF; now right).
      specialize (HF row (or_introl eq_refl)). rewrite forallb_forall in HF.
      destruct (nth_in_or_default i row FNan) as [Hin|Hd]; [apply HF in Hin|rewrite Hd; reflexivity].
      destruct (nth i row FNan); try discriminate. reflexivity. }
    apply Z. exact F. }
  split.
  - intros (i0 & Hi0 & Hr0). specialize (NN i0 Hi0 Hr0).
    assert (Hne : station_rows evs s <> []) by (intros E0; rewrite E0 in NN; discriminate).
    assert (G := collectR_get evs s U).
    assert (G' : dget String.eqb (collectR evs) s = Some (station_rows evs s)) by (rewrite G; destruct (station_rows evs s); [congruence|reflexivity]).
    apply (dget_In _ string_eqb_spec) in G'. specialize (A2 s _ G'). rewrite NN in A2. destruct A2 as (l & El & Dl).
    exists l. split; [exact Dl|]. unfold gmeanlist in El. split; [rewrite (mapM_length _ _ _ El); apply seq_length|].
    intros i Hi. assert (N := mapM_nth _ _ _ i 0%nat None El). rewrite seq_length, seq_nth in N by assumption. specialize (N Hi). cbn [Nat.add] in N.
    assert (V : valid_data (column (station_rows evs s) i) = valid_data (map FNum (responses evs i s))).
    { rewrite valid_column by (intros ev t r; exact (HP i ev t r Hi)). symmetry. apply valid_responses. intros ev t r; exact (HP i ev t r Hi). }
    rewrite (gmean_valid_ext _ _ true 5 V) in N. split; [exact N|].
    destruct (gmean_None_iff rlm (map FNum (responses evs i s)) true 5 ltac:(lia)) as (m & Hm & Hmi).
    rewrite Hm in N. assert (nth i l None = m) as -> by congruence. rewrite Hmi, valid_responses by (intros ev t r; exact (HP i ev t r Hi)). reflexivity.
  - intros H0. assert (G := collectR_get evs s U). destruct (station_rows evs s) as [|row rows] eqn:ER.
    + apply A1. intros Hin. apply (dget_None _ string_eqb_spec) in G. contradiction.
    + apply (dget_In _ string_eqb_spec) in G. specialize (A2 s _ G). rewrite <- ER in A2.
      replace (forallb (forallb fisnan) (station_rows evs s)) with true in A2; [exact A2|]. symmetry.
      apply forallb_forall. intros r0 Hr0. apply forallb_forall. intros e He.
      apply (In_nth _ _ FNan) in He as (j & Hj & Ej).
      unfold station_rows in Hr0. apply in_flat_map in Hr0 as (ev & Hev & Hr0).
      destruct (dget String.eqb (evR ev) s) as [l|] eqn:Dl; [|destruct Hr0]. destruct Hr0 as [<-|[]].
      assert (Ll : List.length l = Nf).
      { rewrite Forall_forall in WF. destruct (WF ev Hev) as (_ & _ & L). rewrite Forall_forall in L. apply (dget_In _ string_eqb_spec) in Dl. apply (L _ Dl). }
      rewrite map_length, Ll in Hj. change FNan with (epyf ENone) in Ej. rewrite map_nth in Ej. fold (at_ l j) in Ej. subst e.
      destruct (at_ l j) as [| |v] eqn:Ev; try reflexivity. exfalso.
      assert (In v (responses evs j s)). { apply responses_In. exists ev. split; [exact Hev|]. unfold response_of. now rewrite Dl, Ev. }
      rewrite H0 in H by assumption. destruct H.
Qed.
End Mean.
