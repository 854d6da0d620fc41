(** C132: the fits of the two orders. *)
From Coq Require Import String List Bool Reals Lra Lia ZArith Arith Permutation.
From Verif Require Import Base Pyf PyfOps StatModel StatProof FbModel FbProof3 SiteProof LsqfbModel LsqfbSpec LsqfbProof LsqfbProof2 LsqfbProof3 LsqfbProof4 LsqfbProof5 GainSpec GainProof GainProof2 GainProof3 ShuffleSpec ShuffleProof.
Import ListNotations.
Open Scope string_scope.
Open Scope list_scope.
Open Scope R_scope.

Definition bval (bf : option pyf) : R := match bf with Some (FNum y) => y | _ => 0 end.

(** right hand side of the equation of a datum *)
Definition yv (bf : option pyf) (d : datum) : R :=
  ln (num (senergy (d_s d))) - ln (num (d_g d)) + bval bf * tof (d_s d).

(** weighted sum of squares for parameters *)
Definition misfit (o : lopts) (bf : option pyf) (T : list datum) (site source : string -> R) (b : R) : R :=
  tsum (fun d => d_w d * (target o site source b (d_s d) - yv bf d) * (target o site source b (d_s d) - yv bf d)) T.

Lemma sse_misfit o bf site source b c : forall T rows,
  Forall2 (fun r y => dotr r c = y) rows (map (target o site source b) (map d_s T)) ->
  sse rows (map (yv bf) T) (map d_w T) c = misfit o bf T site source b.
Proof.
  induction T as [|d T IH]; intros rows F; inversion F as [|r ? rows' ? E F']; subst; [reflexivity|].
  cbn [map sse]. rewrite (IH _ F'), E. reflexivity.
Qed.

Section One.
  Variables (o : lopts) (st : wstate) (l : list observed) (dof : nat -> nat -> R) (x : R) (bf : option pyf).
  Hypothesis AR : arranged (l_bulk o) l st.
  Hypothesis AL : aligned st.
  Hypothesis NU : numeric st.
  Hypothesis LS : least_squares_full (l_wls o) dof.
  Hypothesis WP : good_weights o st.
  Hypothesis CN : l_coda_norm o = false.
  Hypothesis PG : positive_greens o st.
  Hypothesis GL : greens_lengths o st.
  Hypothesis FS : l_fix_sites o = None.
  Hypothesis R0 : 0 < l_R0 o.
  Hypothesis NET : one_network st.
  Hypothesis TT : l_fix o = false -> two_times st.
  Hypothesis X : 0 < x.
  Hypothesis NB : if l_fix o then exists y, bf = Some (FNum y) else bf = None.

  Let T := data o st x l.

  Lemma rhs_full bs z : rhs o st (FNum x) bf false bs = Ok z -> Forall (full o st x) l.
  Proof.
    intros H. destruct (rhs_lengths o st (FNum x) AL _ _ _ _ H) as (gc & gb & GR & _).
    rewrite (arranged_pairs _ _ _ AR), (proj1 (proj2 AR)), (proj1 (proj2 (proj2 AR))) in GR.
    destruct (greens_map o st x l gc gb GR) as (_ & _ & F).
    apply (arranged_aligned _ _ _ AR) in AL. destruct AL as (_ & F2).
    apply Forall_forall. intros ob I. rewrite Forall_forall in F, F2. split; [now apply F2|].
    destruct (F ob I) as (r & D & G). refine (GL r _ x _ _ X G).
    apply In_nth_error in I. destruct I as (j & E). exists j, (ob_pair ob).
    rewrite (arranged_pairs _ _ _ AR), (proj1 (proj2 AR)), !nth_error_map, E. auto.
  Qed.

  Lemma rhs_data bs z : rhs o st (FNum x) bf false bs = Ok z -> z = map FNum (map (yv bf) T).
  Proof.
    intros H. pose proof (rhs_full bs z H) as FU. pose proof (data_s o st x l FU) as DS. pose proof (data_g o st x l FU) as DG.
    rewrite <- (arranged_samples _ _ _ AR) in DS. fold T in DS, DG.
    unfold rhs in H. destruct (greens o st (FNum x) (pairs st) (w_ecoda st) (w_tcoda st)) as [[gc gb]|] eqn:GR; [|discriminate].
    cbn [bind] in H. pose proof (greens_positive o st PG x _ _ X GR) as GP.
    assert (EG : concat gc ++ gb = map d_g T).
    { rewrite (arranged_pairs _ _ _ AR), (proj1 (proj2 AR)), (proj1 (proj2 (proj2 AR))) in GR.
      destruct (greens_map o st x l gc gb GR) as (-> & -> & _). now rewrite DG. }
    destruct (samples_columns st AL) as [ST SE]. rewrite <- ST, <- SE, <- DS, EG in H. rewrite EG in GP.
    assert (NT : forall d, In d T -> exists t e, snd (d_s d) = (FNum t, FNum e) /\ 0 < e).
    { intros d I. unfold numeric in NU. rewrite <- DS in NU. rewrite Forall_forall in NU. apply NU. now apply in_map. }
    assert (NG : forall d, In d T -> exists y, d_g d = FNum y /\ 0 < y).
    { intros d I. rewrite Forall_forall in GP. apply GP. now apply in_map. }
    rewrite !map_map in H.
    destruct (zip_op fsub _ _) as [z0|] eqn:E; [|discriminate]. cbn [bind] in H.
    apply (zip_map fsub _ _ (fun d => FNum (ln (num (senergy (d_s d))) - ln (num (d_g d))))) in E.
    2:{ intros d I. destruct (NT d I) as (t & e & ES & EP). destruct (NG d I) as (y & -> & YP).
        unfold senergy. rewrite ES. cbn [snd num]. rewrite !flog_num by assumption. reflexivity. }
    subst z0.
    assert (K : forall z1, match nonzero bf with
                | None => Ok (map (fun d => FNum (ln (num (senergy (d_s d))) - ln (num (d_g d)))) T)
                | Some b => zip_op fadd (map (fun d => FNum (ln (num (senergy (d_s d))) - ln (num (d_g d)))) T) (map (fmul b) (map (fun d => stime (d_s d)) T))
                end = Ok z1 -> z1 = map FNum (map (yv bf) T)).
    { intros z1 H1. rewrite map_map. unfold yv.
      destruct bf as [b|]; [|cbn [nonzero] in H1; injection H1 as <-; apply map_ext; intros d; cbn; f_equal; ring].
      assert (B : exists y, b = FNum y) by (destruct (l_fix o); [destruct NB as (y & [= ->]); eauto|discriminate]).
      destruct B as (y & ->). cbn [nonzero bval] in *. destruct (Req_EM_T y 0) as [->|N].
      - injection H1 as <-. apply map_ext; intros d; cbn; f_equal; ring.
      - rewrite (map_map (fun d => stime (d_s d))) in H1. refine (zip_map fadd _ _ _ _ _ H1 _). intros d I.
        destruct (NT d I) as (t & e & ES & EP). unfold tof, stime. rewrite ES. reflexivity. }
    match type of H with bind ?x _ = _ => destruct x as [z1|] eqn:H1; [|discriminate] end. cbn [bind] in H. injection H as <-.
    exact (K _ eq_refl).
  Qed.

  Lemma weights_data (rows : list (list R)) : List.length rows = List.length T ->
    match weights o st (map FNum (map (yv bf) T)) with None => repeat 1 (List.length rows) | Some w => w end = map d_w T.
  Proof.
    intros LR. unfold weights. rewrite !map_length, LR. unfold T, data. rewrite map_app, cods_w, app_length.
    destruct AR as (_ & _ & _ & B). destruct (l_bulk o).
    - destruct B as (_ & _ & ->). rewrite !map_length, map_map. f_equal. f_equal. lia.
    - cbn [map List.length]. now rewrite app_nil_r, Nat.add_0_r.
  Qed.

  Lemma weights_positive_data : Forall (fun d => 0 < d_w d) T.
  Proof.
    unfold T, data. apply Forall_app. split.
    - apply Forall_forall. intros d I. apply in_flat_map in I. destruct I as (ob & _ & I). apply in_map_iff in I.
      destruct I as (p & <- & _). cbn. lra.
    - unfold good_weights in WP. destruct AR as (_ & _ & _ & B). destruct (l_bulk o); [|constructor].
      destruct B as (_ & _ & B). destruct (WP eq_refl) as [P _]. rewrite B in P.
      apply Forall_forall. intros d I. apply in_map_iff in I. destruct I as (ob & <- & I). cbn.
      rewrite Forall_forall in P. apply P. now apply in_map.
  Qed.

  (** the unknowns are determined *)
  Lemma determined rows : Forall (fun e => e <> []) (w_ecoda st) -> good_rows o st rows -> independent (width o st) rows.
  Proof.
    intros NEM G c LC Z.
    assert (EX : exact_rows o st (fun _ => 1) (fun _ => 1) 0 c rows).
    { unfold exact_rows. destruct (good_lengths o st rows G) as [_ LL]. clear - Z LL. revert LL. generalize (samples st).
      induction rows as [|r rows IH]; intros [|s ss] LL; try discriminate; [constructor|]. inversion Z; subst.
      cbn [map]. constructor; [|apply IH; auto]. unfold target. rewrite ln_1. rewrite H1. destruct (l_fix o); ring. }
    destruct (identify o st AL (fun _ => 1) (fun _ => 1) 0 ltac:(intros; lra) (network_stations st NET) TT NEM c rows G LC EX) as (B & HS & HE).
    rewrite ln_1 in HS, HE.
    apply Forall_forall. intros y I. apply (In_nth _ _ 0) in I. destruct I as (k & KL & <-). rewrite LC in KL.
    unfold width, fix01 in KL. destruct (Nat.ltb_spec k (Ns st)) as [L|L].
    - unfold Ns in L. destruct (nth_error (stations st) k) as [s|] eqn:E; [|apply nth_error_None in E; lia].
      rewrite (HS k s); [lra|]. apply index_of_nodup; [apply fromkeys_spec|exact E].
    - pose proof (Ne_pos st AL) as EP.
      destruct (Nat.ltb_spec k (Ns st + (Ne st - 1))) as [L2|L2].
      + destruct (nth_error (eventids st) (k - Ns st + 1)) as [e|] eqn:E; [|apply nth_error_None in E; unfold Ne in *; lia].
        pose proof (HE (k - Ns st + 1)%nat e (index_of_nodup _ (proj1 (fromkeys_spec _)) _ _ E)) as Q. unfold ev_part in Q.
        rewrite (proj2 (Nat.ltb_lt _ _)) in Q by lia. replace (Ns st + (k - Ns st + 1) - 1)%nat with k in Q by lia. lra.
      + destruct (l_fix o) eqn:FX; [lia|]. rewrite <- (B eq_refl).
        assert (KK : k = (List.length c - 1)%nat) by (rewrite LC; unfold width, fix01; rewrite FX; lia). rewrite KK.
        clear. induction c as [|u c IH]; [reflexivity|]. destruct c as [|v c]; [reflexivity|].
        replace (List.length (u :: v :: c) - 1)%nat with (S (List.length (v :: c) - 1)) by (cbn; lia). cbn [nth]. exact IH.
  Qed.

  (** what a fit is *)
  Lemma analyse a bs rs f : build o st = Ok (a, bs, rs) -> solve_at o st a bs rs (FNum x) bf false = Ok f ->
    exists c rows, List.length c = width o st /\ good_rows o st rows /\ map d_s T = samples st /\
      Forall (fun e => e <> []) (w_ecoda st) /\ List.length rows = List.length T /\
      (forall v, List.length v = width o st -> sse rows (map (yv bf) T) (map d_w T) c <= sse rows (map (yv bf) T) (map d_w T) v) /\
      f_g0 f = FNum x /\ f_W f = map FNum (W_of o st c) /\ f_R f = map FNum (R_of o st c) /\
      f_b f = (if l_fix o then FNum (bval bf) else FNum (last c 0)) /\
      f_err f = (let e := fsqrt (FNum (misfit o bf T (site_at o st c) (source_at o st c) (last c 0) / dof (List.length T) (width o st))) in
                 if l_fix o then e else if (b_outside o (FNum (last c 0)) || g0_outside o (FNum x))%bool then FPInf else e).
  Proof.
    intros BU H. destruct (solve_at_rhs _ _ _ _ _ _ _ _ _ H) as (z & RH).
    pose proof (rhs_full bs z RH) as FU. pose proof (data_s o st x l FU) as DS. rewrite <- (arranged_samples _ _ _ AR) in DS. fold T in DS.
    pose proof (rhs_data bs z RH) as EZ.
    assert (NEM : Forall (fun e => e <> []) (w_ecoda st)).
    { destruct (rhs_lengths o st (FNum x) AL _ _ _ _ RH) as (gc & gb & GR & _). exact (ecoda_nonempty o st _ gc gb AL GR). }
    destruct (rows_of o st AL a bs rs CN FS (numeric_times st NU) BU) as (rows & EA & G).
    destruct (good_lengths o st rows G) as [LR LL].
    assert (LT : List.length rows = List.length T) by (rewrite LL, <- DS; apply map_length).
    unfold solve_at in H. rewrite RH in H. cbn [bind] in H.
    destruct (l_wls o z a (weights o st z)) as [[c' mse]|] eqn:W; [|discriminate]. cbn [bind] in H.
    rewrite EA, EZ in W.
    destruct (LS (width o st) rows (map (yv bf) T) _ c' mse LR ltac:(rewrite map_length; congruence) (determined rows NEM G) W) as (c & -> & LC & M & EM).
    cbv zeta in M, EM. rewrite (weights_data rows LT) in M, EM.
    pose proof (at_exact o st R0 TT rows c LC G) as EX. unfold exact_rows in EX. rewrite <- DS in EX.
    rewrite (sse_misfit o bf _ _ _ c T rows EX), LT in EM. subst mse.
    exists c, rows. split; [exact LC|]. split; [exact G|]. split; [exact DS|]. split; [exact NEM|]. split; [exact LT|].
    split; [exact M|].
    rewrite (decode_spec o st AL c rs R0 CN LC) in H. rewrite CN in H. destruct (l_fix o) eqn:FX.
    - destruct NB as (y & ->). cbn [bind] in H. injection H as <-. repeat (split; [reflexivity|]). reflexivity.
    - assert (NE : c <> []).
      { intros ->. cbn in LC. unfold width, fix01 in LC. rewrite FX in LC. pose proof (Ns_pos st AL). lia. }
      assert (L1 := last_map_num c NE). destruct (map FNum c) as [|p q] eqn:MC; [now destruct c|].
      cbv zeta in H. rewrite L1 in H. cbn [bind] in H. injection H as <-. repeat (split; [reflexivity|]). reflexivity.
  Qed.
End One.
