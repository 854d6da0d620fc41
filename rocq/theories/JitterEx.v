(** Concrete cases used in the examples of JitterProps. *)
From Coq Require Import String List Bool Reals Lra Lia Arith Classical.
From Coquelicot Require Import Coquelicot.
From Verif Require Import Base Pyf StatModel StatSpec StatProof PySort SortModel SortProof
  SourceModel SourceSpec SourceProof SourceProof2 SourceProof3 SourceProof4 SourceEx NoiseSpec JitterSpec JitterProof JitterProof2 JitterProof3.
Import ListNotations.
Open Scope string_scope.
Open Scope list_scope.
Open Scope R_scope.

(** optimisers that are exact and stay in the range: return x if it is a minimum in the range *)
Definition inner1 (x : R) (f : R -> R) (b : option (R * R)) : res R :=
  if EM_dec (within1 b x /\ minimal1 f b x) then Ok x else Err ValueError.
Definition innerN (x : list R) (f : list R -> R) (x0 : list R) (bs : list (option (R * R))) : res (list R) :=
  if EM_dec (Forall2 within1 bs x /\ forall y, Forall2 within1 bs y -> f x <= f y) then Ok x else Err ValueError.

Lemma inner1_exact x : exact1 (inner1 x).
Proof.
  intros f b x'. unfold inner1. destruct (EM_dec _) as [H|]; [|discriminate].
  intros [= <-]. apply NNPP in H. exact (proj2 H).
Qed.

Lemma inner1_stays x : stays1 (inner1 x).
Proof.
  intros f b x'. unfold inner1. destruct (EM_dec _) as [H|]; [|discriminate].
  intros [= <-]. apply NNPP in H. exact (proj1 H).
Qed.

Lemma innerN_exact x : exactN (innerN x).
Proof.
  intros f x0 bs x'. unfold innerN. destruct (EM_dec _) as [H|]; [|discriminate].
  intros [= <-]. apply NNPP in H. exact (proj2 H).
Qed.

Lemma innerN_stays x : staysN (innerN x).
Proof.
  intros f x0 bs x'. unfold innerN. destruct (EM_dec _) as [H|]; [|discriminate].
  intros [= <-]. apply NNPP in H. exact (proj1 H).
Qed.

Lemma inner1_hit x f b : within1 b x -> minimal1 f b x -> inner1 x f b = Ok x.
Proof. intros W H. unfold inner1. destruct (EM_dec _) as [_|N]; [reflexivity|exfalso; apply N; now split]. Qed.

(** one per cent more *)
Lemma one_percent y : 0 < y -> up_to (1/10) (101/100 * y) y.
Proof.
  intros Y. pose proof (exp_ineq1_le (1/10)) as A.
  assert (B : exp (- (1/10)) <= 1).
  { pose proof (exp_increasing (- (1/10)) 0) as C. rewrite exp_0 in C. lra. }
  split; apply Rmult_le_compat_r; lra.
Qed.

Lemma near_percent l : (forall x, In (Some x) l -> 0 < x) -> near_spectrum (1/10) (scale_spec (101/100) l) l.
Proof.
  unfold near_spectrum, scale_spec. induction l as [|[x|] l IH]; intros P; cbn; constructor.
  - split; [apply P; now left|]. apply one_percent, P. now left.
  - apply IH. intros y I. apply P. now right.
  - exact I.
  - apply IH. intros y I'. apply P. now right.
Qed.

Definition jit_W : list (option R) := [Some 2; None; Some 1].
Definition jit_W' : list (option R) := scale_spec (101/100) jit_W.

Lemma jit_near : near_spectrum (1/10) jit_W' jit_W.
Proof. apply near_percent. intros x [[= <-]|[[=]|[[= <-]|[]]]]; lra. Qed.

Lemma ab_pos M0 fc n g f : 0 < M0 -> 0 < abercrombie M0 fc n g f.
Proof. intros H. unfold abercrombie. apply Rdiv_lt_0_compat; [exact H|]. apply exp_pos. Qed.

Lemma ex_spec_pos : forall x, In (Some x) ex_spec -> 0 < x.
Proof. intros x [[= <-]|[[=]|[[= <-]|[]]]]; apply ab_pos; lra. Qed.

Lemma jit_spec_near : near_spectrum (1/10) (scale_spec (101/100) ex_spec) ex_spec.
Proof. apply near_percent, ex_spec_pos. Qed.

(** a search with the default options on both spectra *)
Lemma jit_search : forall rlm1 lin2 minN, exists f f',
  fit_sds rlm1 lin2 (inner1 10) minN "fit" ex_freq (scale_spec (101/100) ex_spec) few_opts = Ok (Some f') /\
  fit_sds rlm1 lin2 (inner1 10) minN "fit" ex_freq ex_spec few_opts = Ok (Some f).
Proof.
  intros rlm1 lin2 minN.
  assert (H : exists f, fit_sds rlm1 lin2 (inner1 10) minN "fit" ex_freq ex_spec few_opts = Ok (Some f)).
  { change (fit_sds rlm1 lin2 (inner1 10) minN "fit" ex_freq ex_spec few_opts) with
      (bind (inner1 10 (fun x => snd (lstsq rlm1 false ex_points x 2 1)) (Some (5, 20)))
        (fun x => Ok (Some (back_transform (dupdate String.eqb [("fc", Some x)]
           (lstsq_dict (lstsq rlm1 false ex_points x 2 1))))))).
    rewrite inner1_hit; [eexists; reflexivity|cbn; lra|].
    intros y _. rewrite !lstsq_err. eapply Rle_trans; [|apply log_misfit_nonneg].
    destruct (lstsq_min rlm1 ex_points 10 2 1 3) as [H _]; [discriminate|lra|].
    eapply Rle_trans; [exact H|]. right. apply log_misfit_exact, ex_points_exact. }
  destruct H as (f & H). exists f. exists (scale_M0 (101/100) f). split; [|exact H].
  rewrite fit_scale; [rewrite H; reflexivity|now left|discriminate|discriminate|lra|].
  cbn. intros p [<-|[<-|[]]]; apply ab_pos; lra.
Qed.

(** the mean of two values *)
Definition jit_mean : fopts :=
  {| o_fc := Some 30; o_n := Some 2; o_gamma := Some 1; o_fc_lim := None;
     o_n_lim := None; o_gamma_lim := None;
     o_fc0 := 10; o_n0 := 2; o_gamma0 := 1; o_fall_back := 5; o_num_points := None |}.

Lemma jit_below a b : values_below 30 ex_freq [Some a; None; Some b] = [a; b].
Proof.
  cbn. destruct (Rlt_dec 5 30); [|lra]. cbn. destruct (Rlt_dec 20 30); [reflexivity|lra].
Qed.

Lemma jit_mean_ok rlm1 lin2 min1 minN a b : 0 < a -> 0 < b -> exists f,
  fit_sds rlm1 lin2 min1 minN "mean" ex_freq [Some a; None; Some b] jit_mean = Ok (Some f).
Proof.
  intros A B.
  destruct (fit_mean_value rlm1 lin2 min1 minN ex_freq [Some a; None; Some b] jit_mean 30) as (err & E).
  - reflexivity.
  - rewrite jit_below. intros x [<-|[<-|[]]]; assumption.
  - rewrite jit_below. discriminate.
  - discriminate.
  - eexists. exact E.
Qed.

(** an event *)
Section Insert.
  Variable rlm1 : list R -> R.
  Variable lin2 : bool -> list R -> list R -> R * R.
  Variable min1 : (R -> R) -> option (R * R) -> res R.
  Variable minN : (list R -> R) -> list R -> list (option (R * R)) -> res (list R).

  Lemma jit_insert a b c : 0 < a -> 0 < b -> exists ev' srt M,
    insert_source_properties rlm1 lin2 min1 minN ex_freq [("W", VList [Some a; None; Some b])]
      (Some 3500) (Some 2700) (Some "mean") (Smo jit_mean) (Some c) = Ok (ev', srt) /\
    dget String.eqb ev' "M0" = Some (VNum M).
  Proof.
    intros A B. unfold insert_source_properties, insert_source_inplace, ex_freq.
    cbn [dget String.eqb Ascii.eqb Bool.eqb].
    unfold insert_spectra, start_spectra. rewrite !truthy_some by lra.
    cbn [length seq combine mapM fst snd]. unfold sds_entry. cbn [nth_error].
    rewrite !truthy_some by lra. cbn [truthy bind].
    rewrite (dget_dset_eq _ string_eqb_spec). cbn [bind app].
    unfold insert_fit. cbn [method_truthy String.eqb]. rewrite (dget_dset_eq _ string_eqb_spec).
    cbn [smo_kwargs bind].
    destruct (fit_mean_value rlm1 lin2 min1 minN [5; 10; 20]
      [Some (sds a 5 3500 2700); None; Some (sds b 20 3500 2700)] jit_mean 30) as (err & E).
    - reflexivity.
    - change [5; 10; 20] with ex_freq. rewrite jit_below. intros x [<-|[<-|[]]]; apply sds_pos; lra.
    - change [5; 10; 20] with ex_freq. rewrite jit_below. discriminate.
    - discriminate.
    - rewrite E. cbn [bind insert_fitresult dget String.eqb Ascii.eqb Bool.eqb option_map insert_catmag].
      set (ev' := dset String.eqb _ "Mcat" (VNum c)).
      assert (K : forall k, In k (map fst ev') -> In k DUMP_ORDER).
      { unfold ev'. intros k. rewrite !(dset_in_keys _ string_eqb_spec), dupdate_in_keys.
        rewrite !(dset_in_keys _ string_eqb_spec). cbn. intuition (subst; tauto). }
      destruct (sort_dict_ok DUMP_ORDER ev' K) as (r & Es & _).
      exists ev', r. eexists. rewrite Es. cbn [bind]. split; [reflexivity|].
      unfold ev'. rewrite !(dget_dset_neq _ string_eqb_spec) by discriminate.
      eapply (dupdate_get_in _ string_eqb_spec).
      + cbn. repeat (constructor; [cbn; intuition discriminate|]). constructor.
      + now left.
  Qed.
End Insert.
