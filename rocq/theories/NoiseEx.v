(** Concrete cases for C136. *)
From Coq Require Import String List Bool Reals Lra Lia ZArith Arith.
From Verif Require Import Base Pyf PyfOps FbModel LsqfbModel LsqfbSpec LsqfbProof4 LsqfbProof5 LsqfbEx GainProof4 GainEx ShuffleSpec ShuffleEx NoiseSpec NoiseProof6.
Import ListNotations.
Open Scope string_scope.
Open Scope list_scope.
Open Scope R_scope.

(** the energies of event e1 are one per cent too low *)
Definition source_n (s : string) : R := if String.eqb s "e1" then 3 * (101 / 100) else source_ex s.

Lemma source_n_pos s : 0 < source_n s.
Proof. unfold source_n. destruct (String.eqb s "e1"); [lra|apply source_ex_pos]. Qed.

Lemma source_n_near e : up_to (1 / 10) (source_ex e) (source_n e).
Proof.
  assert (E : 1 + 1 / 10 < exp (1 / 10)) by (apply exp_ineq1; lra).
  assert (F : exp (- (1 / 10)) * exp (1 / 10) = 1) by (rewrite <- exp_plus, Rplus_opp_l; apply exp_0).
  pose proof (exp_pos (- (1 / 10))) as P. assert (Q : exp (- (1 / 10)) <= 100 / 101) by nra.
  unfold up_to, source_n, source_ex. destruct (String.eqb e "e1"); lra.
Qed.

Lemma noisy_ex f s w g : noisy_band (1 / 10) (lo_ex f s w) st_ex g site_ex source_n bt_ex.
Proof. apply (synthetic_noisy _ _ _ _ _ source_ex); [exact site_ex_pos|exact source_n_near|apply synthetic_ex]. Qed.

Lemma not_synthetic f s w g : ~ synthetic_band (lo_ex f s w) st_ex g site_ex source_n bt_ex.
Proof.
  intros [H _]. specialize (H 0%nat ("e1", "A") 10 [1; 2] [en_ex "e1" "A" 1; en_ex "e1" "A" 2] [FNum 1; FNum 1] eq_refl eq_refl eq_refl eq_refl eq_refl).
  inversion H as [|? ? ? ? X _]; subst. destruct X as (t & e & x & E1 & E2 & E3 & E4). injection E1 as <- <-. injection E2 as <-.
  cbn [fst snd] in E4. unfold source_n, source_ex, site_ex in E4. cbn in E4. pose proof (exp_pos (- (bt_ex * 1))). nra.
Qed.

Lemma within_ex : network_within 1 st_ex.
Proof.
  assert (K : within pairs_ex 1 "A" "B" /\ within pairs_ex 1 "B" "A").
  { split; (eapply (wi_step _ _ "e1"); [apply wi_same| |]); cbn; auto. }
  intros s1 s2 I1 I2. rewrite pairs_st_ex in *. cbn in I1, I2.
  destruct I1 as [<-|[<-|[<-|[]]]]; destruct I2 as [<-|[<-|[<-|[]]]]; try apply wi_same; apply K.
Qed.

Lemma span_ex : coda_span st_ex 1 2.
Proof.
  split.
  - exists [1; 2], 1, 2. cbn. split; [now left|]. split; [now left|]. split; [right; now left|lra].
  - intros t x I X. cbn in I. destruct I as [<-|[<-|[<-|[]]]]; destruct X as [<-|[<-|[]]]; rewrite Rabs_pos_eq; lra.
Qed.

Lemma weight_ex fx : total_weight (shuf_ex fx) st_ex = 15.
Proof. unfold total_weight. cbn. lra. Qed.

Lemma noise_go : 0 <= 1 / 10 /\ aligned st_ex /\ least_squares_full (l_wls (shuf_ex false)) dof_1 /\
  good_weights (shuf_ex false) st_ex /\ positive_on (map snd (pairs st_ex)) site_ex /\
  positive_on (map fst (pairs st_ex)) source_n /\ mean_site st_ex site_ex (l_R0 (shuf_ex false)) /\
  network_within 1 st_ex /\ coda_span st_ex 1 2 /\ total_weight (shuf_ex false) st_ex = 15 /\
  (forall g, noisy_band (1 / 10) (shuf_ex false) st_ex g site_ex source_n bt_ex) /\
  (forall g, ~ synthetic_band (shuf_ex false) st_ex g site_ex source_n bt_ex) /\
  exists r s g, invert_band (shuf_ex false) st_ex 3 = Ok (Some r, s) /\ fb_g0 r = Some g.
Proof.
  split; [lra|]. split; [exact aligned_ex|]. split; [apply wls_two_full|]. split; [apply weights_ex|].
  split; [exact positive_site_ex|]. split; [intros e _; apply source_n_pos|]. split; [exact mean_site_ex|].
  split; [exact within_ex|]. split; [exact span_ex|]. split; [apply weight_ex|]. split; [intros g; apply noisy_ex|]. split; [intros g; apply not_synthetic|].
  destruct (proj1 shuf_go_run) as (r & s & H). exists r, s.
  destruct (accepted_inside _ _ _ _ _ H) as (_ & _ & K & _). destruct (K eq_refl) as (b & g & _ & G). eauto.
Qed.

Lemma noise_fixed : least_squares_full (l_wls (shuf_ex true)) dof_1 /\ good_weights (shuf_ex true) st_ex /\
  l_fix_params (shuf_ex true) = Some (Some (FNum (1 / 5)), Some (FNum bt_ex)) /\
  noisy_band (1 / 10) (shuf_ex true) st_ex (FNum (1 / 5)) site_ex source_n bt_ex /\
  total_weight (shuf_ex true) st_ex = 15 /\ dof_1 (List.length (samples st_ex)) (unknowns (shuf_ex true) st_ex) = 1 /\
  exists r s, invert_band (shuf_ex true) st_ex 3 = Ok (Some r, s).
Proof.
  split; [apply wls_two_full|]. split; [apply weights_ex|]. split; [reflexivity|]. split; [apply noisy_ex|].
  split; [apply weight_ex|]. split; [reflexivity|]. exact (proj1 shuf_fixed_run).
Qed.

Lemma noise_source : least_squares_full (l_wls shuf_sites) dof_1 /\ good_weights shuf_sites st_ex /\
  l_fix_sites shuf_sites = Some params_ex /\
  (forall x, In x (map snd (pairs st_ex)) -> dget String.eqb params_ex x = Some (FNum (site_ex x))) /\
  l_fix_params shuf_sites = Some (Some (FNum (1 / 5)), Some (FNum bt_ex)) /\
  noisy_band (1 / 10) shuf_sites st_ex (FNum (1 / 5)) site_ex source_n bt_ex /\
  exists r s, invert_band shuf_sites st_ex 3 = Ok (Some r, s).
Proof.
  split; [apply wls_two_full|]. split; [apply weights_ex|]. split; [reflexivity|]. split; [exact params_site_ex|].
  split; [reflexivity|]. split; [apply noisy_ex|]. exact (proj1 shuf_sites_run).
Qed.
