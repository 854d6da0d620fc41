(** Concrete cases for the way from the streams to the results: two bands, two events, two
    stations; one stream has a low sampling rate and is left out of the second band. *)
From Coq Require Import String List Bool Reals Lra Lia ZArith Arith.
From Verif Require Import Base Pyf PyfOps SortModel SortProof FreqsModel FbModel FbProof3 FbEx FreqsProof SourceModel SourceSpec SourceProof SourceProof3 LsqfbModel LsqfbSpec LsqfbProof LsqfbProof2 LsqfbProof3 LsqfbProof4 LsqfbProof5 LsqfbEx InvModel InvProof InvProof2 ChainModel ChainSpec ChainProof4 ChainEx.
Import ListNotations.
Open Scope string_scope.
Open Scope list_scope.
Open Scope R_scope.

Definition M_c (e : string) : R := if String.eqb e "e1" then 10 else 20.
(** source terms with the spectrum of the source model for corner frequency 2, n = 2, gamma = 1 *)
Definition source_c (f : R) (e : string) : R := (abercrombie (M_c e) 2 2 1 f) ^ 2 * PI * f ^ 2 / (5 / 2 * 2700 * 3 ^ 5).
Definition site_c (f : R) (s : string) : R := if String.eqb s "A" then 1 + f else / (1 + f).
Definition b_c (f : R) : R := f / 10.
Definition en_c (f : R) (e s : string) (t : R) : pyf := FNum (source_c f e * site_c f s * 1 * exp (- (b_c f * t))).
Definition g_c : R := (1 / 1000 + 1) / 2.

(** the energy with origin time 0 and onset after 2 s *)
Definition trace_c (f : R) (id : nat) (e s : string) : etrace :=
  {| uid := id; evid := e; sta := s; edata := [en_c f e s 2; en_c f e s 3; en_c f e s 4]; estart := (2 * sec)%Z;
     esr := 1; edelta := sec; eotime := 0; esonset := (2 * sec)%Z; edist := 6; enoise := None |}.

(** coda window from one to two seconds after the onset, nothing else *)
Definition select_c : fbopts (Z * Z) :=
  {| o_tw2utc := fun w e => Ok ((esonset e + fst w * sec)%Z, (esonset e + snd w * sec)%Z);
     o_slice := slice_ex;
     o_noise_windows := Some []; o_noise_func := fun l => Err ValueError;
     o_remove_noise := false; o_adjust_maximum := false; o_adjust_window := None;
     o_bulk_window := None; o_coda_window := (1, 2)%Z; o_weight := None;
     o_smooth := None; o_smoother := fun d _ => Ok d;
     o_skip_coda := 1; o_skip_maximum := None; o_num_pairs := 1; o_cut_coda := false;
     o_cut_smooth := None; o_local_minimum := fun _ => Ok None |}.

(** the streams used in a band *)
Definition used_c (second : bool) : list (nat * string * string) :=
  if second then [(1%nat, "e1", "A"); (2%nat, "e1", "B")]
  else [(1%nat, "e1", "A"); (2%nat, "e1", "B"); (3%nat, "e2", "A")].
Definition freq_c (second : bool) : R := if second then 2 else 1.
Definition band_c (second : bool) : R * R := if second then (3 / 2, 5 / 2) else (1 / 2, 3 / 2).

Definition energies_c (k : bool) : list etrace :=
  map (fun x => trace_c (freq_c k) (fst (fst x)) (snd (fst x)) (snd x)) (used_c k).
Definition times_c : list R := sample_times 2 (trace_c 1 1 "" "") 3 sec.
Definition st_c (k : bool) : wstate :=
  {| w_energies := energies_c k;
     w_distances := map (fun x => ((snd (fst x), snd x), 6)) (used_c k);
     w_tcoda := map (fun _ => times_c) (used_c k);
     w_tbulk := []; w_tbulk_window := []; w_weights := []; w_ebulk := [];
     w_ecoda := map (fun x => [en_c (freq_c k) (snd (fst x)) (snd x) 3; en_c (freq_c k) (snd (fst x)) (snd x) 4]) (used_c k) |}.

Definition cands_c : list (list R) :=
  concat (map (fun k =>
    [truth (lo_ex false None (fun _ _ _ => Err OtherError)) (st_c k) (site_c (freq_c k)) (source_c (freq_c k)) (b_c (freq_c k));
     truth (lo_ex true None (fun _ _ _ => Err OtherError)) (st_c k) (site_c (freq_c k)) (source_c (freq_c k)) (b_c (freq_c k));
     map (fun e => ln (source_c (freq_c k) e)) (eventids (st_c k))]) [false; true]).

(** the filtered samples are the centre frequency of the filter *)
Definition env_c : cenv (Z * Z) R :=
  {| ce_filtered := fun s fu => match fu with Bandpass f1 f2 => Ok ((f1 + f2) / 2) | Highpass f => Ok f end;
     ce_width := fun _ _ => Ok 1; ce_free_surface := FsOne 4; ce_borehole := [];
     ce_observed := fun s d _ _ => Ok (trace_c d (s_uid s) (s_evid s) (s_sta s));
     ce_select := select_c; ce_v0 := Some 3; ce_coda_norm := false; ce_R0 := 1;
     ce_b_bounds := Some (1 / 100, 10); ce_g0_bounds := Some (1 / 1000, 1);
     ce_optimize := false; ce_plot_optimization := false; ce_num := 2;
     ce_gcoda := fun _ _ t _ => Ok (map (fun _ => FNum 1) t); ce_gbulk := fun _ _ _ _ => Ok (FNum 1);
     ce_wls := wls_list cands_c; ce_optim := optim_ex |}.

Definition stream_c (id : nat) (e s : string) (sr : R) : stream R :=
  {| s_uid := id; s_evid := e; s_sta := s; s_sr := sr; s_data := 0 |}.
Definition streams_c : list (stream R) := [stream_c 1 "e1" "A" 100; stream_c 2 "e1" "B" 100; stream_c 3 "e2" "A" (7 / 2)].
Definition bands_c : bands := [(1, (1 / 2, 3 / 2)); (2, (3 / 2, 5 / 2))].

Lemma bands_in f band : In (f, band) bands_c -> exists k, f = freq_c k /\ band = band_c k.
Proof. intros [E|[E|[]]]; injection E as <- <-; [exists false|exists true]; split; reflexivity. Qed.

Lemma own_c : own_objects env_c streams_c.
Proof.
  split; [repeat constructor; cbn; intuition discriminate|]. intros s d df fs e _ H. cbn in H. now injection H as <-.
Qed.

Lemma proper_c : proper env_c.
Proof.
  split; [apply wls_list_least|]. split; [discriminate|]. split; [reflexivity|]. split; [cbn; lra|].
  split; intros lo hi [= <- <-]; lra.
Qed.

(** numbers for both stations, if sites are fixed *)
Definition both (s : option (list (string * pyf))) : Prop :=
  forall p, s = Some p -> (exists x, dget String.eqb p "A" = Some (FNum x)) /\ (exists x, dget String.eqb p "B" = Some (FNum x)).

Lemma stream_one k s id e x sr : both s -> x = "A" \/ x = "B" -> 6 <= sr ->
  stream_energy (fst (band_c k)) (snd (band_c k)) (option_map Some s) (ce_filtered env_c) (ce_width env_c)
    (ce_free_surface env_c) (ce_borehole env_c) (ce_observed env_c) (stream_c id e x sr) = Ok (Some (trace_c (freq_c k) id e x)).
Proof.
  intros B X SR. unfold stream_energy. cbn [s_sr stream_c s_sta].
  assert (rltb sr (fst (band_c k) + snd (band_c k)) = false) as -> by (apply rltb_false; destruct k; cbn; lra).
  assert (rltb (0.495 * sr) (snd (band_c k)) = false) as -> by (apply rltb_false; destruct k; cbn; lra).
  assert (E : (fst (band_c k) + snd (band_c k)) / 2 = freq_c k) by (destruct k; cbn; lra).
  destruct s as [p|]; cbn [option_map bind].
  - destruct (B p eq_refl) as ((xa & A) & (xb & B')).
    assert (N : exists y, dget String.eqb p x = Some (FNum y)) by (destruct X as [-> | ->]; eauto).
    destruct N as (y & ->). cbn [fisnan]. cbn. rewrite E. reflexivity.
  - cbn. rewrite E. reflexivity.
Qed.

Lemma stream_low k s id e x : both s -> x = "A" \/ x = "B" ->
  stream_energy (fst (band_c k)) (snd (band_c k)) (option_map Some s) (ce_filtered env_c) (ce_width env_c)
    (ce_free_surface env_c) (ce_borehole env_c) (ce_observed env_c) (stream_c id e x (7 / 2)) =
  Ok (if k then None else Some (trace_c (freq_c k) id e x)).
Proof.
  intros B X. unfold stream_energy. cbn [s_sr stream_c s_sta]. destruct k; cbn [band_c fst snd].
  - assert (rltb (7 / 2) (3 / 2 + 5 / 2) = true) as -> by (apply rltb_true; lra). reflexivity.
  - assert (rltb (7 / 2) (1 / 2 + 3 / 2) = false) as -> by (apply rltb_false; lra).
    assert (rltb (0.495 * (7 / 2)) (3 / 2) = false) as -> by (apply rltb_false; lra).
    assert (E : (1 / 2 + 3 / 2) / 2 = 1) by lra.
    destruct s as [p|]; cbn [option_map bind].
    + destruct (B p eq_refl) as ((xa & A) & (xb & B')).
      assert (N : exists y, dget String.eqb p x = Some (FNum y)) by (destruct X as [-> | ->]; eauto).
      destruct N as (y & ->). cbn [fisnan]. cbn. rewrite E. reflexivity.
    + cbn. rewrite E. reflexivity.
Qed.

Lemma streams_energies k s : both s ->
  stream_energies (fst (band_c k)) (snd (band_c k)) (option_map Some s) (ce_filtered env_c) (ce_width env_c)
    (ce_free_surface env_c) (ce_borehole env_c) (ce_observed env_c) streams_c = Ok (energies_c k).
Proof.
  intros B. unfold streams_c. cbn [stream_energies].
  rewrite !stream_one by (auto; lra). rewrite stream_low by auto. cbn [bind]. destruct k; reflexivity.
Qed.

Lemma selected k : select_data select_c (Some 3) (energies_c k) = Ok (Some (st_c k, 3)).
Proof.
  assert (R1 : rltb (secs (2 * sec + 2 * sec - (2 * sec + 1 * sec))) 1 = false).
  { apply rltb_false. unfold secs. change (2 * sec + 2 * sec - (2 * sec + 1 * sec))%Z with 1000000000%Z. lra. }
  cbv -[rltb secs en_c INR Rdiv Rplus Rmult IZR] in R1.
  destruct k; cbv -[rltb secs en_c INR Rdiv Rplus Rmult IZR]; rewrite !R1; reflexivity.
Qed.

Lemma used_iff k s st v : both s -> used env_c s (band_c k) streams_c st v -> st = st_c k /\ v = 3.
Proof.
  intros B (es & E & S). rewrite (streams_energies k s B) in E. injection E as <-.
  change (select_data select_c (Some 3) (energies_c k) = Ok (Some (st, v))) in S. rewrite selected in S. injection S as <- <-. auto.
Qed.

Lemma pairs_c k : pairs (st_c k) = map (fun x => (snd (fst x), snd x)) (used_c k).
Proof. destruct k; reflexivity. Qed.

Lemma freq_pos k : 0 < freq_c k.
Proof. destruct k; cbn; lra. Qed.

Lemma aber_pos e f : 0 < abercrombie (M_c e) 2 2 1 f.
Proof.
  unfold abercrombie. apply Rdiv_lt_0_compat; [|apply exp_pos].
  unfold M_c. destruct (String.eqb e "e1"); lra.
Qed.

Lemma source_pos_c k e : 0 < source_c (freq_c k) e.
Proof.
  unfold source_c. apply Rdiv_lt_0_compat; [|lra].
  apply Rmult_lt_0_compat; [apply Rmult_lt_0_compat; [apply pow_lt, aber_pos|exact PI_RGT_0]|apply pow_lt, freq_pos].
Qed.
Lemma site_pos_c k s : 0 < site_c (freq_c k) s.
Proof.
  pose proof (freq_pos k). unfold site_c. destruct (String.eqb s "A"); [lra|]. apply Rinv_0_lt_compat. lra.
Qed.

Lemma syn_c f e s t t' : t' = t -> synthetic (site_c f) (source_c f) (b_c f) ((e, s), (FNum t', en_c f e s t)) (FNum 1).
Proof.
  intros ->. exists t, (source_c f e * site_c f s * 1 * exp (- (b_c f * t))), 1. split; [reflexivity|]. split; [reflexivity|]. split; [lra|reflexivity].
Qed.

Lemma times_c_eq : times_c = [3; 4].
Proof.
  unfold times_c, sample_times. cbn [seq map esr edist trace_c].
  assert (E : secs sec = 1) by (unfold secs, sec; lra).
  rewrite E. change (INR 0) with 0. change (INR 1) with 1. f_equal; [lra|]. f_equal. lra.
Qed.

Lemma data_c k g : synthetic_data env_c (st_c k) 3 g (site_c (freq_c k)) (source_c (freq_c k)) (b_c (freq_c k)).
Proof.
  split.
  - intros i p r t e gs HP _ HT HE G. rewrite pairs_c in HP.
    change (Ok (map (fun _ => FNum 1) t) = Ok gs) in G. injection G as <-.
    change (w_tcoda (st_c k)) with (map (fun _ => times_c) (used_c k)) in HT. rewrite times_c_eq in HT.
    change (w_ecoda (st_c k)) with (map (fun x => [en_c (freq_c k) (snd (fst x)) (snd x) 3; en_c (freq_c k) (snd (fst x)) (snd x) 4]) (used_c k)) in HE.
    rewrite nth_error_map in HP, HT, HE. destruct (nth_error (used_c k) i) as [x|]; [|discriminate]. cbn [option_map] in *.
    injection HP as <-. injection HT as <-. injection HE as <-. cbn [map combine].
    constructor; [apply syn_c; reflexivity|]. constructor; [apply syn_c; reflexivity|constructor].
  - intros i p r w t e g' _ _ _ HT. destruct i; discriminate.
Qed.

Lemma synthetic_c (sites : R -> option (list (string * pyf)) -> Prop) :
  (forall f s, sites f s -> both s) ->
  synthetic_streams env_c sites bands_c streams_c (fun _ => FNum g_c) site_c source_c b_c.
Proof.
  intros B f band s st v I S U. apply bands_in in I. destruct I as (k & -> & ->).
  destruct (used_iff k s st v (B _ _ S) U) as [-> ->].
  split; [intros x _; apply site_pos_c|]. split; [intros x _; apply source_pos_c|]. apply data_c.
Qed.

Lemma both_none : both None.
Proof. intros p [=]. Qed.

Lemma network_c k : one_network (st_c k).
Proof.
  assert (K : connected (pairs (st_c k)) "A" "B" /\ connected (pairs (st_c k)) "B" "A").
  { destruct k; split; (eapply (con_step _ "e1"); [apply con_refl| |]); cbn; auto. }
  assert (S : forall s, In s (map snd (pairs (st_c k))) -> s = "A" \/ s = "B") by (intros s I; destruct k; cbn in I; intuition).
  intros s1 s2 I1 I2. apply S in I1, I2. destruct I1 as [-> | ->]; destruct I2 as [-> | ->]; try apply con_refl; apply K.
Qed.

Lemma two_c k : two_times (st_c k).
Proof.
  exists ("e1", "A"), 3, 4, (en_c (freq_c k) "e1" "A" 3), (en_c (freq_c k) "e1" "A" 4). split; [lra|].
  unfold samples, blocks. rewrite pairs_c.
  change (w_tcoda (st_c k)) with (map (fun _ => times_c) (used_c k)). rewrite times_c_eq.
  destruct k; cbn; auto.
Qed.

Lemma mean_c k : mean_site (st_c k) (site_c (freq_c k)) 1.
Proof.
  intros l [ND IN].
  assert (IN' : forall x, In x l <-> x = "A" \/ x = "B").
  { intros x. rewrite IN, pairs_c. destruct k; cbn; intuition. }
  assert (H : l = ["A"; "B"] \/ l = ["B"; "A"]).
  { assert (L : (List.length l <= 2)%nat).
    { change 2%nat with (List.length ["A"; "B"]). apply NoDup_incl_length; [exact ND|].
      intros x I. apply IN' in I. destruct I as [-> | ->]; cbn; auto. }
    assert (IA : In "A" l) by (apply IN'; auto). assert (IB : In "B" l) by (apply IN'; auto).
    destruct l as [|x [|y [|z l]]]; cbn in L; try lia.
    - destruct IA.
    - destruct IA as [->|[]]. destruct IB as [Q|[]]. discriminate.
    - destruct IA as [->|[->|[]]].
      + destruct IB as [Q|[->|[]]]; [discriminate|auto].
      + destruct IB as [->|[Q|[]]]; [auto|discriminate]. }
  pose proof (freq_pos k) as FP.
  assert (LN : ln (/ (1 + freq_c k)) = - ln (1 + freq_c k)) by (apply ln_Rinv; lra).
  assert (IP : 0 < / (1 + freq_c k)) by (apply Rinv_0_lt_compat; lra).
  destruct H as [-> | ->].
  - exists [1 + freq_c k; / (1 + freq_c k)]. split; [reflexivity|]. split; [intros y [<-|[<-|[]]]; lra|]. split; [lra|].
    cbn [map fold_right List.length]. rewrite ln_1, LN. lra.
  - exists [/ (1 + freq_c k); 1 + freq_c k]. split; [reflexivity|]. split; [intros y [<-|[<-|[]]]; lra|]. split; [lra|].
    cbn [map fold_right List.length]. rewrite ln_1, LN. lra.
Qed.

Lemma scale_c : one_scale env_c bands_c streams_c site_c.
Proof.
  intros f band st v I U. apply bands_in in I. destruct I as (k & -> & ->).
  destruct (used_iff k None st v both_none U) as [-> ->]. split; [apply network_c|exact (mean_c k)].
Qed.
Lemma twice_c f band st v : In (f, band) bands_c -> used env_c None band streams_c st v -> two_times st.
Proof.
  intros I U. apply bands_in in I. destruct I as (k & -> & ->).
  destruct (used_iff k None st v both_none U) as [-> ->]. apply two_c.
Qed.

(** ** The runs in the bands *)
Lemma aligned_c k : LsqfbSpec.aligned (st_c k).
Proof.
  unfold LsqfbSpec.aligned. rewrite pairs_c. split; [destruct k; discriminate|]. split; [destruct k; reflexivity|].
  split; [destruct k; repeat (constructor; [reflexivity|]); constructor|]. split; [destruct k; reflexivity|]. now left.
Qed.
Lemma greens_c kw band k g : exists gc,
  greens (band_opts env_c kw band 3) (st_c k) g (pairs (st_c k)) (w_ecoda (st_c k)) (w_tcoda (st_c k)) = Ok (gc, []) /\
  Forall2 (synthetic (site_c (freq_c k)) (source_c (freq_c k)) (b_c (freq_c k))) (samples (st_c k)) (concat gc ++ []).
Proof.
  exists (map (fun _ => [FNum 1; FNum 1]) (used_c k)). split.
  - rewrite pairs_c. change (w_tcoda (st_c k)) with (map (fun _ => times_c) (used_c k)). rewrite times_c_eq. destruct k; reflexivity.
  - unfold samples, blocks. rewrite pairs_c. change (w_tcoda (st_c k)) with (map (fun _ => times_c) (used_c k)). rewrite times_c_eq.
    destruct k; cbn; repeat (constructor; [apply syn_c; reflexivity|]); constructor.
Qed.
Lemma cands_go k : In (truth (lo_ex false None (fun _ _ _ => Err OtherError)) (st_c k) (site_c (freq_c k)) (source_c (freq_c k)) (b_c (freq_c k))) cands_c.
Proof. unfold cands_c. apply in_concat. eexists. split; [apply in_map; instantiate (1 := k); destruct k; cbn; auto|]. left. reflexivity. Qed.
Lemma cands_fixed k : In (truth (lo_ex true None (fun _ _ _ => Err OtherError)) (st_c k) (site_c (freq_c k)) (source_c (freq_c k)) (b_c (freq_c k))) cands_c.
Proof. unfold cands_c. apply in_concat. eexists. split; [apply in_map; instantiate (1 := k); destruct k; cbn; auto|]. right. left. reflexivity. Qed.
Lemma cands_source k : In (map (fun e => ln (source_c (freq_c k) e)) (eventids (st_c k))) cands_c.
Proof. unfold cands_c. apply in_concat. eexists. split; [apply in_map; instantiate (1 := k); destruct k; cbn; auto|]. right. right. left. reflexivity. Qed.

Lemma inside_b k : well_inside (Some (1 / 100, 10)) (FNum (b_c (freq_c k))).
Proof. intros lo hi [= <- <-]. eexists. split; [reflexivity|]. unfold b_c. destruct k; cbn; lra. Qed.
Lemma inside_g : well_inside (Some (1 / 1000, 1)) (FNum ((1 / 1000 + 1) / 2)).
Proof. intros lo hi [= <- <-]. eexists. split; [reflexivity|]. lra. Qed.

Lemma build_c kw band k : kw_fix_sites kw = None -> exists a, build (band_opts env_c kw band 3) (st_c k) = Ok (a, [], []).
Proof.
  intros N. destruct kw as [kf ks]. cbn in N. subst ks.
  destruct kf; destruct k; eexists; reflexivity.
Qed.

Lemma fb_unfold kw k s r rs : band_sites kw (band_c k) = option_map Some s -> both s ->
  invert_band (band_opts env_c kw (band_c k) 3) (st_c k) 3 = Ok (Some r, rs) ->
  invert_fb env_c kw (band_c k) streams_c = Ok (Some (bandres_of r)).
Proof.
  intros BS BO IB.
  change (invert_fb env_c kw (band_c k) streams_c) with
    (do es <- stream_energies (fst (band_c k)) (snd (band_c k)) (band_sites kw (band_c k)) (ce_filtered env_c) (ce_width env_c)
       (ce_free_surface env_c) (ce_borehole env_c) (ce_observed env_c) streams_c;
     do d <- select_data select_c (Some 3) es;
     match d with
     | None => Ok None
     | Some (st, v0) => do r <- invert_band (band_opts env_c kw (band_c k) v0) st v0; Ok (option_map bandres_of (fst r))
     end).
  rewrite BS, (streams_energies k s BO). cbn [bind]. rewrite selected. cbn [bind]. rewrite IB. reflexivity.
Qed.

Lemma fb_go k : exists r, invert_fb env_c {| kw_fix := None; kw_fix_sites := None |} (band_c k) streams_c = Ok (Some (bandres_of r)) /\
  fb_g0 r = Some (FNum g_c) /\ fb_v0 r = 3.
Proof.
  set (kw := {| kw_fix := None; kw_fix_sites := None |}).
  destruct (build_c kw (band_c k) k eq_refl) as (a & BU). destruct (greens_c kw (band_c k) k (FNum g_c)) as (gc & GR & SY).
  destruct (run_go (band_opts env_c kw (band_c k) 3) (st_c k) a [] [] (site_c (freq_c k)) (source_c (freq_c k)) (b_c (freq_c k)) cands_c
    (1 / 1000) 1 gc [] (aligned_c k) ltac:(discriminate) BU GR SY (fun x _ => site_pos_c k x) (fun x _ => source_pos_c k x) eq_refl eq_refl
    (inside_b k) inside_g Rlt_0_1 3 eq_refl eq_refl eq_refl eq_refl (cands_go k) (network_c k) (two_c k) (mean_c k)) as (r & s & IB & G).
  exists r. split; [|split; [exact G|]].
  - exact (fb_unfold kw k None r s eq_refl both_none IB).
  - destruct (result_of _ _ (fun _ => 1) (fun _ => 1) (fun _ _ => Rlt_0_1) (fun _ _ => Rlt_0_1) _ _ _ IB) as (a' & bs & rs & fi & s1 & _ & -> & _). reflexivity.
Qed.

Lemma fb_fixed kw p k : kw_fix kw = Some p -> kw_fix_sites kw = None -> dget band_eqb p (band_c k) = Some (Some (FNum g_c), Some (FNum (b_c (freq_c k)))) ->
  exists r, invert_fb env_c kw (band_c k) streams_c = Ok (Some (bandres_of r)) /\ fb_g0 r = None /\ fb_b r = None /\ fb_v0 r = 3.
Proof.
  intros KF KS DP.
  destruct (build_c kw (band_c k) k KS) as (a & BU). destruct (greens_c kw (band_c k) k (FNum g_c)) as (gc & GR & SY).
  assert (FX : l_fix (band_opts env_c kw (band_c k) 3) = true) by (cbn; now rewrite KF).
  destruct (run_fixed (band_opts env_c kw (band_c k) 3) (st_c k) a [] [] (site_c (freq_c k)) (source_c (freq_c k)) (b_c (freq_c k)) cands_c
    (1 / 1000) 1 gc [] (aligned_c k) ltac:(discriminate) BU GR SY (fun x _ => site_pos_c k x) (fun x _ => source_pos_c k x) eq_refl eq_refl
    (inside_b k) inside_g Rlt_0_1 3) as (r & s & IB).
  - cbn. unfold band_sites. now rewrite KS.
  - exact FX.
  - cbn. now rewrite KF.
  - pose proof (cands_fixed k) as C. unfold truth in *. rewrite FX. exact C.
  - exact (network_c k).
  - exact (mean_c k).
  - exists r. split.
    + refine (fb_unfold kw k None r s _ both_none IB). unfold band_sites. now rewrite KS.
    + destruct (result_of _ _ (fun _ => 1) (fun _ => 1) (fun _ _ => Rlt_0_1) (fun _ _ => Rlt_0_1) _ _ _ IB) as (a' & bs & rs & fi & s1 & _ & -> & _).
      unfold LsqfbModel.arrange. rewrite FX. cbn. auto.
Qed.

Lemma fb_source kw p d q k : kw_fix kw = Some p -> dget band_eqb p (band_c k) = Some (Some (FNum g_c), Some (FNum (b_c (freq_c k)))) ->
  kw_fix_sites kw = Some d -> dget band_eqb d (band_c k) = Some q ->
  dget String.eqb q "A" = Some (FNum (site_c (freq_c k) "A")) -> dget String.eqb q "B" = Some (FNum (site_c (freq_c k) "B")) ->
  exists r, invert_fb env_c kw (band_c k) streams_c = Ok (Some (bandres_of r)) /\ fb_g0 r = None /\ fb_b r = None /\ fb_R r = None /\ fb_v0 r = 3.
Proof.
  intros KF DP KS DS QA QB.
  assert (BO : both (Some q)) by (intros q' [= <-]; eauto).
  assert (BS : band_sites kw (band_c k) = Some (Some q)) by (unfold band_sites; rewrite KS, DS; reflexivity).
  destruct (greens_c kw (band_c k) k (FNum g_c)) as (gc & GR & SY).
  assert (FX : l_fix (band_opts env_c kw (band_c k) 3) = true) by (cbn; now rewrite KF).
  assert (FS : l_fix_sites (band_opts env_c kw (band_c k) 3) = Some q) by (cbn; now rewrite BS).
  assert (QS : forall s, In s (stations (st_c k)) -> dget String.eqb q s = Some (FNum (site_c (freq_c k) s))).
  { intros s I. assert (s = "A" \/ s = "B") as [-> | ->] by (destruct k; cbn in I; intuition); assumption. }
  assert (PA : 0 < site_c (freq_c k) "A") by apply site_pos_c. assert (PB : 0 < site_c (freq_c k) "B") by apply site_pos_c.
  assert (BU : exists a bs rs, build (band_opts env_c kw (band_c k) 3) (st_c k) = Ok (a, bs, rs)).
  { unfold build. rewrite FS, FX. change (l_coda_norm (band_opts env_c kw (band_c k) 3)) with false. cbv iota.
    destruct k; cbn -[site_c flog freq_c stretch] ; unfold row_fix_sites; cbn -[site_c flog freq_c stretch]; rewrite ?QA, ?QB; cbn -[site_c flog freq_c];
    rewrite !flog_num by assumption; cbn; eauto. }
  destruct BU as (a & bs & rs & BU).
  destruct (run_source (band_opts env_c kw (band_c k) 3) (st_c k) a bs rs (site_c (freq_c k)) (source_c (freq_c k)) (b_c (freq_c k)) cands_c
    (1 / 1000) 1 gc [] (aligned_c k) ltac:(discriminate) BU GR SY (fun x _ => site_pos_c k x) (fun x _ => source_pos_c k x) eq_refl eq_refl
    (inside_b k) inside_g 3 q FS FX) as (r & s & IB).
  - cbn. now rewrite KF.
  - exact QS.
  - exact (cands_source k).
  - exists r. split.
    + exact (fb_unfold kw k (Some q) r s BS BO IB).
    + destruct (result_of _ _ (fun _ => 1) (fun _ => 1) (fun _ _ => Rlt_0_1) (fun _ _ => Rlt_0_1) _ _ _ IB) as (a' & bs' & rs' & fi & s1 & _ & -> & _).
      unfold LsqfbModel.arrange. rewrite FX, FS. cbn. auto.
Qed.

(** ** The results *)
Section Fit.
  Variables (rlm1 : list R -> R) (lin2 : bool -> list R -> list R -> R * R)
    (min1 : (R -> R) -> option (R * R) -> res R)
    (minN : (list R -> R) -> list R -> list (option (R * R)) -> res (list R)).

  Lemma event_total rho v o mags freq ev W : v <> 0 -> rho <> 0 -> List.length W = List.length freq -> W <> [] -> unknowns o = [] ->
    exists e, event_source rlm1 lin2 min1 minN (Some rho) (Some "fit") (Smo o) mags freq ev (event_W W) (Some v) = Ok e.
  Proof.
    intros V0 R0 L NE U. unfold event_source, insert_source_properties, insert_source_inplace.
    change (dsetdefault String.eqb (event_W W) "sds" (VList [])) with [("W", VList W); ("sds", VList [])].
    change (dget String.eqb [("W", VList W); ("sds", VList [])] "W") with (Some (VList W)). cbv iota.
    unfold insert_spectra.
    assert (ST : start_spectra W (Some v) (Some rho) [("W", VList W); ("sds", VList [])] = [("W", VList W); ("sds", VList [])]).
    { unfold start_spectra. rewrite !truthy_some by assumption. destruct W; [contradiction|reflexivity]. }
    rewrite ST. cbv zeta. destruct freq as [|f0 fs] eqn:EF; [destruct W; [contradiction|discriminate]|]. rewrite <- EF in *. clear EF.
    rewrite (sds_list W (Some rho) (Some v) rho v freq) by (try apply truthy_some; assumption). fold (spectrum v rho W freq).
    cbn [bind]. change (dget String.eqb [("W", VList W); ("sds", VList [])] "sds") with (Some (VList [])). cbv iota.
    cbn [app].
    change (dset String.eqb [("W", VList W); ("sds", VList [])] "sds" (VList (spectrum v rho W freq)))
      with [("W", VList W); ("sds", VList (spectrum v rho W freq))]. cbn [bind].
    unfold insert_fit. change (method_truthy (Some "fit")) with (Some "fit"). cbv iota.
    change (dget String.eqb [("W", VList W); ("sds", VList (spectrum v rho W freq))] "sds") with (Some (VList (spectrum v rho W freq))).
    cbv iota. cbn [smo_kwargs bind].
    assert (FT : exists x, fit_sds rlm1 lin2 min1 minN "fit" freq (spectrum v rho W freq) o = Ok x /\ forall d, x = Some d -> map fst d = ["M0"; "fit_error"]).
    { unfold fit_sds. change (String.eqb "fit" "mean") with false. change (String.eqb "fit" "fit") with true. cbv iota.
      unfold fit_model. destruct (_ || _)%bool; [exists None; split; [reflexivity|discriminate]|]. rewrite U. cbn [List.length Nat.eqb].
      eexists. split; [reflexivity|]. intros d [= <-]. reflexivity. }
    destruct FT as (x & -> & FD). cbn [bind].
    set (e1 := insert_catmag _ _).
    assert (KN : forall k, In k (map fst e1) -> In k DUMP_ORDER).
    { subst e1. destruct x as [d|].
      - specialize (FD d eq_refl). destruct d as [|(k1 & x1) [|(k2 & x2) [|]]]; try discriminate. cbn in FD. injection FD as -> ->.
        destruct (mags ev); cbn; intros k; intuition (subst; tauto).
      - destruct (mags ev); cbn; intros k; intuition (subst; tauto). }
    destruct (sort_dict_ok DUMP_ORDER e1 KN) as (d' & S' & _ & _). rewrite S'. cbn [bind]. eauto.
  Qed.

  Definition fo_c : fopts :=
    {| o_fc := Some 2; o_n := Some 2; o_gamma := Some 1; o_fc_lim := None; o_n_lim := None; o_gamma_lim := None;
       o_fc0 := 10; o_n0 := 2; o_gamma0 := 1; o_fall_back := 5; o_num_points := Some 1%nat |}.

  Definition source_fn := event_source rlm1 lin2 min1 minN (Some 2700) (Some "fit") (Smo fo_c) (fun _ => None).

  Lemma source_ok freq ev W : List.length W = List.length freq -> W <> [] -> exists e, source_fn freq ev (chain_W W) (Some 3) = Ok e.
  Proof.
    intros L N. apply event_total; [lra|lra|now rewrite map_length| |reflexivity]. destruct W; [contradiction|discriminate].
  Qed.

  Lemma add_source_two freq e1 W1 e2 W2 : String.eqb e1 e2 = false ->
    List.length W1 = List.length freq -> W1 <> [] -> List.length W2 = List.length freq -> W2 <> [] ->
    exists evs, add_source chain_W source_fn freq (Some 3) [e1; e2] [(e1, chain_W W1); (e2, chain_W W2)] = Ok evs.
  Proof.
    intros NE L1 N1 L2 N2. destruct (source_ok freq e1 W1 L1 N1) as (x1 & E1). destruct (source_ok freq e2 W2 L2 N2) as (x2 & E2).
    assert (NE' : String.eqb e2 e1 = false) by (rewrite String.eqb_sym; exact NE).
    cbn [add_source dget]. rewrite String.eqb_refl, E1. cbn [bind dset]. rewrite String.eqb_refl. cbn [dget].
    rewrite ?NE, ?NE', String.eqb_refl, E2. cbn [bind]. eauto.
  Qed.

  Lemma arrange_two cmd x y : (cmd = Go -> exists g, br_g0 x = Some g) ->
    (cmd <> Go -> br_g0 x = None /\ br_b x = None /\ br_g0 y = None /\ br_b y = None) ->
    (cmd = Source -> br_R x = None /\ br_R y = None) -> br_v0 y = 3 ->
    exists r, InvModel.arrange cmd false chain_W source_fn ["A"; "B"] ["e1"; "e2"] bands_c [Some x; Some y] = Ok (Some r) /\
      (cmd = Go -> dget String.eqb r "g0" = Some (RNums [br_g0 x; br_g0 y])) /\ dget String.eqb r "v0" = Some (RV0 3).
  Proof.
    intros HG HF HS HV. destruct x as [xg xb xW xR xn xe xv]. destruct y as [yg yb yW yR yn ye yv]. cbn [br_g0 br_b br_R br_v0] in *. subst yv.
    set (w := fun (z : option (list (string * pyf))) e => match z with None => None | Some m => dget String.eqb m e end).
    destruct (add_source_two [1; 2] "e1" [w xW "e1"; w yW "e1"] "e2" [w xW "e2"; w yW "e2"] eq_refl eq_refl ltac:(discriminate) eq_refl ltac:(discriminate)) as (evs & EV).
    destruct cmd.
    - destruct (HG eq_refl) as (g & ->). clear HF HS.
      match goal with |- exists r, ?A = _ /\ _ => assert (E : A = do evs <- add_source chain_W source_fn [1; 2] (Some 3) ["e1"; "e2"]
          [("e1", chain_W [w xW "e1"; w yW "e1"]); ("e2", chain_W [w xW "e2"; w yW "e2"])];
        do r <- sort_dict DUMP_ORDER [("R", RSites [("A", [w xR "A"; w yR "A"]); ("B", [w xR "B"; w yR "B"])]); ("events", REvents evs); ("freq", RFreq [1; 2]); ("g0", RNums [Some g; yg]);
          ("b", RNums [xb; yb]); ("error", RNums [Some xe; Some ye]); ("nstations", RCounts [xn; yn]); ("v0", RV0 3)];
        Ok (Some r)) by reflexivity end.
      rewrite E, EV. cbn [bind]. eexists. split; [reflexivity|]. split; [intros _|]; reflexivity.
    - destruct (HF ltac:(discriminate)) as (-> & -> & -> & ->).
      match goal with |- exists r, ?A = _ /\ _ => assert (E : A = do evs <- add_source chain_W source_fn [1; 2] (Some 3) ["e1"; "e2"]
          [("e1", chain_W [w xW "e1"; w yW "e1"]); ("e2", chain_W [w xW "e2"; w yW "e2"])];
        do r <- sort_dict DUMP_ORDER [("R", RSites [("A", [w xR "A"; w yR "A"]); ("B", [w xR "B"; w yR "B"])]); ("events", REvents evs); ("freq", RFreq [1; 2]);
          ("error", RNums [Some xe; Some ye]); ("nstations", RCounts [xn; yn]); ("v0", RV0 3)];
        Ok (Some r)) by reflexivity end.
      rewrite E, EV. cbn [bind]. eexists. split; [reflexivity|]. split; [intros [=]|]; reflexivity.
    - destruct (HF ltac:(discriminate)) as (-> & -> & -> & ->). destruct (HS eq_refl) as (-> & ->).
      match goal with |- exists r, ?A = _ /\ _ => assert (E : A = do evs <- add_source chain_W source_fn [1; 2] (Some 3) ["e1"; "e2"]
          [("e1", chain_W [w xW "e1"; w yW "e1"]); ("e2", chain_W [w xW "e2"; w yW "e2"])];
        do r <- sort_dict DUMP_ORDER [("events", REvents evs); ("freq", RFreq [1; 2]);
          ("error", RNums [Some xe; Some ye]); ("nstations", RCounts [xn; yn]); ("v0", RV0 3)];
        Ok (Some r)) by reflexivity end.
      rewrite E, EV. cbn [bind]. eexists. split; [reflexivity|]. split; [intros [=]|]; reflexivity.
  Qed.

  Variable after : fixkw pyf -> R * R -> list (stream R) -> list (stream R).
  Definition run_c (cmd : command) (input : option (finput pyf)) :=
    invert_streams env_c after rlm1 lin2 min1 minN (Some 2700) (Some "fit") (Smo fo_c) (fun _ => None) cmd input ["A"; "B"] ["e1"; "e2"] bands_c streams_c.

  Lemma run_of cmd input kw x y : fix_kw cmd bands_c input = Ok kw ->
    invert_fb env_c kw (band_c false) streams_c = Ok x -> invert_fb env_c kw (band_c true) streams_c = Ok y ->
    run_c cmd input = InvModel.arrange cmd false chain_W source_fn ["A"; "B"] ["e1"; "e2"] bands_c [x; y].
  Proof.
    intros K X Y. unfold run_c, invert_streams, invert_rest, station_names. cbn [bind]. rewrite K. cbn [bind].
    unfold run_serial. cbn [bands_c map snd List.length Nat.ltb Nat.leb mapM].
    change (1 / 2, 3 / 2) with (band_c false). change (3 / 2, 5 / 2) with (band_c true). rewrite X, Y. reflexivity.
  Qed.

  Lemma go_c : exists r, run_c Go None = Ok (Some r) /\ found_g0 r bands_c (fun _ => FNum g_c) /\ dget String.eqb r "v0" = Some (RV0 3).
  Proof.
    destruct (fb_go false) as (x & X & GX & VX). destruct (fb_go true) as (y & Y & GY & VY).
    rewrite (run_of Go None _ _ _ eq_refl X Y).
    destruct (arrange_two Go (bandres_of x) (bandres_of y)) as (r & A & G & V); [intros _; cbn; eauto|congruence|discriminate|exact VY|].
    exists r. split; [exact A|]. split; [|exact V].
    intros l i f band g D NF NX. rewrite (G eq_refl) in D. injection D as <-. cbn in NX. rewrite GX, GY in NX.
    destruct i as [|[|i]]; cbn in NX; [congruence|congruence|destruct i; discriminate].
  Qed.

  Definition input_c : finput pyf :=
    {| fi_freq := [2; 1]; fi_g0 := [Some (FNum g_c); Some (FNum g_c)]; fi_b := [Some (FNum (b_c 2)); Some (FNum (b_c 1))];
       fi_R := [("B", [Some (FNum (site_c 2 "B")); Some (FNum (site_c 1 "B"))]); ("C", [None; Some (FNum (site_c 1 "C"))]);
                ("A", [Some (FNum (site_c 2 "A")); Some (FNum (site_c 1 "A"))])] |}.

  Lemma nodup_c : no_duplicates bands_c input_c.
  Proof.
    clear.
    split; [cbn; repeat constructor; cbn; intuition lra|].
    split; [cbn; repeat constructor; cbn; intuition; match goal with H : (_, _) = _ |- _ => injection H; intros; lra end|].
    split; [cbn; repeat constructor; cbn; intuition lra|cbn; repeat constructor; cbn; intuition discriminate].
  Qed.

  Lemma input_true : true_input input_c (fun _ => FNum g_c) b_c.
  Proof.
    split; [reflexivity|]. split; [reflexivity|]. intros [|[|i]] f H; cbn in H; try (destruct i; discriminate);
      injection H as <-; split; intros x Q; cbn in Q; congruence.
  Qed.

  Lemma sites_true : true_sites input_c site_c.
  Proof.
    intros i f s l x NF D NX. cbn [fi_R input_c dget] in D.
    destruct (String.eqb s "B") eqn:EB; [apply String.eqb_eq in EB; subst s|destruct (String.eqb s "C") eqn:EC; [apply String.eqb_eq in EC; subst s|destruct (String.eqb s "A") eqn:EA; [apply String.eqb_eq in EA; subst s|discriminate]]].
    all: injection D as <-; destruct i as [|[|i]]; cbn [nth_error fi_freq input_c] in NF, NX; try (destruct i; discriminate); congruence.
  Qed.

  Lemma input_both f s : input_sites input_c f s -> both s.
  Proof.
    intros (p & -> & i & NF & SA) q [= <-].
    destruct i as [|[|i]]; cbn in NF; try (destruct i; discriminate); injection NF as <-; split; eexists; apply SA; eexists; split; reflexivity.
  Qed.

  Lemma kw_c cmd : cmd <> Go -> exists kw, fix_kw cmd bands_c (Some input_c) = Ok kw /\
    exists p, kw_fix kw = Some p /\ (forall k, dget band_eqb p (band_c k) = Some (Some (FNum g_c), Some (FNum (b_c (freq_c k))))) /\
      (cmd = Fixed -> kw_fix_sites kw = None) /\
      (cmd = Source -> exists d, kw_fix_sites kw = Some d /\ forall k, exists q, dget band_eqb d (band_c k) = Some q /\
        dget String.eqb q "A" = Some (FNum (site_c (freq_c k) "A")) /\ dget String.eqb q "B" = Some (FNum (site_c (freq_c k) "B"))).
  Proof.
    intros NG. destruct nodup_c as (N1 & N2 & N3 & N4).
    destruct (fix_kw_ok cmd bands_c input_c) as (kw & K).
    { intros x. cbn. tauto. }
    { intros _ sta l [E|[E|[E|[]]]]; injection E as <- <-; cbn; lia. }
    exists kw. split; [exact K|].
    assert (D : forall k, dget reqb bands_c (freq_c k) = Some (band_c k)).
    { intros k. apply (dget_nodup _ reqb_spec); [exact N1|]. destruct k; cbn; auto. }
    assert (J : forall k : bool, nth_error (fi_freq input_c) (if k then 0 else 1)%nat = Some (freq_c k)) by (intros []; reflexivity).
    pose proof (fun k => fix_kw_spec cmd bands_c input_c kw N2 N3 N4 K _ _ _ (J k) (D k)) as S.
    destruct (proj1 (S true) NG) as (p & KP & _). exists p. split; [exact KP|]. split.
    { intros k. destruct (proj1 (S k) NG) as (p' & KP' & DP). rewrite KP in KP'. injection KP' as <-. apply DP; destruct k; reflexivity. }
    split.
    { intros ->. cbn in K. destruct (fix_params bands_c input_c); [|discriminate]. cbn in K. now injection K as <-. }
    intros ->. destruct (proj1 (proj2 (S true)) eq_refl) as (d & _ & KS & _). exists d. split; [exact KS|].
    intros k. destruct (proj1 (proj2 (S k)) eq_refl) as (d' & q & KS' & DS & SP). rewrite KS in KS'. injection KS' as <-.
    exists q. split; [exact DS|]. split; apply SP; eexists; (split; [reflexivity|destruct k; reflexivity]).
  Qed.

  Lemma fixed_c : exists r, run_c Fixed (Some input_c) = Ok (Some r) /\ dget String.eqb r "v0" = Some (RV0 3).
  Proof.
    destruct (kw_c Fixed ltac:(discriminate)) as (kw & K & p & KP & DP & KS & _). specialize (KS eq_refl).
    destruct (fb_fixed kw p false KP KS (DP false)) as (x & X & GX & BX & VX). destruct (fb_fixed kw p true KP KS (DP true)) as (y & Y & GY & BY & VY).
    rewrite (run_of Fixed _ _ _ _ K X Y).
    destruct (arrange_two Fixed (bandres_of x) (bandres_of y)) as (r & A & G & V); [discriminate|cbn; auto|discriminate|exact VY|]. eauto.
  Qed.

  Lemma source_run_c : exists r, run_c Source (Some input_c) = Ok (Some r) /\ dget String.eqb r "v0" = Some (RV0 3).
  Proof.
    destruct (kw_c Source ltac:(discriminate)) as (kw & K & p & KP & DP & _ & KS). destruct (KS eq_refl) as (d & KD & DS).
    destruct (DS false) as (qx & Q1 & Q2 & Q3). destruct (DS true) as (qy & Q4 & Q5 & Q6).
    destruct (fb_source kw p d qx false KP (DP false) KD Q1 Q2 Q3) as (x & X & GX & BX & RX & VX).
    destruct (fb_source kw p d qy true KP (DP true) KD Q4 Q5 Q6) as (y & Y & GY & BY & RY & VY).
    rewrite (run_of Source _ _ _ _ K X Y).
    destruct (arrange_two Source (bandres_of x) (bandres_of y)) as (r & A & G & V); [discriminate|cbn; auto|cbn; auto|exact VY|]. eauto.
  Qed.
End Fit.

Lemma model_c : model_source (map fst bands_c) ["e1"; "e2"] source_c M_c 2 2 1 3 2700.
Proof.
  intros ev _. split; [unfold M_c; destruct (String.eqb ev "e1"); lra|].
  intros f IF. assert (FP : 0 < f) by (destruct IF as [<-|[<-|[]]]; cbn; lra).
  unfold sds, source_c. set (a := abercrombie (M_c ev) 2 2 1 f).
  assert (AP : 0 < a) by apply aber_pos.
  replace (a ^ 2 * PI * f ^ 2 / (5 / 2 * 2700 * 3 ^ 5) * (5 / 2) / PI * 2700 * 3 ^ 5 / f ^ 2) with (a ^ 2).
  - apply sqrt_pow2. lra.
  - pose proof PI_RGT_0. field. split; [lra|]. lra.
Qed.

Lemma streams_nodup : NoDup ["A"; "B"] /\ NoDup ["e1"; "e2"].
Proof. split; repeat constructor; cbn; intuition discriminate. Qed.

Lemma nonzero_c : 3 <> 0 /\ 2700 <> 0.
Proof. lra. Qed.
