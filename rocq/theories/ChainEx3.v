(** The streams of the concrete case have synthetic energies. *)
From Coq Require Import String List Bool Reals Lra Lia ZArith Arith.
From Verif Require Import Base Pyf PyfOps FbModel FreqsModel FreqsProof FbSpec FbEx LsqfbModel LsqfbSpec LsqfbEx InvModel ChainModel ChainSpec ChainSpec2 ChainProof5 ChainEx2.
Import ListNotations.
Open Scope string_scope.
Open Scope list_scope.
Open Scope R_scope.

Lemma samples_after delta w : (0 < delta)%Z -> forall d t, (snd w < t)%Z -> samples_in t delta w d = [].
Proof.
  intros D. induction d as [|x d IH]; intros t T; cbn [samples_in]; [reflexivity|].
  assert ((t <=? snd w)%Z = false) as -> by (apply Z.leb_gt; lia). rewrite andb_false_r. apply IH. lia.
Qed.

Lemma samples_late delta w : (0 < delta)%Z -> forall d t, (fst w <= t)%Z ->
  forall i, (i < List.length (samples_in t delta w d))%nat -> nth_error (samples_in t delta w d) i = nth_error d i.
Proof.
  intros D. induction d as [|x d IH]; intros t T i; cbn [samples_in]; [cbn; lia|].
  destruct ((fst w <=? t)%Z && (t <=? snd w)%Z)%bool eqn:E.
  - destruct i as [|i]; [reflexivity|]. cbn [nth_error List.length]. intros I. apply IH; lia.
  - apply andb_false_iff in E. destruct E as [E|E]; apply Z.leb_gt in E; [lia|].
    rewrite samples_after by lia. cbn. lia.
Qed.

Lemma samples_from delta w : (0 < delta)%Z -> forall k d t, (fst w = t + Z.of_nat k * delta)%Z ->
  forall i, (i < List.length (samples_in t delta w d))%nat -> nth_error (samples_in t delta w d) i = nth_error d (k + i).
Proof.
  intros D. induction k as [|k IH]; intros d t T i I; [apply samples_late; lia || exact I|].
  destruct d as [|x d]; [cbn in I; lia|]. cbn [samples_in] in *.
  assert (E : (fst w <=? t)%Z = false) by (apply Z.leb_gt; nia). rewrite E in *. cbn [andb] in *. cbn [Nat.add nth_error].
  apply IH; [lia|exact I].
Qed.

Lemma proper_slice_ex : proper_slice slice_ex.
Proof.
  intros e w s k D H K i I. unfold slice_ex in H. rewrite <- (samples_from (edelta e) w D k _ _ K) ; 
    destruct (samples_in _ _ _ _) as [|x d]; try discriminate; injection H as <-; [reflexivity|exact I].
Qed.

Lemma own_pairs_c : own_pairs env_c streams_c.
Proof.
  split; [repeat constructor; cbn; intuition discriminate|]. intros s d df fs e _ H. cbn in H. injection H as <-. split; reflexivity.
Qed.

(** the energy of a stream of the concrete case is found at the frequency of the band *)
Lemma filtered_c k s fu d : In s streams_c -> (fst (band_c k) + snd (band_c k)) / 2 <= s_sr s / 2 ->
  fu = Highpass (fst (band_c k)) /\ 0.495 * s_sr s < snd (band_c k) \/
  fu = Bandpass (fst (band_c k)) (snd (band_c k)) /\ snd (band_c k) <= 0.495 * s_sr s ->
  ce_filtered env_c s fu = Ok d -> d = freq_c k.
Proof.
  intros I Q FU FI. destruct FU as [[-> L]|[-> L]]; cbn in FI; injection FI as <-; [exfalso|destruct k; cbn; lra].
  destruct I as [<-|[<-|[<-|[]]]]; cbn [s_sr stream_c] in *; destruct k; cbn [band_c fst snd] in *; lra.
Qed.

Lemma observed_c k e : observed_in env_c streams_c (band_c k) e ->
  exists id ev st, e = trace_c (freq_c k) id ev st.
Proof.
  intros (s & I & Q & fu & d & df & fs & FU & FI & _ & _ & OB). cbn in OB. injection OB as <-. exists (s_uid s), (s_evid s), (s_sta s).
  f_equal. exact (filtered_c k s fu d I Q FU FI).
Qed.

Lemma plain_c f band : In (f, band) bands_c -> plain (ce_select env_c) (observed_in env_c streams_c band).
Proof.
  intros I. destruct (bands_in f band I) as (k & -> & ->).
  repeat (split; [reflexivity|]). split; [cbn; lra|]. split; [exact proper_slice_ex|].
  intros e e' cw O (_ & _ & _ & _ & _ & _ & _ & H & _) T. destruct (observed_c k e O) as (id & ev & st & ->). exists 1%nat.
  cbn in T. rewrite H in T. injection T as <-. cbn. split; reflexivity.
Qed.

Lemma lapse_c e k : edelta e = sec -> esonset e = (2 * sec)%Z -> edist e = 6 -> forall j, estart e = (j * sec)%Z ->
  lapse e 3 k = INR k + IZR j.
Proof.
  intros D O X j S. unfold lapse. rewrite D, O, X, S.
  replace (j * sec + Z.of_nat k * sec - 2 * sec)%Z with ((Z.of_nat k + j - 2) * sec)%Z by lia.
  rewrite mult_IZR, minus_IZR, plus_IZR, <- INR_IZR_INZ. unfold sec. field.
Qed.

Lemma site_c_pos k s : 0 < site_c (freq_c k) s.
Proof.
  unfold site_c. destruct (String.eqb s "A"), k; cbn [freq_c]; try lra; apply Rinv_0_lt_compat; lra.
Qed.

Definition amp_c (f : R) (e s : string) (t : R) : R := source_c f e * site_c f s * 1 * exp (- (b_c f * t)).

Lemma amp_pos k e s t : 0 < amp_c (freq_c k) e s t.
Proof.
  unfold amp_c. apply Rmult_lt_0_compat; [|apply exp_pos]. rewrite Rmult_1_r. apply Rmult_lt_0_compat; [apply source_pos_c|apply site_c_pos].
Qed.

Lemma synthetic_energies_c : synthetic_energies env_c bands_c streams_c 3 (fun _ _ _ => 1) site_c source_c b_c (fun _ _ => 0).
Proof.
  intros f band e I O. destruct (bands_in f band I) as (k & -> & ->). destruct (observed_c k e O) as (id & ev & st & ->).
  split; [apply site_c_pos|]. split; [apply source_pos_c|]. split; [|reflexivity].
  split; [cbn; unfold sec; lra|]. split; [reflexivity|].
  intros i x X _. exists (amp_c (freq_c k) ev st (INR i + 2)).
  rewrite (lapse_c (trace_c (freq_c k) id ev st) i eq_refl eq_refl eq_refl 2 eq_refl). cbn [trace_c edata evid sta] in *.
  split; [reflexivity|]. split; [lra|]. split; [|pose proof (amp_pos k ev st (INR i + 2)); lra]. rewrite Rplus_0_r.
  destruct i as [|[|[|i]]]; cbn [nth_error] in X; [| | |destruct i; discriminate]; injection X as <-; unfold en_c, amp_c;
    repeat f_equal; cbn [INR]; lra.
Qed.

Lemma pointwise_c f band : In (f, band) bands_c -> pointwise env_c 3 (FNum g_c) (fun _ _ => 1).
Proof. intros _ r t gs _ H. cbn in H. now injection H as <-. Qed.

(** the same with constant noise, which is removed: the level is that of the window of one
    second before the onset *)
Definition noise_n (f : R) (p : string * string) : R := amp_c f (fst p) (snd p) 4.
Definition trace_n (f : R) (id : nat) (e s : string) : etrace :=
  {| uid := id; evid := e; sta := s;
     edata := [FNum (noise_n f (e, s)); FNum (noise_n f (e, s)); FNum (amp_c f e s 3 + noise_n f (e, s)); FNum (amp_c f e s 4 + noise_n f (e, s))];
     estart := (1 * sec)%Z; esr := 1; edelta := sec; eotime := 0; esonset := (2 * sec)%Z; edist := 6; enoise := None |}.
Definition select_n : fbopts (Z * Z) :=
  {| o_tw2utc := o_tw2utc select_c; o_slice := slice_ex;
     o_noise_windows := Some [(-1, 0)%Z]; o_noise_func := fun l => match l with [] => Err ValueError | x :: _ => Ok x end;
     o_remove_noise := true; o_adjust_maximum := false; o_adjust_window := None;
     o_bulk_window := None; o_coda_window := (1, 2)%Z; o_weight := None;
     o_smooth := None; o_smoother := fun d _ => Ok d;
     o_skip_coda := 1; o_skip_maximum := None; o_num_pairs := 1; o_cut_coda := false;
     o_cut_smooth := None; o_local_minimum := fun _ => Ok None |}.
Definition env_n : cenv (Z * Z) R :=
  {| ce_filtered := ce_filtered env_c; ce_width := ce_width env_c; ce_free_surface := FsOne 4; ce_borehole := [];
     ce_observed := fun s d _ _ => Ok (trace_n d (s_uid s) (s_evid s) (s_sta s));
     ce_select := select_n; ce_v0 := Some 3; ce_coda_norm := false; ce_R0 := 1;
     ce_b_bounds := Some (1 / 100, 10); ce_g0_bounds := Some (1 / 1000, 1);
     ce_optimize := false; ce_plot_optimization := false; ce_num := 2;
     ce_gcoda := ce_gcoda env_c; ce_gbulk := ce_gbulk env_c; ce_wls := ce_wls env_c; ce_optim := optim_ex |}.

Lemma own_n : own_objects env_n streams_c.
Proof.
  split; [exact (proj1 own_c)|]. intros s d df fs e _ H. cbn in H. now injection H as <-.
Qed.

Lemma own_pairs_n : own_pairs env_n streams_c.
Proof.
  split; [exact (proj1 own_pairs_c)|]. intros s d df fs e _ H. cbn in H. injection H as <-. split; reflexivity.
Qed.

Lemma observed_n k e : observed_in env_n streams_c (band_c k) e ->
  exists id ev st, e = trace_n (freq_c k) id ev st.
Proof.
  intros (s & I & Q & fu & d & df & fs & FU & FI & _ & _ & OB). cbn in OB. injection OB as <-. exists (s_uid s), (s_evid s), (s_sta s).
  f_equal. exact (filtered_c k s fu d I Q FU FI).
Qed.

Lemma plain_n f band : In (f, band) bands_c -> plain (ce_select env_n) (observed_in env_n streams_c band).
Proof.
  intros I. destruct (bands_in f band I) as (k & -> & ->).
  repeat (split; [reflexivity|]). split; [cbn; lra|]. split; [exact proper_slice_ex|].
  intros e e' cw O (_ & _ & _ & _ & _ & _ & _ & H & _) T. destruct (observed_n k e O) as (id & ev & st & ->). exists 2%nat.
  cbn in T. rewrite H in T. injection T as <-. cbn. split; reflexivity.
Qed.

Lemma synthetic_energies_n : synthetic_energies env_n bands_c streams_c 3 (fun _ _ _ => 1) site_c source_c b_c noise_n.
Proof.
  intros f band e I O. destruct (bands_in f band I) as (k & -> & ->). destruct (observed_n k e O) as (id & ev & st & ->).
  split; [apply site_c_pos|]. split; [apply source_pos_c|]. cbn [trace_n evid sta].
  assert (NP : 0 < noise_n (freq_c k) (ev, st)) by apply amp_pos. split; [|split].
  - split; [cbn; unfold sec; lra|]. split; [reflexivity|].
    intros i x X B. exists (amp_c (freq_c k) ev st (INR i + 1)).
    rewrite (lapse_c (trace_n (freq_c k) id ev st) i eq_refl eq_refl eq_refl 1 eq_refl). cbn [trace_n edata evid sta] in *.
    split; [reflexivity|]. split; [lra|].
    destruct i as [|[|[|[|i]]]]; cbn [nth_error] in X; [exfalso; cbn in B; lia|exfalso; cbn in B; lia| | |destruct i; discriminate];
      injection X as <-; cbn [INR].
    + replace (1 + 1 + 1) with 3 by lra. split; [reflexivity|]. unfold noise_n. cbn [fst snd].
      assert (amp_c (freq_c k) ev st 4 <= amp_c (freq_c k) ev st 3); [|pose proof (amp_pos k ev st 4); lra].
      unfold amp_c. apply Rmult_le_compat_l.
      * rewrite Rmult_1_r. apply Rmult_le_pos; left; [apply source_pos_c|apply site_c_pos].
      * left. apply exp_increasing. destruct k; unfold b_c, freq_c; lra.
    + replace (1 + 1 + 1 + 1) with 4 by lra. split; [reflexivity|]. unfold noise_n in *. cbn [fst snd] in *. lra.
  - intros nws nw w s x NW IN T SL X. cbn in NW. injection NW as <-. destruct IN as [<-|[]]. cbn in T. injection T as <-.
    cbn in SL. injection SL as <-. cbn in X. destruct X as [<-|[<-|[]]]; reflexivity.
  - intros l NE A. destruct l as [|x l]; [contradiction|]. cbn. rewrite (A x) by now left. reflexivity.
Qed.

Lemma pointwise_n f band : In (f, band) bands_c -> pointwise env_n 3 (FNum g_c) (fun _ _ => 1).
Proof. exact (pointwise_c f band). Qed.

(** the trace without noise *)
Definition treated_n : etrace :=
  let n := noise_n 1 ("e1", "A") in
  {| uid := 1; evid := "e1"; sta := "A"; edata := [FNum (n / 100); FNum (n / 100); FNum (amp_c 1 "e1" "A" 3); FNum (amp_c 1 "e1" "A" 4)];
     estart := (1 * sec)%Z; esr := 1; edelta := sec; eotime := 0; esonset := (2 * sec)%Z; edist := 6; enoise := Some (FNum n) |}.

Lemma subtract_n : subtract_noise (FNum (noise_n 1 ("e1", "A"))) (edata (trace_n 1 1 "e1" "A")) = edata treated_n.
Proof.
  assert (A := amp_pos false "e1" "A" 4). cbn [freq_c] in A.
  assert (B : amp_c 1 "e1" "A" 4 <= amp_c 1 "e1" "A" 3).
  { unfold amp_c. apply Rmult_le_compat_l.
    - rewrite Rmult_1_r. apply Rmult_le_pos; left; [apply (source_pos_c false)|apply (site_c_pos false)].
    - left. apply exp_increasing. unfold b_c. lra. }
  unfold treated_n, trace_n, noise_n. cbn [edata fst snd]. set (n := amp_c 1 "e1" "A" 4) in *. set (m := amp_c 1 "e1" "A" 3) in *.
  assert (D : fdiv (FNum n) (FNum 100) = FNum (n / 100)) by (cbn; destruct (Req_EM_T 100 0); [lra|reflexivity]).
  unfold subtract_noise. cbn [map]. rewrite D. unfold fsub. cbn [fneg fadd fltb].
  assert (rltb (n + - n) (n / 100) = true) as -> by (apply rltb_true; lra).
  assert (rltb (m + n + - n) (n / 100) = false) as -> by (apply rltb_false; lra).
  assert (rltb (n + n + - n) (n / 100) = false) as -> by (apply rltb_false; lra).
  repeat f_equal; lra.
Qed.

Lemma noise_loop_n : noise_loop select_n [trace_n 1 1 "e1" "A"] = Ok [treated_n].
Proof.
  unfold noise_loop. cbn [loop]. unfold noise_step. cbn [select_n o_noise_windows].
  assert (E : noise_levels select_n (trace_n 1 1 "e1" "A") [(-1, 0)%Z] = Ok [FNum (noise_n 1 ("e1", "A"))]).
  { assert (Q : noise_levels select_n (trace_n 1 1 "e1" "A") [(-1, 0)%Z] =
      Ok [fmean [FNum (noise_n 1 ("e1", "A")); FNum (noise_n 1 ("e1", "A"))]]) by reflexivity.
    rewrite Q. do 2 f_equal. apply mean_const; [discriminate|]. intros y [<-|[<-|[]]]; reflexivity. }
  rewrite E. cbn [bind o_noise_func select_n]. cbn [trace_n edata]. cbn [o_remove_noise].
  match goal with |- context [subtract_noise ?n ?d] => change (subtract_noise n d) with (subtract_noise (FNum (noise_n 1 ("e1", "A"))) (edata (trace_n 1 1 "e1" "A"))) end.
  rewrite subtract_n. reflexivity.
Qed.

(** with noise there are observations *)
Lemma used_n : noise_n 1 ("e1", "A") <> 0 /\
  exists st, used env_n None (band_c false) [stream_c 1 "e1" "A" 100] st 3 /\ pairs st = [("e1", "A")].
Proof.
  split; [pose proof (amp_pos false "e1" "A" 4) as H; cbn [freq_c] in H; unfold noise_n; cbn [fst snd]; lra|].
  assert (ES : stream_energies (fst (band_c false)) (snd (band_c false)) None (ce_filtered env_n) (ce_width env_n)
      (ce_free_surface env_n) (ce_borehole env_n) (ce_observed env_n) [stream_c 1 "e1" "A" 100] = Ok [trace_n 1 1 "e1" "A"]).
  { cbn [stream_energies]. unfold stream_energy. cbn [s_sr stream_c s_sta band_c fst snd].
    assert (rltb 100 (1 / 2 + 3 / 2) = false) as -> by (apply rltb_false; lra).
    assert (rltb (0.495 * 100) (3 / 2) = false) as -> by (apply rltb_false; lra).
    assert (E : (1 / 2 + 3 / 2) / 2 = 1) by lra. cbn. rewrite E. reflexivity. }
  assert (R1 : rltb (secs (2 * sec + 2 * sec - (2 * sec + 1 * sec))) 1 = false).
  { apply rltb_false. unfold secs. change (2 * sec + 2 * sec - (2 * sec + 1 * sec))%Z with 1000000000%Z. lra. }
  assert (SD : exists st, select_data select_n (Some 3) [trace_n 1 1 "e1" "A"] = Ok (Some (st, 3)) /\ pairs st = [("e1", "A")]).
  { unfold select_data. rewrite noise_loop_n. cbn [bind mean_velocity].
    cbv -[rltb secs amp_c noise_n INR Rdiv Rplus Rmult IZR] in R1 |- *. rewrite !R1. eexists. split; reflexivity. }
  destruct SD as (st & SD & P). exists st. split; [|exact P]. exists [trace_n 1 1 "e1" "A"]. split; [exact ES|exact SD].
Qed.
