(** Lemmas on the arrangement of panels. *)
From Coq Require Import List Bool Arith ZArith Lia.
From Verif Require Import Base GridModel GridSpec.
Import ListNotations.

Lemma ceil_sqrt_spec : forall N, N <= ceil_sqrt N * ceil_sqrt N /\ (0 < N -> (ceil_sqrt N - 1) * (ceil_sqrt N - 1) < N).
Proof.
  intros N. unfold ceil_sqrt. pose proof (Nat.sqrt_spec N (Nat.le_0_l _)) as [A B]. cbv zeta in *.
  destruct (Nat.eqb_spec (Nat.sqrt N * Nat.sqrt N) N) as [E | E].
  - split; [lia |]. intros H. assert (1 <= Nat.sqrt N) by (destruct (Nat.sqrt N); lia).
    destruct (Nat.sqrt N) as [| s]; [lia |]. replace (S s - 1) with s by lia. nia.
  - split; [lia |]. intros _. replace (S (Nat.sqrt N) - 1) with (Nat.sqrt N) by lia. lia.
Qed.

Lemma ceil_sqrt_pos : forall N, 0 < N -> 0 < ceil_sqrt N.
Proof. intros N H. destruct (ceil_sqrt_spec N) as [A _]. destruct (ceil_sqrt N); lia. Qed.

Lemma gridspec_ok : forall ny nx, 0 < ny -> 0 < nx -> gridspec ny nx = Ok (ny, nx).
Proof. intros [|ny] [|nx]; intros; try lia; reflexivity. Qed.


Lemma cell_ok : forall ny nx i, 0 < nx -> i < ny * nx -> cell (ny, nx) (i / nx) (i mod nx) = Ok (place nx i).
Proof.
  intros ny nx i Hn Hi. unfold cell, place. cbn [fst snd].
  assert (i / nx < ny) by (apply Nat.div_lt_upper_bound; nia).
  assert (i mod nx < nx) by (apply Nat.mod_upper_bound; lia).
  destruct (Nat.ltb_spec (i / nx) ny); [| lia]. destruct (Nat.ltb_spec (i mod nx) nx); [| lia]. reflexivity.
Qed.

Lemma mapM_map : forall {A B} (f : A -> res B) g l, (forall a, In a l -> f a = Ok (g a)) -> mapM f l = Ok (map g l).
Proof.
  intros A B f g l. induction l as [| a l IH]; intros H; cbn; [reflexivity |].
  rewrite (H a) by (left; reflexivity). cbn. rewrite IH by (intros; apply H; right; assumption). reflexivity.
Qed.

Lemma panels_ok : forall ny nx k, 0 < nx -> k <= ny * nx -> panels (ny, nx) nx k = Ok (map (place nx) (seq 0 k)).
Proof.
  intros. unfold panels. apply mapM_map. intros a Ha. apply in_seq in Ha. apply cell_ok; lia.
Qed.

Lemma place_inj : forall nx i j, 0 < nx -> place nx i = place nx j -> i = j.
Proof.
  intros nx i j H E. unfold place in E.
  assert (i / nx = j / nx) by congruence. assert (i mod nx = j mod nx) by congruence.
  rewrite (Nat.div_mod i nx), (Nat.div_mod j nx) by lia. congruence.
Qed.

Lemma place_in : forall ny nx i, 0 < nx -> i < ny * nx -> in_grid (ny, nx) (place nx i).
Proof.
  intros. unfold in_grid, place; cbn [fst snd]. split.
  - apply Nat.div_lt_upper_bound; nia.
  - apply Nat.mod_upper_bound; lia.
Qed.

Lemma map_nodup : forall {A B} (f : A -> B) l, (forall a b, In a l -> In b l -> f a = f b -> a = b) -> NoDup l -> NoDup (map f l).
Proof.
  intros A B f l. induction l as [| a l IH]; intros H N; cbn; constructor.
  - intros I. apply in_map_iff in I. destruct I as [b [E I]]. inversion N; subst.
    apply H in E; [| right; assumption | left; reflexivity]. subst. contradiction.
  - apply IH; [| inversion N; assumption]. intros; apply H; try (right; assumption); assumption.
Qed.

(** panels 0 .. k-1 and a bar at place m *)
Definition placed (ny nx k : nat) (m : option nat) : layout :=
  {| g_grid := (ny, nx); g_cells := map (place nx) (seq 0 k); g_bar := option_map (place nx) m |}.

Lemma placed_well : forall ny nx k m,
  0 < nx -> k <= ny * nx -> (forall i, m = Some i -> k <= i < ny * nx) ->
  well_placed k (match m with Some _ => true | None => false end) (placed ny nx k m).
Proof.
  intros ny nx k m Hn Hk Hm. unfold well_placed, placed. cbn [g_cells g_bar g_grid].
  rewrite map_length, seq_length. split; [reflexivity |].
  assert (E : map (place nx) (seq 0 k) ++ match option_map (place nx) m with Some c => [c] | None => [] end
              = map (place nx) (seq 0 k ++ match m with Some i => [i] | None => [] end))
    by (rewrite map_app; destruct m; reflexivity).
  rewrite E. split.
  - destruct m; cbn; split; intros; congruence.
  - split.
    + apply map_nodup; [intros; eapply place_inj; eauto |].
      destruct m as [m |]; [| rewrite app_nil_r; apply seq_NoDup].
      specialize (Hm m eq_refl).
      apply NoDup_Add with (a := m) (l := seq 0 k).
      * rewrite <- (app_nil_r (seq 0 k)) at 1. apply Add_app.
      * split; [apply seq_NoDup |]. intros I. apply in_seq in I. lia.
    + apply Forall_forall. intros c I. apply in_map_iff in I. destruct I as [i [<- I]].
      apply place_in; [lia |]. apply in_app_or in I. destruct I as [I | I].
      * apply in_seq in I. lia.
      * destruct m; cbn in I; [| contradiction]. destruct I as [<- | []]. apply Hm; reflexivity.
Qed.

Lemma nth_error_seq : forall k i s, i < k -> nth_error (seq s k) i = Some (s + i).
Proof.
  intros k. induction k as [| k IH]; intros i s H; [lia |]. destruct i; cbn; [f_equal; lia |].
  rewrite IH by lia. f_equal; lia.
Qed.

Lemma placed_order : forall ny nx k m, 0 < nx -> reading_order (placed ny nx k m).
Proof.
  intros ny nx k m Hn i j a b Ha Hb Hij. unfold placed in *; cbn [g_cells] in *.
  assert (Li : i < k). { rewrite <- (seq_length k 0), <- (map_length (place nx)). apply nth_error_Some. congruence. }
  assert (Lj : j < k). { rewrite <- (seq_length k 0), <- (map_length (place nx)). apply nth_error_Some. congruence. }
  rewrite nth_error_map, nth_error_seq in Ha by lia. rewrite nth_error_map, nth_error_seq in Hb by lia.
  cbn in Ha, Hb. injection Ha as <-. injection Hb as <-. unfold place; cbn [fst snd].
  pose proof (Nat.div_mod i nx ltac:(lia)). pose proof (Nat.div_mod j nx ltac:(lia)).
  pose proof (Nat.mod_upper_bound i nx ltac:(lia)). pose proof (Nat.mod_upper_bound j nx ltac:(lia)).
  pose proof (Nat.div_le_mono i j nx ltac:(lia) ltac:(lia)).
  assert (i / nx = j / nx \/ i / nx < j / nx) as [E | L] by lia; [right; nia | left; lia].
Qed.

(** ** Grids *)

Lemma get_grid_ok : forall N nx, 0 < N -> nx <> Some 0 ->
  exists c r, get_grid N nx = Ok (c, r, (r, c)) /\ 0 < c /\ N <= r * c /\
    (nx = None -> c = ceil_sqrt N /\ r = c) /\ (forall x, nx = Some x -> c = x /\ r = 1 + (N - 1) / x).
Proof.
  intros N nx HN Hx. destruct nx as [[| x] |]; [congruence | |].
  - exists (S x), (1 + (N - 1) / S x). destruct N as [| m]; [lia |]. unfold get_grid. cbv zeta.
    replace (S m - 1) with m by lia. rewrite gridspec_ok by lia. cbn [bind].
    repeat split; try lia; try discriminate; intros.
    + pose proof (Nat.div_mod m (S x) ltac:(lia)). pose proof (Nat.mod_upper_bound m (S x) ltac:(lia)). nia.
    + congruence.
    + congruence.
  - exists (ceil_sqrt N), (ceil_sqrt N). pose proof (ceil_sqrt_pos N HN). unfold get_grid. cbv zeta.
    rewrite gridspec_ok by lia. cbn [bind]. destruct (ceil_sqrt_spec N) as [A _].
    repeat split; try lia; try discriminate.
Qed.

Lemma square_ok : forall N, 0 < N ->
  square_plot N = Ok (placed (ceil_sqrt N) (ceil_sqrt N) N None).
Proof.
  intros N H. unfold square_plot. pose proof (ceil_sqrt_pos N H). destruct (ceil_sqrt_spec N) as [A _]. cbv zeta.
  rewrite gridspec_ok by lia. cbn [bind]. rewrite panels_ok by lia. reflexivity.
Qed.

Lemma square_good : forall N, 0 < N ->
  exists l, square_plot N = Ok l /\ well_placed N false l /\ reading_order l /\
    fst (g_grid l) = snd (g_grid l) /\ (fst (g_grid l) - 1) * (fst (g_grid l) - 1) < N.
Proof.
  intros N H. eexists. split; [apply square_ok; assumption |].
  pose proof (ceil_sqrt_pos N H). destruct (ceil_sqrt_spec N) as [A B].
  split; [| split; [apply placed_order; lia | split; [reflexivity | apply B; assumption]]].
  apply placed_well with (m := None); try lia. discriminate.
Qed.

Lemma sites_good : forall max_nobs finite nx, 1 <= max_nobs -> In true finite -> nx <> Some 0 ->
  exists l, plot_sites max_nobs finite nx = Ok l /\
    well_placed (count_occ bool_dec finite true) (Nat.ltb 1 max_nobs) l /\ reading_order l.
Proof.
  intros mx finite nx Hm Hf Hx.
  assert (C : count_occ bool_dec finite true = List.length (filter (fun b => b) finite)).
  { clear. induction finite as [| [] l IH]; cbn; [reflexivity | rewrite IH; reflexivity |].
    destruct (bool_dec false true); [discriminate | assumption]. }
  assert (K : 0 < List.length (filter (fun b : bool => b) finite)).
  { rewrite <- C. apply count_occ_In. assumption. }
  rewrite C. unfold plot_sites. cbv zeta. set (k := List.length (filter (fun b : bool => b) finite)) in *.
  destruct (get_grid_ok (b2n (1 <? mx) + k) nx ltac:(lia) Hx) as [c [r [G [P [L _]]]]].
  rewrite G. cbn [bind]. rewrite panels_ok by lia. cbn [bind].
  destruct (Nat.eqb_spec k 0) as [| _]; [lia |].
  destruct (Nat.eqb_spec mx 1) as [E | E].
  - cbn [bind]. exists (placed r c k None). split; [reflexivity |]. split; [| apply placed_order; lia].
    subst mx. apply placed_well with (m := None); try lia. discriminate.
  - assert (T : (1 <? mx) = true) by (apply Nat.ltb_lt; lia). rewrite T in *. cbn [b2n] in *.
    rewrite cell_ok by lia. cbn [bind]. exists (placed r c k (Some k)).
    split; [| split; [| apply placed_order; lia]].
    + replace (1 + k - 1) with k by lia. reflexivity.
    + apply placed_well with (m := Some k); try lia. intros i I. assert (i = k) by congruence. lia.
Qed.

Lemma sds_good : forall max_nobs k nx xlabel, 1 <= k -> nx <> Some 0 -> nx <> Some 1 ->
  exists l, plot_all_sds max_nobs k nx xlabel = Ok l /\
    well_placed k (negb (Nat.eqb max_nobs 1)) l /\ reading_order l /\
    (xlabel = true -> forall c, g_bar l = Some c -> snd c <> (snd (g_grid l) - 1) / 2).
Proof.
  intros mx k nx xl Hk H0 H1. unfold plot_all_sds. destruct (Nat.eqb_spec k 0) as [| _]; [lia |]. cbv zeta.
  destruct (Nat.eqb_spec mx 1) as [E | E]; cbn [negb b2n].
  - destruct (get_grid_ok (k + 0) nx ltac:(lia) H0) as [c [r [G [P [L _]]]]].
    rewrite G. cbn [bind]. rewrite panels_ok by lia. cbn [bind].
    exists (placed r c k None). split; [reflexivity |]. split; [| split; [apply placed_order; lia |]].
    + apply placed_well with (m := None); try lia. discriminate.
    + intros _ cc I. discriminate I.
  - destruct (get_grid_ok (k + 1) nx ltac:(lia) H0) as [c [r [G [P [L [Q1 Q2]]]]]].
    rewrite G. cbn [bind]. rewrite panels_ok by lia. cbn [bind].
    replace (k + 1 - 1) with k by lia.
    assert (C2 : 2 <= c).
    { destruct nx as [x |]; [specialize (Q2 x eq_refl); destruct Q2 as [-> _]; destruct x as [| [| x]]; try congruence; lia |].
      destruct (Q1 eq_refl) as [-> _]. destruct (ceil_sqrt_spec (k + 1)) as [A _]. destruct (ceil_sqrt (k + 1)) as [| [| ]]; lia. }
    pose proof (Nat.div_mod (c - 1) 2 ltac:(lia)). pose proof (Nat.mod_upper_bound (c - 1) 2 ltac:(lia)).
    pose proof (Nat.div_mod k c ltac:(lia)). pose proof (Nat.mod_upper_bound k c ltac:(lia)).
    destruct (Nat.eqb_spec (k mod c) ((c - 1) / 2)) as [M | M]; cbn [andb]; [destruct xl |].
    + (* shifted by one *)
      assert (Lk : k + 1 < r * c).
      { assert (k / c < r) by (apply Nat.div_lt_upper_bound; nia). nia. }
      replace (k + 1 + 1 - 1) with (k + 1) by lia.
      rewrite cell_ok by lia. cbn [bind]. exists (placed r c k (Some (k + 1))).
      split; [reflexivity |]. split; [| split; [apply placed_order; lia |]].
      * apply placed_well with (m := Some (k + 1)); try lia. intros i I. assert (i = k + 1) by congruence. lia.
      * intros _ cc I. assert (I' : cc = place c (k + 1)) by (cbn in I; congruence). subst cc. unfold place; cbn [snd placed g_grid].
        assert (F : (k + 1) mod c = k mod c + 1).
        { symmetry. apply Nat.mod_unique with (q := k / c); nia. }
        rewrite F. lia.
    + replace (k + 1 - 1) with k by lia. rewrite cell_ok by lia. cbn [bind]. exists (placed r c k (Some k)).
      split; [reflexivity |]. split; [| split; [apply placed_order; lia | discriminate]].
      apply placed_well with (m := Some k); try lia. intros i I. assert (i = k) by congruence. lia.
    + replace (k + 1 - 1) with k by lia. rewrite cell_ok by lia. cbn [bind]. exists (placed r c k (Some k)).
      split; [reflexivity |]. split; [| split; [apply placed_order; lia |]].
      * apply placed_well with (m := Some k); try lia. intros i I. assert (i = k) by congruence. lia.
      * intros _ cc I. assert (I' : cc = place c k) by (cbn in I; congruence). subst cc. cbn [place snd placed g_grid]. assumption.
Qed.

(** one column: the colour bar has no cell *)
Lemma sds_one_column : forall max_nobs k, max_nobs <> 1 -> 1 <= k ->
  plot_all_sds max_nobs k (Some 1) true = Err IndexError.
Proof.
  intros mx k E Hk. unfold plot_all_sds. destruct (Nat.eqb_spec k 0) as [| _]; [lia |]. cbv zeta.
  destruct (Nat.eqb_spec mx 1) as [| _]; [lia |]. cbn [negb b2n].
  destruct (get_grid_ok (k + 1) (Some 1) ltac:(lia) ltac:(congruence)) as [c [r [G [P [L [_ Q2]]]]]].
  destruct (Q2 1 eq_refl) as [-> R]. rewrite G. cbn [bind]. rewrite panels_ok by lia. cbn [bind].
  assert (X : (Nat.eqb ((k + 1 - 1) mod 1) ((1 - 1) / 2) && true)%bool = true) by (rewrite Nat.mod_1_r; reflexivity).
  rewrite X. unfold cell. cbn [fst snd]. rewrite Nat.div_1_r in *.
  destruct (Nat.ltb_spec (k + 1 + 1 - 1) r); [lia | reflexivity].
Qed.

(** ** Labels *)

Lemma below_iff : forall i N nx, ((Z.of_nat i <? Z.of_nat N - Z.of_nat nx)%Z = true) <-> i + nx < N.
Proof. intros. rewrite Z.ltb_lt. lia. Qed.

Lemma xlabelled_iff : forall i nx ny N xt yt yl,
  xlabelled (set_gridlabels i nx ny N xt yt true yl) = true <-> i mod nx = (nx - 1) / 2 /\ N <= i + nx.
Proof.
  intros. unfold set_gridlabels; cbn [xlabelled]. rewrite !andb_true_iff, negb_true_iff, Nat.eqb_eq.
  assert (((Z.of_nat i <? Z.of_nat N - Z.of_nat nx)%Z = false) <-> N <= i + nx) by (rewrite Z.ltb_ge; lia).
  intuition.
Qed.

Lemma mod_small_case : forall nx m, 0 < nx -> m < nx -> forall i, i < nx -> (i mod nx = m <-> i = m).
Proof. intros. rewrite Nat.mod_small by assumption. reflexivity. Qed.

Lemma half_lt : forall n, 0 < n -> (n - 1) / 2 < n.
Proof. intros. apply Nat.div_lt_upper_bound; lia. Qed.

Lemma xlabel_once : forall nx ny N xt yt yl, 0 < nx ->
  (exactly_one N (fun i => xlabelled (set_gridlabels i nx ny N xt yt true yl) = true) <-> (nx - 1) / 2 < N).
Proof.
  intros nx ny N xt yt yl Hn. pose proof (half_lt nx Hn) as HM. set (m := (nx - 1) / 2) in *.
  split.
  - intros [i [[Li Pi] _]]. apply xlabelled_iff in Pi. fold m in Pi.
    pose proof (Nat.mod_le i nx ltac:(lia)). lia.
  - intros H. destruct (le_lt_dec N nx) as [S | S].
    + exists m. split.
      * split; [assumption |]. apply xlabelled_iff. fold m. rewrite Nat.mod_small by assumption. lia.
      * intros j [Lj Pj]. apply xlabelled_iff in Pj. fold m in Pj. rewrite Nat.mod_small in Pj by lia. lia.
    + (* the last number below N that is m modulo nx *)
      set (q := (N - 1 - m) / nx).
      pose proof (Nat.div_mod (N - 1 - m) nx ltac:(lia)) as D.
      pose proof (Nat.mod_upper_bound (N - 1 - m) nx ltac:(lia)) as U. fold q in D.
      assert (M : (q * nx + m) mod nx = m) by (rewrite Nat.add_comm, Nat.mod_add, Nat.mod_small; lia).
      exists (q * nx + m). split.
      * split; [nia |]. apply xlabelled_iff. fold m. split; [assumption | nia].
      * intros j [Lj Pj]. apply xlabelled_iff in Pj. fold m in Pj. destruct Pj as [Pj Lo].
        pose proof (Nat.div_mod j nx ltac:(lia)) as Dj. rewrite Pj in Dj.
        assert (j / nx = q) by nia. nia.
Qed.

Lemma ylabelled_iff : forall i nx ny N xt yt xl, 0 < nx ->
  (ylabelled (set_gridlabels i nx ny N xt yt xl true) = true <-> i = nx * ((ny - 1) / 2)).
Proof.
  intros i nx ny N xt yt xl H. unfold set_gridlabels; cbn [ylabelled]. rewrite !andb_true_iff, !Nat.eqb_eq.
  pose proof (Nat.div_mod i nx ltac:(lia)) as D. split.
  - intros [[A B] _]. rewrite A, B in D. lia.
  - intros E. split; [| reflexivity]. split.
    + subst i. rewrite Nat.mul_comm, Nat.mod_mul; lia.
    + subst i. rewrite Nat.mul_comm, Nat.div_mul; lia.
Qed.

Lemma ylabel_once : forall nx ny N xt yt xl, 0 < nx ->
  (exactly_one N (fun i => ylabelled (set_gridlabels i nx ny N xt yt xl true) = true) <-> nx * ((ny - 1) / 2) < N).
Proof.
  intros nx ny N xt yt xl H. split.
  - intros [i [[Li Pi] _]]. apply ylabelled_iff in Pi; [lia | assumption].
  - intros L. exists (nx * ((ny - 1) / 2)). split.
    + split; [assumption |]. apply ylabelled_iff; [assumption | reflexivity].
    + intros j [_ Pj]. apply ylabelled_iff in Pj; assumption.
Qed.

(** the grid of [k] panels and perhaps a colour bar *)
Lemma grid_labels : forall k bar nx c r gs, 1 <= k -> nx <> Some 0 ->
  get_grid (k + b2n bar) nx = Ok (c, r, gs) ->
  exactly_one k (fun i => ylabelled (set_gridlabels i c r k false false true true) = true) /\
  (nx = None -> exactly_one k (fun i => xlabelled (set_gridlabels i c r k false false true true) = true)).
Proof.
  intros k bar nx c r gs Hk Hx G.
  destruct (get_grid_ok (k + b2n bar) nx ltac:(lia) Hx) as [c' [r' [G' [P [L [Q1 Q2]]]]]].
  rewrite G' in G. assert (c' = c) by congruence. assert (r' = r) by congruence. subst c' r'. clear G G'.
  pose proof (Nat.div_mod (r - 1) 2 ltac:(lia)) as D2. split.
  - apply ylabel_once; [assumption |]. destruct nx as [x |].
    + destruct (Q2 x eq_refl) as [-> E]. set (q := (k + b2n bar - 1) / x) in *. replace (r - 1) with q in * by lia.
      pose proof (Nat.div_mod (k + b2n bar - 1) x ltac:(lia)) as D. fold q in D.
      assert (q / 2 <= q - 1 \/ q = 0) by lia. destruct q as [| q']; [cbn; lia |].
      destruct bar; cbn [b2n] in *; nia.
    + destruct (Q1 eq_refl) as [E ->]. destruct (ceil_sqrt_spec (k + b2n bar)) as [_ B]. specialize (B ltac:(lia)).
      rewrite <- E in B. clear Q1 Q2 L. destruct bar; cbn [b2n] in B.
      * assert ((c - 1) * (c - 1) <= k) by lia. destruct (le_lt_dec c 2); [assert ((c-1)/2 = 0) as -> by (destruct c as [|[|[|]]]; try lia; reflexivity); lia |].
        assert (c * ((c - 1) / 2) * 2 <= c * (c - 1)) by nia. nia.
      * destruct (le_lt_dec c 2); [assert ((c-1)/2 = 0) as -> by (destruct c as [|[|[|]]]; try lia; reflexivity); lia |].
        assert (c * ((c - 1) / 2) * 2 <= c * (c - 1)) by nia. nia.
  - intros N. destruct (Q1 N) as [E ->]. apply xlabel_once; [assumption |].
    destruct (ceil_sqrt_spec (k + b2n bar)) as [_ B]. specialize (B ltac:(lia)). rewrite <- E in B.
    clear Q1 Q2 L. destruct (le_lt_dec c 2); [assert ((c-1)/2 = 0) as -> by (destruct c as [|[|[|]]]; try lia; reflexivity); lia |].
    destruct bar; cbn [b2n] in B; nia.
Qed.

(** tick labels: in the first column, and on panels without a panel below *)
Lemma tick_labels : forall i nx ny N xl yl, 0 < nx -> i < N ->
  (yticks (set_gridlabels i nx ny N false false xl yl) = true <-> snd (place nx i) = 0) /\
  (xticks (set_gridlabels i nx ny N false false xl yl) = true <->
     ~ exists j, j < N /\ snd (place nx j) = snd (place nx i) /\ fst (place nx i) < fst (place nx j)).
Proof.
  intros i nx ny N xl yl H Hi. unfold set_gridlabels; cbn [yticks xticks]. unfold place; cbn [fst snd]. split.
  - destruct (Nat.eqb_spec (i mod nx) 0); cbn; intuition congruence.
  - rewrite andb_true_r, negb_true_iff, Z.ltb_ge.
    pose proof (Nat.div_mod i nx ltac:(lia)) as D. split.
    + intros L [j [Lj [M F]]]. pose proof (Nat.div_mod j nx ltac:(lia)) as Dj. rewrite M in Dj. nia.
    + intros NE. destruct (Z_le_gt_dec (Z.of_nat N - Z.of_nat nx) (Z.of_nat i)) as [| G]; [assumption |].
      exfalso. apply NE. exists (i + nx). split; [lia |].
      replace (i + nx) with (i + 1 * nx) by lia. rewrite Nat.mod_add, Nat.div_add by lia. lia.
Qed.

(** ** Optimisation *)

(** cell of record i in a grid of n x n *)
Definition step_place (n num i : nat) : (nat * nat) * option nat :=
  if Nat.ltb i n then ((0, i), Some (i + 1))
  else if Nat.ltb (S i) num then ((i - n + 1, n - 1), Some (i + 1)) else ((n - 1, n - 1), None).

Lemma step_cell_ok : forall n num i, 0 < n -> num <= 2 * n -> step_cell (n, n) n num i = Ok (step_place n num i).
Proof.
  intros n num i Hn Hm. unfold step_cell, step_place, cell. cbn [fst snd].
  destruct (Nat.ltb_spec i n).
  - destruct (Nat.ltb_spec 0 n); [| lia]. reflexivity.
  - destruct (Nat.ltb_spec (S i) num).
    + destruct (Nat.ltb_spec (i - n + 1) n); [| lia]. destruct (Nat.ltb_spec (n - 1) n); [| lia]. reflexivity.
    + destruct (Nat.ltb_spec (n - 1) n); [| lia]. reflexivity.
Qed.

Lemma plot_optimization_ok : forall num nrec, 3 <= num -> 1 <= nrec ->
  plot_optimization num nrec =
    Ok (Some {| r1 := 1; r2 := (num + 1) / 2; c1 := 0; c2 := (num + 1) / 2 - 1 |},
        map (step_place ((num + 1) / 2) num) (seq 0 nrec)).
Proof.
  intros num nrec H1 H2. unfold plot_optimization. destruct (Nat.ltb_spec 1 num); [| lia]. cbv zeta.
  pose proof (Nat.div_mod (num + 1) 2 ltac:(lia)). pose proof (Nat.mod_upper_bound (num + 1) 2 ltac:(lia)).
  rewrite gridspec_ok by lia. cbn [bind]. destruct (Nat.leb_spec ((num + 1) / 2) 1); [lia |].
  rewrite mapM_map with (g := step_place ((num + 1) / 2) num) by (intros; apply step_cell_ok; lia).
  cbn [bind]. destruct (Nat.eqb_spec nrec 0); [lia | reflexivity].
Qed.

Lemma step_place_inj : forall n num i j, 2 <= n -> num = 2 * n - 1 -> i < num -> j < num ->
  fst (step_place n num i) = fst (step_place n num j) -> i = j.
Proof.
  intros n num i j Hn Hm Hi Hj E. unfold step_place in E.
  assert (F : forall x y : nat * nat, x = y -> fst x = fst y /\ snd x = snd y) by (intros; subst; auto).
  apply F in E. clear F.
  destruct (Nat.ltb_spec i n), (Nat.ltb_spec j n), (Nat.ltb_spec (S i) num), (Nat.ltb_spec (S j) num); cbn in E; lia.
Qed.

Lemma optimization_good : forall k nrec, 1 <= k -> 1 <= nrec <= 2 * k + 1 ->
  exists main ps, plot_optimization (2 * k + 1) nrec = Ok (Some main, ps) /\
    length ps = nrec /\ NoDup (map fst ps) /\
    Forall (fun p => in_grid (S k, S k) (fst p) /\ ~ in_region main (fst p)) ps /\
    r2 main <= S k /\ c2 main <= S k /\ r1 main < r2 main /\ c1 main < c2 main /\
    (forall i l, nth_error (map snd ps) i = Some l -> l = if Nat.eqb i (2 * k) then None else Some (i + 1)).
Proof.
  intros k nrec Hk [H1 H2]. assert (N : (2 * k + 1 + 1) / 2 = S k) by (symmetry; apply Nat.div_unique with (r := 0); lia).
  rewrite plot_optimization_ok by lia. rewrite N. do 2 eexists. split; [reflexivity |]. cbn [r1 r2 c1 c2].
  rewrite map_length, seq_length. split; [reflexivity |]. split; [| split; [| repeat split; try lia]].
  - rewrite map_map. apply map_nodup; [| apply seq_NoDup]. intros a b Ha Hb E.
    apply in_seq in Ha. apply in_seq in Hb. eapply step_place_inj; [| | | | exact E]; lia.
  - apply Forall_forall. intros p I. apply in_map_iff in I. destruct I as [i [<- I]]. apply in_seq in I.
    unfold in_grid, in_region, step_place. cbn [r1 r2 c1 c2 fst snd].
    destruct (Nat.ltb_spec i (S k)); cbn [fst snd]; [lia |].
    destruct (Nat.ltb_spec (S i) (2 * k + 1)); cbn [fst snd]; lia.
  - intros i l E.
    assert (Li : i < nrec). { rewrite <- (seq_length nrec 0), <- (map_length (step_place (S k) (2*k+1))), <- (map_length snd). apply nth_error_Some. congruence. }
    rewrite map_map, nth_error_map, nth_error_seq in E by lia. cbn [option_map] in E. rewrite Nat.add_0_l in E.
    assert (El : l = snd (step_place (S k) (2 * k + 1) i)) by congruence. rewrite El.
    unfold step_place. destruct (Nat.ltb_spec i (S k)); cbn [snd].
    + destruct (Nat.eqb_spec i (2 * k)); [lia | reflexivity].
    + destruct (Nat.ltb_spec (S i) (2 * k + 1)); cbn [snd]; destruct (Nat.eqb_spec i (2 * k)); try lia; reflexivity.
Qed.

(** an even number of panels above 2: the last two share a cell *)
Lemma optimization_even : forall k, 2 <= k ->
  exists main ps a b, plot_optimization (2 * k) (2 * k) = Ok (Some main, ps) /\
    nth_error ps (2 * k - 2) = Some a /\ nth_error ps (2 * k - 1) = Some b /\ fst a = fst b.
Proof.
  intros k Hk. assert (N : (2 * k + 1) / 2 = k) by (symmetry; apply Nat.div_unique with (r := 1); lia).
  rewrite plot_optimization_ok by lia. rewrite N. do 4 eexists. split; [reflexivity |].
  split; [rewrite nth_error_map, nth_error_seq by lia; reflexivity |].
  split; [rewrite nth_error_map, nth_error_seq by lia; reflexivity |].
  cbn [Nat.add]. unfold step_place.
  destruct (Nat.ltb_spec (2 * k - 2) k); [lia |]. destruct (Nat.ltb_spec (2 * k - 1) k); [lia |].
  destruct (Nat.ltb_spec (S (2 * k - 2)) (2 * k)); [| lia]. destruct (Nat.ltb_spec (S (2 * k - 1)) (2 * k)); [lia |].
  cbn [fst]. f_equal; lia.
Qed.

(** ** Records *)

Lemma record_nodup : forall num opt rec g, NoDup rec -> NoDup (record_step num opt rec g).
Proof.
  intros num opt rec g N. unfold record_step. destruct (existsb (Z.eqb g) rec) eqn:E; cbn [negb andb]; [assumption |].
  destruct (_ || _)%bool; [| assumption].
  apply NoDup_Add with (a := g) (l := rec).
  - rewrite <- (app_nil_r rec) at 1. apply Add_app.
  - split; [assumption |]. intros I. assert (existsb (Z.eqb g) rec = true) by (apply existsb_exists; exists g; split; [assumption | apply Z.eqb_refl]). congruence.
Qed.

Lemma fold_nodup : forall num tried rec, NoDup rec -> NoDup (fold_left (record_step num true) tried rec).
Proof. intros num tried. induction tried as [| g l IH]; intros rec H; cbn; [assumption |]. apply IH, record_nodup, H. Qed.

Lemma fold_length : forall num tried rec, 1 <= num -> length rec <= num - 1 ->
  length (fold_left (record_step num true) tried rec) <= num - 1.
Proof.
  intros num tried. induction tried as [| g l IH]; intros rec H1 H2; cbn; [assumption |]. apply IH; [assumption |].
  unfold record_step. destruct (existsb (Z.eqb g) rec); cbn [negb andb]; [assumption |].
  rewrite orb_false_r. destruct (Nat.ltb_spec (S (length rec)) num); [| assumption]. rewrite app_length; cbn; lia.
Qed.

Lemma fold_incl : forall num tried rec g, In g (fold_left (record_step num true) tried rec) -> In g rec \/ In g tried.
Proof.
  intros num tried. induction tried as [| x l IH]; intros rec g H; cbn in H; [left; assumption |].
  apply IH in H. destruct H as [H | H]; [| right; right; assumption].
  unfold record_step in H. destruct (_ && _)%bool; [| left; assumption].
  apply in_app_or in H. destruct H as [H | [H | []]]; [left; assumption | right; left; assumption].
Qed.

Lemma recorded_facts : forall num tried best, 1 <= num ->
  let rec := recorded num tried best in
  NoDup rec /\ length rec <= num /\ In best rec /\ (forall g, In g rec -> g = best \/ In g tried) /\
  (forall g, nth_error rec (num - 1) = Some g -> g = best).
Proof.
  intros num tried best H rec. subst rec. unfold recorded.
  pose proof (fold_nodup num tried [] (NoDup_nil _)) as ND.
  pose proof (fold_length num tried [] H ltac:(cbn; lia)) as LN.
  assert (IN : forall g, In g (fold_left (record_step num true) tried []) -> In g tried)
    by (intros g G; apply fold_incl in G; destruct G as [[] | G]; assumption).
  set (r := fold_left (record_step num true) tried []) in *. split; [apply record_nodup; assumption |].
  unfold record_step. destruct (existsb (Z.eqb best) r) eqn:E; cbn [negb andb].
  - split; [lia |]. split.
    + apply existsb_exists in E. destruct E as [x [I Q]]. apply Z.eqb_eq in Q. subst. assumption.
    + split; [intros g G; right; apply IN; assumption |].
      intros g G. exfalso. assert (num - 1 < length r) by (apply nth_error_Some; congruence). lia.
  - rewrite orb_true_r. rewrite app_length. cbn [length]. split; [lia |].
    split; [apply in_or_app; right; left; reflexivity |]. split.
    + intros g G. apply in_app_or in G. destruct G as [G | [G | []]]; [right; apply IN; assumption | left; congruence].
    + intros g G. destruct (le_lt_dec (num - 1) (length r)) as [Q | Q].
      * assert (length r = num - 1) by lia. rewrite nth_error_app2 in G by lia.
        replace (num - 1 - length r) with 0 in G by lia. cbn in G. congruence.
      * exfalso. assert (X : num - 1 < length (r ++ [best])) by (apply nth_error_Some; congruence).
        rewrite app_length in X; cbn in X; lia.
Qed.

(** the panel labelled "best" shows the optimum *)
Lemma best_panel : forall num tried best main ps i p, 3 <= num ->
  plot_optimization num (length (recorded num tried best)) = Ok (main, ps) ->
  nth_error ps i = Some p -> snd p = None -> nth_error (recorded num tried best) i = Some best.
Proof.
  intros num tried best main ps i p Hn HP Hi Hs.
  destruct (recorded_facts num tried best ltac:(lia)) as [_ [L [IB [_ NB]]]].
  assert (1 <= length (recorded num tried best)) by (destruct (recorded num tried best); [destruct IB | cbn; lia]).
  rewrite plot_optimization_ok in HP by lia. assert (ps = map (step_place ((num + 1) / 2) num) (seq 0 (length (recorded num tried best)))) by congruence.
  subst ps. assert (Li : i < length (recorded num tried best)).
  { rewrite <- (seq_length (length (recorded num tried best)) 0), <- (map_length (step_place ((num + 1) / 2) num)). apply nth_error_Some. congruence. }
  rewrite nth_error_map, nth_error_seq in Hi by lia. cbn [option_map] in Hi. rewrite Nat.add_0_l in Hi.
  assert (p = step_place ((num + 1) / 2) num i) by congruence. subst p. unfold step_place in Hs.
  destruct (Nat.ltb_spec i ((num + 1) / 2)); [discriminate |]. destruct (Nat.ltb_spec (S i) num); [discriminate |].
  assert (i = num - 1) by lia. subst i.
  destruct (nth_error (recorded num tried best) (num - 1)) as [g |] eqn:E.
  - rewrite (NB g eq_refl). reflexivity.
  - apply nth_error_None in E. lia.
Qed.

(** it is missing if the optimum is among the first values tried *)
Lemma no_best_panel : forall num tried best main ps, 3 <= num ->
  (length (recorded num tried best) < num) ->
  plot_optimization num (length (recorded num tried best)) = Ok (main, ps) ->
  forall p, In p ps -> snd p <> None.
Proof.
  intros num tried best main ps Hn HL HP p I.
  destruct (recorded_facts num tried best ltac:(lia)) as [_ [L [IB [_ NB]]]].
  assert (1 <= length (recorded num tried best)) by (destruct (recorded num tried best); [destruct IB | cbn; lia]).
  rewrite plot_optimization_ok in HP by lia. assert (ps = map (step_place ((num + 1) / 2) num) (seq 0 (length (recorded num tried best)))) by congruence.
  subst ps. apply in_map_iff in I. destruct I as [i [<- I]]. apply in_seq in I. unfold step_place.
  destruct (Nat.ltb_spec i ((num + 1) / 2)); [discriminate |]. destruct (Nat.ltb_spec (S i) num); [discriminate |]. lia.
Qed.

Lemma nothing_to_plot max_nobs finite nx xlabel : 2 <= max_nobs -> ~ In true finite -> nx <> Some 0 ->
  plot_sites max_nobs finite nx = Err UnboundLocalError /\
  plot_all_sds max_nobs 0 nx xlabel = Err IndexError.
Proof.
  intros M F X. split; [|reflexivity]. unfold plot_sites.
  assert (filter (fun b => b) finite = []) as ->.
  { destruct (filter (fun b => b) finite) as [|x l] eqn:E; [reflexivity|].
    assert (I : In x (filter (fun b => b) finite)) by (rewrite E; now left). apply filter_In in I. destruct I as [I T]. subst x. contradiction. }
  destruct (Nat.ltb_spec 1 max_nobs); [|lia]. cbn [length b2n Nat.add].
  destruct nx as [[|n]|]; [now contradiction X| |]; reflexivity.
Qed.

Lemma no_steps num nrec : num <= 1 -> plot_optimization num nrec = Ok (None, []).
Proof. intros H. unfold plot_optimization. destruct (Nat.ltb_spec 1 num); [lia|reflexivity]. Qed.
