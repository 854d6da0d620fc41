(** A fit by the normal equations and examples for LineProps.v. *)
From Coq Require Import String List Reals Lra Lia Arith.
From Verif Require Import Base DepModel SourceModel LineModel LineSpec LineProof LineProof2.
Import ListNotations.
Open Scope R_scope.

(** Data of values, places and weights *)
Fixpoint data (y x : list R) (w : option (list R)) : list datum :=
  match y, x, w with
  | v :: y', u :: x', None => (v, u, 1) :: data y' x' None
  | v :: y', u :: x', Some (s :: w') => (v, u, s) :: data y' x' (Some w')
  | _, _, _ => []
  end.

(** Solution of the normal equations *)
Definition line_of (d : list datum) : R * R :=
  let n := wsum (fun _ _ => 1) d in
  let mx := wsum (fun _ x => x) d / n in
  let my := wsum (fun y _ => y) d / n in
  let a := wsum (fun y x => (x - mx) * (y - my)) d / wsum (fun _ x => (x - mx) ^ 2) d in
  (a, my - a * mx).

Definition normal_fit : fitter := fun _ y X w =>
  match X with
  | [_; _] :: _ => let (a, b) := line_of (data y (map (fun row => hd 0 row) X) w) in Ok [a; b]
  | _ => let d := data y (map (fun _ => 0) X) w in Ok [wsum (fun v _ => v) d / wsum (fun _ _ => 1) d]
  end.

Lemma data_ok : forall y x w, length x = length y -> (forall l, w = Some l -> length l = length y) ->
  data_of y x w (data y x w).
Proof.
  induction y as [| v y IH]; intros [| u x] w A B; try discriminate.
  - destruct w as [[| s w] |]; try constructor. specialize (B _ eq_refl). discriminate.
  - injection A as A. destruct w as [[| s w] |]; cbn.
    + specialize (B _ eq_refl). discriminate.
    + constructor. apply IH; [assumption |]. intros l E. specialize (B _ eq_refl). cbn in B. assert (l = w) by congruence. subst. lia.
    + constructor. apply IH; [assumption | discriminate].
Qed.

Lemma data_positive : forall y x w, (forall l s, w = Some l -> In s l -> 0 < s) -> positive_weights (data y x w).
Proof.
  induction y as [| v y IH]; intros [| u x] w B a b c I; try contradiction; destruct w as [[| s w] |]; cbn in I; try contradiction.
  - destruct I as [I | I].
    + assert (c = s) by congruence. subst. apply (B (s :: w)); [reflexivity | left; reflexivity].
    + refine (IH x (Some w) _ a b c I). intros l t E J. apply (B (s :: w)); [reflexivity | right; congruence].
  - destruct I as [I | I]; [assert (c = 1) by congruence; lra |]. refine (IH x None _ a b c I). discriminate.
Qed.

Lemma wsum_lin : forall f g c d, wsum (fun y x => f y x - c * g y x) d = wsum f d - c * wsum g d.
Proof. induction d as [| [[y x] w] d IH]; cbn [wsum]; [ring |]. rewrite IH. ring. Qed.

Lemma wsum_ext : forall f g d, (forall y x w, In (y, x, w) d -> f y x = g y x) -> wsum f d = wsum g d.
Proof.
  induction d as [| [[y x] w] d IH]; intros E; cbn [wsum]; [reflexivity |].
  rewrite (E y x w) by (left; reflexivity). rewrite IH; [reflexivity |]. intros; eapply E; right; eassumption.
Qed.

Lemma normal_gap : forall d a b a' b', misfit d a' b' = misfit d a b +
  wsum (fun _ x => ((a - a') * x + (b - b')) ^ 2) d +
  2 * ((a - a') * wsum (fun y x => (y - (a * x + b)) * x) d + (b - b') * wsum (fun y x => y - (a * x + b)) d).
Proof. induction d as [| [[y x] w] d IH]; intros; cbn [misfit wsum]; [ring |]. rewrite IH with (a := a) (b := b). ring. Qed.

Lemma line_of_least : forall d, positive_weights d -> d <> [] -> forall a b, line_of d = (a, b) ->
  forall a' b', misfit d a b <= misfit d a' b'.
Proof.
  intros d P N a b H a' b'. assert (W := weight_pos d P N). unfold line_of in H. cbv zeta in H.
  set (n := wsum (fun _ _ => 1) d) in *. set (mx := wsum (fun _ x => x) d / n) in *. set (my := wsum (fun y _ => y) d / n) in *.
  set (sxx := wsum (fun _ x => (x - mx) ^ 2) d) in *. set (sxy := wsum (fun y x => (x - mx) * (y - my)) d) in *.
  assert (Hb : b = my - a * mx) by congruence. assert (Ha : a = sxy / sxx) by congruence. clear H.
  assert (X : wsum (fun _ x => x) d = mx * n) by (unfold mx; field; lra).
  assert (Y : wsum (fun y _ => y) d = my * n) by (unfold my; field; lra).
  assert (S0 : a * sxx = sxy).
  { destruct (Req_dec sxx 0) as [Z | Z].
    - rewrite Z, Rmult_0_r. symmetry. unfold sxy. rewrite (wsum_ext _ (fun _ _ => 0 * 1)).
      + clear. induction d as [| [[y x] w] d IH]; cbn [wsum]; [reflexivity | rewrite IH; ring].
      + intros y x w I. assert (G := wsum_zero (fun _ x => (x - mx) ^ 2) d P (fun _ _ => sq_ge0 _) (or_intror Z) _ _ _ I).
        cbv beta in G. apply sq_zero in G. rewrite G. ring.
    - rewrite Ha. field. assumption. }
  assert (N1 : wsum (fun y x => y - (a * x + b)) d = 0).
  { rewrite (wsum_ext _ (fun y x => (y - a * x) - b * 1)) by (intros; ring).
    rewrite (wsum_lin (fun y x => y - a * x) (fun _ _ => 1)), (wsum_lin (fun y _ => y) (fun _ x => x)). fold n. rewrite X, Y, Hb. ring. }
  assert (N2 : wsum (fun y x => (y - (a * x + b)) * x) d = 0).
  { rewrite (wsum_ext _ (fun y x => ((x - mx) * (y - my) - a * (x - mx) ^ 2) - (- mx) * (y - (a * x + b)))).
    - rewrite (wsum_lin (fun y x => (x - mx) * (y - my) - a * (x - mx) ^ 2) (fun y x => y - (a * x + b))).
      rewrite (wsum_lin (fun y x => (x - mx) * (y - my)) (fun _ x => (x - mx) ^ 2)).
      fold sxx sxy. rewrite N1, S0. ring.
    - intros. rewrite Hb. ring. }
  rewrite (normal_gap d a b a' b'), N1, N2.
  assert (0 <= wsum (fun _ x => ((a - a') * x + (b - b')) ^ 2) d) by (apply wsum_ge0; [assumption | intros; apply sq_ge0]).
  lra.
Qed.

Lemma mean_least : forall d b', positive_weights d -> d <> [] ->
  misfit d 0 (wsum (fun v _ => v) d / wsum (fun _ _ => 1) d) <= misfit d 0 b'.
Proof.
  intros d b' P N. assert (W := weight_pos d P N). set (b := wsum (fun v _ => v) d / wsum (fun _ _ => 1) d).
  rewrite (normal_gap d 0 b 0 b').
  assert (N1 : wsum (fun y x => y - (0 * x + b)) d = 0).
  { rewrite (wsum_ext _ (fun y x => y - b * 1)) by (intros; ring).
    rewrite (wsum_lin (fun y _ => y) (fun _ _ => 1)). unfold b. field. lra. }
  rewrite N1. assert (0 <= wsum (fun _ x => ((0 - 0) * x + (b - b')) ^ 2) d) by (apply wsum_ge0; [assumption | intros; apply sq_ge0]).
  lra.
Qed.

Lemma distance_mean : forall y x w d b, data_of y x w d -> (forall u, In u x -> u = 0) ->
  distance y (repeat [1] (length y)) w [b] = misfit d 0 b.
Proof.
  intros y x w d b D. induction D; intros Z; cbn [distance misfit repeat length]; try reflexivity;
    (rewrite IHD by (intros; apply Z; right; assumption); cbn [dot]; ring).
Qed.

Lemma map_repeat0 : forall (X : Type) (a : X) n, map (fun _ => 0) (repeat a n) = repeat 0 n.
Proof. induction n; cbn; congruence. Qed.

Lemma normal_least : forall c k y X w, regular c y X w ->
  exists p, normal_fit k y X w = Ok p /\ length p = c /\ forall q, length q = c -> distance y X w p <= distance y X w q.
Proof.
  intros c k y X w [NE [M W]].
  assert (L : forall l, w = Some l -> length l = length y) by (intros; apply W; assumption).
  assert (P : forall x, positive_weights (data y x w)) by (intros x; apply data_positive; intros l s E I; destruct (W l E) as [_ Q]; auto).
  assert (D : forall x, length x = length y -> data_of y x w (data y x w)) by (intros; apply data_ok; assumption).
  assert (N : forall x, length x = length y -> data y x w <> []).
  { intros x E Z. assert (Q := proj1 (proj2 (data_lengths _ _ _ _ (D x E)))). rewrite Z in Q. destruct y; [congruence | discriminate]. }
  inversion M as [x E1 E2 E3 | n E1 E2 E3]; subst c.
  - assert (EL : length x = length y) by assumption.
    assert (H : map (fun row => hd 0 row) (map (fun v => [v; 1]) x) = x).
    { rewrite map_map. cbn. apply map_id. }
    destruct x as [| u x]; [destruct y; [congruence | discriminate] |].
    destruct (line_of (data y (u :: x) w)) as [a b] eqn:F.
    exists [a; b]. split; [| split; [reflexivity |]].
    + unfold normal_fit. rewrite H. cbn [map]. rewrite F. reflexivity.
    + intros [| a' [| b' [|]]] Q; try discriminate. rewrite !(distance_line _ _ _ _ _ _ (D _ EL)).
      exact (line_of_least _ (P _) (N _ EL) a b F a' b').
  - subst n. assert (EL : length (repeat 0 (length y)) = length y) by apply repeat_length.
    exists [wsum (fun v _ => v) (data y (repeat 0 (length y)) w) / wsum (fun _ _ => 1) (data y (repeat 0 (length y)) w)]. split; [| split].
    + unfold normal_fit. rewrite map_repeat0. destruct y; [congruence |]. cbn [length repeat]. reflexivity.
    + reflexivity.
    + intros [| b' [|]] Q; try discriminate.
      assert (Z : forall u, In u (repeat 0 (length y)) -> u = 0) by (intros u I; apply repeat_spec in I; assumption).
      rewrite !(distance_mean _ _ _ _ _ (D _ EL) Z). apply mean_least; [apply P | apply N; assumption].
Qed.

Lemma normal_squares : fits_least_squares normal_fit.
Proof. intros c y X w k R _. apply normal_least. assumption. Qed.

Lemma distance_ge0 : forall y X p, 0 <= distance y X None p.
Proof.
  induction y as [| v y IH]; intros [| row X] p; cbn [distance]; try lra.
  assert (A := IH X p). assert (B := sq_ge0 (v - dot row p)). lra.
Qed.

Lemma normal_exact : fits_exact_data normal_fit.
Proof.
  intros c y X R [q [L Z]]. destruct (normal_least c RLM y X None R) as [p [E [Q B]]].
  exists p. split; [assumption |]. split; [assumption |].
  assert (A := B q L). assert (C := distance_ge0 y X p). lra.
Qed.

(** Three data, not on a line, with weights *)
Lemma three : data_of [1; 2; 4] [1; 2; 3] (Some [1; 2; 1]) [(1, 1, 1); (2, 2, 2); (4, 3, 1)].
Proof. repeat constructor. Qed.

Lemma three_positive : positive_weights [(1, 1, 1); (2, 2, 2); (4, 3, 1)].
Proof. intros y x w H. cbn [In] in H. destruct H as [H | [H | [H | []]]]; injection H as _ _ <-; lra. Qed.

Lemma three_places : two_places [(1, 1, 1); (2, 2, 2); (4, 3, 1)].
Proof.
  exists 1, 1, 1, 2, 2, 2. split; [left; reflexivity |]. split; [right; left; reflexivity |]. lra.
Qed.

Lemma two_line : on_line [(3, 1, 1); (5, 2, 1)] 2 1.
Proof. intros y x w H. cbn [In] in H. destruct H as [H | [H | []]]; injection H as <- <- _; lra. Qed.

Lemma two_data : data_of [3; 5] [1; 2] None [(3, 1, 1); (5, 2, 1)].
Proof. repeat constructor. Qed.

(** Four events with magnitudes and one without *)
Definition events_m : list mag :=
  [ {| m_id := "a"; m_cat := Some 1; m_w := Some 2 |}; {| m_id := "b"; m_cat := Some 2; m_w := Some 3 |};
    {| m_id := "c"; m_cat := None; m_w := Some 3 |};
    {| m_id := "d"; m_cat := Some 3; m_w := Some 4 |}; {| m_id := "e"; m_cat := Some (3 / 2); m_w := Some (5 / 2) |} ].

Lemma plotted_m : forall c w, plotted events_m None c w -> w = 1 * c + 1.
Proof.
  intros c w [e [I [C [W _]]]]. unfold events_m in I. cbn [In] in I.
  destruct I as [<- | [<- | [<- | [<- | [<- | []]]]]]; cbn [m_cat m_w] in C, W; try discriminate;
    injection C as <-; injection W as <-; lra.
Qed.

Lemma places_m : exists c1 w1 c2 w2, plotted events_m None c1 w1 /\ plotted events_m None c2 w2 /\ c1 <> c2.
Proof.
  exists 1, 2, 2, 3. split; [| split; [| lra]].
  - exists {| m_id := "a"; m_cat := Some 1; m_w := Some 2 |}. split; [left; reflexivity |].
    split; [reflexivity |]. split; [reflexivity | discriminate].
  - exists {| m_id := "b"; m_cat := Some 2; m_w := Some 3 |}. split; [right; left; reflexivity |].
    split; [reflexivity |]. split; [reflexivity | discriminate].
Qed.

Lemma shown_m : exists fig l, plot_line normal_fit events_m None None = Ok (Some fig) /\ mf_line fig = Some l /\ length l = 100%nat.
Proof.
  destruct (line_true normal_fit normal_exact events_m None None 1 1 plotted_m places_m) as [fig [H _]].
  destruct (line_shown _ _ _ _ _ H) as [_ [_ [N D]]].
  assert (T : (3 < length (mf_points fig))%nat).
  { unfold plot_line in H. set (p := plot_mags (fun _ _ => (0, 0)) events_m None) in H.
    cbv in p. unfold p in H. cbv zeta in H. destruct (Nat.ltb 3 _) eqn:B in H; [| discriminate B].
    destruct (linear_fit _ _ _ _ _ _) as [[a b] |] in H; [| discriminate].
    cbn [map fst snd] in H. match type of H with Ok (Some ?f) = _ => assert (G : fig = f) by congruence end. subst fig. cbn [mf_points length]. lia. }
  apply N in T. destruct (mf_line fig) as [l |] eqn:E; [| congruence]. exists fig, l. split; [assumption |]. split; [assumption |].
  destruct (D l eq_refl) as [? [? [? [? [_ [_ W]]]]]]. exact (proj1 W).
Qed.

Lemma none_m : forall c w, ~ plotted events_m (Some ["c"%string]) c w.
Proof.
  intros c w [e [I [C [W S]]]]. specialize (S _ eq_refl). unfold events_m in I. cbn [In] in I, S.
  destruct I as [<- | [<- | [<- | [<- | [<- | []]]]]]; cbn [m_cat m_w m_id] in C, W, S; try discriminate;
    destruct S as [S | []]; discriminate.
Qed.
