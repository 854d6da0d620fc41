(** C148: smoothing is linear, keeps the order of signals and does not enlarge errors. *)
From Coq Require Import String List Bool Reals ZArith Arith Lra Lia.
From Verif Require Import Base StatModel StatProof SmoothModel SmoothSpec SmoothProof MixSpec.
Import ListNotations.
Open Scope list_scope.
Open Scope R_scope.

Section Mix.
  Variables a b : R.

  Inductive lin : list R -> list R -> list R -> Prop :=
  | lin_nil : lin [] [] []
  | lin_cons u v w x y z : w = a * u + b * v -> lin x y z -> lin (u :: x) (v :: y) (w :: z).

  Lemma lin_mix x : forall y, length x = length y -> lin x y (mix a b x y).
  Proof. induction x as [|u x IH]; intros [|v y] H; try discriminate; cbn; constructor; auto. Qed.

  Lemma lin_eq x y z : lin x y z -> z = mix a b x y.
  Proof. induction 1; cbn; [reflexivity|]. now subst. Qed.

  Lemma lin_len x y z : lin x y z -> length x = length z /\ length y = length z.
  Proof. induction 1; cbn; lia. Qed.

  Lemma lin_app x y z x' y' z' : lin x y z -> lin x' y' z' -> lin (x ++ x') (y ++ y') (z ++ z').
  Proof. induction 1; intros; cbn; [assumption|]. constructor; auto. Qed.

  Lemma lin_repeat u v w n : w = a * u + b * v -> lin (repeat u n) (repeat v n) (repeat w n).
  Proof. intros H. induction n; cbn; constructor; auto. Qed.

  Lemma lin_nth x y z i : lin x y z -> nth i z 0 = a * nth i x 0 + b * nth i y 0.
  Proof. intros H. revert i. induction H; intros [|i]; cbn; try lra. apply IHlin. Qed.

  Lemma lin_last x y z : lin x y z -> last z 0 = a * last x 0 + b * last y 0.
  Proof.
    induction 1; cbn [last]; [lra|]. destruct (lin_len _ _ _ H0) as [L1 L2].
    destruct x, y, z; try discriminate; [assumption|exact IHlin].
  Qed.

  Lemma lin_error x y z i : lin x y z ->
    lin (match nth_error x i with Some v => [v] | None => [] end) (match nth_error y i with Some v => [v] | None => [] end)
      (match nth_error z i with Some v => [v] | None => [] end).
  Proof. intros H. revert i. induction H; intros [|i]; cbn; repeat constructor; auto. Qed.

  Lemma lin_flat {A} (f g h : A -> list R) l : (forall i, lin (f i) (g i) (h i)) -> lin (flat_map f l) (flat_map g l) (flat_map h l).
  Proof. intros H. induction l; cbn; [constructor|]. now apply lin_app. Qed.

  Lemma lin_map {A} (f g h : A -> R) l : (forall i, h i = a * f i + b * g i) -> lin (map f l) (map g l) (map h l).
  Proof. intros H. induction l; cbn; constructor; auto. Qed.

  Lemma lin_slice x y z i j : lin x y z -> lin (slice_down x i j) (slice_down y i j) (slice_down z i j).
  Proof.
    intros H. destruct (lin_len _ _ _ H) as [L1 L2]. unfold slice_down. rewrite L1, L2. apply lin_flat. intros k. now apply lin_error.
  Qed.

  Lemma lin_pad x y z n m : lin x y z -> lin (pad x n m) (pad y n m) (pad z n m).
  Proof.
    intros H. unfold pad. destruct m as [m|]; [|exact H].
    destruct (String.eqb m "zeros"). { repeat apply lin_app; try assumption; apply lin_repeat; lra. }
    destruct (String.eqb m "reflect"). { repeat apply lin_app; try assumption; now apply lin_slice. }
    destruct (String.eqb m "clip"); [|exact H].
    repeat apply lin_app; try assumption; apply lin_repeat; [now apply lin_nth|now apply lin_last].
  Qed.

  Lemma rsum_lin {A} (f g h : A -> R) l : (forall k, h k = a * f k + b * g k) -> rsum (map h l) = a * rsum (map f l) + b * rsum (map g l).
  Proof. intros H. induction l; cbn [map rsum fold_right]; [lra|]. unfold rsum in *. rewrite H, IHl. lra. Qed.

  Lemma lin_convolve w x y z : lin x y z -> lin (convolve_valid w x) (convolve_valid w y) (convolve_valid w z).
  Proof.
    intros H. destruct (lin_len _ _ _ H) as [L1 L2]. unfold convolve_valid. rewrite L1, L2.
    destruct (Nat.leb _ _); unfold convolve_short; rewrite ?L1, ?L2; apply lin_map; intros j; apply rsum_lin; intros k; rewrite (lin_nth _ _ _ _ H); ring.
  Qed.

  Lemma smooth_lin x y z n window method : lin x y z ->
    (exists e, smooth x n window method = Err e /\ smooth y n window method = Err e /\ smooth z n window method = Err e) \/
    (exists x' y' z', smooth x n window method = Ok x' /\ smooth y n window method = Ok y' /\ smooth z n window method = Ok z' /\ lin x' y' z').
  Proof.
    intros H. destruct (lin_len _ _ _ H) as [L1 L2]. unfold smooth. destruct n as [n|]; [|right; exists x, y, z; auto].
    rewrite L1, L2. destruct (Z.ltb _ n); [left; eauto|]. destruct (Z.ltb n 3); [right; exists x, y, z; auto|].
    destruct (negb _); [left; eauto|]. right. eexists _, _, _. repeat (split; [reflexivity|]). now apply lin_convolve, lin_pad.
  Qed.

  Lemma smooth_mix x y n window method : length x = length y ->
    (exists e, smooth x n window method = Err e /\ smooth y n window method = Err e /\ smooth (mix a b x y) n window method = Err e) \/
    (exists x' y', length x' = length y' /\ smooth x n window method = Ok x' /\ smooth y n window method = Ok y' /\ smooth (mix a b x y) n window method = Ok (mix a b x' y')).
  Proof.
    intros H. destruct (smooth_lin _ _ _ n window method (lin_mix x y H)) as [E|(x' & y' & z' & E1 & E2 & E3 & E4)]; [now left|right].
    exists x', y'. destruct (lin_len _ _ _ E4) as [L1 L2]. apply lin_eq in E4 as E5. subst z'. split; [lia|]. auto.
  Qed.

  Lemma func_mix f g t wl window :
    (exists e, smooth_func f t wl window = Err e /\ smooth_func g t wl window = Err e /\ smooth_func (fun s => a * f s + b * g s) t wl window = Err e) \/
    (exists x y, length x = length y /\ smooth_func f t wl window = Ok x /\ smooth_func g t wl window = Ok y /\
       smooth_func (fun s => a * f s + b * g s) t wl window = Ok (mix a b x y)).
  Proof.
    assert (M : forall l n method,
      (exists e, smooth (map f l) n window method = Err e /\ smooth (map g l) n window method = Err e /\ smooth (map (fun s => a * f s + b * g s) l) n window method = Err e) \/
      (exists x y, length x = length y /\ smooth (map f l) n window method = Ok x /\ smooth (map g l) n window method = Ok y /\ smooth (map (fun s => a * f s + b * g s) l) n window method = Ok (mix a b x y))).
    { intros l n method. pose proof (lin_map f g (fun s => a * f s + b * g s) l (fun _ => eq_refl)) as L.
      rewrite (lin_eq _ _ _ L). apply smooth_mix. now rewrite !map_length. }
    unfold smooth_func. destruct wl as [wl|].
    - unfold smooth_func_win. destruct t as [|t0 [|t1 t]]; try (left; eexists; repeat split; reflexivity).
      cbn zeta. destruct (Rlt_dec _ _); [left; eexists; repeat split; reflexivity|]. destruct (Req_EM_T _ 0); [left; eexists; repeat split; reflexivity|]. apply M.
    - right. exists (map f t), (map g t). pose proof (lin_map f g (fun s => a * f s + b * g s) t (fun _ => eq_refl)) as L.
      rewrite !map_length, (lin_eq _ _ _ L). auto.
  Qed.
End Mix.

(** ** order and errors *)
Lemma mix_minus (P : R -> Prop) x : forall y, length x = length y -> ((forall u, In u (mix (-1) 1 x y) -> P u) <-> Forall2 (fun u v => P (v - u)) x y).
Proof.
  induction x as [|u x IH]; intros [|v y] L; try discriminate; cbn [mix In].
  - split; [constructor|tauto].
  - injection L as L. specialize (IH y L). split.
    + intros H. constructor; [|apply IH; auto]. specialize (H (-1 * u + 1 * v) (or_introl eq_refl)). now replace (v - u) with (-1 * u + 1 * v) by ring.
    + intros H w [<-|W]; inversion H; subst; [now replace (-1 * u + 1 * v) with (v - u) by ring|]. now apply IH.
Qed.

Lemma F2_length {A B} (P : A -> B -> Prop) x y : Forall2 P x y -> length x = length y.
Proof. induction 1; cbn; auto. Qed.

Lemma top_exists (l : list R) : exists h, 0 <= h /\ forall u, In u l -> u <= h.
Proof.
  induction l as [|u l (h & H0 & H)]; [exists 0; split; [lra|intros ? []]|]. exists (Rmax u h). pose proof (Rmax_l u h). pose proof (Rmax_r u h).
  split; [lra|]. intros w [<-|W]; [lra|]. specialize (H w W). lra.
Qed.

Lemma smooth_between x y n window method lo hi x' : lo <= 0 <= hi -> Forall2 (fun u v => lo <= v - u <= hi) x y -> smooth x n window method = Ok x' ->
  exists y', smooth y n window method = Ok y' /\ Forall2 (fun u v => lo <= v - u <= hi) x' y'.
Proof.
  intros Hz HF E. pose proof (F2_length _ _ _ HF) as L.
  destruct n as [n|]. 2:{ cbn in *. injection E as <-. eauto. }
  destruct (smooth_mix (-1) 1 x y (Some n) window method L) as [(e & E1 & _)|(p & q & Lp & E1 & E2 & E3)]; [congruence|].
  rewrite E in E1. injection E1 as <-. exists q. split; [exact E2|].
  apply (mix_minus (fun d => lo <= d <= hi)); [exact Lp|]. intros u Hu.
  refine (smooth_bounds _ _ _ _ _ lo hi u (fun _ => Hz) _ E3 Hu). now apply (mix_minus (fun d => lo <= d <= hi)).
Qed.

Lemma F2_imp {A B} (P Q : A -> B -> Prop) x y : (forall u v, P u v -> Q u v) -> Forall2 P x y -> Forall2 Q x y.
Proof. intros H. induction 1; constructor; auto. Qed.

Lemma smooth_order x y n window method x' : Forall2 Rle x y -> smooth x n window method = Ok x' ->
  exists y', smooth y n window method = Ok y' /\ Forall2 Rle x' y'.
Proof.
  intros HF E. destruct (top_exists (mix (-1) 1 x y)) as (h & H0 & H). pose proof (F2_length _ _ _ HF) as L.
  apply (mix_minus (fun d => d <= h) x y L) in H.
  assert (B : Forall2 (fun u v => 0 <= v - u <= h) x y).
  { clear E L. induction H; inversion HF; subst; constructor; [lra|auto]. }
  destruct (smooth_between x y n window method 0 h x' ltac:(lra) B E) as (y' & E' & F). exists y'. split; [exact E'|].
  revert F. apply F2_imp. intros; lra.
Qed.

Lemma smooth_within e x y n window method x' : within e x y -> smooth x n window method = Ok x' ->
  exists y', smooth y n window method = Ok y' /\ within e x' y'.
Proof.
  intros HF E. unfold within in *.
  destruct x as [|u0 x0] eqn:Ex.
  { inversion HF; subst. exists x'. split; [exact E|]. unfold smooth in E. destruct n as [n|]; [|injection E as <-; constructor].
    cbn in E. destruct (Z.ltb_spec 0 n); [discriminate|]. destruct (Z.ltb_spec n 3); [injection E as <-; constructor|lia]. }
  assert (0 <= e). { inversion HF as [|? ? ? ? HH]; subst. pose proof (Rabs_pos (u0 - y0)). lra. }
  assert (B : Forall2 (fun u v => - e <= v - u <= e) (u0 :: x0) y).
  { revert HF. apply F2_imp. intros u v H1. unfold Rabs in H1. destruct (Rcase_abs (u - v)); lra. }
  destruct (smooth_between _ y n window method (- e) e x' ltac:(lra) B E) as (y' & E' & F). exists y'. split; [exact E'|].
  revert F. apply F2_imp. intros u v H1. apply Rabs_le. lra.
Qed.

Lemma F2_map {A} (P : R -> R -> Prop) (f g : A -> R) l : (forall s, P (f s) (g s)) -> Forall2 P (map f l) (map g l).
Proof. intros H. induction l; cbn; constructor; auto. Qed.

Lemma func_lift (P : R -> R -> Prop) :
  (forall x y n window method x', Forall2 P x y -> smooth x n window method = Ok x' -> exists y', smooth y n window method = Ok y' /\ Forall2 P x' y') ->
  forall f g t wl window x, (forall s, P (f s) (g s)) -> smooth_func f t wl window = Ok x -> exists y, smooth_func g t wl window = Ok y /\ Forall2 P x y.
Proof.
  intros HP f g t wl window x H. unfold smooth_func. destruct wl as [wl|].
  - unfold smooth_func_win. destruct t as [|t0 [|t1 t]]; try discriminate. cbn zeta.
    destruct (Rlt_dec _ _); [discriminate|]. destruct (Req_EM_T _ 0); [discriminate|]. apply HP. now apply F2_map.
  - intros [= <-]. eexists. split; [reflexivity|]. now apply F2_map.
Qed.

Lemma func_order f g t wl window x : (forall s, f s <= g s) -> smooth_func f t wl window = Ok x ->
  exists y, smooth_func g t wl window = Ok y /\ Forall2 Rle x y.
Proof. apply func_lift. exact smooth_order. Qed.

Lemma func_within e f g t wl window x : (forall s, Rabs (f s - g s) <= e) -> smooth_func f t wl window = Ok x ->
  exists y, smooth_func g t wl window = Ok y /\ within e x y.
Proof. apply (func_lift (fun u v => Rabs (u - v) <= e)). exact (smooth_within e). Qed.
