(** Linear least squares: every finite system has a least squares solution.
    Used to show that the hypotheses about the solvers of /repo (scipy lstsq and
    lsmr at site.py:325-329, WLS/OLS/RLM at core.py:855-905) can be met. *)
From Coq Require Import List Reals Lra Lia Arith.
From Verif Require Import StatModel StatProof SmoothSpec SmoothProof.
Import ListNotations.
Open Scope R_scope.

Section Lsq.
Context {T : Type}.
Variable rows : list T.

(** scalar product over the rows *)
Definition dot (u v : T -> R) : R := rsum (map (fun t => u t * v t) rows).

(** value of a row for columns f 0 .. f (n-1) *)
Definition lin (n : nat) (f : nat -> T -> R) (x : nat -> R) (t : T) : R := total n (fun j => x j * f j t).

(** sum of squared residuals *)
Definition sqres (n : nat) (f : nat -> T -> R) (b : T -> R) (x : nat -> R) : R :=
  dot (fun t => lin n f x t - b t) (fun t => lin n f x t - b t).

Lemma dot_comm u v : dot u v = dot v u.
Proof. unfold dot. apply rsum_ext. intros. ring. Qed.

Lemma dot_ext u v u' v' : (forall t, u t = u' t) -> (forall t, v t = v' t) -> dot u v = dot u' v'.
Proof. intros H1 H2. unfold dot. apply rsum_ext. intros. now rewrite H1, H2. Qed.

Lemma dot_lin a b u v w : dot (fun t => a * u t + b * v t) w = a * dot u w + b * dot v w.
Proof.
  unfold dot. rewrite <- !rsum_scale, <- rsum_plus. apply rsum_ext. intros. ring.
Qed.

Lemma dot_pos u : 0 <= dot u u.
Proof. unfold dot. apply rsum_nonneg. intros. apply Rle_0_sqr. Qed.

Lemma dot_zero u : dot u u = 0 -> forall v, dot u v = 0.
Proof.
  intros H v. unfold dot in *.
  assert (Z : forall t, In t rows -> u t = 0).
  { clear v. induction rows as [|t l IH]; intros s Hs; [destruct Hs|]. cbn [map] in H. rewrite rsum_cons in H.
    assert (0 <= u t * u t) by apply Rle_0_sqr.
    assert (0 <= rsum (map (fun t => u t * u t) l)) by (apply rsum_nonneg; intros; apply Rle_0_sqr).
    destruct Hs as [<-|Hs].
    - destruct (Rmult_integral (u t) (u t)); auto. lra.
    - apply IH; auto. lra. }
  transitivity (rsum (map (fun _ : T => 0) rows)).
  - apply rsum_ext. intros t Ht. rewrite Z by assumption. ring.
  - rewrite rsum_const. ring.
Qed.

Lemma dot_total n g v : dot (fun t => total n (fun j => g j t)) v = total n (fun j => dot (g j) v).
Proof.
  induction n; cbn [total].
  - unfold dot. transitivity (rsum (map (fun _ : T => 0) rows)).
    + apply rsum_ext. intros. ring.
    + rewrite rsum_const. ring.
  - rewrite <- IHn. rewrite (dot_ext _ v (fun t => 1 * total n (fun j => g j t) + 1 * g n t) v) by (intros; ring).
    rewrite dot_lin. ring.
Qed.

(** remove the direction a *)
Definition proj (a u : T -> R) (t : T) : R := u t - dot a u / dot a a * a t.

Lemma proj_split a u : dot a a <> 0 -> dot u u = dot (proj a u) (proj a u) + dot a u * dot a u / dot a a.
Proof.
  intros Ha. set (k := dot a u / dot a a).
  assert (P : forall w, dot (proj a u) w = dot u w - k * dot a w).
  { intros w. rewrite (dot_ext _ w (fun t => 1 * u t + - k * a t) w) by (intros; unfold proj, k; ring).
    rewrite dot_lin. ring. }
  rewrite (P (proj a u)), (dot_comm u (proj a u)), (dot_comm a (proj a u)), !P, (dot_comm u a). unfold k. field. exact Ha.
Qed.

(** solution by elimination of one column after the other *)
Fixpoint solve (n : nat) (f : nat -> T -> R) (b : T -> R) : nat -> R :=
  match n with
  | O => fun _ => 0
  | S m =>
      let a := f m in
      if Req_EM_T (dot a a) 0 then fun j => if Nat.eqb j m then 0 else solve m f b j
      else
        let x := solve m (fun j => proj a (f j)) (proj a b) in
        fun j => if Nat.eqb j m then (dot a b - total m (fun j => x j * dot a (f j))) / dot a a else x j
  end.

Lemma lin_ext n f x y t : (forall j, (j < n)%nat -> x j = y j) -> lin n f x t = lin n f y t.
Proof. intros H. unfold lin. apply total_ext. intros. now rewrite H. Qed.

Lemma proj_lin m a f b y t :
  proj a (fun t => lin m f y t - b t) t = lin m (fun j => proj a (f j)) y t - proj a b t.
Proof.
  assert (D : dot a (fun t => lin m f y t - b t) = total m (fun j => y j * dot a (f j)) - dot a b).
  { rewrite dot_comm. rewrite (dot_ext _ a (fun t => 1 * lin m f y t + (-1) * b t) a) by (intros; ring).
    rewrite dot_lin. unfold lin. rewrite dot_total. rewrite (dot_comm b a).
    rewrite (total_ext m _ (fun j => y j * dot a (f j))); [ring|].
    intros j _. rewrite (dot_ext _ a (fun t => y j * f j t + 0 * f j t) a) by (intros; ring).
    rewrite dot_lin, (dot_comm (f j)). ring. }
  unfold proj at 1. rewrite D. unfold lin, proj.
  rewrite (total_ext m (fun j => y j * (f j t - dot a (f j) / dot a a * a t))
            (fun j => y j * f j t + - (/ dot a a * a t) * (y j * dot a (f j)))).
  2:{ intros. unfold Rdiv. ring. }
  rewrite total_plus, total_scale. unfold Rdiv. ring.
Qed.

Lemma solve_least n : forall f b y, sqres n f b (solve n f b) <= sqres n f b y.
Proof.
  induction n as [|m IH]; intros f b y.
  - right. unfold sqres. apply dot_ext; intros; reflexivity.
  - cbn [solve]. set (a := f m). destruct (Req_EM_T (dot a a) 0) as [Z|Z].
    + set (x := fun j => if Nat.eqb j m then 0 else solve m f b j).
      assert (E : forall z, sqres (S m) f b z = sqres m f b z).
      { intros z. unfold sqres.
        assert (G : forall w, dot (fun t => lin (S m) f z t - b t) w = dot (fun t => lin m f z t - b t) w).
        { intros w. rewrite (dot_ext _ w (fun t => 1 * (lin m f z t - b t) + z m * a t) w).
          2:{ intros t. unfold lin. cbn [total]. fold a. unfold a. ring. }
          2:{ reflexivity. }
          rewrite dot_lin, (dot_zero a Z). ring. }
        rewrite G, dot_comm, G. apply dot_comm. }
      rewrite !E. eapply Rle_trans; [right|apply IH].
      unfold sqres. apply dot_ext; intros t; rewrite (lin_ext m f x (solve m f b) t); auto;
      intros j Hj; unfold x; destruct (Nat.eqb_spec j m); auto; lia.
    + set (s := solve m (fun j => proj a (f j)) (proj a b)).
      set (x := fun j => if Nat.eqb j m then (dot a b - total m (fun j => s j * dot a (f j))) / dot a a else s j).
      assert (P : forall z, sqres (S m) f b z =
        sqres m (fun j => proj a (f j)) (proj a b) z +
        Rsqr (dot a (fun t => lin (S m) f z t - b t)) / dot a a).
      { intros z. unfold sqres at 1. rewrite (proj_split a _ Z). f_equal.
        unfold sqres. 
        assert (G : forall t, proj a (fun t => lin (S m) f z t - b t) t =
          lin m (fun j => proj a (f j)) z t - proj a b t).
        { intros t. rewrite proj_lin. f_equal. unfold lin. cbn [total].
          replace (proj a (f m) t) with 0; [ring|]. unfold proj. fold a. field. exact Z. }
        apply dot_ext; exact G. }
      rewrite !P.
      assert (V : dot a (fun t => lin (S m) f x t - b t) = 0).
      { rewrite dot_comm. rewrite (dot_ext _ a (fun t => 1 * lin (S m) f x t + (-1) * b t) a) by (intros; ring).
        rewrite dot_lin. unfold lin. rewrite dot_total. rewrite (dot_comm b a).
        rewrite (total_ext (S m) _ (fun j => x j * dot a (f j))).
        2:{ intros j _. rewrite (dot_ext _ a (fun t => x j * f j t + 0 * f j t) a) by (intros; ring).
            rewrite dot_lin, (dot_comm (f j)). ring. }
        cbn [total]. fold a. unfold x at 2. rewrite Nat.eqb_refl.
        rewrite (total_ext m _ (fun j => s j * dot a (f j))).
        2:{ intros j Hj. unfold x. destruct (Nat.eqb_spec j m); [lia|reflexivity]. }
        field. exact Z. }
      rewrite V. unfold Rsqr at 1. rewrite Rmult_0_l. unfold Rdiv at 1. rewrite Rmult_0_l, Rplus_0_r.
      assert (0 <= Rsqr (dot a (fun t => lin (S m) f y t - b t)) / dot a a).
      { apply Rmult_le_pos; [apply Rle_0_sqr|]. left. apply Rinv_0_lt_compat.
        assert (0 <= dot a a) by apply dot_pos. lra. }
      assert (IHy := IH (fun j => proj a (f j)) (proj a b) y). fold s in IHy.
      assert (E : sqres m (fun j => proj a (f j)) (proj a b) x = sqres m (fun j => proj a (f j)) (proj a b) s).
      { unfold sqres. apply dot_ext; intros t; rewrite (lin_ext m _ x s t); auto;
        intros j Hj; unfold x; destruct (Nat.eqb_spec j m); auto; lia. }
      rewrite E. lra.
Qed.
End Lsq.
