(** C131: lemmas. *)
From Coq Require Import String List Bool Reals Lra Lia ZArith Arith.
From Verif Require Import Base Pyf PyfOps StatModel StatProof FbModel FbProof3 SiteProof LsqfbModel LsqfbSpec LsqfbProof LsqfbProof2 LsqfbProof3 LsqfbProof4 LsqfbProof5 GainSpec.
Import ListNotations.
Open Scope string_scope.
Open Scope list_scope.
Open Scope R_scope.

(** ** Least squares with a shifted right hand side *)
Definition vlin (a : R) (x : list R) (b : R) (y : list R) : list R :=
  map (fun p => a * fst p + b * snd p) (combine x y).

Lemma vlin_length a x b y n : List.length x = n -> List.length y = n -> List.length (vlin a x b y) = n.
Proof. intros L1 L2. unfold vlin. rewrite map_length, combine_length. lia. Qed.

Lemma dotr_vlin a b r : forall x y, List.length x = List.length y ->
  dotr r (vlin a x b y) = a * dotr r x + b * dotr r y.
Proof.
  induction r as [|u r IH]; intros [|p x] [|q y] L; cbn in *; try discriminate; try lra.
  fold (vlin a x b y). rewrite IH by lia. ring.
Qed.

Lemma sse_shift rows : forall b ws d x, List.length x = List.length d ->
  sse rows (vlin 1 b 1 (map (fun r => dotr r d) rows)) ws x = sse rows b ws (vlin 1 x (-1) d).
Proof.
  induction rows as [|r rows IH]; intros b ws d x L; [reflexivity|].
  destruct b as [|y b]; [reflexivity|]. destruct ws as [|w ws]; [reflexivity|].
  change (vlin 1 (y :: b) 1 (map (fun r => dotr r d) (r :: rows)))
    with ((1 * y + 1 * dotr r d) :: vlin 1 b 1 (map (fun r => dotr r d) rows)).
  cbn [sse]. rewrite dotr_vlin, IH by exact L. ring.
Qed.

Lemma sse_mid rows : forall b ws x y, List.length x = List.length y ->
  List.length b = List.length rows ->
  sse rows b ws (vlin (1/2) x (1/2) y) =
  (sse rows b ws x + sse rows b ws y) / 2 - sse rows (map (fun r => dotr r x) rows) ws y / 4.
Proof.
  induction rows as [|r rows IH]; intros [|c b] [|w ws] x y L LB; cbn [sse map List.length] in *; try discriminate; try lra.
  rewrite dotr_vlin, IH by (try exact L; lia). field.
Qed.

Lemma min_unique rows b ws x y n :
  Forall (fun w => 0 < w) ws -> List.length b = List.length rows -> List.length ws = List.length rows ->
  List.length x = n -> List.length y = n ->
  (forall z, List.length z = n -> sse rows b ws x <= sse rows b ws z) ->
  (forall z, List.length z = n -> sse rows b ws y <= sse rows b ws z) ->
  Forall (fun r => dotr r y = dotr r x) rows /\ sse rows b ws x = sse rows b ws y.
Proof.
  intros WP LB LW LX LY MX MY. pose proof (MX y LY) as H1. pose proof (MY x LX) as H2.
  pose proof (MX (vlin (1/2) x (1/2) y) (vlin_length _ _ _ _ _ LX LY)) as H3.
  rewrite sse_mid in H3 by congruence. split; [|lra].
  assert (Z : sse rows (map (fun r => dotr r x) rows) ws y <= 0) by lra.
  apply sse_zero in Z; auto; [|now rewrite map_length].
  clear - Z. induction rows as [|r rows IH]; [constructor|]. cbn in Z. inversion Z; subst. constructor; auto.
Qed.

Lemma lsq_shift wls dof n rows b d ws c mse c' mse' : least_squares_dof wls dof ->
  Forall (fun row => List.length row = n) rows -> List.length b = List.length rows ->
  match ws with None => True | Some w => Forall (fun w => 0 < w) w /\ List.length w = List.length rows end ->
  List.length d = n ->
  wls (map FNum b) (map (map FNum) rows) ws = Ok (c, mse) ->
  wls (map FNum (vlin 1 b 1 (map (fun r => dotr r d) rows))) (map (map FNum) rows) ws = Ok (c', mse') ->
  exists x x', c = map FNum x /\ c' = map FNum x' /\ List.length x = n /\ List.length x' = n /\
    Forall (fun r => dotr r x' = dotr r x + dotr r d) rows /\ mse' = mse.
Proof.
  intros LS LR LB WO LD H H'.
  assert (LB' : List.length (vlin 1 b 1 (map (fun r => dotr r d) rows)) = List.length rows).
  { apply vlin_length; [exact LB|apply map_length]. }
  destruct (LS n rows b ws c mse LR LB H) as (x & -> & LX & MX & ->).
  destruct (LS n rows _ ws c' mse' LR LB' H') as (x' & -> & LX' & MX' & ->).
  set (w := match ws with None => repeat 1 (List.length rows) | Some w => w end) in *.
  assert (WP : Forall (fun w => 0 < w) w /\ List.length w = List.length rows).
  { subst w. destruct ws; [exact WO|]. split; [|apply repeat_length].
    apply Forall_forall. intros y I. apply repeat_spec in I. lra. }
  destruct WP as [W1 W2].
  assert (SH : forall z, List.length z = n ->
     sse rows (vlin 1 b 1 (map (fun r => dotr r d) rows)) w z = sse rows b w (vlin 1 z (-1) d)).
  { intros z LZ. apply sse_shift. congruence. }
  destruct (min_unique rows b w x (vlin 1 x' (-1) d) n W1 LB W2 LX) as [F E]; auto.
  - now apply vlin_length.
  - intros z LZ. rewrite <- SH by exact LX'.
    specialize (MX' (vlin 1 z 1 d) (vlin_length _ _ _ _ _ LZ LD)).
    rewrite (SH (vlin 1 z 1 d)) in MX' by now apply vlin_length.
    replace (vlin 1 (vlin 1 z 1 d) (-1) d) with z in MX'; [exact MX'|].
    assert (LL : List.length z = List.length d) by congruence. clear - LL. revert d LL.
    induction z as [|u z IH]; intros [|v d] LL; try discriminate; [reflexivity|].
    unfold vlin in *. cbn [combine map fst snd]. f_equal; [ring|]. apply IH. now injection LL.
  - exists x, x'. split; [reflexivity|]. split; [reflexivity|]. split; [exact LX|]. split; [exact LX'|].
    split; [|now rewrite SH, <- E].
    refine (Forall_impl _ _ F). intros r Q. rewrite dotr_vlin in Q by congruence. lra.
Qed.
