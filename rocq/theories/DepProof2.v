(** Lemmas on arrays of different lengths in derived quantities. *)
From Coq Require Import String List Bool Reals Lra Lia.
From Verif Require Import Base Pyf PyfOps SourceModel DepModel DepSpec DepSpec2 DepProof.
Import ListNotations.
Open Scope R_scope.

Lemma zip_along : forall {A B C} (op : A -> B -> C) a b k, axis (length a) (length b) k ->
  exists r, zip op a b = Ok r /\ length r = k /\
    forall i x y, (i < k)%nat -> along a i x -> along b i y -> nth_error r i = Some (op x y).
Proof.
  intros A B C op a b k H. destruct (Nat.eq_dec (length a) (length b)) as [E|N].
  - destruct (zip_ok op a b E) as [r [Z [L P]]]. exists r. split; [assumption|].
    assert (k = length a) by (destruct H as [H|[H|H]]; lia). split; [lia|].
    intros i x y I X Y.
    assert (X' : nth_error a i = Some x) by (destruct X as [X| ->]; [assumption|]; cbn in *; assert (i = 0)%nat by lia; now subst).
    assert (Y' : nth_error b i = Some y) by (destruct Y as [Y| ->]; [assumption|]; cbn in *; assert (i = 0)%nat by lia; now subst).
    now apply P.
  - unfold zip. apply Nat.eqb_neq in N. rewrite N. apply Nat.eqb_neq in N. destruct H as [H|[[H ->]|[H ->]]]; [lia| |].
    + destruct a as [|a0 [|]]; try discriminate H. eexists. split; [reflexivity|]. split; [apply map_length|].
      intros i x y I X Y. assert (x = a0) by (destruct X as [X|X]; [destruct i as [|[|]]; cbn in X; congruence|congruence]). subst.
      rewrite nth_error_map. destruct Y as [->| ->]; [reflexivity|]. cbn in N. lia.
    + destruct b as [|b0 [|]]; try discriminate H.
      assert (Z : match a with [x] => Ok (map (op x) [b0]) | _ => Ok (map (fun x => op x b0) a) end = Ok (map (fun x => op x b0) a))
        by (destruct a as [|? [|]]; reflexivity).
      exists (map (fun x => op x b0) a). split.
      { destruct a as [|? [|]]; reflexivity. }
      split; [apply map_length|].
      intros i x y I X Y. assert (y = b0) by (destruct Y as [Y|Y]; [destruct i as [|[|]]; cbn in Y; congruence|congruence]). subst.
      rewrite nth_error_map. destruct X as [->| ->]; [reflexivity|]. cbn in N. lia.
Qed.

Lemma zip_err : forall {A B C} (op : A -> B -> C) a b, length a <> length b -> length a <> 1%nat -> length b <> 1%nat ->
  zip op a b = Err ValueError.
Proof.
  intros A B C op a b N1 N2 N3. unfold zip. apply Nat.eqb_neq in N1. rewrite N1.
  destruct a as [|? [|]], b as [|? [|]]; cbn in *; try reflexivity; lia.
Qed.

Lemma mapM_ok : forall {A B} (f : A -> res B) (P : A -> B -> Prop) l, (forall a, In a l -> exists b, f a = Ok b /\ P a b) ->
  exists r, mapM f l = Ok r /\ Forall2 P l r.
Proof.
  intros A B f P l. induction l as [|a l IH]; intros H; [exists []; split; [reflexivity|constructor]|].
  destruct (H a ltac:(now left)) as [b [E Q]]. destruct IH as [r [M F]]; [intros; apply H; now right|].
  exists (b :: r). cbn [mapM]. rewrite E. cbn [bind]. rewrite M. split; [reflexivity|now constructor].
Qed.

Lemma Forall2_at : forall {A B} (P : A -> B -> Prop) l r i a, Forall2 P l r -> nth_error l i = Some a ->
  exists b, nth_error r i = Some b /\ P a b.
Proof.
  intros A B P l r i a F. revert i. induction F; intros [|i] E; try discriminate; cbn in *; [injection E as <-; eauto|eauto].
Qed.

Lemma Forall2_len : forall {A B} (P : A -> B -> Prop) l r, Forall2 P l r -> length l = length r.
Proof. intros A B P l r F. induction F; cbn; congruence. Qed.

Lemma row_along : forall op rows fs ne nf m, shape2 ne nf rows -> axis nf (length fs) m ->
  exists r, with_row op (N2 rows) fs = Ok (N2 r) /\ shape2 ne m r /\
    forall i j a f, (j < m)%nat -> nth_error rows i <> None ->
      (exists row, nth_error rows i = Some row /\ along row j a) -> along fs j f -> at2 r i j = Some (op a (FNum f)).
Proof.
  intros op rows fs ne nf m [S1 S2] H. unfold with_row.
  destruct (mapM_ok (fun row => zip (fun a b => op a (FNum b)) row fs)
    (fun row z => length z = m /\ forall j a f, (j < m)%nat -> along row j a -> along fs j f -> nth_error z j = Some (op a (FNum f))) rows)
    as [r [M F]].
  { intros row I. apply zip_along. now rewrite (S2 row I). }
  rewrite M. exists r. split; [reflexivity|]. split.
  - split; [now rewrite <- (Forall2_len _ _ _ F)|].
    clear -F. intros z I. induction F; [contradiction|]. destruct I as [<-|I]; [tauto|auto].
  - intros i j a f J _ (row & R & X) Y. destruct (Forall2_at _ _ _ _ _ F R) as [z [Z [L P]]].
    unfold at2. rewrite Z. now apply P.
Qed.

Lemma column_along : forall op rows vs ne nf k, shape2 ne nf rows -> axis ne (length vs) k ->
  exists r, with_column op (N2 rows) vs = Ok (N2 r) /\ shape2 k nf r /\
    forall i j row a v, (i < k)%nat -> along rows i row -> nth_error row j = Some a -> along vs i v -> at2 r i j = Some (op a (FNum v)).
Proof.
  intros op rows vs ne nf k [S1 S2] H. unfold with_column. rewrite <- S1 in H.
  destruct (zip_along (fun row b => map (fun a => op a (FNum b)) row) rows vs k H) as [z [E [L P]]].
  rewrite E. exists z. split; [reflexivity|]. 
  assert (G : forall i row v, (i < k)%nat -> along rows i row -> along vs i v -> nth_error z i = Some (map (fun a => op a (FNum v)) row))
    by (intros; now apply P).
  split.
  - split; [assumption|]. intros row I. apply In_nth_error in I. destruct I as [i I].
    assert (K : (i < k)%nat) by (rewrite <- L; eapply nth_lt; eassumption).
    assert (exists r0, along rows i r0 /\ In r0 rows) as [r0 [A1 A2]].
    { destruct H as [H|[H|H]].
      - destruct (nth_exists rows i) as [r0 R]; [lia|]. exists r0. split; [now left|now apply nth_error_In in R].
      - destruct rows as [|r0 [|]]; try discriminate (proj1 H). exists r0. split; [now right|now left].
      - destruct (nth_exists rows i) as [r0 R]; [lia|]. exists r0. split; [now left|now apply nth_error_In in R]. }
    assert (exists v0, along vs i v0) as [v0 V].
    { destruct H as [H|[H|H]].
      - destruct (nth_exists vs i) as [w0 R]; [lia|]. exists w0. now left.
      - destruct (nth_exists vs i) as [w0 R]; [lia|]. exists w0. now left.
      - destruct vs as [|v0 [|]]; try discriminate (proj1 H). exists v0. now right. }
    rewrite (G i r0 v0 K A1 V) in I. injection I as <-. rewrite map_length. now apply S2.
  - intros i j row a v K R A V. unfold at2. rewrite (G i row v K R V), nth_error_map, A. reflexivity.
Qed.

Lemma column_one : forall op l vs, with_column op (N1 l) vs = with_column op (N2 [l]) vs.
Proof. intros op l [|v [|]]; reflexivity. Qed.

(** scattering quality factors of arrays of different lengths *)
Lemma qsc_along : forall rows fs vs ne nf k m, shape2 ne nf rows -> axis ne (length vs) k -> axis nf (length fs) m ->
  exists r, calc_dependent "Qsc" (N2 rows) (AArray fs) (AArray vs) = Ok (Some (N2 r)) /\ shape2 k m r /\
    forall i j x f v, (i < k)%nat -> (j < m)%nat -> along2 rows i j (FNum x) -> along fs j f -> f <> 0 -> along vs i v ->
      exists y, at2 r i j = Some (FNum y) /\ derived "Qsc" x f v y.
Proof.
  intros rows fs vs ne nf k m S A1 A2. unfold calc_dependent. cbn [velocity_of bind].
  cbn -[PI IZR with_velocity with_omega bind fdiv fmul derived].
  cbn [with_velocity]. destruct (column_along fmul rows vs ne nf k S A1) as [r [E [Sr P]]]. rewrite E. cbn [bind with_omega].
  assert (A3 : axis nf (length (map (fun f => 2 * PI * f) fs)) m) by now rewrite map_length.
  destruct (row_along fdiv r _ k nf m Sr A3) as [r2 [E2 [S2 P2]]]. rewrite E2. cbn [bind]. exists r2.
  split; [reflexivity|]. split; [assumption|]. intros i j x f v I J (row & R & X) F F0 V.
  assert (exists row', nth_error r i = Some row' /\ along row' j (FNum (x * v))) as (row' & R1 & R2).
  { destruct Sr as [L1 L2]. destruct (nth_exists r i) as [row' R']; [lia|]. exists row'. split; [assumption|].
    destruct X as [X| ->].
    - left. pose proof (P i j row (FNum x) v I R X V) as Q. unfold at2 in Q. now rewrite R' in Q.
    - right. pose proof (P i 0%nat [FNum x] (FNum x) v I R eq_refl V) as Q. unfold at2 in Q. rewrite R' in Q.
      assert (LR : length row' = nf) by (apply L2; now apply nth_error_In in R').
      assert (nf = 1%nat). { destruct S as [S1 S2']. destruct R as [R| ->]; [apply nth_error_In in R; now rewrite <- (S2' _ R)|]. now rewrite <- (S2' [FNum x] ltac:(now left)). }
      destruct row' as [|z [|]]; cbn in LR; try lia. cbn in Q. congruence. }
  rewrite (P2 i j (FNum (x * v)) (2 * PI * f)); [|assumption|congruence|eauto|].
  - rewrite fdiv_num by now apply PI_f. eexists. split; [reflexivity|]. unfold derived. field. split; [assumption|]. apply PI_neq0.
  - destruct F as [F| ->]; [left; now apply omega_nth|now right].
Qed.

(** absorption lengths *)
Lemma li_along : forall rows freq vs ne nf k, shape2 ne nf rows -> axis ne (length vs) k ->
  exists r, calc_dependent "li" (N2 rows) freq (AArray vs) = Ok (Some (N2 r)) /\ shape2 k nf r /\
    forall i j x v, (i < k)%nat -> (j < nf)%nat -> along2 rows i j (FNum x) -> x <> 0 -> along vs i v ->
      exists y, at2 r i j = Some (FNum y) /\ derived "li" x 1 v y.
Proof.
  intros rows freq vs ne nf k S A1. unfold calc_dependent. cbn [velocity_of bind].
  cbn -[PI IZR with_velocity with_scalar bind fdiv fmul derived].
  cbn [with_velocity]. destruct (column_along (fun a b => fdiv b a) rows vs ne nf k S A1) as [r [E [Sr P]]]. rewrite E. cbn [bind].
  destruct (scalar2 fdiv r 1000 k nf Sr) as [r2 [E2 [Sr2 P2]]]. rewrite E2. exists r2.
  split; [reflexivity|]. split; [assumption|]. intros i j x v I J (row & R & X) X0 V.
  assert (Q : at2 r i j = Some (fdiv (FNum v) (FNum x))).
  { destruct X as [X| ->]; [now apply (P i j row)|].
    assert (nf = 1%nat). { destruct S as [S1 S2']. destruct R as [R| ->]; [apply nth_error_In in R; now rewrite <- (S2' _ R)|]. now rewrite <- (S2' [FNum x] ltac:(now left)). }
    assert (j = 0%nat) by lia. subst. now apply (P i 0%nat [FNum x]). }
  rewrite (P2 _ _ _ Q). rewrite fdiv_num by assumption. rewrite fdiv_num by lra. eexists. split; [reflexivity|].
  unfold derived. field. assumption.
Qed.

(** one event and several velocities *)
Lemma one_event : forall q l freq vs, (q = "Qsc" \/ q = "li")%string ->
  calc_dependent q (N1 l) freq (AArray vs) = calc_dependent q (N2 [l]) freq (AArray vs).
Proof.
  intros q l freq vs [-> | ->]; unfold calc_dependent; cbn [velocity_of bind];
    cbn -[PI IZR with_column with_omega with_scalar bind fdiv fmul]; now rewrite column_one.
Qed.

(** incompatible lengths *)
Lemma lengths_err : forall q rows freq vs, (q = "Qsc" \/ q = "li")%string ->
  length rows <> length vs -> length rows <> 1%nat -> length vs <> 1%nat ->
  calc_dependent q (N2 rows) freq (AArray vs) = Err ValueError.
Proof.
  intros q rows freq vs [-> | ->] N1 N2 N3; unfold calc_dependent; cbn [velocity_of bind];
    cbn -[PI IZR with_column with_omega with_scalar bind fdiv fmul]; unfold with_column; now rewrite zip_err.
Qed.

Lemma freqs_err : forall q l fs v, (q = "Qsc" \/ q = "Qi")%string ->
  length l <> length fs -> length l <> 1%nat -> length fs <> 1%nat ->
  calc_dependent q (N1 l) (AArray fs) (AScalar v) = Err ValueError.
Proof.
  intros q l fs v [-> | ->] N1 N2 N3; unfold calc_dependent; cbn [velocity_of bind];
    cbn -[PI IZR zip bind fdiv fmul length map]; cbn [bind with_row]; rewrite zip_err; rewrite ?map_length; try assumption; reflexivity.
Qed.

(** lengths of a vanishing coefficient *)
Lemma length_zero : forall q fs v, (q = "lsc" \/ q = "li")%string -> 0 < v ->
  calc_dependent q (N0 (FNum 0)) fs (AScalar v) = Ok (Some (N0 FPInf)).
Proof.
  intros q fs v Q V.
  assert (D0 : forall a, 0 < a -> fdiv (FNum a) (FNum 0) = FPInf).
  { intros a A. cbn. destruct (Req_EM_T 0 0); [|lra]. unfold finf. destruct (Rlt_dec 0 a); [reflexivity|lra]. }
  assert (D1 : fdiv FPInf (FNum 1000) = FPInf).
  { cbn [fdiv]. destruct (Req_EM_T 1000 0); [lra|]. unfold finf. destruct (Rlt_dec 0 1000); [reflexivity|lra]. }
  destruct Q as [-> | ->]; unfold calc_dependent; cbn [velocity_of bind]; cbn -[PI IZR bind fdiv]; cbn [bind with_scalar];
    rewrite D0 by lra; now rewrite D1.
Qed.

Lemma ex_along : shape2 1 2 [[FNum (1 / 100000); FNum (1 / 50000)]] /\ axis 1 (length [3000; 3500]) 2 /\ axis 2 (length [3]) 2.
Proof.
  split; [split; [reflexivity|]; intros row [<-|[]]; reflexivity|]. split; [right; left; auto|right; right; auto].
Qed.

(** a single frequency *)
Lemma calc1_single : forall q l f v, In q quantities ->
  exists r, calc_dependent q (N1 l) (AScalar f) (AScalar v) = Ok (Some (N1 r)) /\ length r = length l /\
    forall j x, nth_error l j = Some (FNum x) -> x <> 0 -> f <> 0 -> exists y, nth_error r j = Some (FNum y) /\ derived q x f v y.
Proof.
  intros q l f v I. exists (map (fun x => value_of q x f v) l). split; [|split].
  - cbn in I. repeat destruct I as [<- | I]; [.. | contradiction]; unfold calc_dependent; cbn -[PI IZR fdiv fmul map];
      rewrite ?map_map; try reflexivity; now rewrite map_id.
  - apply map_length.
  - intros j x E X F. destruct (value_derived q x f v I X F) as [y [Y D]]. exists y. split; [|assumption].
    rewrite nth_error_map, E. cbn [option_map]. now rewrite Y.
Qed.

Lemma calc0_single : forall q x f v, In q quantities -> x <> 0 -> f <> 0 ->
  exists y, calc_dependent q (N0 (FNum x)) (AScalar f) (AScalar v) = Ok (Some (N0 (FNum y))) /\ derived q x f v y.
Proof.
  intros q x f v I X F. destruct (value_derived q x f v I X F) as [y [Y D]]. exists y. split; [|assumption]. rewrite <- Y.
  cbn in I. repeat destruct I as [<- | I]; [.. | contradiction]; unfold calc_dependent; cbn -[PI IZR fdiv fmul]; reflexivity.
Qed.
