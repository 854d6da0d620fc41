(** Lemmas about the observed energy. *)
From Coq Require Import List Bool Reals Lra Lia ZArith.
From Verif Require Import Base Pyf EnergyModel EnergySpec.
Import ListNotations.
Open Scope R_scope.

Lemma fold_max_spec l n :
  (forall x, In x (n :: l) -> (x <= fold_left Nat.max l n)%nat) /\
  In (fold_left Nat.max l n) (n :: l).
Proof.
  revert n. induction l as [|m l IH]; intros n; cbn [fold_left].
  - split; [intros x [<-|[]]; lia|now left].
  - destruct (IH (Nat.max n m)) as [A B]. split.
    + intros x [<-|[<-|H]].
      * specialize (A (Nat.max n m) (or_introl eq_refl)). lia.
      * specialize (A (Nat.max n m) (or_introl eq_refl)). lia.
      * apply A. now right.
    + destruct B as [B|B]; [|right; now right].
      rewrite <- B. destruct (Nat.max_spec n m) as [[_ E]|[_ E]]; rewrite E;
        [right; now left|now left].
Qed.

Lemma fold_min_spec l n :
  (forall x, In x (n :: l) -> (fold_left Nat.min l n <= x)%nat) /\
  In (fold_left Nat.min l n) (n :: l).
Proof.
  revert n. induction l as [|m l IH]; intros n; cbn [fold_left].
  - split; [intros x [<-|[]]; lia|now left].
  - destruct (IH (Nat.min n m)) as [A B]. split.
    + intros x [<-|[<-|H]].
      * specialize (A (Nat.min n m) (or_introl eq_refl)). lia.
      * specialize (A (Nat.min n m) (or_introl eq_refl)). lia.
      * apply A. now right.
    + destruct B as [B|B]; [|right; now right].
      rewrite <- B. destruct (Nat.min_spec n m) as [[_ E]|[_ E]]; rewrite E;
        [now left|right; now left].
Qed.

Lemma sum_rows_length rows n :
  rows <> [] -> (forall r, In r rows -> length r = n) -> length (sum_rows rows) = n.
Proof.
  induction rows as [|r rows IH]; [congruence|]. intros _ H.
  destruct rows as [|r' rows]; [apply H; now left|].
  change (sum_rows (r :: r' :: rows))
    with (map (fun xy => fst xy + snd xy) (combine r (sum_rows (r' :: rows)))).
  rewrite map_length, combine_length, (H r) by now left.
  rewrite IH; [lia|discriminate|]. intros x Hx. apply H. now right.
Qed.

Lemma nth_map2 {A B} (f : A * B -> R) (r : list A) (s : list B) k a b :
  (k < length r)%nat -> (k < length s)%nat ->
  nth k (map f (combine r s)) 0 = f (nth k r a, nth k s b).
Proof.
  revert s k. induction r as [|x r IH]; intros s k Hr Hs; [cbn in Hr; lia|].
  destruct s as [|y s]; [cbn in Hs; lia|].
  destruct k as [|k]; cbn; [reflexivity|]. apply IH; cbn in *; lia.
Qed.

Lemma sum_rows_nth rows n k :
  rows <> [] -> (forall r, In r rows -> length r = n) -> (k < n)%nat ->
  nth k (sum_rows rows) 0 = fold_right Rplus 0 (map (fun r => nth k r 0) rows).
Proof.
  induction rows as [|r rows IH]; [congruence|]. intros _ H K.
  destruct rows as [|r' rows].
  - cbn [sum_rows map fold_right]. ring.
  - change (sum_rows (r :: r' :: rows))
      with (map (fun xy => fst xy + snd xy) (combine r (sum_rows (r' :: rows)))).
    rewrite (nth_map2 _ _ _ _ 0 0).
    + cbn [fst snd]. rewrite IH; [reflexivity|discriminate| |exact K].
      intros x Hx. apply H. now right.
    + rewrite (H r) by now left. exact K.
    + rewrite (sum_rows_length _ n); [exact K|discriminate|].
      intros x Hx. apply H. now right.
Qed.

Lemma fold_mult {A} (c : R) (f : A -> R) l :
  fold_right Rplus 0 (map (fun x => c * f x) l) = c * fold_right Rplus 0 (map f l).
Proof. induction l; cbn; [ring|]. rewrite IHl. ring. Qed.

Lemma fold_ext {A} (f g : A -> R) l :
  (forall x, In x l -> f x = g x) ->
  fold_right Rplus 0 (map f l) = fold_right Rplus 0 (map g l).
Proof. intros H. f_equal. now apply map_ext_in. Qed.

Lemma fold_nonneg {A} (f : A -> R) l :
  (forall x, In x l -> 0 <= f x) -> 0 <= fold_right Rplus 0 (map f l).
Proof.
  induction l as [|a l IH]; intros H; cbn; [lra|].
  assert (0 <= f a) by (apply H; now left).
  assert (0 <= fold_right Rplus 0 (map f l)) by (apply IH; intros; apply H; now right).
  lra.
Qed.

Section E.
  Variable hilbert : list R -> list R.
  Hypothesis hil_len : forall v, length (hilbert v) = length v.
  Notation energy1c := (energy1c hilbert).
  Notation observed_energy := (observed_energy hilbert).

  Lemma energy1c_length v rho df fs : length (energy1c v rho df fs) = length v.
  Proof. unfold EnergyModel.energy1c. rewrite map_length, combine_length, hil_len. lia. Qed.

  Lemma energy1c_nth v rho df fs k :
    (k < length v)%nat ->
    nth k (energy1c v rho df fs) 0
    = rho * ((nth k v 0) ^ 2 + (nth k (hilbert v) 0) ^ 2) / 2 / df / fs.
  Proof.
    intros K. unfold EnergyModel.energy1c.
    rewrite (nth_map2 _ _ _ _ 0 0); [|exact K|now rewrite hil_len].
    cbn [fst snd]. unfold Rdiv. ring.
  Qed.

  Variables (stream : list (list R)).
  Hypothesis nonempty : stream <> [].

  (** the lengths of the components *)
  Let Ns := map (@length R) stream.

  Lemma lengths_energy rho df fs :
    map (@length R) (map (fun tr => energy1c tr rho df fs) stream) = Ns.
  Proof.
    unfold Ns. rewrite map_map. apply map_ext. intros v. apply energy1c_length.
  Qed.

  Lemma extremes :
    exists mx mn,
      py_max Ns = Ok mx /\ py_min Ns = Ok mn /\
      (forall v, In v stream -> mn <= length v <= mx)%nat /\
      (exists v, In v stream /\ length v = mx) /\
      (exists v, In v stream /\ length v = mn).
  Proof.
    unfold Ns. destruct stream as [|v0 st]; [congruence|]. cbn [map py_max py_min].
    set (l := map (@length R) st). set (n := length v0).
    destruct (fold_max_spec l n) as [A B]. destruct (fold_min_spec l n) as [C D].
    assert (IN : forall x, In x (n :: l) -> exists v, In v (v0 :: st) /\ length v = x).
    { intros x H. change (n :: l) with (map (@length R) (v0 :: st)) in H.
      apply in_map_iff in H. destruct H as (v & E & H). eauto. }
    do 2 eexists. split; [reflexivity|]. split; [reflexivity|].
    split; [|split; apply IN; assumption].
    intros v H. assert (Q : In (length v) (n :: l)).
    { change (n :: l) with (map (@length R) (v0 :: st)). now apply in_map. }
    split; [apply C|apply A]; exact Q.
  Qed.

  (** C38: refusal *)
  Lemma refused_iff rho df cs fs tol :
    observed_energy stream rho df cs fs tol = Err SkipError
    <-> lengths_differ stream tol.
  Proof.
    destruct extremes as (mx & mn & E1 & E2 & B & (v & Hv & Lv) & (w & Hw & Lw)).
    unfold EnergyModel.observed_energy. rewrite lengths_energy, E1, E2. cbn [bind].
    destruct (Z.ltb tol (Z.of_nat mx - Z.of_nat mn)) eqn:T.
    - apply Z.ltb_lt in T. split; auto. intros _. exists v, w. subst. auto.
    - apply Z.ltb_ge in T. split.
      + destruct cs as [[a n]|]; discriminate.
      + intros (x & y & Hx & Hy & L). apply B in Hx. apply B in Hy. lia.
  Qed.

  (** the sum of the rows after truncation *)
  Lemma energy_rows rho df cs fs tol :
    ~ lengths_differ stream tol ->
    exists mn e,
      shortest stream mn /\ length e = mn /\
      (forall k, (k < mn)%nat -> nth k e 0 = energy_at hilbert stream rho df fs k) /\
      observed_energy stream rho df cs fs tol =
        match cs with
        | None => Ok (map FNum e)
        | Some (a, n) => Ok (map (fun x => np_div x (np_mean (firstn n (skipn a e)))) e)
        end.
  Proof.
    intros ND.
    destruct extremes as (mx & mn & E1 & E2 & B & (v & Hv & Lv) & (w & Hw & Lw)).
    unfold EnergyModel.observed_energy. rewrite lengths_energy, E1, E2. cbn [bind].
    destruct (Z.ltb tol (Z.of_nat mx - Z.of_nat mn)) eqn:T.
    { exfalso. apply ND. apply Z.ltb_lt in T. exists v, w. subst. auto. }
    set (data := map (fun tr => energy1c tr rho df fs) stream).
    set (rows := if Z.ltb 0 (Z.of_nat mx - Z.of_nat mn) then map (firstn mn) data else data).
    assert (R0 : rows = map (fun tr => firstn mn (energy1c tr rho df fs)) stream).
    { unfold rows, data. destruct (Z.ltb 0 _) eqn:Z0.
      - now rewrite map_map.
      - apply Z.ltb_ge in Z0. apply map_ext_in. intros x Hx.
        symmetry. apply firstn_all2. rewrite energy1c_length. apply B in Hx. lia. }
    assert (RL : forall r, In r rows -> length r = mn).
    { intros r H. rewrite R0 in H. apply in_map_iff in H. destruct H as (x & <- & Hx).
      rewrite firstn_length, energy1c_length. apply B in Hx. lia. }
    assert (RN : rows <> []).
    { rewrite R0. destruct stream; [congruence|discriminate]. }
    exists mn, (sum_rows rows). split; [|split; [|split]].
    - split; [now exists w|]. intros x Hx. apply B in Hx. lia.
    - now apply sum_rows_length.
    - intros k K. rewrite (sum_rows_nth _ mn) by auto.
      rewrite R0, map_map. unfold energy_at.
      rewrite <- fold_mult. apply fold_ext. intros x Hx. apply B in Hx.
      transitivity (nth k (energy1c x rho df fs) 0).
      + rewrite <- (firstn_skipn mn (energy1c x rho df fs)) at 2.
        rewrite app_nth1; [reflexivity|].
        rewrite firstn_length, energy1c_length. lia.
      + rewrite energy1c_nth by lia. unfold Rdiv.
        rewrite !Rinv_mult. ring.
    - destruct cs as [[a n]|]; reflexivity.
  Qed.
End E.

Lemma list_nth_ext (l l' : list R) :
  length l = length l' -> (forall k, (k < length l)%nat -> nth k l 0 = nth k l' 0) -> l = l'.
Proof. intros. now apply (nth_ext l l' 0 0). Qed.

(** C38: the formula *)
Lemma energy_ok hilbert stream rho df fs tol :
  (forall v, length (hilbert v) = length v) ->
  stream <> [] -> 0 <= rho -> 0 < df -> 0 < fs ->
  ~ lengths_differ stream tol ->
  exists e n,
    observed_energy hilbert stream rho df None fs tol = Ok (map FNum e) /\
    shortest stream n /\ length e = n /\
    (forall k, (k < n)%nat -> nth k e 0 = energy_at hilbert stream rho df fs k) /\
    Forall (fun x => 0 <= x) e.
Proof.
  intros HL NE Hr Hd Hf ND.
  destruct (energy_rows hilbert HL stream NE rho df None fs tol ND)
    as (mn & e & S & L & V & E).
  exists e, mn. repeat split; auto; try apply S.
  apply Forall_forall. intros x Hx. apply (In_nth _ _ 0) in Hx.
  destruct Hx as (k & K & <-). rewrite V by lia. unfold energy_at.
  apply Rmult_le_pos.
  - apply Rmult_le_pos; [lra|]. left. apply Rinv_0_lt_compat.
    repeat apply Rmult_lt_0_compat; lra.
  - apply fold_nonneg. intros v _.
    assert (A := pow2_ge_0 (nth k v 0)). assert (B := pow2_ge_0 (nth k (hilbert v) 0)). lra.
Qed.

Lemma nth_scale c (v : list R) k : nth k (map (Rmult c) v) 0 = c * nth k v 0.
Proof. rewrite <- (map_nth (Rmult c)). now rewrite Rmult_0_r. Qed.

Lemma energy_at_scale hilbert c stream rho df fs k :
  (forall v, hilbert (map (Rmult c) v) = map (Rmult c) (hilbert v)) ->
  energy_at hilbert (scale_stream c stream) rho df fs k
  = c ^ 2 * energy_at hilbert stream rho df fs k.
Proof.
  intros H. unfold energy_at, scale_stream. rewrite map_map.
  rewrite (fold_ext _ (fun v => c ^ 2 * ((nth k v 0) ^ 2 + (nth k (hilbert v) 0) ^ 2))).
  - rewrite fold_mult. ring.
  - intros v _. rewrite H, !nth_scale. ring.
Qed.

Lemma lengths_scale c stream tol :
  lengths_differ (scale_stream c stream) tol <-> lengths_differ stream tol.
Proof.
  unfold lengths_differ, scale_stream. split.
  - intros (v & w & Hv & Hw & L). apply in_map_iff in Hv. apply in_map_iff in Hw.
    destruct Hv as (v' & <- & Hv). destruct Hw as (w' & <- & Hw).
    rewrite !map_length in L. eauto.
  - intros (v & w & Hv & Hw & L). exists (map (Rmult c) v), (map (Rmult c) w).
    rewrite !map_length. auto using in_map.
Qed.

Lemma shortest_unique st m n : shortest st m -> shortest st n -> m = n.
Proof.
  intros ((v & Hv & Lv) & A) ((w & Hw & Lw) & B). apply A in Hw. apply B in Hv. lia.
Qed.

Lemma shortest_scale c st n : shortest (scale_stream c st) n <-> shortest st n.
Proof.
  unfold shortest, scale_stream. split; intros ((v & Hv & Lv) & A); split.
  - apply in_map_iff in Hv. destruct Hv as (w & <- & Hw). rewrite map_length in Lv. eauto.
  - intros w Hw. specialize (A _ (in_map (map (Rmult c)) _ _ Hw)). now rewrite map_length in A.
  - exists (map (Rmult c) v). rewrite map_length. auto using in_map.
  - intros w Hw. apply in_map_iff in Hw. destruct Hw as (x & <- & Hx).
    rewrite map_length. auto.
Qed.

Section Scaling.
  Variable hilbert : list R -> list R.
  Variables (stream : list (list R)) (rho df fs : R) (tol : Z).
  Hypothesis HL : forall v, length (hilbert v) = length v.
  Hypothesis NE : stream <> [].

  Lemma scale_ne c : scale_stream c stream <> [].
  Proof. unfold scale_stream. destruct stream; [congruence|discriminate]. Qed.

  Lemma energy_rows_scaled c cs e mn :
    (forall v, hilbert (map (Rmult c) v) = map (Rmult c) (hilbert v)) ->
    ~ lengths_differ stream tol ->
    shortest stream mn -> length e = mn ->
    (forall k, (k < mn)%nat -> nth k e 0 = energy_at hilbert stream rho df fs k) ->
    observed_energy hilbert (scale_stream c stream) rho df cs fs tol =
      match cs with
      | None => Ok (map FNum (map (Rmult (c ^ 2)) e))
      | Some (a, n) =>
          let e' := map (Rmult (c ^ 2)) e in
          Ok (map (fun x => np_div x (np_mean (firstn n (skipn a e')))) e')
      end.
  Proof.
    intros H ND S L V.
    destruct (energy_rows hilbert HL (scale_stream c stream) (scale_ne c) rho df cs fs tol)
      as (mn' & e' & S' & L' & V' & E').
    { now rewrite lengths_scale. }
    apply (shortest_scale c stream) in S'.
    assert (mn' = mn) by (eapply shortest_unique; eauto). subst mn'.
    assert (EE : e' = map (Rmult (c ^ 2)) e).
    { apply list_nth_ext; [rewrite map_length; lia|].
      intros k K. rewrite nth_scale, V', V by lia. now rewrite energy_at_scale. }
    rewrite E', EE. destruct cs as [[a n]|]; reflexivity.
  Qed.

  (** C38: quadratic in the data *)
  Lemma energy_quadratic c e :
    (forall v, hilbert (map (Rmult c) v) = map (Rmult c) (hilbert v)) ->
    observed_energy hilbert stream rho df None fs tol = Ok (map FNum e) ->
    observed_energy hilbert (scale_stream c stream) rho df None fs tol
    = Ok (map FNum (map (fun x => c ^ 2 * x) e)).
  Proof.
    intros H E.
    assert (ND : ~ lengths_differ stream tol).
    { intros D. apply (refused_iff hilbert HL stream NE rho df None fs) in D. congruence. }
    destruct (energy_rows hilbert HL stream NE rho df None fs tol ND)
      as (mn & e' & S & L & V & E').
    assert (e' = e).
    { rewrite E in E'. apply (f_equal (fun r => match r with Ok x => x | Err _ => [] end)) in E'.
      clear - E'. revert e E'. induction e' as [|x e' IH]; intros [|y e]; cbn; intros F; try discriminate; auto.
      f_equal; [|apply IH].
      - apply (f_equal (fun l => match l with FNum x :: _ => x | _ => 0 end)) in F. now symmetry.
      - now apply (f_equal (@tl pyf)) in F. }
    subst e'. rewrite (energy_rows_scaled c None e mn) by auto. reflexivity.
  Qed.

  Lemma np_div_scale c x (l : list R) :
    c <> 0 -> np_div (c * x) (np_mean (map (Rmult c) l)) = np_div x (np_mean l) \/
              exists m, np_mean l = Some m /\ m = 0.
  Proof.
    intros C. destruct l as [|y l]; [now left|].
    cbn [map]. unfold np_mean.
    assert (M : fold_right Rplus 0 (c * y :: map (Rmult c) l)
                / INR (length (c * y :: map (Rmult c) l))
              = c * (fold_right Rplus 0 (y :: l) / INR (length (y :: l)))).
    { assert (F : fold_right Rplus 0 (c * y :: map (Rmult c) l)
                  = c * fold_right Rplus 0 (y :: l)).
      { cbn [fold_right]. clear. induction l as [|z l IH]; cbn; [ring|].
        replace (c * y + (c * z + fold_right Rplus 0 (map (Rmult c) l)))
          with (c * y + fold_right Rplus 0 (map (Rmult c) l) + c * z) by ring.
        rewrite IH. ring. }
      rewrite F. cbn [length]. rewrite map_length. unfold Rdiv. ring. }
    rewrite M. set (m := fold_right Rplus 0 (y :: l) / INR (length (y :: l))).
    destruct (Req_dec m 0) as [Z|Z].
    - right. exists m. auto.
    - left. cbn [np_div]. destruct (Req_EM_T (c * m) 0) as [W|W].
      + exfalso. apply Rmult_integral in W. tauto.
      + destruct (Req_EM_T m 0); [tauto|]. f_equal. field. auto.
  Qed.

  (** C38: with coda normalisation the amplitude of the data does not matter *)
  Lemma energy_normalised c a n :
    c <> 0 ->
    (forall v, hilbert (map (Rmult c) v) = map (Rmult c) (hilbert v)) ->
    observed_energy hilbert (scale_stream c stream) rho df (Some (a, n)) fs tol
    = observed_energy hilbert stream rho df (Some (a, n)) fs tol.
  Proof.
    intros C H.
    assert (DEC : lengths_differ stream tol \/ ~ lengths_differ stream tol).
    { destruct (observed_energy hilbert stream rho df (Some (a, n)) fs tol) as [r|x] eqn:Q.
      - right. intros D. apply (refused_iff hilbert HL stream NE rho df (Some (a, n)) fs) in D.
        congruence.
      - destruct x; try (right; intros D; apply (refused_iff hilbert HL stream NE rho df (Some (a, n)) fs) in D;
        congruence).
        left. now apply (refused_iff hilbert HL stream NE rho df (Some (a, n)) fs). }
    destruct DEC as [D|ND].
    - transitivity (@Err (list pyf) SkipError); [|symmetry].
      + apply refused_iff; [exact HL|apply scale_ne|]. now apply lengths_scale.
      + now apply refused_iff.
    - destruct (energy_rows hilbert HL stream NE rho df (Some (a, n)) fs tol ND)
        as (mn & e & S & L & V & E).
      rewrite E, (energy_rows_scaled c (Some (a, n)) e mn) by auto.
      cbv zeta. f_equal. rewrite skipn_map, firstn_map, map_map.
      apply map_ext. intros x.
      assert (C2 : 0 < c ^ 2).
      { assert (P := pow2_ge_0 c). assert (Q := pow_nonzero c 2 C). lra. }
      destruct (np_div_scale (c ^ 2) x (firstn n (skipn a e))) as [Q|(m & Q & Z)];
        [lra|exact Q|].
      (* mean zero: both sides are infinite or nan *)
      assert (M : np_mean (map (Rmult (c ^ 2)) (firstn n (skipn a e))) = Some 0).
      { destruct (firstn n (skipn a e)) as [|y l]; [discriminate|].
        cbn [map np_mean] in Q |- *. f_equal. apply (f_equal (fun o => match o with Some x => x | None => 1 end)) in Q.
        rewrite Z in Q.
        assert (F : fold_right Rplus 0 (c ^ 2 * y :: map (Rmult (c ^ 2)) l)
                    = c ^ 2 * fold_right Rplus 0 (y :: l)).
        { cbn [fold_right]. clear. generalize (c ^ 2). intros d.
          induction l as [|z l IH]; cbn; [ring|].
          replace (d * y + (d * z + fold_right Rplus 0 (map (Rmult d) l)))
            with (d * y + fold_right Rplus 0 (map (Rmult d) l) + d * z) by ring.
          rewrite IH. ring. }
        rewrite F. cbn [length] in Q |- *. rewrite map_length.
        unfold Rdiv in Q |- *. rewrite Rmult_assoc, Q. ring. }
      rewrite M, Q, Z. cbn [np_div].
      destruct (Req_EM_T 0 0); [|lra].
      destruct (Req_EM_T x 0) as [X|X].
      + subst. rewrite Rmult_0_r. destruct (Req_EM_T 0 0); [reflexivity|lra].
      + destruct (Req_EM_T (c ^ 2 * x) 0) as [Y|Y].
        * exfalso. apply Rmult_integral in Y. lra.
        * destruct (Rlt_dec x 0) as [N|N], (Rlt_dec (c ^ 2 * x) 0) as [N'|N']; auto; exfalso.
          -- apply N'. rewrite <- (Rmult_0_r (c ^ 2)). now apply Rmult_lt_compat_l.
          -- assert (0 <= c ^ 2 * x) by (apply Rmult_le_pos; lra). lra.
  Qed.

  (** C38: the parameters *)
  Lemma energy_params a e :
    a <> 0 ->
    observed_energy hilbert stream rho df None fs tol = Ok (map FNum e) ->
    observed_energy hilbert stream (a * rho) df None fs tol
      = Ok (map FNum (map (fun x => a * x) e)) /\
    observed_energy hilbert stream rho (a * df) None fs tol
      = Ok (map FNum (map (fun x => x / a) e)) /\
    observed_energy hilbert stream rho df None (a * fs) tol
      = Ok (map FNum (map (fun x => x / a) e)).
  Proof.
    intros A E.
    assert (ND : ~ lengths_differ stream tol).
    { intros D. apply (refused_iff hilbert HL stream NE rho df None fs) in D. congruence. }
    destruct (energy_rows hilbert HL stream NE rho df None fs tol ND)
      as (mn & e' & S & L & V & E').
    assert (e' = e).
    { rewrite E in E'. apply (f_equal (fun r => match r with Ok x => x | Err _ => [] end)) in E'.
      clear - E'. revert e E'. induction e' as [|x e' IH]; intros [|y e]; cbn; intros F; try discriminate; auto.
      f_equal; [|apply IH].
      - apply (f_equal (fun l => match l with FNum x :: _ => x | _ => 0 end)) in F. now symmetry.
      - now apply (f_equal (@tl pyf)) in F. }
    subst e'.
    assert (G : forall rho' df' fs' (f : R -> R),
      f 0 = 0 ->
      (forall k, energy_at hilbert stream rho' df' fs' k = f (energy_at hilbert stream rho df fs k)) ->
      observed_energy hilbert stream rho' df' None fs' tol = Ok (map FNum (map f e))).
    { intros rho' df' fs' f F0 F.
      destruct (energy_rows hilbert HL stream NE rho' df' None fs' tol ND)
        as (mn' & e' & S' & L' & V' & E2).
      assert (mn' = mn) by (eapply shortest_unique; eauto). subst mn'.
      rewrite E2. do 2 f_equal. apply list_nth_ext; [rewrite map_length; lia|].
      intros k K. rewrite V' by lia. rewrite <- F0 at 1. rewrite map_nth, V by lia. apply F. }
    split; [|split]; apply G.
    - ring.
    - intros k. unfold energy_at. unfold Rdiv. ring.
    - unfold Rdiv. ring.
    - intros k. unfold energy_at. unfold Rdiv. rewrite !Rinv_mult. ring.
    - unfold Rdiv. ring.
    - intros k. unfold energy_at. unfold Rdiv. rewrite !Rinv_mult. ring.
  Qed.
End Scaling.

(** the normalised trace for any mean *)
Lemma energy_coda_div hilbert stream rho df fs tol a n e :
  (forall v, length (hilbert v) = length v) -> stream <> [] ->
  observed_energy hilbert stream rho df None fs tol = Ok (map FNum e) ->
  observed_energy hilbert stream rho df (Some (a, n)) fs tol
  = Ok (map (fun x => np_div x (np_mean (firstn n (skipn a e)))) e).
Proof.
  intros HL NE E.
  assert (ND : ~ lengths_differ stream tol).
  { intros D. apply (refused_iff hilbert HL stream NE rho df None fs) in D. congruence. }
  destruct (energy_rows hilbert HL stream NE rho df None fs tol ND)
    as (mn & e1 & S1 & L1 & V1 & E1).
  destruct (energy_rows hilbert HL stream NE rho df (Some (a, n)) fs tol ND)
    as (mn' & e2 & S2 & L2 & V2 & E2).
  assert (mn' = mn) by (eapply shortest_unique; eauto). subst mn'.
  assert (e2 = e1).
  { apply list_nth_ext; [lia|]. intros k K. rewrite V1, V2 by lia. reflexivity. }
  subst e2.
  assert (e1 = e).
  { rewrite E in E1. apply (f_equal (fun r => match r with Ok x => x | Err _ => [] end)) in E1.
    clear - E1. revert e E1. induction e1 as [|x e1 IH]; intros [|y e]; cbn; intros F; try discriminate; auto.
    f_equal; [|apply IH].
    - apply (f_equal (fun l => match l with FNum x :: _ => x | _ => 0 end)) in F. now symmetry.
    - now apply (f_equal (@tl pyf)) in F. }
  subst e1. exact E2.
Qed.

(** C38: the normalised trace *)
Lemma energy_coda_mean hilbert stream rho df fs tol a n e :
  (forall v, length (hilbert v) = length v) -> stream <> [] ->
  observed_energy hilbert stream rho df None fs tol = Ok (map FNum e) ->
  let window := firstn n (skipn a e) in
  let mean := fold_right Rplus 0 window / INR (length window) in
  window <> [] -> mean <> 0 ->
  observed_energy hilbert stream rho df (Some (a, n)) fs tol
  = Ok (map (fun x => FNum (x / mean)) e).
Proof.
  intros HL NE E window mean W M.
  rewrite (energy_coda_div hilbert stream rho df fs tol a n e HL NE E). f_equal. apply map_ext. intros x.
  fold window. unfold mean in M |- *. destruct window as [|y l]; [congruence|].
  unfold np_mean, np_div. destruct (Req_EM_T _ 0); [contradiction|reflexivity].
Qed.

(** C38: no energy in the window *)
Lemma energy_zero_mean hilbert stream rho df fs tol a n e :
  (forall v, length (hilbert v) = length v) -> stream <> [] ->
  observed_energy hilbert stream rho df None fs tol = Ok (map FNum e) ->
  let window := firstn n (skipn a e) in
  window = [] \/ fold_right Rplus 0 window = 0 ->
  exists d, observed_energy hilbert stream rho df (Some (a, n)) fs tol = Ok d /\ length d = length e /\
    forall k x y, nth_error e k = Some x -> nth_error d k = Some y ->
      (window = [] -> y = FNan) /\
      (window <> [] -> (x = 0 -> y = FNan) /\ (0 < x -> y = FPInf) /\ (x < 0 -> y = FNInf)).
Proof.
  intros HL NE E window Z.
  rewrite (energy_coda_div hilbert stream rho df fs tol a n e HL NE E). fold window. eexists. split; [reflexivity|].
  split; [apply map_length|]. intros k x y X Y. rewrite nth_error_map, X in Y. cbn [option_map] in Y.
  assert (YE : np_div x (np_mean window) = y) by congruence. clear Y. destruct window as [|z l].
  - split; [intros _; now rewrite <- YE|contradiction].
  - split; [discriminate|]. intros _. destruct Z as [Z|Z]; [discriminate|].
    unfold np_mean, np_div in YE. rewrite Z in YE. unfold Rdiv in YE. rewrite Rmult_0_l in YE.
    destruct (Req_EM_T 0 0) as [_|C]; [|contradiction C; reflexivity].
    destruct (Req_EM_T x 0) as [->|X0]; [split; [congruence|split; intros; lra]|].
    destruct (Rlt_dec x 0); split; [contradiction| |contradiction|]; split; intros; try lra; congruence.
Qed.
