(** C62: incomplete lists of site responses. *)
From Coq Require Import String List Bool Arith Lia Reals.
From Verif Require Import Base FreqsModel FreqsProof InvModel InvSpec InvProof.
Import ListNotations.

Lemma mapM_err_all {A B} (f : A -> res B) (e : exn) : forall l,
  (forall a, In a l -> (exists b, f a = Ok b) \/ f a = Err e) -> (exists a, In a l /\ f a = Err e) -> mapM f l = Err e.
Proof.
  induction l as [|a l IH]; intros H [x [I X]]; [contradiction|]. cbn [mapM].
  destruct (H a ltac:(now left)) as [[b E]|E]; rewrite E; cbn [bind]; [|reflexivity].
  destruct I as [<-|I]; [congruence|]. rewrite IH; [reflexivity|intros; apply H; now right|eauto].
Qed.

Lemma fix_kw_short V freq_bands (fp : finput V) sta l :
  (forall x, In x (fi_freq fp) <-> In x (dkeys freq_bands)) ->
  In (sta, l) (fi_R fp) -> (List.length l < List.length (fi_freq fp))%nat ->
  fix_kw Source freq_bands (Some fp) = Err IndexError.
Proof.
  intros SS I L.
  destruct (fix_kw_ok Fixed freq_bands fp SS ltac:(discriminate)) as [kw K]. cbn [fix_kw] in *.
  destruct (fix_params freq_bands fp) as [p|]; [|discriminate]. cbn [bind] in *. clear K kw.
  assert (Q : fix_sites_params freq_bands fp = Err IndexError); [|now rewrite Q].
  unfold fix_sites_params.
  assert (G : forall f, In f (fi_freq fp) -> exists b, getitem reqb freq_bands f = Ok b).
  { intros f J. apply SS in J. unfold getitem. destruct (dget reqb freq_bands f) as [b|] eqn:E; [eauto|].
    apply (dget_None _ reqb_spec) in E. contradiction. }
  assert (S1 : forall sites i, (exists s, sites_of (V := V) sites i = Ok s) \/ sites_of sites i = Err IndexError).
  { induction sites as [|[st v] sites IH]; intros i; [left; eexists; reflexivity|]. cbn [sites_of]. unfold item.
    destruct (nth_error v i) as [y|]; cbn [bind]; [|now right].
    destruct (IH i) as [[s ->]| ->]; cbn [bind]; [left; destruct y; eexists; reflexivity|now right]. }
  assert (S2 : sites_of (fi_R fp) (List.length l) = Err IndexError).
  { revert I. generalize (fi_R fp). induction l0 as [|[st v] sites IH]; intros I; [contradiction|]. cbn [sites_of]. unfold item.
    destruct I as [E|I].
    - assert (v = l) by congruence. subst. now rewrite (proj2 (nth_error_None l (List.length l)) (Nat.le_refl _)).
    - destruct (nth_error v (List.length l)) as [y|]; cbn [bind]; [|reflexivity]. now rewrite (IH I). }
  rewrite (mapM_err_all _ IndexError); [reflexivity| |].
  - intros [i f] J. cbn [fst snd]. destruct (G f ltac:(now apply in_combine_r in J)) as [b ->]. cbn [bind].
    destruct (S1 (fi_R fp) i) as [[s ->]| ->]; [left; eexists; reflexivity|now right].
  - destruct (nth_error (fi_freq fp) (List.length l)) as [f|] eqn:F; [|apply nth_error_None in F; lia].
    exists (List.length l, f). split.
    + assert (N : nth_error (combine (seq 0 (List.length (fi_freq fp))) (fi_freq fp)) (List.length l) = Some (List.length l, f)); [|now apply nth_error_In in N].
      assert (X : forall (xs : list R) k i f, nth_error xs i = Some f -> nth_error (combine (seq k (List.length xs)) xs) i = Some (k + i, f)%nat).
      { induction xs as [|x xs IH]; intros k [|i] f0 E; try discriminate; cbn in *.
        - injection E as ->. now rewrite Nat.add_0_r.
        - rewrite (IH (S k) i f0 E). do 2 f_equal. lia. }
      now apply X.
    + cbn [fst snd]. destruct (G f ltac:(now apply nth_error_In in F)) as [b ->]. cbn [bind]. now rewrite S2.
Qed.
