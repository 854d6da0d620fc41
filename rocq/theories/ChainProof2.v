(** From the results of the bands to the dictionary of results. *)
From Coq Require Import String List Bool Reals Lra Lia ZArith Arith.
From Verif Require Import Base Pyf PyfOps FbModel LsqfbModel LsqfbSpec LsqfbProof5.
From Verif Require Import SourceModel InvModel InvSpec InvProof InvProof2 InvProof3 ChainModel ChainSpec ChainProof.
Import ListNotations.
Open Scope string_scope.
Open Scope list_scope.
Open Scope R_scope.

(** a table as dictionary *)
Lemma table_get keys f d k : table keys f d ->
  (In k keys /\ dget String.eqb d k = Some (FNum (f k))) \/ (~ In k keys /\ dget String.eqb d k = None).
Proof.
  intros ((ND & IFF) & V). destruct (dget String.eqb d k) as [v|] eqn:D.
  - left. pose proof (dget_In _ string_eqb_spec _ _ _ D) as I. split.
    + apply IFF. apply (in_map fst) in I. exact I.
    + now rewrite (V _ _ I).
  - right. split; [|reflexivity]. intros I. apply IFF in I.
    apply (dget_None _ string_eqb_spec) in D. auto.
Qed.

(** the result of a band has the true values *)
Definition true_band (free_b free_R : bool) (site source : string -> R) (b : R) (ps : list (string * string)) (br : bandres pyf) : Prop :=
  br_error br = FNum 0 /\
  (free_b = true -> br_b br = Some (FNum b)) /\
  (free_R = true -> exists Rs, br_R br = Some Rs /\ table (map snd ps) site Rs) /\
  exists Ws, br_W br = Some Ws /\ table (map fst ps) source Ws.

Definition is_go (c : command) : bool := match c with Go => true | _ => false end.
Definition not_source (c : command) : bool := match c with Source => false | _ => true end.

Lemma nth_Forall2 {A B} (P : A -> B -> Prop) l m i x : Forall2 P l m -> nth_error l i = Some x ->
  exists y, nth_error m i = Some y /\ P x y.
Proof.
  intros F. revert i. induction F as [|a b l m Q F IH]; intros [|i] H; cbn in *; try discriminate.
  - injection H as <-. eauto.
  - eauto.
Qed.

Section A.
  Variable (cmd : command) (site source : R -> string -> R) (b : R -> R).
  Variables (stations events : list string) (freq_bands : bands).
  Variable U : R -> R * R -> wstate -> R -> Prop.
  Variables (rlm1 : list R -> R) (lin2 : bool -> list R -> list R -> R * R)
    (min1 : (R -> R) -> option (R * R) -> res R)
    (minN : (list R -> R) -> list R -> list (option (R * R)) -> res (list R))
    (rho0 : option R) (method : option string) (so : smo) (mags : string -> option R).

  Lemma assemble rlist r : NoDup stations -> NoDup events ->
    Forall2 (fun fb x => match x with
                         | None => True
                         | Some br => exists st v, U (fst fb) (snd fb) st v /\
                             true_band (is_go cmd) (not_source cmd) (site (fst fb)) (source (fst fb)) (b (fst fb)) (pairs st) br
                         end) freq_bands rlist ->
    arrange cmd false chain_W (event_source rlm1 lin2 min1 minN rho0 method so mags) stations events freq_bands rlist = Ok (Some r) ->
    exists l, lists_in r (is_go cmd) (not_source cmd) (map fst freq_bands) stations events l /\
      true_results (is_go cmd) (not_source cmd) site source b stations events freq_bands U l.
  Proof.
    intros NS NE F A. assert (LEN : List.length rlist = List.length freq_bands).
    { clear -F. induction F; cbn; congruence. }
    apply arrange_aligned in A; [|assumption..].
    destruct A as (FR & GO & (err & ER & EA) & _ & RS & v0 & _ & _ & d & EV & _ & EVS).
    specialize (EVS eq_refl).
    assert (BB : exists lb, is_go cmd = true -> dget String.eqb r "b" = Some (RNums lb) /\ InvSpec.aligned (of_band br_b) rlist lb).
    { destruct cmd; [destruct (GO eq_refl) as (_ & lb & _ & _ & D & AL); exists lb; auto|exists []; discriminate..]. }
    destruct BB as (lb & BB).
    assert (RR : exists dr, not_source cmd = true -> dget String.eqb r "R" = Some (RSites dr) /\
       forall sta, In sta stations -> exists l, dget String.eqb dr sta = Some l /\ InvSpec.aligned (of_dict br_R sta) rlist l).
    { destruct cmd; [destruct (RS ltac:(discriminate) eq_refl) as (dr & D & _ & AL); exists dr; auto..|exists []; discriminate]. }
    destruct RR as (dr & RR). clear GO RS.
    exists {| ls_error := err; ls_b := lb;
              ls_R := fun sta => match dget String.eqb dr sta with Some l => l | None => [] end;
              ls_W := fun ev => match dget String.eqb d ev with
                                | Some e => match dget String.eqb e "W" with Some (VList l) => l | _ => [] end
                                | None => [] end |}.
    assert (EV2 : forall ev, In ev events -> exists W e, InvSpec.aligned (of_dict br_W ev) rlist W /\ dget String.eqb d ev = Some e /\
                   dget String.eqb e "W" = Some (VList (map finite_value W))).
    { intros ev I. destruct (EVS ev I) as (W & e & AW & SO & DG). exists W, e. split; [exact AW|]. split; [exact DG|].
      exact (proj1 (event_source_W _ _ _ _ _ _ _ _ _ _ _ _ _ SO)). }
    split.
    - unfold lists_in. cbn [ls_error ls_b ls_R ls_W]. split; [exact FR|]. rewrite map_length, <- LEN. split; [split; [exact ER|apply EA]|].
      split; [intros C; destruct (BB C) as (D & AL); split; [exact D|apply AL]|]. split.
      + intros C. destruct (RR C) as (D & AL). exists dr. split; [exact D|]. intros sta I. destruct (AL sta I) as (l & DL & AA).
        rewrite DL. split; [reflexivity|apply AA].
      + exists d. split; [exact EV|]. intros ev I. destruct (EV2 ev I) as (W & e & AW & DG & WW). exists e.
        rewrite DG, WW. split; [reflexivity|]. split; [reflexivity|]. rewrite map_length. apply AW.
    - intros i f band NB. destruct (nth_Forall2 _ _ _ _ _ F NB) as (x & NX & H). cbn [fst snd] in H.
      destruct x as [br|].
      + right. destruct H as (st & v & HU & (TE & TB & TR & Ws & BW & TW)). exists st, v. split; [exact HU|].
        unfold true_entries. cbn [ls_error ls_b ls_R ls_W]. split; [|split; [|split]].
        * rewrite (proj2 EA _ _ NX). cbn. now rewrite TE.
        * intros C. destruct (BB C) as (_ & AL). rewrite (proj2 AL _ _ NX). cbn. now rewrite (TB C).
        * intros C sta I. destruct (RR C) as (_ & AL). destruct (AL sta I) as (l & DL & AA). rewrite DL. unfold entry.
          rewrite (proj2 AA _ _ NX). unfold of_dict, of_band. destruct (TR C) as (Rs & BR & T). rewrite BR.
          destruct (table_get _ _ _ sta T) as [[IN ->]|[NI ->]]; auto.
        * intros ev I. destruct (EV2 ev I) as (W & e & AW & DG & WW). rewrite DG, WW. unfold entry.
          rewrite nth_error_map, (proj2 AW _ _ NX). unfold of_dict, of_band. rewrite BW.
          destruct (table_get _ _ _ ev TW) as [[IN ->]|[NI ->]]; cbn; auto.
      + left. unfold no_entries. cbn [ls_error ls_b ls_R ls_W]. split; [|split; [|split]].
        * now rewrite (proj2 EA _ _ NX).
        * intros C. destruct (BB C) as (_ & AL). now rewrite (proj2 AL _ _ NX).
        * intros C sta I. destruct (RR C) as (_ & AL). destruct (AL sta I) as (l & DL & AA). now rewrite DL, (proj2 AA _ _ NX).
        * intros ev I. destruct (EV2 ev I) as (W & e & AW & DG & WW). now rewrite DG, WW, nth_error_map, (proj2 AW _ _ NX).
  Qed.
End A.
