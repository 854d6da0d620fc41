(** Concrete cases for the properties of invert_wrapper. *)
From Coq Require Import String List Bool Reals Lra Lia ZArith Arith Permutation Sorting.Sorted.
From Verif Require Import Base Pyf PySort SortModel SortProof StatModel StatSpec StatProof CollectModel CollectSpec
  CollectProof CollectProof2 SourceProof3 InvProof2 WrapModel WrapSpec WrapProof WrapProof2 WrapProof3 WrapProof4.
Import ListNotations.
Open Scope string_scope.
Open Scope list_scope.
Open Scope R_scope.

(** events: id and origin time *)
Notation event := (string * option Z)%type.
Definition ex_same (a b : event) : bool := String.eqb (fst a) (fst b).
Definition ex_events : list event := [("A", Some 5%Z); ("C", None); ("B", Some 3%Z); ("D", Some 9%Z)].

(** results of single events, two frequencies *)
Definition ex_result (id : string) (g b e : R) (R : list (string * list pyf)) : ires :=
  {| ir_items := [("freq", VList [FNum 3; FNum 6]); ("g0", VList [FNum g; FNan]); ("b", VList [FNum b; FNan]);
                  ("error", VList [FNum e; FNan]); ("R", VSites R)];
     ir_events := [(id, [("W", VList [FNum 1; FNan])])] |}.
Definition ex_A := ex_result "A" 2 3 1 [("S", [FNum 1; FNan])].
Definition ex_B := ex_result "B" 8 5 1 [("S", [FNum 2; FNan])].
(** the event D has no result *)
Definition ex_invert (l : list event) : res (option ires) :=
  match l with
  | [(id, _)] => Ok (if String.eqb id "A" then Some ex_A else if String.eqb id "B" then Some ex_B else None)
  | _ => Err ValueError
  end.
(** another station *)
Definition ex_B2 := ex_result "B" 8 5 1 [("T", [FNum 2; FNan])].
Definition ex_invert2 (l : list event) : res (option ires) :=
  match l with
  | [(id, _)] => Ok (if String.eqb id "A" then Some ex_A else if String.eqb id "B" then Some ex_B2 else None)
  | _ => Err ValueError
  end.
Definition ex_rlm (l : list R) : R * R := (0, 0).

Notation ex_wrapper inv := (invert_wrapper (C := string) (@snd string (option Z)) ex_same fst ex_rlm false inv).

Lemma ex_order : exists l, sort_events snd ex_same ex_events = Ok l /\
  Permutation l (filter (located snd) ex_events) /\ StronglySorted (before snd) l /\
  l = [("B", Some 3%Z); ("A", Some 5%Z); ("D", Some 9%Z)].
Proof.
  destruct (sort_events_distinct snd ex_same ex_events) as (l & S & P & SS).
  - cbn. repeat constructor; cbn; intuition discriminate.
  - exists ("A", Some 5%Z). split; [now left|discriminate].
  - exists l. split; [exact S|]. split; [exact P|]. split; [exact SS|]. vm_compute in S. now injection S as <-.
Qed.

Lemma ex_distinct : NoDup (map (@fst string (option Z)) ex_events).
Proof. cbn. repeat constructor; cbn; intuition discriminate. Qed.

Lemma ex_ids ev r : In ev ex_events -> ex_invert [ev] = Ok (Some r) ->
  (ev = ("A", Some 5%Z) /\ r = ex_A) \/ (ev = ("B", Some 3%Z) /\ r = ex_B).
Proof. intros I. cbn in I. destruct I as [<-|[<-|[<-|[<-|[]]]]]; cbn; intros H; try discriminate; injection H as <-; auto. Qed.

Lemma ex_result_proper id g b e s : NoDup (map fst s) -> proper (ex_result id g b e s).
Proof.
  intros N. split; [cbn; repeat constructor; cbn; intuition discriminate|]. split; [|split].
  - intros i d. cbn. destruct (String.eqb i id); [|discriminate]. intros [= <-]. cbn. repeat constructor. auto.
  - intros d. cbn. now intros [= <-].
  - intros i d s'. cbn. destruct (String.eqb i id); [|discriminate]. intros [= <-]. discriminate.
Qed.

Lemma ex_proper : forall ev r, In ev ex_events -> ex_invert [ev] = Ok (Some r) -> proper r.
Proof.
  intros ev r I H. destruct (ex_ids ev r I H) as [[-> ->]|[-> ->]]; apply ex_result_proper; cbn; repeat constructor; auto.
Qed.

(** values of the result of an event *)
Lemma ex_event_values id g b e s d : event_result (ex_result id g b e s) id d ->
  dget String.eqb d "g0" = Some (VList [FNum g; FNan]) /\ dget String.eqb d "b" = Some (VList [FNum b; FNan]) /\
  dget String.eqb d "error" = Some (VList [FNum e; FNan]) /\ dget String.eqb d "R" = Some (VSites s) /\
  dget String.eqb d "W" = Some (VList [FNum 1; FNan]) /\ dget String.eqb d "freq" = None.
Proof.
  intros H. do 5 (split; [rewrite H; cbn; rewrite String.eqb_refl; reflexivity|]). rewrite H. cbn. now rewrite String.eqb_refl.
Qed.

Lemma ex_usable id g b e s : usable false id (ex_result id g b e s).
Proof.
  split; [discriminate|]. split; [left; cbn; rewrite String.eqb_refl; discriminate|]. split.
  - cbn. intuition (subst; tauto).
  - intros d k. cbn. rewrite String.eqb_refl. intros [= <-]. cbn. intuition (subst; tauto).
Qed.

Lemma ex_mean_values id g b e sta x d : event_result (ex_result id g b e [(sta, [x; FNan])]) id d ->
  mean_values 2 d /\ complete d.
Proof.
  intros H. apply ex_event_values in H. destruct H as (G & B & E & S & _). split; [split|split].
  - intros c v [<-|[<-|[<-|[]]]]; rewrite ?G, ?B, ?E; intros [= <-]; eexists; (split; reflexivity).
  - intros v. rewrite S. intros [= <-]. eexists. split; [reflexivity|]. intros st l [Q|[]]. injection Q as <- <-. reflexivity.
  - rewrite E. discriminate.
  - rewrite B. discriminate.
Qed.

Lemma ex_total_hyp : forall ev, In ev ex_events -> ex_invert [ev] = Ok None \/
  exists r, ex_invert [ev] = Ok (Some r) /\ usable false (fst ev) r /\ proper r /\
    forall d, event_result r (fst ev) d -> mean_values 2 d /\ complete d.
Proof.
  intros ev I. destruct (ex_invert [ev]) as [[r|]|] eqn:E; [right|now left|].
  - exists r. split; [reflexivity|]. assert (P := ex_proper ev r I E).
    destruct (ex_ids ev r I E) as [[-> ->]|[-> ->]]; (split; [apply ex_usable|]); (split; [exact P|]); intros d D; apply ex_mean_values in D; exact D.
  - cbn in I. destruct I as [<-|[<-|[<-|[<-|[]]]]]; discriminate.
Qed.

Lemma ex_weighted_hyp : forall ev1 ev2 r1 r2 d1 d2, In ev1 ex_events -> In ev2 ex_events ->
  ex_invert [ev1] = Ok (Some r1) -> ex_invert [ev2] = Ok (Some r2) ->
  event_result r1 (fst ev1) d1 -> event_result r2 (fst ev2) d2 ->
  dget String.eqb d1 "g0" <> None /\ same_stations d1 d2.
Proof.
  intros ev1 ev2 r1 r2 d1 d2 I1 I2 E1 E2 D1 D2.
  destruct (ex_ids ev1 r1 I1 E1) as [[-> ->]|[-> ->]], (ex_ids ev2 r2 I2 E2) as [[-> ->]|[-> ->]];
    apply ex_event_values in D1, D2; destruct D1 as (G1 & _ & _ & S1 & _), D2 as (_ & _ & _ & S2 & _);
    (split; [rewrite G1; discriminate|]); intros sta; unfold site_of; rewrite S1, S2; cbn;
    (destruct (String.eqb sta "S"); [discriminate|congruence]).
Qed.

Lemma ex_sort : exists l, sort_events snd ex_same ex_events = Ok l.
Proof. destruct ex_order as (l & S & _). eauto. Qed.

Lemma ex_some mean : exists r, ex_wrapper ex_invert false mean [("v0", "3500")] ex_events = Ok (Some r).
Proof.
  destruct (wrapper_total snd ex_same fst ex_rlm false ex_invert 2 mean [("v0", "3500")] ex_events ex_sort ex_total_hyp (fun _ => ex_weighted_hyp)) as ([r|] & H); [eauto|].
  exfalso. assert (I : In ("A", Some 5%Z) ex_events) by now left.
  assert (E : event_result ex_A "A" [("W", VList [FNum 1; FNan]); ("g0", VList [FNum 2; FNan]); ("b", VList [FNum 3; FNan]);
                  ("error", VList [FNum 1; FNan]); ("R", VSites [("S", [FNum 1; FNan])])]).
  { intros k. cbn. destruct (String.eqb k "W") eqn:K1; [reflexivity|]. destruct (String.eqb k "freq") eqn:K2; [|reflexivity].
    apply String.eqb_eq in K2. subst k. reflexivity. }
  assert (Q := wrapper_none snd ex_same fst ex_rlm false ex_invert mean [("v0", "3500")] ex_events ex_distinct ex_proper H
    ("A", Some 5%Z) ex_A _ _ (FNum 2) I ltac:(discriminate) eq_refl E eq_refl (or_introl eq_refl)). discriminate.
Qed.

Lemma gm_ex : geometric_mean [8; 2] = 4.
Proof.
  unfold geometric_mean. cbn [prod fold_right List.length]. replace (/ INR 2) with (/ 2) by (cbn; lra).
  rewrite Rpower_sqrt by lra. replace (8 * (2 * 1)) with (4 * 4) by lra. apply sqrt_square. lra.
Qed.

(** plain mean of g0: sqrt(8*2), and None where all values are missing *)
Lemma ex_means : exists r, ex_wrapper ex_invert false None [("v0", "3500")] ex_events = Ok (Some r) /\
  dget String.eqb r "g0" = Some (TMean [Some 4; None]).
Proof.
  destruct (ex_some None) as (r & H). exists r. split; [exact H|].
  destruct (wrapper_separate snd ex_same fst ex_rlm false ex_invert None [("v0", "3500")] ex_events r ex_proper H)
    as (order & st & r0 & conf & S & E & A & SN & G & _).
  vm_compute in S. injection S as <-.
  destruct (add_means_spec ex_rlm None st r0 A SN) as (_ & _ & _ & _ & _ & _ & G0 & _).
  assert (L : lists_of "g0" (ws_events st) = [[FNum 8; FNan]; [FNum 2; FNan]]).
  { cbn -[IZR] in E. injection E as <-. reflexivity. }
  assert (X : exists e, In e (ws_events st) /\ dget String.eqb (snd e) "g0" <> None).
  { cbn -[IZR] in E. injection E as <-. eexists. split; [now left|]. discriminate. }
  destruct (G0 X "g0" (or_introl eq_refl)) as (l & Gl & (AV & _)). rewrite G by discriminate. rewrite Gl. do 2 f_equal.
  destruct (AV ltac:(discriminate)) as [_ M]. destruct (M ltac:(discriminate)) as [M1 M2]. rewrite L in M1, M2.
  assert (LL := M1 _ (or_introl eq_refl)). cbn [List.length] in LL. destruct l as [|a [|b [|]]]; try discriminate.
  assert (V0 := M2 0%nat ltac:(cbn; lia)). assert (V1 := M2 1%nat ltac:(cbn; lia)).
  unfold mean_of, at_freq in V0, V1. cbn [map nth valid_data valid] in V0, V1. rewrite V1.
  destruct (Rlt_dec 0 8) as [_|N] in V0; [|lra]. destruct (Rlt_dec 0 2) as [_|N] in V0; [|lra].
  destruct V0 as [V0 _]. rewrite V0 by now left. now rewrite gm_ex.
Qed.

(** weighted mean with a station that is missing for one event *)
Lemma ex_missing : ex_wrapper ex_invert2 false (Some "weighted") [("v0", "3500")] ex_events = Err TypeError.
Proof.
  unfold invert_wrapper. replace (sort_events snd ex_same ex_events) with (Ok [("B", Some 3%Z); ("A", Some 5%Z); ("D", Some 9%Z)]) by reflexivity.
  cbn [bind].
  match goal with |- context [each_event ?a ?b ?c ?d ?e] => set (E := each_event a b c d e); cbn -[IZR] in E; unfold E; clear E end.
  cbn [bind]. unfold add_means. cbn [ws_events].
  match goal with |- context [collect_results ?a ?b ?c] => set (K := collect_results a b c); cbn -[IZR] in K; unfold K; clear K end.
  cbn [bind]. 
  change (dmem String.eqb _ "g0") with true. cbv iota.
  change (collected_table _ "g0") with (Ok (A := list (list pyf)) [[FNum 8; FNan]; [FNum 2; FNan]]).
  cbn [bind all_nan forallb fisnan andb]. unfold weights_of. cbn [String.eqb Ascii.eqb Bool.eqb].
  change (collected_table _ "error") with (Ok (A := list (list pyf)) [[FNum 1; FNan]; [FNum 1; FNan]]). cbn [bind].
  unfold mean_g0. change (dmem String.eqb _ "g0") with true. cbv iota.
  change (collected_table _ "g0") with (Ok (A := list (list pyf)) [[FNum 8; FNan]; [FNum 2; FNan]]).
  change (collected_table _ "b") with (Ok (A := list (list pyf)) [[FNum 5; FNan]; [FNum 3; FNan]]). cbn [bind].
  change (robust_of (Some "weighted")) with false.
  destruct (mean_list_weighted_total ex_rlm [[FNum 8; FNan]; [FNum 2; FNan]] [[FNum 1; FNan]; [FNum 1; FNan]] eq_refl eq_refl) as (l1 & ->). cbn [bind].
  destruct (mean_list_weighted_total ex_rlm [[FNum 5; FNan]; [FNum 3; FNan]] [[FNum 1; FNan]; [FNum 1; FNan]] eq_refl eq_refl) as (l2 & ->). cbn [bind].
  unfold mean_error. change (collected_table _ "error") with (Ok (A := list (list pyf)) [[FNum 1; FNan]; [FNum 1; FNan]]). cbn [bind].
  destruct (mean_list_weighted_total ex_rlm [[FNum 1; FNan]; [FNum 1; FNan]] [[FNum 1; FNan]; [FNum 1; FNan]] eq_refl eq_refl) as (l3 & ->). cbn [bind].
  reflexivity.
Qed.

Lemma ex_one_event : exists l, sort_events snd ex_same [("D", Some 9%Z)] = Ok l.
Proof. eexists. reflexivity. Qed.

Lemma ex_simultaneous : exists r, ex_wrapper (fun _ => Ok (Some ex_A)) true None [("v0", "3500")] ex_events = Ok (Some r) /\
  dget String.eqb r "g0" = Some (TVal (VList [FNum 2; FNan])).
Proof. eexists. split; reflexivity. Qed.

(** weighted: the errors of the valid values are positive *)
Lemma ex_errors : errors_positive (at_freq 0 [[FNum 8; FNan]; [FNum 2; FNan]]) (at_freq 0 [[FNum 1; FNan]; [FNum 1; FNan]]).
Proof. intros [|[|[|i]]] x; cbn -[IZR Rlt_dec]; intros H; try discriminate; exists 1; (split; [reflexivity|lra]). Qed.
