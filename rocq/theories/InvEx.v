(** Concrete cases for the properties of the second half of the inversion. *)
From Coq Require Import String List Bool Reals Lra Lia ZArith Arith Permutation.
From Verif Require Import EventSpec Base Pyf FreqsModel FreqsProof SortModel EventModel SourceModel SourceProof4 SourceEx LsqfbModel LsqfbEx
  InvModel InvSpec InvProof InvProof2.
Import ListNotations.
Open Scope string_scope.
Open Scope list_scope.
Open Scope R_scope.

(** three bands; the second one without result *)
Definition bands_ex : bands := [(3, (2, 4)); (6, (4, 8)); (12, (8, 16))].

Definition band_ex (g b w r : R) : bandres R :=
  {| br_g0 := Some g; br_b := Some b; br_W := Some [("1", w)]; br_R := Some [("A", r)];
     br_n := 1; br_error := 1; br_v0 := 3 |}.

Definition rlist_ex : list (option (bandres R)) := [Some (band_ex 1 2 3 4); None; Some (band_ex 5 6 7 8)].

Lemma arrange_ex : exists r d e,
  NoDup ["A"; "B"] /\ NoDup ["1"] /\ List.length rlist_ex = List.length bands_ex /\
  InvModel.arrange Go false (fun l => l) (fun _ _ (e : list (option R)) _ => Ok e) ["A"; "B"] ["1"] bands_ex rlist_ex = Ok (Some r) /\
  dget String.eqb r "g0" = Some (RNums [Some 1; None; Some 5]) /\
  dget String.eqb r "nstations" = Some (RCounts [1; 0; 1]%nat) /\
  dget String.eqb r "R" = Some (RSites d) /\
  dget String.eqb d "A" = Some [Some 4; None; Some 8] /\ dget String.eqb d "B" = Some [None; None; None] /\
  dget String.eqb r "events" = Some (REvents e) /\ dget String.eqb e "1" = Some [Some 3; None; Some 7].
Proof.
  pose (go := InvModel.arrange Go false (fun l => l) (fun _ _ (e : list (option R)) _ => Ok e)
    ["A"; "B"] ["1"] bands_ex rlist_ex).
  pose (r := match go with Ok (Some r) => r | _ => [] end).
  exists r, (match dget String.eqb r "R" with Some (RSites d) => d | _ => [] end),
    (match dget String.eqb r "events" with Some (REvents e) => e | _ => [] end).
  split; [repeat constructor; cbn; intuition discriminate|]. split; [repeat constructor; auto|].
  split; [reflexivity|]. repeat (split; [vm_compute; reflexivity|]). reflexivity.
Qed.

(** with the source spectra *)
Lemma event_ex : exists e,
  event_source (fun _ => 0) (fun _ => ols2) (oracle1 10) (oracleN []) (Some 2700) None (Smo fopts_default)
    (fun _ => None) [3; 6] "1" (event_W [Some 3; None]) (Some 3500) = Ok e /\
  dget String.eqb e "W" = Some (VList [Some 3; None]).
Proof.
  assert (T3 : truthy (Some 3) = Some 3) by (unfold truthy; destruct (Req_EM_T 3 0); [lra|reflexivity]).
  assert (T1 : truthy (Some 2700) = Some 2700) by (unfold truthy; destruct (Req_EM_T 2700 0); [lra|reflexivity]).
  assert (T2 : truthy (Some 3500) = Some 3500) by (unfold truthy; destruct (Req_EM_T 3500 0); [lra|reflexivity]).
  assert (X : exists e, event_source (fun _ => 0) (fun _ => ols2) (oracle1 10) (oracleN []) (Some 2700) None (Smo fopts_default)
    (fun _ => None) [3; 6] "1" (event_W [Some 3; None]) (Some 3500) = Ok e).
  { unfold event_source, insert_source_properties, insert_source_inplace.
    change (dget String.eqb (dsetdefault String.eqb (event_W [Some 3; None]) "sds" (VList [])) "W")
      with (Some (VList [Some 3; None])). cbv iota beta.
    unfold insert_spectra, start_spectra. rewrite T1, T2. cbv iota beta zeta.
    change (combine (seq 0 (List.length [3; 6])) [3; 6]) with [(0%nat, 3); (1%nat, 6)]. cbn [mapM fst snd].
    unfold sds_entry. cbn [nth_error]. rewrite T1, T2, T3. change (truthy None) with (@None R).
    eexists. reflexivity. }
  destruct X as (e & X). exists e. split; [exact X|].
  exact (proj1 (event_source_W _ _ _ _ _ _ _ _ _ _ _ _ _ X)).
Qed.

(** results for fixed parameters in another order of the frequencies *)
Definition input_ex : finput R :=
  {| fi_freq := [12; 3; 6]; fi_g0 := [Some 5; Some 1; None]; fi_b := [Some 6; Some 2; None];
     fi_R := [("A", [Some 8; Some 4; None]); ("B", [None; Some 9; None])] |}.

Lemma fix_ex : NoDup (map snd bands_ex) /\ NoDup (fi_freq input_ex) /\ NoDup (map fst (fi_R input_ex)) /\
  exists kw p s, fix_kw Source bands_ex (Some input_ex) = Ok kw /\
    kw_fix kw = Some p /\ dget band_eqb p (2, 4) = Some (Some 1, Some 2) /\
    kw_fix_sites kw = Some s /\ dget band_eqb s (8, 16) = Some [("A", 8)].
Proof.
  assert (NB : NoDup (map snd bands_ex)).
  { cbn. repeat constructor; cbn; intuition; match goal with H : (_, _) = _ |- _ => injection H; intros; lra end. }
  assert (NF : NoDup (fi_freq input_ex)) by (cbn; repeat constructor; cbn; intuition lra).
  assert (NR : NoDup (map fst (fi_R input_ex))) by (cbn; repeat constructor; cbn; intuition discriminate).
  split; [exact NB|]. split; [exact NF|]. split; [exact NR|].
  destruct (fix_kw_ok Source bands_ex input_ex) as (kw & K).
  { intros x. cbn. tauto. }
  { intros _ sta l [E|[E|[]]]; injection E as <- <-; cbn; lia. }
  assert (E3 : dget reqb bands_ex 3 = Some (2, 4)).
  { apply (dget_nodup _ reqb_spec); [cbn; repeat constructor; cbn; intuition lra|]. cbn. auto. }
  assert (E12 : dget reqb bands_ex 12 = Some (8, 16)).
  { apply (dget_nodup _ reqb_spec); [cbn; repeat constructor; cbn; intuition lra|]. cbn. auto. }
  destruct (fix_kw_spec Source bands_ex input_ex kw NB NF NR K 1 3 (2, 4) eq_refl E3) as (H & _).
  destruct H as (p & P1 & P2); [discriminate|].
  assert (S : exists s, kw_fix_sites kw = Some s /\ dget band_eqb s (8, 16) = Some [("A", 8)]).
  { cbn [fix_kw] in K. destruct (fix_params bands_ex input_ex); [|discriminate]. cbn [bind] in K.
    destruct (fix_sites_params bands_ex input_ex) as [q|] eqn:Q; [|discriminate]. cbn [bind] in K. injection K as <-.
    exists q. split; [reflexivity|]. unfold fix_sites_params in Q. cbn [fi_freq input_ex List.length seq combine mapM] in Q.
    unfold getitem in Q. cbn [snd fst] in Q. rewrite E12, E3 in Q. cbn [bind] in Q.
    change (sites_of (fi_R input_ex) 0) with (@Ok (list (string * R)) [("A", 8)]) in Q. cbn [bind] in Q.
    change (sites_of (fi_R input_ex) 1) with (@Ok (list (string * R)) [("A", 4); ("B", 9)]) in Q. cbn [bind] in Q.
    change (sites_of (fi_R input_ex) 2) with (@Ok (list (string * R)) []) in Q. cbn [bind] in Q.
    destruct (dget reqb bands_ex 6) as [b6|] eqn:E6; [|discriminate]. cbn [bind] in Q. injection Q as <-.
    assert (B6 : b6 = (4, 8)).
    { assert (X : dget reqb bands_ex 6 = Some (4, 8)); [|congruence].
      apply (dget_nodup _ reqb_spec); [cbn; repeat constructor; cbn; intuition lra|]. cbn. auto. }
    subst b6. unfold dict_of. apply (dupdate_get_in _ band_eqb_spec); [|now left].
    cbn. repeat constructor; cbn; intuition; match goal with H : (_, _) = _ |- _ => injection H; intros; lra end. }
  destruct S as (s & S1 & S2). exists kw, p, s. split; [exact K|]. split; [exact P1|]. split; [|auto].
  apply P2; reflexivity.
Qed.

(** streams with the filters applied to them *)
Lemma pool_ex : (0 < 2)%nat /\ (List.length [1; 2; 3]%nat <= 4 * 2)%nat /\
  Permutation [2; 0; 1]%nat (seq 0 (List.length [1; 2; 3]%nat)) /\
  run_pool (fun b s => (b :: s, Ok (b :: s))) 2 [2; 0; 1]%nat [1; 2; 3]%nat [] = Ok [[1]; [2]; [3]]%nat.
Proof.
  split; [lia|]. split; [cbn; lia|]. split; [|reflexivity].
  apply NoDup_Permutation; [repeat constructor; cbn; lia|repeat constructor; cbn; lia|]. cbn. lia.
Qed.

Lemma expected_ex : Forall (expected Go false) rlist_ex /\ ~ expected Fixed false (Some (band_ex 1 2 3 4)).
Proof.
  split.
  - repeat constructor; cbn; intuition congruence.
  - cbn. intros (H & _). destruct H; [discriminate|]. discriminate.
Qed.

Lemma expected_run : l_fix go_ex = is_fix Go /\ l_coda_norm go_ex = false /\
  exists r s, invert_band go_ex st_ex 3 = Ok (Some r, s) /\ fb_g0 r = Some (FNum (1 / 5)).
Proof. split; [reflexivity|]. split; [reflexivity|]. destruct go_run as (r & s & H1 & H2 & _). eauto. Qed.

Lemma rest_ex : exists r d,
  (0 < 1)%nat /\ (List.length bands_ex <= 4 * 1)%nat /\
  Permutation [2; 0; 1]%nat (seq 0 (List.length bands_ex)) /\
  invert_rest Go false false (fun f => run_pool f 1 [2; 0; 1]%nat)
    (fun _ band s => (band :: s, Ok (Some (band_ex (fst band) 2 3 4))))
    (fun l => l) (fun _ _ (e : list (option R)) _ => Ok e) None ["A"] ["1"] bands_ex [] = Ok (Some r) /\
  dget String.eqb r "g0" = Some (RNums d) /\ d = [Some 2; Some 4; Some 8].
Proof.
  pose (go := invert_rest Go false false (fun f => run_pool f 1 [2; 0; 1]%nat)
    (fun _ band s => (band :: s, Ok (Some (band_ex (fst band) 2 3 4))))
    (fun l => l) (fun _ _ (e : list (option R)) _ => Ok e) None ["A"] ["1"] bands_ex []).
  exists (match go with Ok (Some r) => r | _ => [] end), [Some 2; Some 4; Some 8].
  split; [lia|]. split; [cbn; lia|]. split.
  { apply NoDup_Permutation; [repeat constructor; cbn; lia|repeat constructor; cbn; lia|]. cbn. lia. }
  split; [vm_compute; reflexivity|]. split; [vm_compute|]; reflexivity.
Qed.

(** more bands than four times the jobs: the streams are not changed *)
Lemma pool_many_ex :
  (forall b b' s, snd ((fun (b s : nat) => (s, Ok (b + s)%nat)) b' (fst ((fun (b s : nat) => (s, @Ok nat (b + s)%nat)) b s))) =
                  snd ((fun (b s : nat) => (s, @Ok nat (b + s)%nat)) b' s)) /\
  Permutation [2; 0; 1]%nat (seq 0 (List.length (chunks (chunksize (List.length (seq 1 6)) 1) (seq 1 6)))) /\
  run_pool (fun b s => (s, Ok (b + s)%nat)) 1 [2; 0; 1]%nat (seq 1 6) 7%nat = Ok [8; 9; 10; 11; 12; 13]%nat.
Proof.
  split; [reflexivity|]. split; [|reflexivity].
  change (seq 0 _) with [0; 1; 2]%nat.
  apply NoDup_Permutation; [repeat constructor; cbn; lia|repeat constructor; cbn; lia|]. cbn. lia.
Qed.

(** two stations with the same name in different networks *)
Lemma ignored_ex : exists r d,
  invert_rest Go false true (fun f => run_serial f)
    (fun _ band s => (band :: s, Ok (Some (band_ex (fst band) 2 3 4))))
    (fun l => l) (fun _ _ (e : list (option R)) _ => Ok e) None
    (map (fun i => let '(n, s, l, c) := i in get_station (seed n s l c))
       [("GR", "WET", "", "BHZ"); ("CH", "WET", "", "BHZ")]) ["1"] bands_ex [] = Ok (Some r) /\
  dget String.eqb r "R" = Some (RSites d) /\ map fst d = ["WET"].
Proof.
  pose (go := invert_rest Go false true (fun f => run_serial f)
    (fun _ band s => (band :: s, Ok (Some (band_ex (fst band) 2 3 4))))
    (fun l => l) (fun _ _ (e : list (option R)) _ => Ok e) None
    (map (fun i => let '(n, s, l, c) := i in get_station (seed n s l c))
       [("GR", "WET", "", "BHZ"); ("CH", "WET", "", "BHZ")]) ["1"] bands_ex []).
  pose (r := match go with Ok (Some r) => r | _ => [] end).
  exists r, (match dget String.eqb r "R" with Some (RSites d) => d | _ => [] end).
  split; [vm_compute; reflexivity|]. split; [vm_compute|]; reflexivity.
Qed.

(** bands without g0 *)
Lemma no_g0_ex :
  InvModel.arrange Go false (fun l => l) (fun _ _ (e : list (option R)) _ => Ok e) ["A"] ["1"] bands_ex
    [None; Some {| br_g0 := None; br_b := None; br_W := None; br_R := None; br_n := 0; br_error := 1; br_v0 := 2 |}; None] = Ok None.
Proof. vm_compute. reflexivity. Qed.

Lemma ex_short : exists fp : finput R, (forall x, In x (fi_freq fp) <-> In x (dkeys bands_ex)) /\
  In ("A", [Some 1]) (fi_R fp) /\ (List.length [Some 1] < List.length (fi_freq fp))%nat.
Proof.
  exists {| fi_freq := [12; 3; 6]; fi_g0 := []; fi_b := []; fi_R := [("A", [Some 1])] |}.
  split; [cbn; tauto|]. split; [now left|]. cbn. lia.
Qed.
