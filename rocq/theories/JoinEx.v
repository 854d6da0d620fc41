(** Concrete areas. *)
From Coq Require Import String List Bool Reals Lra Lia Arith Relations.
From Verif Require Import Base JoinModel JoinSpec JoinProof JoinProof2 JoinProof3.
Import ListNotations.
Open Scope string_scope.
Open Scope list_scope.
Open Scope R_scope.

(** all points are corners, at least three are needed *)
Definition hull_c (pts : list (R * R)) : res (list nat) :=
  if Nat.ltb (List.length pts) 3 then Err OtherError else Ok (seq 0 (List.length pts)).
(** squared distance in the plane, in m *)
Definition dist_c (p q : R * R) : R := 1000 * ((fst p - fst q) ^ 2 + (snd p - snd q) ^ 2).
Definition at_c (code : string) (x y : R) : inv_station :=
  {| i_net := "N"; i_code := code; i_channels := [(x, y)]; i_lat := 0; i_lon := 0 |}.

Lemma dist_c_sym p q : dist_c p q = dist_c q p.
Proof. unfold dist_c. ring. Qed.

Lemma or_num_nz x y : x <> 0 -> or_num x y = x.
Proof. unfold or_num. destruct (Req_EM_T x 0); congruence. Qed.

(** four areas in a row *)
Definition inv_c : list inv_station :=
  [at_c "a1" 7 1; at_c "a2" 6 20; at_c "a3" 8 20; at_c "b1" 10 1; at_c "b2" 9 40; at_c "b3" 11 40;
   at_c "c1" 12 1; at_c "c2" 11 60; at_c "c3" 13 60; at_c "d1" 16 1; at_c "d2" 15 80; at_c "d3" 17 80].
Definition coords_c : list (string * (R * R)) :=
  [("N.a1", (7, 1)); ("N.a2", (6, 20)); ("N.a3", (8, 20)); ("N.b1", (10, 1)); ("N.b2", (9, 40)); ("N.b3", (11, 40));
   ("N.c1", (12, 1)); ("N.c2", (11, 60)); ("N.c3", (13, 60)); ("N.d1", (16, 1)); ("N.d2", (15, 80)); ("N.d3", (17, 80))].
Definition areas_c : list (string * list string) :=
  [("A", ["N.a1"; "N.a2"; "N.a3"]); ("B", ["N.b1"; "N.b2"; "N.b3"]);
   ("C", ["N.c1"; "N.c2"; "N.c3"]); ("D", ["N.d1"; "N.d2"; "N.d3"])].

Lemma coords_c_ok : collect_coordinates inv_c = Ok coords_c.
Proof. unfold collect_coordinates. cbn -[or_num]. rewrite !or_num_nz by lra. reflexivity. Qed.

Lemma located_c s p : located inv_c s p <-> In (s, p) coords_c.
Proof.
  rewrite <- (collect_ok _ _ coords_c_ok). split.
  - apply (dget_In _ string_eqb_spec).
  - apply (dget_nodup _ string_eqb_spec). cbn. repeat (constructor; [cbn; intuition discriminate|]). constructor.
Qed.

Lemma apart_c : all_apart inv_c.
Proof.
  intros s t p S T. apply located_c in S, T. cbn in S, T.
  repeat match type of S with _ \/ _ => destruct S as [S|S] end; try contradiction; injection S as <- <-;
  repeat match type of T with _ \/ _ => destruct T as [T|T] end; try contradiction; try congruence;
    exfalso; injection T; intros; lra.
Qed.

Lemma nodup_c : NoDup (map fst areas_c).
Proof. cbn. repeat (constructor; [cbn; intuition discriminate|]). constructor. Qed.

Lemma has_hulls_c : has_hulls hull_c inv_c areas_c.
Proof.
  split; [repeat (constructor; [discriminate|]); constructor|].
  intros a sts I. cbn in I. destruct I as [I|[I|[I|[I|[]]]]]; injection I as <- <-.
  - exists [(7, 1); (6, 20); (8, 20)], [0; 1; 2]%nat. split; [repeat constructor; apply located_c; cbn; auto 20|]. split; [reflexivity|]. split; [discriminate|]. cbn; repeat constructor.
  - exists [(10, 1); (9, 40); (11, 40)], [0; 1; 2]%nat. split; [repeat constructor; apply located_c; cbn; auto 20|]. split; [reflexivity|]. split; [discriminate|]. cbn; repeat constructor.
  - exists [(12, 1); (11, 60); (13, 60)], [0; 1; 2]%nat. split; [repeat constructor; apply located_c; cbn; auto 20|]. split; [reflexivity|]. split; [discriminate|]. cbn; repeat constructor.
  - exists [(16, 1); (15, 80); (17, 80)], [0; 1; 2]%nat. split; [repeat constructor; apply located_c; cbn; auto 20|]. split; [reflexivity|]. split; [discriminate|]. cbn; repeat constructor.
Qed.

Lemma hulls_c_ok : area_hulls hull_c coords_c areas_c = Ok areas_c.
Proof.
  unfold area_hulls, areas_c. cbn [mapM fst snd]. unfold area_hull.
  change (mapM (lookup String.eqb coords_c) ["N.a1"; "N.a2"; "N.a3"]) with (Ok [(7, 1); (6, 20); (8, 20)]).
  change (mapM (lookup String.eqb coords_c) ["N.b1"; "N.b2"; "N.b3"]) with (Ok [(10, 1); (9, 40); (11, 40)]).
  change (mapM (lookup String.eqb coords_c) ["N.c1"; "N.c2"; "N.c3"]) with (Ok [(12, 1); (11, 60); (13, 60)]).
  change (mapM (lookup String.eqb coords_c) ["N.d1"; "N.d2"; "N.d3"]) with (Ok [(16, 1); (15, 80); (17, 80)]).
  cbn [bind hull_c List.length Nat.ltb Nat.leb seq mapM nth_error].
  assert (L : forall s p, In (s, p) coords_c -> lookup coord_eqb (station_by_coordinate coords_c) p = Ok s).
  { intros s p I. apply (station_at inv_c coords_c coords_c_ok apart_c). now apply located_c. }
  rewrite (L "N.a1" (7, 1)), (L "N.a2" (6, 20)), (L "N.a3" (8, 20)), (L "N.b1" (10, 1)), (L "N.b2" (9, 40)), (L "N.b3" (11, 40)),
    (L "N.c1" (12, 1)), (L "N.c2" (11, 60)), (L "N.c3" (13, 60)), (L "N.d1" (16, 1)), (L "N.d2" (15, 80)), (L "N.d3" (17, 80)) by (cbn; auto 20).
  reflexivity.
Qed.

Lemma km_c s t d p q : km1 dist_c inv_c s t d -> In (s, p) coords_c -> In (t, q) coords_c -> d = dist_c p q / 1000.
Proof.
  intros (p' & q' & P & Q & ->) S T. apply located_c in S, T.
  apply (collect_ok _ _ coords_c_ok) in P, Q, S, T. congruence.
Qed.

Lemma pair_dist s t p q : In (s, p) coords_c -> In (t, q) coords_c -> km1 dist_c inv_c s t (dist_c p q / 1000).
Proof. intros S T. exists p, q. rewrite !located_c. auto. Qed.

Lemma closest h1 h2 x y p q r : In x h1 -> In y h2 -> In (x, p) coords_c -> In (y, q) coords_c -> h1 <> [] -> h2 <> [] ->
  (forall z, In z h1 \/ In z h2 -> exists p, In (z, p) coords_c) -> r = dist_c p q / 1000 ->
  (forall x' y' p' q', In x' h1 -> In y' h2 -> In (x', p') coords_c -> In (y', q') coords_c -> (x', y') <> (x, y) -> r < dist_c p' q' / 1000) ->
  area_distance dist_c coords_c h1 h2 = Ok (r, (x, y)).
Proof.
  intros X Y P Q N1 N2 L -> S. destruct (area_distance_total dist_c inv_c coords_c coords_c_ok h1 h2 N1 N2) as [[e [s t]] E].
  { intros z Z. destruct (L z Z) as [w W]. exists w. now apply located_c. }
  rewrite E. apply (area_distance_ok dist_c inv_c coords_c coords_c_ok) in E. cbn [fst snd] in E. destruct E as (Is & It & K & LO).
  pose proof (LO x y _ X Y (pair_dist _ _ _ _ P Q)) as B.
  destruct (L s (or_introl Is)) as [p' P']. destruct (L t (or_intror It)) as [q' Q'].
  pose proof (km_c _ _ _ _ _ K P' Q') as EK.
  destruct (string_dec s x) as [->|N]; [destruct (string_dec t y) as [->|N']|].
  - rewrite (km_c _ _ _ _ _ K P Q). reflexivity.
  - pose proof (S x t p' q' Is It P' Q' ltac:(congruence)). lra.
  - pose proof (S s t p' q' Is It P' Q' ltac:(congruence)). lra.
Qed.

Ltac closest_c p q :=
  apply (closest _ _ _ _ p q);
  [cbn; tauto|cbn; tauto|cbn; tauto|cbn; tauto|discriminate|discriminate
  |intros z Z; cbn in Z; repeat match type of Z with _ \/ _ => destruct Z as [Z|Z] end; try contradiction; subst z; eexists; cbn;
     repeat ((left; reflexivity) || right)
  |unfold dist_c; cbn [fst snd]; lra
  |let x' := fresh in let y' := fresh in let p' := fresh in let q' := fresh in
   intros x' y' p' q' X Y P Q N; cbn in X, Y;
   repeat match type of X with _ \/ _ => destruct X as [X|X] end; try contradiction;
   repeat match type of Y with _ \/ _ => destruct Y as [Y|Y] end; try contradiction; subst x' y'; try congruence;
   apply located_c in P, Q; apply (collect_ok _ _ coords_c_ok) in P, Q; cbn in P, Q; injection P as <-; injection Q as <-;
   unfold dist_c; cbn [fst snd]; lra].

Lemma d_ab : area_distance dist_c coords_c ["N.a1"; "N.a2"; "N.a3"] ["N.b1"; "N.b2"; "N.b3"] = Ok (9, ("N.a1", "N.b1")).
Proof. closest_c (7, 1) (10, 1). Qed.
Lemma d_ac : area_distance dist_c coords_c ["N.a1"; "N.a2"; "N.a3"] ["N.c1"; "N.c2"; "N.c3"] = Ok (25, ("N.a1", "N.c1")).
Proof. closest_c (7, 1) (12, 1). Qed.
Lemma d_ad : area_distance dist_c coords_c ["N.a1"; "N.a2"; "N.a3"] ["N.d1"; "N.d2"; "N.d3"] = Ok (81, ("N.a1", "N.d1")).
Proof. closest_c (7, 1) (16, 1). Qed.
Lemma d_bc : area_distance dist_c coords_c ["N.b1"; "N.b2"; "N.b3"] ["N.c1"; "N.c2"; "N.c3"] = Ok (4, ("N.b1", "N.c1")).
Proof. closest_c (10, 1) (12, 1). Qed.
Lemma d_bd : area_distance dist_c coords_c ["N.b1"; "N.b2"; "N.b3"] ["N.d1"; "N.d2"; "N.d3"] = Ok (36, ("N.b1", "N.d1")).
Proof. closest_c (10, 1) (16, 1). Qed.
Lemma d_cd : area_distance dist_c coords_c ["N.c1"; "N.c2"; "N.c3"] ["N.d1"; "N.d2"; "N.d3"] = Ok (16, ("N.c1", "N.d1")).
Proof. closest_c (12, 1) (16, 1). Qed.

Lemma distances_c : distances_from dist_c coords_c areas_c [] (list_prod (dkeys areas_c) (dkeys areas_c)) =
  Ok [(("A", "B"), (9, ("N.a1", "N.b1"))); (("A", "C"), (25, ("N.a1", "N.c1"))); (("A", "D"), (81, ("N.a1", "N.d1")));
      (("B", "C"), (4, ("N.b1", "N.c1"))); (("B", "D"), (36, ("N.b1", "N.d1"))); (("C", "D"), (16, ("N.c1", "N.d1")))].
Proof.
  cbn -[area_distance dist_c coords_c].
  rewrite d_ab. cbn -[area_distance dist_c coords_c].
  rewrite d_ac. cbn -[area_distance dist_c coords_c].
  rewrite d_ad. cbn -[area_distance dist_c coords_c].
  rewrite d_bc. cbn -[area_distance dist_c coords_c].
  rewrite d_bd. cbn -[area_distance dist_c coords_c].
  rewrite d_cd. cbn -[area_distance dist_c coords_c]. reflexivity.
Qed.

Lemma dist_ltb_t x y : fst x < fst y -> dist_ltb x y = true.
Proof. unfold dist_ltb. intros. destruct (Rlt_dec (fst x) (fst y)); [reflexivity|lra]. Qed.
Lemma dist_ltb_f x y : fst y < fst x -> dist_ltb x y = false.
Proof. unfold dist_ltb. intros. destruct (Rlt_dec (fst x) (fst y)); [lra|]. destruct (Req_EM_T (fst x) (fst y)); [lra|reflexivity]. Qed.

Ltac pass :=
  cbn [join_loop s_distance s_areas s_near min_item fold_left snd];
  repeat (match goal with
  | |- context [dist_ltb (?x, ?x') (?y, ?y')] =>
      first [rewrite (dist_ltb_t (x, x') (y, y')) by (cbn [fst snd]; lra)|rewrite (dist_ltb_f (x, x') (y, y')) by (cbn [fst snd]; lra)]
  end; cbv iota; cbn [snd]);
  cbn [bind fst snd];
  match goal with |- context [Rlt_dec ?x ?y] => destruct (Rlt_dec x y); [exfalso; lra|] end;
  match goal with |- context [absorb ?a ?b ?c] => let v := eval vm_compute in (absorb a b c) in change (absorb a b c) with v end;
  cbn -[num_ltb join_loop];
  repeat (match goal with
  | |- context [num_ltb (IZR ?x) (IZR ?y)] =>
      first [rewrite (proj2 (num_ltb_true (IZR x) (IZR y))) by (cbn [fst snd]; lra)|rewrite (proj2 (num_ltb_false (IZR x) (IZR y))) by (cbn [fst snd]; lra)]
  end; cbn -[num_ltb join_loop]).

Definition near_c : list (string * string) := [("N.b1", "N.a1"); ("N.c1", "N.d1"); ("N.a1", "N.b1"); ("N.d1", "N.c1")].
Definition all_c : list string :=
  ["N.a1"; "N.a2"; "N.a3"; "N.b1"; "N.b2"; "N.b3"; "N.c1"; "N.c2"; "N.c3"; "N.d1"; "N.d2"; "N.d3"].

Lemma join_c : join_unconnected_areas hull_c dist_c (fun _ => false) areas_c 20 inv_c = Ok ([("A", all_c)], near_c).
Proof.
  unfold join_unconnected_areas. rewrite coords_c_ok. cbn [bind]. rewrite hulls_c_ok. cbn [bind]. rewrite distances_c. cbn [bind List.length].
  pass. pass. destruct (Rlt_dec 20 16); [exfalso; lra|]. reflexivity.
Qed.

Lemma hyps_c : NoDup (map fst areas_c) /\ all_apart inv_c /\ (forall p q, dist_c p q = dist_c q p) /\ has_hulls hull_c inv_c areas_c /\
  exists near, join_unconnected_areas hull_c dist_c (fun _ => false) areas_c 20 inv_c = Ok ([("A", all_c)], near).
Proof.
  split; [exact nodup_c|]. split; [exact apart_c|]. split; [exact dist_c_sym|]. split; [exact has_hulls_c|]. exists near_c. exact join_c.
Qed.

Lemma links_lost : exists hull dist flip areas m inv n l near a b,
  NoDup (map fst areas) /\ all_apart inv /\ (forall p q, dist p q = dist q p) /\ has_hulls hull inv areas /\
  join_unconnected_areas hull dist flip areas m inv = Ok ([(n, l)], near) /\
  In a (map fst areas) /\ In b (map fst areas) /\ chained hull dist inv areas m a b /\
  ~ clos_refl_sym_trans string (fun x y => exists s t, (exists sx, In (x, sx) areas /\ In s sx) /\ (exists sy, In (y, sy) areas /\ In t sy) /\
      dget String.eqb near s = Some t) a b.
Proof.
  exists hull_c, dist_c, (fun _ => false), areas_c, 20, inv_c, "A", all_c, near_c, "B", "C".
  split; [exact nodup_c|]. split; [exact apart_c|]. split; [exact dist_c_sym|]. split; [exact has_hulls_c|]. split; [exact join_c|].
  split; [cbn; tauto|]. split; [cbn; tauto|]. split.
  - destruct (join_sets _ _ _ _ _ _ _ _ nodup_c apart_c dist_c_sym join_c) as (_ & X & _ & _).
    destruct (X "B") as (n & In1 & C1); [cbn; tauto|]. destruct (X "C") as (n' & In2 & C2); [cbn; tauto|].
    cbn in In1, In2. destruct In1 as [<-|[]]. destruct In2 as [<-|[]]. apply rst_trans with "A"; [apply rst_sym|]; assumption.
  - intros C.
    assert (G : forall x y, clos_refl_sym_trans string (fun x y => exists s t, (exists sx, In (x, sx) areas_c /\ In s sx) /\ (exists sy, In (y, sy) areas_c /\ In t sy) /\
      dget String.eqb near_c s = Some t) x y -> ((x = "A" \/ x = "B") <-> (y = "A" \/ y = "B"))).
    { clear. induction 1 as [x y (s & t & (sx & X & S) & (sy & Y & T) & G)| | |]; [|tauto|tauto|tauto].
      apply (dget_In _ string_eqb_spec) in G. cbn in G, X, Y.
      repeat match type of G with _ \/ _ => destruct G as [G|G] end; try contradiction; injection G as <- <-;
      repeat match type of X with _ \/ _ => destruct X as [X|X] end; try contradiction; injection X as <- <-;
      cbn in S; repeat match type of S with _ \/ _ => destruct S as [S|S] end; try contradiction; try discriminate;
      repeat match type of Y with _ \/ _ => destruct Y as [Y|Y] end; try contradiction; injection Y as <- <-;
      cbn in T; repeat match type of T with _ \/ _ => destruct T as [T|T] end; try contradiction; try discriminate;
      intuition discriminate. }
    apply G in C. intuition discriminate.
Qed.

(** two areas of three stations, one of them at the same place as another *)
Definition inv_s : list inv_station :=
  [at_c "a1" 1 1; at_c "a2" 2 50; at_c "a3" 3 50; at_c "b1" 1 1; at_c "b2" 2 (-50); at_c "b3" 3 (-50)].
Definition coords_s : list (string * (R * R)) :=
  [("N.a1", (1, 1)); ("N.a2", (2, 50)); ("N.a3", (3, 50)); ("N.b1", (1, 1)); ("N.b2", (2, -50)); ("N.b3", (3, -50))].
Definition areas_s : list (string * list string) := [("A", ["N.a1"; "N.a2"; "N.a3"]); ("B", ["N.b1"; "N.b2"; "N.b3"])].

Lemma coord_eqb_f a b c d : a <> c \/ b <> d -> coord_eqb (a, b) (c, d) = false.
Proof. intros H. unfold coord_eqb. cbn. destruct (Req_EM_T a c); [|reflexivity]. destruct (Req_EM_T b d); [|reflexivity]. tauto. Qed.
Lemma coord_eqb_t a b : coord_eqb (a, b) (a, b) = true.
Proof. now apply coord_eqb_spec. Qed.

Ltac coord_dec := repeat (match goal with
  | |- context [coord_eqb (?a, ?b) (?a, ?b)] => rewrite (coord_eqb_t a b)
  | |- context [coord_eqb (?a, ?b) (?c, ?d)] => rewrite (coord_eqb_f a b c d) by (first [left; lra|right; lra])
  end; cbn -[coord_eqb]).

Lemma by_coordinate_s : station_by_coordinate coords_s =
  [((1, 1), "N.b1"); ((2, 50), "N.a2"); ((3, 50), "N.a3"); ((2, -50), "N.b2"); ((3, -50), "N.b3")].
Proof. unfold station_by_coordinate. cbn -[coord_eqb]. coord_dec. reflexivity. Qed.

Lemma coords_s_ok : collect_coordinates inv_s = Ok coords_s.
Proof. unfold collect_coordinates. cbn -[or_num]. rewrite !or_num_nz by lra. reflexivity. Qed.

Lemma hulls_s_ok : area_hulls hull_c coords_s areas_s = Ok [("A", ["N.b1"; "N.a2"; "N.a3"]); ("B", ["N.b1"; "N.b2"; "N.b3"])].
Proof.
  unfold area_hulls, areas_s. cbn [mapM fst snd]. unfold area_hull. rewrite by_coordinate_s.
  change (mapM (lookup String.eqb coords_s) ["N.a1"; "N.a2"; "N.a3"]) with (Ok [(1, 1); (2, 50); (3, 50)]).
  change (mapM (lookup String.eqb coords_s) ["N.b1"; "N.b2"; "N.b3"]) with (Ok [(1, 1); (2, -50); (3, -50)]).
  cbn [bind hull_c List.length Nat.ltb Nat.leb seq mapM nth_error]. unfold lookup. cbn -[coord_eqb].
  coord_dec. reflexivity.
Qed.

Lemma num_ltb_f x y : y <= x -> num_ltb x y = false.
Proof. apply num_ltb_false. Qed.

Ltac num_dec := repeat (match goal with
  | |- context [num_ltb (dist_c (?a, ?b) (?c, ?d)) (dist_c (?e, ?f) (?g, ?h))] =>
      first [rewrite (num_ltb_f (dist_c (a, b) (c, d)) (dist_c (e, f) (g, h))) by (unfold dist_c; cbn [fst snd]; lra)
            |rewrite (proj2 (num_ltb_true (dist_c (a, b) (c, d)) (dist_c (e, f) (g, h)))) by (unfold dist_c; cbn [fst snd]; lra)]
  end; cbn [fst snd]).

Lemma dist_s : area_distance dist_c coords_s ["N.b1"; "N.a2"; "N.a3"] ["N.b1"; "N.b2"; "N.b3"] = Ok (0, ("N.b1", "N.b1")).
Proof.
  unfold area_distance. cbn -[dist_c num_ltb Rdiv].
  num_dec.
  f_equal. f_equal. unfold dist_c. cbn [fst snd]. lra.
Qed.

Lemma join_s : join_unconnected_areas hull_c dist_c (fun _ => false) areas_s 20 inv_s =
  Ok ([("A", ["N.a1"; "N.a2"; "N.a3"; "N.b1"; "N.b2"; "N.b3"])], [("N.b1", "N.b1")]).
Proof.
  unfold join_unconnected_areas. rewrite coords_s_ok. cbn [bind]. rewrite hulls_s_ok. cbn -[area_distance join_loop coords_s dist_c].
  rewrite dist_s. cbn -[Rlt_dec]. destruct (Rlt_dec 20 0); [exfalso; lra|]. reflexivity.
Qed.

Lemma same_place : exists hull dist flip areas m inv n l s,
  NoDup (map fst areas) /\ (forall p q, dist p q = dist q p) /\ List.length areas = 2%nat /\
  join_unconnected_areas hull dist flip areas m inv = Ok ([(n, l)], [(s, s)]).
Proof.
  exists hull_c, dist_c, (fun _ => false), areas_s, 20, inv_s. eexists. eexists. eexists.
  split; [cbn; repeat (constructor; [cbn; intuition discriminate|]); constructor|]. split; [exact dist_c_sym|]. split; [reflexivity|]. exact join_s.
Qed.

(** an area with a station just inside of its hull *)
Definition hull_i (pts : list (R * R)) : res (list nat) :=
  if Nat.eqb (List.length pts) 4 then Ok [0; 1; 2]%nat else hull_c pts.
Definition inv_i : list inv_station :=
  [at_c "a1" 1 1; at_c "a2" 1 21; at_c "a3" (-19) 11; at_c "a4" (1 / 2) 11; at_c "b1" 2 11; at_c "b2" 5 10; at_c "b3" 5 12].
Definition coords_i : list (string * (R * R)) :=
  [("N.a1", (1, 1)); ("N.a2", (1, 21)); ("N.a3", (-19, 11)); ("N.a4", (1 / 2, 11)); ("N.b1", (2, 11)); ("N.b2", (5, 10)); ("N.b3", (5, 12))].
Definition areas_i : list (string * list string) := [("A", ["N.a1"; "N.a2"; "N.a3"; "N.a4"]); ("B", ["N.b1"; "N.b2"; "N.b3"])].

Lemma coords_i_ok : collect_coordinates inv_i = Ok coords_i.
Proof. unfold collect_coordinates. cbn -[or_num]. rewrite !or_num_nz by lra. reflexivity. Qed.

Lemma located_i s p : located inv_i s p <-> In (s, p) coords_i.
Proof.
  rewrite <- (collect_ok _ _ coords_i_ok). split.
  - apply (dget_In _ string_eqb_spec).
  - apply (dget_nodup _ string_eqb_spec). cbn. repeat (constructor; [cbn; intuition discriminate|]). constructor.
Qed.

Lemma apart_i : all_apart inv_i.
Proof.
  intros s t p S T. apply located_i in S, T. cbn in S, T.
  repeat match type of S with _ \/ _ => destruct S as [S|S] end; try contradiction; injection S as <- <-;
  repeat match type of T with _ \/ _ => destruct T as [T|T] end; try contradiction; try congruence;
    exfalso; injection T; intros; lra.
Qed.

Lemma by_coordinate_i : station_by_coordinate coords_i =
  [((1, 1), "N.a1"); ((1, 21), "N.a2"); ((-19, 11), "N.a3"); ((1 / 2, 11), "N.a4"); ((2, 11), "N.b1"); ((5, 10), "N.b2"); ((5, 12), "N.b3")].
Proof. unfold station_by_coordinate. cbn -[coord_eqb]. coord_dec. reflexivity. Qed.

Lemma hulls_i_ok : area_hulls hull_i coords_i areas_i = Ok [("A", ["N.a1"; "N.a2"; "N.a3"]); ("B", ["N.b1"; "N.b2"; "N.b3"])].
Proof.
  unfold area_hulls, areas_i. cbn [mapM fst snd]. unfold area_hull. rewrite by_coordinate_i.
  change (mapM (lookup String.eqb coords_i) ["N.a1"; "N.a2"; "N.a3"; "N.a4"]) with (Ok [(1, 1); (1, 21); (-19, 11); (1 / 2, 11)]).
  change (mapM (lookup String.eqb coords_i) ["N.b1"; "N.b2"; "N.b3"]) with (Ok [(2, 11); (5, 10); (5, 12)]).
  cbn [bind hull_i hull_c List.length Nat.ltb Nat.leb Nat.eqb seq mapM nth_error]. unfold lookup. cbn -[coord_eqb].
  coord_dec. reflexivity.
Qed.

Lemma dist_i : area_distance dist_c coords_i ["N.a1"; "N.a2"; "N.a3"] ["N.b1"; "N.b2"; "N.b3"] = Ok (dist_c (1, 1) (5, 10) / 1000, ("N.a1", "N.b2")).
Proof. unfold area_distance. cbn -[dist_c num_ltb Rdiv]. num_dec. reflexivity. Qed.

Lemma encloses_i : encloses hull_i inv_i areas_i.
Proof.
  intros a sts pts I F. cbn in I. destruct I as [I|[I|[]]]; injection I as <- <-.
  - assert (pts = [(1, 1); (1, 21); (-19, 11); (1 / 2, 11)]).
    { repeat match goal with H : Forall2 _ _ _ |- _ => inversion H; clear H; subst end.
      repeat match goal with H : located _ _ _ |- _ => apply (collect_ok _ _ coords_i_ok) in H; cbn in H; injection H as <- end. reflexivity. }
    subst. exists [0; 1; 2]%nat, [(1, 1); (1, 21); (-19, 11)]. split; [reflexivity|]. split; [repeat constructor|].
    constructor; [|constructor; [|constructor; [|constructor; [|constructor]]]].
    + exists [1; 0; 0]. cbn. repeat split; try (repeat constructor; lra); lra.
    + exists [0; 1; 0]. cbn. repeat split; try (repeat constructor; lra); lra.
    + exists [0; 0; 1]. cbn. repeat split; try (repeat constructor; lra); lra.
    + exists [39 / 80; 39 / 80; 1 / 40]. cbn. repeat split; try (repeat constructor; lra); lra.
  - assert (pts = [(2, 11); (5, 10); (5, 12)]).
    { repeat match goal with H : Forall2 _ _ _ |- _ => inversion H; clear H; subst end.
      repeat match goal with H : located _ _ _ |- _ => apply (collect_ok _ _ coords_i_ok) in H; cbn in H; injection H as <- end. reflexivity. }
    subst. exists [0; 1; 2]%nat, [(2, 11); (5, 10); (5, 12)]. split; [reflexivity|]. split; [repeat constructor|].
    constructor; [|constructor; [|constructor; [|constructor]]].
    + exists [1; 0; 0]. cbn. repeat split; try (repeat constructor; lra); lra.
    + exists [0; 1; 0]. cbn. repeat split; try (repeat constructor; lra); lra.
    + exists [0; 0; 1]. cbn. repeat split; try (repeat constructor; lra); lra.
Qed.

Lemma interior : exists hull dist flip areas m inv areas' near n l n' l' s t d,
  NoDup (map fst areas) /\ all_apart inv /\ (forall p q, dist p q = dist q p) /\ encloses hull inv areas /\
  join_unconnected_areas hull dist flip areas m inv = Ok (areas', near) /\
  In (n, l) areas' /\ In (n', l') areas' /\ n <> n' /\ In s l /\ In t l' /\ distant dist inv s t d /\ d < m.
Proof.
  exists hull_i, dist_c, (fun _ => false), areas_i, 20, inv_i, areas_i, [], "A", ["N.a1"; "N.a2"; "N.a3"; "N.a4"], "B", ["N.b1"; "N.b2"; "N.b3"],
    "N.a4", "N.b1", (dist_c (1 / 2, 11) (2, 11) / 1000).
  split; [cbn; repeat (constructor; [cbn; intuition discriminate|]); constructor|]. split; [exact apart_i|]. split; [exact dist_c_sym|].
  split; [exact encloses_i|]. split.
  - unfold join_unconnected_areas. rewrite coords_i_ok. cbn [bind]. rewrite hulls_i_ok. cbn -[area_distance join_loop coords_i dist_c].
    rewrite dist_i. cbn -[Rlt_dec dist_c]. destruct (Rlt_dec 20 _) as [L|L]; [reflexivity|].
    exfalso. apply L. unfold dist_c. cbn [fst snd]. lra.
  - split; [cbn; tauto|]. split; [cbn; tauto|]. split; [discriminate|]. split; [cbn; tauto|]. split; [cbn; tauto|]. split.
    + exists (1 / 2, 11), (2, 11). rewrite !located_i. cbn. tauto.
    + unfold dist_c. cbn [fst snd]. lra.
Qed.

Lemma small_c : Forall (fun x => i_channels x <> []) inv_c /\ (forall pts, (List.length pts < 3)%nat -> hull_c pts = Err OtherError) /\
  (forall pts vs, hull_c pts = Ok vs -> Forall (fun i => (i < List.length pts)%nat) vs) /\
  (forall pts e, hull_c pts = Err e -> e = OtherError) /\
  (forall a sts s, In (a, sts) [("A", ["N.a1"; "N.a2"; "N.a3"]); ("B", ["N.b1"; "N.b2"])] -> In s sts -> In s (map full_name inv_c)) /\
  In ("B", ["N.b1"; "N.b2"]) [("A", ["N.a1"; "N.a2"; "N.a3"]); ("B", ["N.b1"; "N.b2"])] /\ (List.length ["N.b1"; "N.b2"] < 3)%nat.
Proof.
  split; [repeat (constructor; [discriminate|]); constructor|]. split.
  { intros pts L. unfold hull_c. apply Nat.ltb_lt in L. now rewrite L. }
  split.
  { unfold hull_c. intros pts vs. destruct (Nat.ltb _ _); [discriminate|]. intros [= <-]. apply Forall_forall. intros i I. apply in_seq in I. lia. }
  split.
  { unfold hull_c. intros pts e. destruct (Nat.ltb _ _); congruence. }
  split.
  { intros a sts s I S. cbn in I. destruct I as [I|[I|[]]]; injection I as <- <-; cbn in S |- *; tauto. }
  split; [cbn; tauto|cbn; lia].
Qed.

Lemma missing_c : Forall (fun x => i_channels x <> []) inv_c /\ hd_error [("A", ["N.a1"; "N.x1"])] = Some ("A", ["N.a1"; "N.x1"]) /\
  In "N.x1" ["N.a1"; "N.x1"] /\ ~ In "N.x1" (map full_name inv_c).
Proof.
  split; [repeat (constructor; [discriminate|]); constructor|]. split; [reflexivity|]. split; [cbn; tauto|].
  intros H. cbn in H. intuition discriminate.
Qed.

Lemma channels_c : Forall (fun x => i_channels x <> []) inv_c /\
  ~ Forall (fun x => i_channels x <> []) [{| i_net := "N"; i_code := "S"; i_channels := []; i_lat := 1; i_lon := 1 |}].
Proof. split; [repeat (constructor; [discriminate|]); constructor|]. intros H. inversion H as [|? ? X _]. apply X. reflexivity. Qed.

Lemma equator : exists inv s x c, inv = [x] /\ full_name x = s /\ i_channels x = [c] /\
  exists coords p, collect_coordinates inv = Ok coords /\ dget String.eqb coords s = Some p /\ fst p <> fst c.
Proof.
  exists [{| i_net := "N"; i_code := "S"; i_channels := [(0, 10)]; i_lat := 1; i_lon := 10 |}], "N.S",
    {| i_net := "N"; i_code := "S"; i_channels := [(0, 10)]; i_lat := 1; i_lon := 10 |}, (0, 10).
  split; [reflexivity|]. split; [reflexivity|]. split; [reflexivity|]. exists [("N.S", (1, 10))], (1, 10). split; [|split; [reflexivity|cbn; lra]].
  unfold collect_coordinates. cbn -[or_num]. rewrite (or_num_nz 10) by lra. unfold or_num. destruct (Req_EM_T 0 0); [reflexivity|congruence].
Qed.
