(** Properties C107-C109: joining of unconnected areas.  Theorems only. *)
From Coq Require Import String List Bool Reals Relations.
From Verif Require Import Base JoinModel JoinSpec JoinProof3 JoinEx.
Import ListNotations.
Open Scope string_scope.
Open Scope list_scope.
Open Scope R_scope.

(** C107: the areas at the end are the unions of the areas which are connected by a chain
    of areas, each with a corner not further than max_distance from a corner of the next
    one: every area is part of exactly one of them, and no station is lost or added. *)
Theorem C107_areas : forall hull dist flip areas m inv areas' near,
  NoDup (map fst areas) -> all_apart inv -> (forall p q, dist p q = dist q p) ->
  join_unconnected_areas hull dist flip areas m inv = Ok (areas', near) ->
  NoDup (map fst areas') /\
  (forall a, In a (map fst areas) -> exists n, In n (map fst areas') /\ chained hull dist inv areas m n a) /\
  (forall n n', In n (map fst areas') -> In n' (map fst areas') -> chained hull dist inv areas m n n' -> n = n') /\
  (forall n l, In (n, l) areas' -> In n (map fst areas) /\
     forall s, In s l <-> exists a sa, In (a, sa) areas /\ chained hull dist inv areas m n a /\ In s sa).
Proof. exact join_sets. Qed.
Print Assumptions C107_areas.

Example C107_areas_ex : NoDup (map fst areas_c) /\ all_apart inv_c /\ (forall p q, dist_c p q = dist_c q p) /\ has_hulls hull_c inv_c areas_c /\
  exists near, join_unconnected_areas hull_c dist_c (fun _ => false) areas_c 20 inv_c = Ok ([("A", all_c)], near).
Proof. exact hyps_c. Qed.

(** C107: corners of different areas at the end are further apart than max_distance. *)
Theorem C107_far : forall hull dist flip areas m inv areas' near,
  NoDup (map fst areas) -> all_apart inv -> (forall p q, dist p q = dist q p) ->
  join_unconnected_areas hull dist flip areas m inv = Ok (areas', near) ->
  forall n n' l l' a b s t d, In (n, l) areas' -> In (n', l') areas' -> n <> n' ->
    chained hull dist inv areas m n a -> chained hull dist inv areas m n' b ->
    corner hull inv areas a s -> corner hull inv areas b t -> distant dist inv s t d -> m < d.
Proof. exact join_far. Qed.
Print Assumptions C107_far.

Example C107_far_ex : NoDup (map fst areas_c) /\ all_apart inv_c /\ (forall p q, dist_c p q = dist_c q p) /\ has_hulls hull_c inv_c areas_c /\
  exists near, join_unconnected_areas hull_c dist_c (fun _ => false) areas_c 20 inv_c = Ok ([("A", all_c)], near).
Proof. exact hyps_c. Qed.

(** C107, false for stations inside of the hull: two stations closer than max_distance
    may be left in different areas. *)
Theorem C107_interior_refuted : exists hull dist flip areas m inv areas' near n l n' l' s t d,
  NoDup (map fst areas) /\ all_apart inv /\ (forall p q, dist p q = dist q p) /\ encloses hull inv areas /\
  join_unconnected_areas hull dist flip areas m inv = Ok (areas', near) /\
  In (n, l) areas' /\ In (n', l') areas' /\ n <> n' /\ In s l /\ In t l' /\ distant dist inv s t d /\ d < m.
Proof. exact interior. Qed.
Print Assumptions C107_interior_refuted.

(** C107: areas with corners and known places are always joined without error. *)
Theorem C107_success : forall hull dist flip areas m inv,
  NoDup (map fst areas) -> all_apart inv -> (forall p q, dist p q = dist q p) ->
  has_hulls hull inv areas -> exists areas' near, join_unconnected_areas hull dist flip areas m inv = Ok (areas', near).
Proof. exact success. Qed.
Print Assumptions C107_success.

Example C107_success_ex : NoDup (map fst areas_c) /\ all_apart inv_c /\ (forall p q, dist_c p q = dist_c q p) /\ has_hulls hull_c inv_c areas_c /\
  exists near, join_unconnected_areas hull_c dist_c (fun _ => false) areas_c 20 inv_c = Ok ([("A", all_c)], near).
Proof. exact hyps_c. Qed.

(** C107: a single area of less than three stations is an error, since there is no hull. *)
Theorem C107_small : forall hull dist flip areas m inv a sts, all_apart inv -> Forall (fun x => i_channels x <> []) inv ->
  (forall pts, (List.length pts < 3)%nat -> hull pts = Err OtherError) ->
  (forall pts vs, hull pts = Ok vs -> Forall (fun i => (i < List.length pts)%nat) vs) ->
  (forall pts e, hull pts = Err e -> e = OtherError) ->
  (forall a sts s, In (a, sts) areas -> In s sts -> In s (map full_name inv)) ->
  In (a, sts) areas -> (List.length sts < 3)%nat ->
  join_unconnected_areas hull dist flip areas m inv = Err OtherError.
Proof. exact join_small. Qed.
Print Assumptions C107_small.

Example C107_small_ex : Forall (fun x => i_channels x <> []) inv_c /\ (forall pts, (List.length pts < 3)%nat -> hull_c pts = Err OtherError) /\
  (forall pts vs, hull_c pts = Ok vs -> Forall (fun i => (i < List.length pts)%nat) vs) /\
  (forall pts e, hull_c pts = Err e -> e = OtherError) /\
  (forall a sts s, In (a, sts) [("A", ["N.a1"; "N.a2"; "N.a3"]); ("B", ["N.b1"; "N.b2"])] -> In s sts -> In s (map full_name inv_c)) /\
  In ("B", ["N.b1"; "N.b2"]) [("A", ["N.a1"; "N.a2"; "N.a3"]); ("B", ["N.b1"; "N.b2"])] /\ (List.length ["N.b1"; "N.b2"] < 3)%nat.
Proof. exact small_c. Qed.

(** C107: a station missing in the inventory is a KeyError. *)
Theorem C107_missing : forall hull dist flip areas m inv a sts s, Forall (fun x => i_channels x <> []) inv ->
  hd_error areas = Some (a, sts) -> In s sts -> ~ In s (map full_name inv) ->
  join_unconnected_areas hull dist flip areas m inv = Err KeyError.
Proof. exact join_missing. Qed.
Print Assumptions C107_missing.

Example C107_missing_ex : Forall (fun x => i_channels x <> []) inv_c /\ hd_error [("A", ["N.a1"; "N.x1"])] = Some ("A", ["N.a1"; "N.x1"]) /\
  In "N.x1" ["N.a1"; "N.x1"] /\ ~ In "N.x1" (map full_name inv_c).
Proof. exact missing_c. Qed.

(** C108: near stations are corners of different areas not further apart than
    max_distance, and every area that was joined has such a station. *)
Theorem C108_near : forall hull dist flip areas m inv areas' near,
  NoDup (map fst areas) -> all_apart inv -> (forall p q, dist p q = dist q p) ->
  join_unconnected_areas hull dist flip areas m inv = Ok (areas', near) ->
  (forall s t, dget String.eqb near s = Some t -> exists a b d, a <> b /\
     corner hull inv areas a s /\ corner hull inv areas b t /\ distant dist inv s t d /\ d <= m) /\
  (forall a b, In a (map fst areas) -> In b (map fst areas) -> a <> b -> chained hull dist inv areas m a b ->
     exists s t, corner hull inv areas a s /\ dget String.eqb near s = Some t).
Proof. exact join_near. Qed.
Print Assumptions C108_near.

Example C108_near_ex : NoDup (map fst areas_c) /\ all_apart inv_c /\ (forall p q, dist_c p q = dist_c q p) /\ has_hulls hull_c inv_c areas_c /\
  exists near, join_unconnected_areas hull_c dist_c (fun _ => false) areas_c 20 inv_c = Ok ([("A", all_c)], near).
Proof. exact hyps_c. Qed.

(** C108, false for chains of areas: a station has only one near station, the last one, so
    that the near stations may not connect the areas which were joined. *)
Theorem C108_links_refuted : exists hull dist flip areas m inv n l near a b,
  NoDup (map fst areas) /\ all_apart inv /\ (forall p q, dist p q = dist q p) /\ has_hulls hull inv areas /\
  join_unconnected_areas hull dist flip areas m inv = Ok ([(n, l)], near) /\
  In a (map fst areas) /\ In b (map fst areas) /\ chained hull dist inv areas m a b /\
  ~ clos_refl_sym_trans string (fun x y => exists s t, (exists sx, In (x, sx) areas /\ In s sx) /\ (exists sy, In (y, sy) areas /\ In t sy) /\
      dget String.eqb near s = Some t) a b.
Proof. exact links_lost. Qed.
Print Assumptions C108_links_refuted.

(** C108, false for stations at the same place: a station may be its own near station,
    with no link between the two areas that were joined. *)
Theorem C108_same_place_refuted : exists hull dist flip areas m inv n l s,
  NoDup (map fst areas) /\ (forall p q, dist p q = dist q p) /\ List.length areas = 2%nat /\
  join_unconnected_areas hull dist flip areas m inv = Ok ([(n, l)], [(s, s)]).
Proof. exact same_place. Qed.
Print Assumptions C108_same_place_refuted.

(** C109: the coordinates of a station are those of its first channel, with a coordinate 0
    replaced by that of the station; of several stations of the same name the last one
    counts, and there are no others. *)
Theorem C109_coordinates : forall inv coords, collect_coordinates inv = Ok coords -> forall s p,
  dget String.eqb coords s = Some p <-> located inv s p.
Proof. exact collect_ok. Qed.
Print Assumptions C109_coordinates.

Example C109_coordinates_ex : collect_coordinates inv_c = Ok coords_c.
Proof. exact coords_c_ok. Qed.

(** C109: coordinates are found if every station has a channel, and only then. *)
Theorem C109_channels : forall inv,
  (Forall (fun x => i_channels x <> []) inv -> exists coords, collect_coordinates inv = Ok coords) /\
  (~ Forall (fun x => i_channels x <> []) inv -> collect_coordinates inv = Err IndexError).
Proof. exact collect_channels. Qed.
Print Assumptions C109_channels.

Example C109_channels_ex : Forall (fun x => i_channels x <> []) inv_c /\
  ~ Forall (fun x => i_channels x <> []) [{| i_net := "N"; i_code := "S"; i_channels := []; i_lat := 1; i_lon := 1 |}].
Proof. exact channels_c. Qed.

(** C109, false for a channel at the equator: the latitude of the station is used in place
    of the latitude 0 of the channel. *)
Theorem C109_equator_refuted : exists inv s x c, inv = [x] /\ full_name x = s /\ i_channels x = [c] /\
  exists coords p, collect_coordinates inv = Ok coords /\ dget String.eqb coords s = Some p /\ fst p <> fst c.
Proof. exact equator. Qed.
Print Assumptions C109_equator_refuted.
