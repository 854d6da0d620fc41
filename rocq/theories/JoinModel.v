(** Model of _collect_station_coordinates and _join_unconnected_areas,
    /repo/qopen/site.py 30-39, 138-191.  The function is not called at present, since
    join_unconnected is None (site.py:210-214). *)
From Coq Require Import String List Bool Reals Lra Arith.
From Verif Require Import Base.
Import ListNotations.
Open Scope string_scope.
Open Scope list_scope.
Open Scope R_scope.

(** a station of the inventory: network code, station code, latitude and longitude of its
    channels and its own, site.py:32-37 *)
Record inv_station := {
  i_net : string; i_code : string; i_channels : list (R * R); i_lat : R; i_lon : R }.

(** [x or y] for numbers, site.py:35-36 *)
Definition or_num (x y : R) : R := if Req_EM_T x 0 then y else x.

(** the loop over the stations, site.py:31-39; the inventory is the list of the stations
    of all its networks *)
Fixpoint collect_coordinates_from (coords : list (string * (R * R))) (inv : list inv_station) :
    res (list (string * (R * R))) :=
  match inv with
  | [] => Ok coords
  | s :: inv =>
      match i_channels s with
      | [] => Err IndexError
      | c :: _ =>
          collect_coordinates_from
            (dset String.eqb coords (i_net s ++ "." ++ i_code s)%string (or_num (fst c) (i_lat s), or_num (snd c) (i_lon s))) inv
      end
  end.

(** _collect_station_coordinates, site.py:30-39 *)
Definition collect_coordinates (inv : list inv_station) : res (list (string * (R * R))) :=
  collect_coordinates_from [] inv.

(** [c1 == c2] for tuples of two numbers *)
Definition coord_eqb (c1 c2 : R * R) : bool :=
  if Req_EM_T (fst c1) (fst c2) then if Req_EM_T (snd c1) (snd c2) then true else false else false.

(** {c: sta for sta, c in coordinates.items()}, site.py:143 *)
Definition station_by_coordinate (coords : list (string * (R * R))) : list ((R * R) * string) :=
  fold_left (fun d sc => dset coord_eqb d (snd sc) (fst sc)) coords [].

(** [d[k]] *)
Definition lookup {K V} (eqb : K -> K -> bool) (d : list (K * V)) (k : K) : res V :=
  match dget eqb d k with Some v => Ok v | None => Err KeyError end.

(** a set made of the items of a list.  Simplification: sets are iterated in the order
    in which their items were added. *)
Definition set_of (l : list string) : list string :=
  fold_left (fun s x => if inb String.eqb x s then s else s ++ [x]) l [].

(** [s |= t] *)
Definition set_union (s t : list string) : list string := s ++ filter (fun x => negb (inb String.eqb x s)) t.

(** frozenset((a, b)), site.py:155, 183-184: the two names in alphabetical order *)
Definition fset (a b : string) : string * string :=
  match String.compare a b with Gt => (b, a) | _ => (a, b) end.

(** equality of two frozensets *)
Definition fset_eqb (x y : string * string) : bool :=
  String.eqb (fst x) (fst y) && String.eqb (snd x) (snd y).

(** [x < y] for tuples of a number and a pair of texts, the order of [min] in
    site.py:169 *)
Definition dist_ltb (x y : R * (string * string)) : bool :=
  if Rlt_dec (fst x) (fst y) then true
  else if Req_EM_T (fst x) (fst y) then
    match String.compare (fst (snd x)) (fst (snd y)) with
    | Lt => true
    | Gt => false
    | Eq => match String.compare (snd (snd x)) (snd (snd y)) with Lt => true | _ => false end
    end
  else false.

(** min(d, key=d.get) as key and value: the first one with the smallest value *)
Definition min_item {K V} (ltb : V -> V -> bool) (d : list (K * V)) : res (K * V) :=
  match d with
  | [] => Err ValueError
  | x :: d => Ok (fold_left (fun m y => if ltb (snd y) (snd m) then y else m) d x)
  end.

(** [x < y] for numbers *)
Definition num_ltb (x y : R) : bool := if Rlt_dec x y then true else false.

Section Join.
  (** scipy.spatial.ConvexHull(points).vertices, site.py:148: numbers of the points *)
  Variable hull : list (R * R) -> res (list nat).
  (** gps2dist_azimuth(...)[0], site.py:161-162 *)
  Variable dist : R * R -> R * R -> R.
  (** whether a2 comes first in tuple(nearest_pair), site.py:176 *)
  Variable flip : string * string -> bool.

  (** site.py:147-150 for one area *)
  Definition area_hull (coords : list (string * (R * R))) (stations : list string) : res (list string) :=
    do points <- mapM (lookup String.eqb coords) stations;
    do vertices <- hull points;
    do corners <- mapM (fun i => match nth_error points i with
                                 | Some p => lookup coord_eqb (station_by_coordinate coords) p
                                 | None => Err IndexError
                                 end) vertices;
    Ok (set_of corners).

  (** site.py:145-150 *)
  Definition area_hulls (coords : list (string * (R * R))) (areas : list (string * list string)) :
      res (list (string * list string)) :=
    mapM (fun a => do h <- area_hull coords (snd a); Ok (fst a, h)) areas.

  (** site.py:158-165: the smallest distance between the corners of two areas, in km, and
      the pair of stations *)
  Definition area_distance (coords : list (string * (R * R))) (h1 h2 : list string) : res (R * (string * string)) :=
    do dists <- mapM (fun st => do c1 <- lookup String.eqb coords (fst st);
                                do c2 <- lookup String.eqb coords (snd st);
                                Ok (st, dist c1 c2)) (list_prod h1 h2);
    do m <- min_item num_ltb dists;
    Ok (snd m / 1000, fst m).

  (** the two loops of site.py:153-165 over a list of pairs of names *)
  Fixpoint distances_from (coords : list (string * (R * R))) (hulls : list (string * list string))
      (distance : list ((string * string) * (R * (string * string)))) (pairs : list (string * string)) :
      res (list ((string * string) * (R * (string * string)))) :=
    match pairs with
    | [] => Ok distance
    | (a1, a2) :: pairs =>
        if dmem fset_eqb distance (fset a1 a2) || String.eqb a1 a2 then distances_from coords hulls distance pairs
        else
          do h1 <- lookup String.eqb hulls a1;
          do h2 <- lookup String.eqb hulls a2;
          do d <- area_distance coords h1 h2;
          distances_from coords hulls (dset fset_eqb distance (fset a1 a2) d) pairs
    end.

  (** site.py:180-190: the distances to the joined area *)
  Fixpoint update_distances (a1 a2 : string) (distance : list ((string * string) * (R * (string * string)))) (names : list string) :
      res (list ((string * string) * (R * (string * string)))) :=
    match names with
    | [] => Ok distance
    | a3 :: names =>
        if String.eqb a3 a1 || String.eqb a3 a2 then update_distances a1 a2 distance names
        else
          do dist1 <- lookup fset_eqb distance (fset a1 a3);
          do dist2 <- lookup fset_eqb distance (fset a2 a3);
          let distance := dpop fset_eqb distance (fset a2 a3) in
          update_distances a1 a2
            (if num_ltb (fst dist2) (fst dist1) then dset fset_eqb distance (fset a1 a3) dist2 else distance) names
    end.

  (** the state of the loop: areas, distance, near_stations.  The hulls are not used any
      more in the loop. *)
  Record state := {
    s_areas : list (string * list string);
    s_distance : list ((string * string) * (R * (string * string)));
    s_near : list (string * string) }.

  (** d[k1] |= d.pop(k2), site.py:180-181 *)
  Definition absorb (d : list (string * list string)) (k1 k2 : string) : res (list (string * list string)) :=
    do v1 <- lookup String.eqb d k1;
    do v2 <- lookup String.eqb d k2;
    Ok (dset String.eqb (dpop String.eqb d k2) k1 (set_union v1 v2)).

  (** the loop, site.py:168-190; every pass removes a pair of areas, so [fuel] is the number
      of pairs at the start *)
  Fixpoint join_loop (max_distance : R) (fuel : nat) (s : state) : res state :=
    match fuel with
    | O => Ok s
    | S fuel =>
        match s_distance s with
        | [] => Ok s
        | _ =>
            do m <- min_item dist_ltb (s_distance s);
            let d := fst (snd m) in
            let near := snd (snd m) in
            if Rlt_dec max_distance d then Ok s
            else
              let near_stations := dset String.eqb (dset String.eqb (s_near s) (fst near) (snd near)) (snd near) (fst near) in
              let a1 := if flip (fst m) then snd (fst m) else fst (fst m) in
              let a2 := if flip (fst m) then fst (fst m) else snd (fst m) in
              do areas <- absorb (s_areas s) a1 a2;
              do distance <- update_distances a1 a2 (dpop fset_eqb (s_distance s) (fst m)) (dkeys areas);
              join_loop max_distance fuel {| s_areas := areas; s_distance := distance; s_near := near_stations |}
        end
    end.

  (** _join_unconnected_areas, site.py:138-191 *)
  Definition join_unconnected_areas (areas : list (string * list string)) (max_distance : R) (inventory : list inv_station) :
      res (list (string * list string) * list (string * string)) :=
    do coords <- collect_coordinates inventory;
    do hulls <- area_hulls coords areas;
    do distance <- distances_from coords hulls [] (list_prod (dkeys areas) (dkeys areas));
    do s <- join_loop max_distance (List.length distance) {| s_areas := areas; s_distance := distance; s_near := [] |};
    Ok (s_areas s, s_near s).
End Join.
