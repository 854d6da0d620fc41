(** Specification of the joining of unconnected areas, independent of the model. *)
From Coq Require Import String List Bool Reals Relations.
From Verif Require Import Base JoinModel.
Import ListNotations.
Open Scope string_scope.
Open Scope list_scope.
Open Scope R_scope.

(** full name of a station *)
Definition full_name (s : inv_station) : string := (i_net s ++ "." ++ i_code s)%string.

(** station s is at p: the place of its first channel, where a coordinate 0 is replaced
    by that of the station; the last station counts if there are several of this name *)
Definition located (inv : list inv_station) (s : string) (p : R * R) : Prop :=
  exists before x after c cs, inv = before ++ x :: after /\ full_name x = s /\
    Forall (fun y => full_name y <> s) after /\ i_channels x = c :: cs /\
    (fst c <> 0 /\ fst p = fst c \/ fst c = 0 /\ fst p = i_lat x) /\
    (snd c <> 0 /\ snd p = snd c \/ snd c = 0 /\ snd p = i_lon x).

(** s is a station on the hull of area a *)
Definition corner (hull : list (R * R) -> res (list nat)) (inv : list inv_station)
    (areas : list (string * list string)) (a s : string) : Prop :=
  exists stations points vertices i, In (a, stations) areas /\ Forall2 (located inv) stations points /\
    hull points = Ok vertices /\ In i vertices /\ nth_error stations i = Some s.

(** d is the distance of s and t in km *)
Definition distant (dist : R * R -> R * R -> R) (inv : list inv_station) (s t : string) (d : R) : Prop :=
  exists p q, located inv s p /\ located inv t q /\ d = dist p q / 1000.

(** areas a and b have corners not further apart than m *)
Definition close_by hull dist inv areas (m : R) (a b : string) : Prop :=
  exists s t d, corner hull inv areas a s /\ corner hull inv areas b t /\ distant dist inv s t d /\ d <= m.

(** areas connected by a chain of areas, each close to the next one *)
Definition chained hull dist inv areas (m : R) : string -> string -> Prop :=
  clos_refl_sym_trans string (close_by hull dist inv areas m).

(** all stations are at different places *)
Definition all_apart (inv : list inv_station) : Prop :=
  forall s t p, located inv s p -> located inv t p -> s = t.

(** the hull can be calculated for every area, all of whose stations are in the inventory,
    and has corners *)
Definition has_hulls (hull : list (R * R) -> res (list nat)) (inv : list inv_station) (areas : list (string * list string)) : Prop :=
  Forall (fun x => i_channels x <> []) inv /\
  forall a stations, In (a, stations) areas -> exists points vertices, Forall2 (located inv) stations points /\
    hull points = Ok vertices /\ vertices <> [] /\ Forall (fun i => (i < List.length points)%nat) vertices.

(** p is a weighted mean of the points *)
Definition mixture (points : list (R * R)) (p : R * R) : Prop :=
  exists ws, List.length ws = List.length points /\ Forall (Rle 0) ws /\ fold_right Rplus 0 ws = 1 /\
    fst p = fold_right Rplus 0 (map (fun wp => fst wp * fst (snd wp)) (combine ws points)) /\
    snd p = fold_right Rplus 0 (map (fun wp => fst wp * snd (snd wp)) (combine ws points)).

(** the corners enclose all stations of an area *)
Definition encloses (hull : list (R * R) -> res (list nat)) (inv : list inv_station) (areas : list (string * list string)) : Prop :=
  forall a stations points, In (a, stations) areas -> Forall2 (located inv) stations points ->
    exists vertices corners, hull points = Ok vertices /\ Forall2 (fun i c => nth_error points i = Some c) vertices corners /\
      Forall (mixture corners) points.
