(** Specification of time expressions and windows. *)
From Coq Require Import String List ZArith QArith Qabs.
From Verif Require Import Base TimesModel.
Import ListNotations.
Open Scope Z_scope.

(** time t is x (nanoseconds) up to half a nanosecond *)
Definition is_time (t : Z) (x : Q) : Prop := (Qabs (inject_Z t - x) <= 1 # 2)%Q.

(** k is the first index with P; n if there is none below n *)
Definition first_index (P : nat -> Prop) (n k : nat) : Prop :=
  (k <= n)%nat /\ (forall j, (j < k)%nat -> ~ P j) /\ (k < n -> P k)%nat.

(** strict local extrema of a data vector *)
Definition local_min (d : list Q) (i : nat) : Prop :=
  (0 < i)%nat /\ (i + 1 < length d)%nat /\
  (nth i d 0 < nth (i - 1) d 0)%Q /\ (nth i d 0 < nth (i + 1) d 0)%Q.
(** see above *)
Definition local_max (d : list Q) (i : nat) : Prop :=
  (0 < i)%nat /\ (i + 1 < length d)%nat /\
  (nth (i - 1) d 0 < nth i d 0)%Q /\ (nth (i + 1) d 0 < nth i d 0)%Q.

(** i is the (first) lowest local minimum before position m *)
Definition lowest_min_before (d : list Q) (m i : nat) : Prop :=
  local_min d i /\ (i < m)%nat /\
  forall j, local_min d j -> (j < m)%nat ->
    (nth i d 0 < nth j d 0)%Q \/ ((nth i d 0 == nth j d 0)%Q /\ (i <= j)%nat).

(** the maximum at m exceeds sample i by the ratio *)
Definition exceeds_by (d : list Q) (ratio : Q) (m i : nat) : Prop :=
  (ratio * nth i d 0 < nth m d 0)%Q.

(** sample against which the maximum at m is compared: the lowest local minimum
    before it, the first sample if there is none *)
Definition reference (d : list Q) (m i : nat) : Prop :=
  lowest_min_before d m i \/
  ((forall j, local_min d j -> (m <= j)%nat) /\ i = 0%nat).

(** the texts of one end of a window *)
Definition texts (v : wval) : list string :=
  match v with One s => [s] | Many l => l end.

(** the data in which minima are searched *)
Definition searched (tr : trace) (smoothed : option (res (list Q))) (d : list Q) : Prop :=
  match smoothed with
  | Some (Ok d') => d = d'
  | None | Some (Err ValueError) => d = data tr
  | _ => False
  end.
