(** Independent specification for the plots of the result of one inversion (C117, C118). *)
From Coq Require Import String List Reals.
From Verif Require Import Base Pyf DepModel DepSpec PanelSpec SingleModel.
Import ListNotations.
Open Scope string_scope.
Open Scope list_scope.

(** the velocity of the plot: of the argument, else of the result, else of its configuration *)
Definition velocity_of_plot (v0 : option R) (r : eresult) (v : R) : Prop :=
  given v0 v \/ (missing v0 /\ given (er_v0 r) v) \/ (missing v0 /\ missing (er_v0 r) /\ given (er_conf r) v).

(** a list is stored under a key *)
Definition stored (d : list (string * list pyf)) (k : string) (l : list pyf) : Prop := dget String.eqb d k = Some l.

(** the result of a joint inversion at [nf] frequencies, [e] is the first event *)
Definition joint (nf : nat) (r : eresult) (e : evalues) : Prop :=
  (forall k l, stored (er_lists r) k l -> List.length l = nf) /\
  (forall k, In k ["g0"; "b"; "error"] -> dget String.eqb (ev_lists e) k = None) /\
  (forall k, In k ["W"; "sds"] -> exists l, stored (ev_lists e) k l /\ List.length l = nf) /\
  (forall l, ev_nst e = Some l -> List.length l = nf) /\
  NoDup (map fst (ev_lists e)) /\
  exists id evs, er_events r = Some ((id, e) :: evs).

(** quantity [q] of the plot is calculated from the list under the key [c] *)
Definition from_list (q c : string) : Prop := calculated_from q c \/ (q = "W" /\ c = "W").

(** the quantities are known and the lists they are calculated from are in the result *)
Definition available (r : eresult) (quantities : list string) : Prop :=
  forall q, In q quantities -> q = "W" \/ q = "sds" \/ exists c l, calculated_from q c /\ stored (er_lists r) c l.

(** the cell of panel [k] of [n] in a square grid, row by row *)
Definition square_cell (n k : nat) (c : nat * nat) : Prop :=
  exists m, (n <= m * m)%nat /\ (forall i, (n <= i * i)%nat -> (m <= i)%nat) /\ fst c = (k / m)%nat /\ snd c = (k mod m)%nat.

(** [m] is the smallest or largest of all values *)
Definition least (P : R -> Prop) (m : R) : Prop := P m /\ forall x, P x -> (m <= x)%R.
Definition largest (P : R -> Prop) (m : R) : Prop := P m /\ forall x, P x -> (x <= m)%R.

(** a value of some station *)
Definition site_value (sites : list (string * list (option R))) (x : R) : Prop :=
  exists sta l, In (sta, l) sites /\ In (Some x) l.
