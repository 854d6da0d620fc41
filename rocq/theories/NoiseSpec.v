(** Specification for C136: the inversion of energies with errors. *)
From Coq Require Import String List Bool Reals.
From Verif Require Import Base Pyf PyfOps FbModel LsqfbModel LsqfbSpec.
Import ListNotations.
Open Scope list_scope.
Open Scope R_scope.

(** x is y up to a factor between exp(-d) and exp(d) *)
Definition up_to (d x y : R) : Prop := exp (- d) * y <= x <= exp d * y.

(** the energy is W R G exp(-b t) up to a factor between exp(-eps) and exp(eps) *)
Definition noisy (eps : R) (site source : string -> R) (b : R) (s : sample) (g : pyf) : Prop :=
  exists t e x, snd s = (FNum t, FNum e) /\ g = FNum x /\ 0 < x /\
    up_to eps e (source (fst (fst s)) * site (snd (fst s)) * x * exp (- (b * t))).

(** the energies of all pairs are so, with the Green's functions for g0 at the distances and
    times of the pairs *)
Definition noisy_band (eps : R) (o : lopts) (st : wstate) (g0 : pyf) (site source : string -> R) (b : R) : Prop :=
  (forall i p r t e gs, nth_error (pairs st) i = Some p -> dget pair_eqb (w_distances st) p = Some r ->
     nth_error (w_tcoda st) i = Some t -> nth_error (w_ecoda st) i = Some e ->
     l_gcoda o r t g0 = Ok gs ->
     Forall2 (fun te g => noisy eps site source b (p, te) g) (combine (map FNum t) e) gs) /\
  (forall i p r w t e g, nth_error (pairs st) i = Some p -> dget pair_eqb (w_distances st) p = Some r ->
     dget pair_eqb (w_tbulk_window st) p = Some w ->
     nth_error (w_tbulk st) i = Some t -> nth_error (w_ebulk st) i = Some e ->
     l_gbulk o r w g0 = Ok g -> noisy eps site source b (p, (t, e)) g).

(** the number of samples of the coda windows plus the weights of the bulk windows *)
Definition total_weight (o : lopts) (st : wstate) : R :=
  INR (List.length (concat (w_ecoda st))) + (if l_bulk o then fold_right Rplus 0 (w_weights st) else 0).

(** the number of different entries *)
Definition distinct (l : list string) : nat := List.length (nodup string_dec l).

(** the number of unknown parameters if the site responses are not given *)
Definition unknowns (o : lopts) (st : wstate) : nat :=
  distinct (map snd (pairs st)) + distinct (map fst (pairs st)) - (if l_fix o then 1 else 0).

(** stations connected by at most n common events *)
Inductive within (ps : list (string * string)) : nat -> string -> string -> Prop :=
| wi_same : forall n s, within ps n s s
| wi_step : forall n ev s1 s2 s3,
    within ps n s1 s2 -> In (ev, s2) ps -> In (ev, s3) ps -> within ps (S n) s1 s3.

Definition network_within (n : nat) (st : wstate) : Prop :=
  forall s1 s2, In s1 (map snd (pairs st)) -> In s2 (map snd (pairs st)) -> within (pairs st) n s1 s2.

(** a dictionary with the values of f, up to a factor exp(d), for exactly the given keys *)
Definition near_table (d : R) (keys : list string) (f : string -> R) (dic : list (string * pyf)) : Prop :=
  lists_once (map fst dic) keys /\ forall k v, In (k, v) dic -> exists x, v = FNum x /\ up_to d x (f k).

(** the samples of some coda window span the time D, and no coda sample is later than T *)
Definition coda_span (st : wstate) (D T : R) : Prop :=
  (exists t t1 t2, In t (w_tcoda st) /\ In t1 t /\ In t2 t /\ t2 = t1 + D) /\
  (forall t x, In t (w_tcoda st) -> In x t -> Rabs x <= T).
