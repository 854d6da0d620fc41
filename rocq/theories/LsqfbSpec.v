(** Specification of the inversion in a frequency band. *)
From Coq Require Import String List Bool Reals Lra ZArith Arith.
From Verif Require Import Base Pyf PyfOps FbModel LsqfbModel.
Import ListNotations.
Open Scope string_scope.
Open Scope list_scope.
Open Scope R_scope.

(** The samples of the pairs: (event, station), time, energy; first the coda
    samples pair by pair, then the bulk values. *)
Notation sample := ((string * string) * (pyf * pyf))%type.

Definition blocks (st : wstate) : list ((string * string) * list (pyf * pyf)) :=
  combine (pairs st) (map (fun te => combine (map FNum (fst te)) (snd te)) (combine (w_tcoda st) (w_ecoda st)))
  ++ combine (pairs st) (map (fun te => [te]) (combine (w_tbulk st) (w_ebulk st))).

Definition samples (st : wstate) : list sample :=
  flat_map (fun b => map (fun te => (fst b, te)) (snd b)) (blocks st).

(** The lists of observations have one entry per pair (property C51). *)
Definition aligned (st : wstate) : Prop :=
  pairs st <> [] /\
  List.length (w_ecoda st) = List.length (pairs st) /\
  Forall2 (fun t e => List.length t = List.length e) (w_tcoda st) (w_ecoda st) /\
  List.length (w_tbulk st) = List.length (w_ebulk st) /\
  (w_ebulk st = [] \/ List.length (w_ebulk st) = List.length (pairs st)).

(** keys lists the elements of l, each once *)
Definition lists_once (keys l : list string) : Prop :=
  NoDup keys /\ forall x, In x keys <-> In x l.

(** scalar product *)
Fixpoint dotr (a c : list R) : R :=
  match a, c with
  | x :: a, y :: c => x * y + dotr a c
  | _, _ => 0
  end.

(** the value of key k in the lists of keys and values *)
Definition value (keys : list string) (vals : list pyf) (k : string) (x : R) : Prop :=
  exists i, nth_error keys i = Some k /\ nth_error vals i = Some (FNum x).

(** the left hand side of the equation of a sample for parameters c is
    ln R + ln W - b t *)
Definition models_free (evs stas : list string) (Ws Rs : list pyf) (b : R) (c : list R)
    (row : list pyf) (s : sample) : Prop :=
  forall t, fst (snd s) = FNum t ->
  exists row' r w, row = map FNum row' /\ List.length row' = List.length c /\
    value stas Rs (snd (fst s)) r /\ value evs Ws (fst (fst s)) w /\ 0 < r /\ 0 < w /\
    dotr row' c = ln r + ln w - b * t.

(** the same without attenuation (it is part of the right hand side) *)
Definition models_fixed (evs stas : list string) (Ws Rs : list pyf) (c : list R)
    (row : list pyf) (s : sample) : Prop :=
  exists row' r w, row = map FNum row' /\ List.length row' = List.length c /\
    value stas Rs (snd (fst s)) r /\ value evs Ws (fst (fst s)) w /\ 0 < r /\ 0 < w /\
    dotr row' c = ln r + ln w.

(** the same without site response *)
Definition models_source (evs : list string) (Ws : list pyf) (c : list R)
    (row : list pyf) (s : sample) : Prop :=
  exists row' w, row = map FNum row' /\ List.length row' = List.length c /\
    value evs Ws (fst (fst s)) w /\ 0 < w /\ dotr row' c = ln w.

(** geometric mean *)
Definition geometric_mean (l : list pyf) (m : R) : Prop :=
  exists x, l = map FNum x /\ (forall y, In y x -> 0 < y) /\ 0 < m /\
    fold_right Rplus 0 (map ln x) / INR (List.length x) = ln m.

(** sum of weighted squared residuals *)
Fixpoint sse (rows : list (list R)) (b ws c : list R) : R :=
  match rows, b, ws with
  | row :: rows, y :: b, w :: ws => w * (dotr row c - y) * (dotr row c - y) + sse rows b ws c
  | _, _, _ => 0
  end.

(** The solver returns a minimiser of the weighted sum and this sum divided by a
    positive number (the degrees of freedom). *)
Definition least_squares (wls : list pyf -> list (list pyf) -> option (list R) -> res (list pyf * pyf)) : Prop :=
  forall n rows b ws c mse,
    Forall (fun row => List.length row = n) rows -> List.length b = List.length rows ->
    wls (map FNum b) (map (map FNum) rows) ws = Ok (c, mse) ->
    let w := match ws with None => repeat 1 (List.length rows) | Some w => w end in
    exists c' dof, c = map FNum c' /\ List.length c' = n /\ 0 < dof /\
      (forall x, List.length x = n -> sse rows b w c' <= sse rows b w x) /\
      mse = FNum (sse rows b w c' / dof).

(** Synthetic data: energy W R G exp(-b t) *)
Definition synthetic (site source : string -> R) (b : R) (s : sample) (g : pyf) : Prop :=
  exists t e x, snd s = (FNum t, FNum e) /\ g = FNum x /\ 0 < x /\
    e = source (fst (fst s)) * site (snd (fst s)) * x * exp (- (b * t)).

(** stations connected by common events *)
Inductive connected (ps : list (string * string)) : string -> string -> Prop :=
| con_refl : forall s, connected ps s s
| con_step : forall ev s1 s2 s3,
    connected ps s1 s2 -> In (ev, s2) ps -> In (ev, s3) ps -> connected ps s1 s3.

(** two different times at one pair *)
Definition two_times (st : wstate) : Prop :=
  exists p t1 t2 e1 e2, t1 <> t2 /\
    In (p, (FNum t1, e1)) (samples st) /\ In (p, (FNum t2, e2)) (samples st).

(** ** Bounds *)
Definition inside_open (bounds : option (R * R)) (x : pyf) : Prop :=
  forall lo hi, bounds = Some (lo, hi) -> exists r, x = FNum r /\ lo < r < hi.
Definition inside_closed (bounds : option (R * R)) (x : pyf) : Prop :=
  forall lo hi, bounds = Some (lo, hi) -> exists r, x = FNum r /\ lo <= r <= hi.
(** more than one percent away from the bounds *)
Definition well_inside (bounds : option (R * R)) (x : pyf) : Prop :=
  forall lo hi, bounds = Some (lo, hi) -> exists r, x = FNum r /\ lo + lo / 100 < r < hi - hi / 100.
Definition positive_bounds (bounds : option (R * R)) : Prop :=
  forall lo hi, bounds = Some (lo, hi) -> 0 < lo.

(** ** Records *)

(** the trial values of the optimiser with their misfits, for misfits F, and the
    final value *)
Inductive trials (F : pyf -> pyf -> Prop) : optim -> list (pyf * pyf) -> pyf -> Prop :=
| tr_done : forall x, trials F (Done x) [] x
| tr_ask : forall x k y l r, F x y -> trials F (k y) l r -> trials F (Ask x k) ((y, x) :: l) r.

(** the entries of l that have property P, in order *)
Inductive selected {A} (P : A -> Prop) : list A -> list A -> Prop :=
| sel_nil : selected P [] []
| sel_yes : forall x l m, P x -> selected P l m -> selected P (x :: l) (x :: m)
| sel_no : forall x l m, ~ P x -> selected P l m -> selected P (x :: l) m.

(** no two entries are equal numbers *)
Definition distinct_numbers (l : list pyf) : Prop :=
  forall i j x, nth_error l i = Some (FNum x) -> nth_error l j = Some (FNum x) -> i = j.

(** ** Synthetic data of a band *)

(** the energies of all pairs are W R G exp(-b t), with the Green's functions for
    g0 at the distances and times of the pairs *)
Definition synthetic_band (o : lopts) (st : wstate) (g0 : pyf) (site source : string -> R) (b : R) : Prop :=
  (forall i p r t e gs, nth_error (pairs st) i = Some p -> dget pair_eqb (w_distances st) p = Some r ->
     nth_error (w_tcoda st) i = Some t -> nth_error (w_ecoda st) i = Some e ->
     l_gcoda o r t g0 = Ok gs ->
     Forall2 (fun te g => synthetic site source b (p, te) g) (combine (map FNum t) e) gs) /\
  (forall i p r w t e g, nth_error (pairs st) i = Some p -> dget pair_eqb (w_distances st) p = Some r ->
     dget pair_eqb (w_tbulk_window st) p = Some w ->
     nth_error (w_tbulk st) i = Some t -> nth_error (w_ebulk st) i = Some e ->
     l_gbulk o r w g0 = Ok g -> synthetic site source b (p, (t, e)) g).

(** the weights of the bulk values are positive *)
Definition good_weights (o : lopts) (st : wstate) : Prop :=
  l_bulk o = true -> Forall (fun w => 0 < w) (w_weights st) /\
                     List.length (w_weights st) = List.length (w_ebulk st).

(** the stations are connected by common events *)
Definition one_network (st : wstate) : Prop :=
  forall s1 s2, In s1 (map snd (pairs st)) -> In s2 (map snd (pairs st)) -> connected (pairs st) s1 s2.

(** the site responses of the stations have geometric mean m *)
Definition mean_site (st : wstate) (site : string -> R) (m : R) : Prop :=
  forall l, lists_once l (map snd (pairs st)) -> geometric_mean (map (fun s => FNum (site s)) l) m.

Definition positive_on (l : list string) (f : string -> R) : Prop := forall x, In x l -> 0 < f x.

(** a dictionary with the values of f for exactly the given keys *)
Definition table (keys : list string) (f : string -> R) (d : list (string * pyf)) : Prop :=
  lists_once (map fst d) keys /\ forall k v, In (k, v) d -> v = FNum (f k).

(** b is the logarithm of the site response v *)
Inductive log_of : pyf -> pyf -> Prop :=
| LogPos x : (0 < x)%R -> log_of (FNum x) (FNum (ln x))
| LogZero : log_of (FNum 0) FNInf
| LogInf : log_of FPInf FPInf.
