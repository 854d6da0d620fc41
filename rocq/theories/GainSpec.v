(** Specification for C131: energies multiplied by factors of the events and the stations. *)
From Coq Require Import String List Bool Reals.
From Verif Require Import Base Pyf PyfOps FbModel LsqfbModel LsqfbSpec.
Import ListNotations.
Open Scope list_scope.
Open Scope R_scope.

(** the same windows, with the energies of event e at station s multiplied by lam e * mu s *)
Definition gained (lam mu : string -> R) (st : wstate) : wstate :=
  let k (p : string * string) := FNum (lam (fst p) * mu (snd p)) in
  {| w_energies := w_energies st; w_distances := w_distances st;
     w_tcoda := w_tcoda st; w_tbulk := w_tbulk st; w_tbulk_window := w_tbulk_window st;
     w_weights := w_weights st;
     w_ebulk := map (fun pe => fmul (k (fst pe)) (snd pe)) (combine (pairs st) (w_ebulk st));
     w_ecoda := map (fun pe => map (fmul (k (fst pe))) (snd pe)) (combine (pairs st) (w_ecoda st)) |}.

(** the times are numbers and the energies are positive numbers *)
Definition numeric (st : wstate) : Prop :=
  Forall (fun s => exists t e, snd s = (FNum t, FNum e) /\ 0 < e) (samples st).

(** The solver returns a minimiser of the weighted sum and this sum divided by the degrees of
    freedom, which depend on the equations only. *)
Definition least_squares_dof
    (wls : list pyf -> list (list pyf) -> option (list R) -> res (list pyf * pyf))
    (dof : list (list R) -> option (list R) -> R) : Prop :=
  forall n rows b ws c mse,
    Forall (fun row => List.length row = n) rows -> List.length b = List.length rows ->
    wls (map FNum b) (map (map FNum) rows) ws = Ok (c, mse) ->
    let w := match ws with None => repeat 1 (List.length rows) | Some w => w end in
    exists c', c = map FNum c' /\ List.length c' = n /\
      (forall x, List.length x = n -> sse rows b w c' <= sse rows b w x) /\
      mse = FNum (sse rows b w c' / dof rows ws).

(** distance of a pair and times of its coda window *)
Definition coda_of (st : wstate) (r : R) (t : list R) : Prop :=
  exists i p, nth_error (pairs st) i = Some p /\ nth_error (w_tcoda st) i = Some t /\
    dget pair_eqb (w_distances st) p = Some r.

(** distance of a pair and its bulk window *)
Definition bulk_of (st : wstate) (r : R) (w : R * R) : Prop :=
  exists p, In p (pairs st) /\ dget pair_eqb (w_distances st) p = Some r /\
    dget pair_eqb (w_tbulk_window st) p = Some w.

(** the Green's functions of the windows are positive numbers, for all positive g0 *)
Definition positive_greens (o : lopts) (st : wstate) : Prop :=
  (forall r t x gs, coda_of st r t -> 0 < x -> l_gcoda o r t (FNum x) = Ok gs ->
     Forall (fun g => exists y, g = FNum y /\ 0 < y) gs) /\
  (forall r w x g, bulk_of st r w -> 0 < x -> l_gbulk o r w (FNum x) = Ok g -> exists y, g = FNum y /\ 0 < y).

(** Two results: the same attenuation, scattering and error, and the source terms and site
    responses of the second are those of the first times factors. *)
Definition scaled_result (st : wstate) (fs fr : string -> R) (r r' : fbresult) : Prop :=
  fb_g0 r' = fb_g0 r /\ fb_b r' = fb_b r /\ fb_error r' = fb_error r /\
  fb_nstations r' = fb_nstations r /\ fb_v0 r' = fb_v0 r /\
  exists source site W W' Rs Rs',
    positive_on (map fst (pairs st)) source /\ positive_on (map snd (pairs st)) site /\
    fb_W r = Some W /\ table (map fst (pairs st)) source W /\
    fb_W r' = Some W' /\ table (map fst (pairs st)) (fun e => source e * fs e) W' /\
    fb_R r = Some Rs /\ table (map snd (pairs st)) site Rs /\
    fb_R r' = Some Rs' /\ table (map snd (pairs st)) (fun s => site s * fr s) Rs'.

(** both bands are skipped, or both have results with property P *)
Definition both (P : fbresult -> fbresult -> Prop) (y y' : option fbresult) : Prop :=
  match y, y' with
  | None, None => True
  | Some r, Some r' => P r r'
  | _, _ => False
  end.

(** the same with given site responses *)
Definition scaled_sources (st : wstate) (fs : string -> R) (r r' : fbresult) : Prop :=
  fb_error r' = fb_error r /\ fb_nstations r' = fb_nstations r /\ fb_v0 r' = fb_v0 r /\
  fb_R r = None /\ fb_R r' = None /\
  exists source W W',
    positive_on (map fst (pairs st)) source /\
    fb_W r = Some W /\ table (map fst (pairs st)) source W /\
    fb_W r' = Some W' /\ table (map fst (pairs st)) (fun e => source e * fs e) W'.
