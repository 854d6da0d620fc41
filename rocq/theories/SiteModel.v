(** Model of /repo/qopen/site.py: merging of station sets, unconnected areas,
    rescaling and alignment of site responses.

    Simplifications: an event result consists of W and R only (the remaining
    keys are treated in SourceModel.v); values are real numbers, None or nan
    (no infinities); a list that is too short yields None instead of an
    IndexError (the theorems ask for lists of equal length); sparse and dense
    matrices (site.py:236-246) are the same list of rows; the scatter written to
    the log (site.py:96-102, 347-352) is left out; the feature
    join_unconnected, which is switched off at site.py:215, is left out. *)
From Coq Require Import String List Bool Reals ZArith Arith.
From Verif Require Import Base PySort Pyf StatModel.
Import ListNotations.
Open Scope string_scope.
Open Scope list_scope.

(** ** sets of station names: lists without duplicates *)

(** not aset.isdisjoint(eachset), site.py:111 *)
Definition overlap (a b : list string) : bool := existsb (fun x => inb String.eqb x b) a.

(** eachset.update(aset), site.py:112 *)
Definition set_update (e a : list string) : list string :=
  fold_left (fun s x => if inb String.eqb x s then s else s ++ [x]) a e.

(** loop over newsets for one aset, site.py:110-115.  The sets are updated in
    place; the objects changed were visited before, so the list sets that is
    looped over is not affected. *)
Fixpoint absorb (newsets : list (list string)) (aset : list string) : list (list string) :=
  match newsets with
  | [] => [aset]
  | e :: r => if overlap aset e then set_update e aset :: r else e :: absorb r aset
  end.

(** one pass, site.py:108-115 *)
Definition merge_pass (sets : list (list string)) : list (list string) := fold_left absorb sets [].

(** site.py:107-116: the loop ends when a pass does not change the number of
    sets; None if the number of rounds is exhausted *)
Fixpoint merge_loop (rounds : nat) (nsets : nat) (newsets : list (list string)) : option (list (list string)) :=
  if Nat.eqb nsets (List.length newsets) then Some newsets
  else match rounds with
       | O => None
       | S n => merge_loop n (List.length newsets) (merge_pass newsets)
       end.

(** site.py:105-116 *)
Definition merge_sets (sets : list (list string)) : option (list (list string)) :=
  merge_loop (S (List.length sets)) 0 sets.

(** ** event results *)
(** an entry of the lists W and R[sta] (site.py:74-79) *)
Inductive entry : Type := ENone | ENan | ENum (r : R).

(** not (x is None or np.isnan(x)), e.g. site.py:231 *)
Definition valid (e : entry) : bool := match e with ENum _ => true | _ => false end.

(** l[i], e.g. site.py:74 *)
Definition at_ (l : list entry) (i : nat) : entry := nth i l ENone.

(** the part of an event result used in site.py (eres['W'], eres['R']) *)
Record evres := { evW : list entry; evR : list (string * list entry) }.

(** site.py:119-129: the stations of one event *)
Definition event_area (ignore : option (list string)) (i : nat) (ev : evres) : list string :=
  map fst (filter (fun p => valid (at_ (snd p) i) &&
                            match ignore with None => true | Some l => negb (inb String.eqb (fst p) l) end)
                  (evR ev)).

(** site.py:120-129 *)
Definition event_areas (ignore : option (list string)) (i : nat) (evs : list evres) : list (list string) :=
  filter (fun a => negb (Nat.eqb (List.length a) 0)) (map (event_area ignore i) evs).

Section Site.
(** list(a)[0]: an arbitrary member of a set (site.py:130) *)
Variable pick : list string -> string.
(** the robust linear model behind gmeanlist (util.py:111) *)
Variable rlm : list R -> R * R.
(** least squares solver, scipy.sparse.linalg.lsmr or scipy.linalg.lstsq
    (site.py:325-329): number of unknowns and rows (coefficients by column,
    right hand side) to solution *)
Variable lsq : nat -> list (list (nat * R) * R) -> nat -> R.

(** site.py:119-135 *)
Definition find_areas (evs : list evres) (i : nat) (ignore : option (list string)) : list (string * list string) :=
  let merged := match merge_sets (event_areas ignore i evs) with Some l => l | None => [] end in
  dict_of String.eqb (map (fun a => (pick a, a)) merged).

(** max(areas, key=lambda k: len(areas[k])), site.py:268: the first one with
    the largest number of stations *)
Definition largest (areas : list (string * list string)) : option (list string) :=
  fold_left (fun best p => match best with
                           | None => Some (snd p)
                           | Some b => if Nat.ltb (List.length b) (List.length (snd p)) then Some (snd p) else Some b
                           end) areas None.

(** site.py:56-63 *)
Definition number_of_freqs (evs : list evres) : res (option nat) :=
  fold_left (fun acc ev =>
    do Nf <- acc;
    match Nf with
    | Some n => if Nat.eqb n (List.length (evW ev)) then Ok (Some n) else Err AssertionError
    | None => Ok (Some (List.length (evW ev)))
    end) evs (Ok None).

(** l[i] = v, site.py:75-85 *)
Fixpoint set_nth (l : list entry) (i : nat) (v : entry) : list entry :=
  match l, i with
  | [], _ => []
  | _ :: r, O => v :: r
  | x :: r, S j => x :: set_nth r j v
  end.

Open Scope R_scope.

(** x /= factor and x *= factor for a valid x, site.py:76, 79 *)
Definition emul (e : entry) (f : R) : entry := match e with ENum r => ENum (r * f) | _ => e end.

(** site.py:77-82 for one station; only = None if no stations are removed,
    Some None if only[i] is None *)
Definition rescale_station (fac : R) (i : nat) (only : option (option (list string)))
  (p : string * list entry) : res (string * list entry) :=
  let (sta, Rsta) := p in
  if negb (valid (at_ Rsta i)) then Ok (sta, Rsta)
  else
    let Rsta := set_nth Rsta i (emul (at_ Rsta i) fac) in
    match only with
    | None => Ok (sta, Rsta)
    | Some None => Err TypeError
    | Some (Some area) =>
        if inb String.eqb sta area then Ok (sta, Rsta) else Ok (sta, set_nth Rsta i ENone)
    end.

(** site.py:70-85 for one event and one frequency *)
Definition rescale_event (fac : R) (i : nat) (only : option (option (list string))) (ev : evres) : res evres :=
  if negb (valid (at_ (evW ev) i)) then Ok ev
  else
    let W := set_nth (evW ev) i (emul (at_ (evW ev) i) (/ fac)) in
    do Rs <- mapM (rescale_station fac i only) (evR ev);
    let W := if forallb (fun p => negb (valid (at_ (snd p) i))) Rs then set_nth W i ENone else W in
    Ok {| evW := W; evR := Rs |}.

(** only[i], used at site.py:81 if only is not empty *)
Definition only_at (only : option (list (option (list string)))) (i : nat) : option (option (list string)) :=
  match only with
  | None => None
  | Some [] => None
  | Some l => Some (nth i l None)
  end.

(** enumerate, site.py:71, 289 *)
Definition enum {A} (l : list A) : list (nat * A) := combine (seq 0 (List.length l)) l.

(** site.py:66-85; factors k i is the factor of event k at frequency i *)
Definition rescale_results (evs : list evres) (Nf : nat) (factors : nat -> nat -> R)
  (only : option (list (option (list string)))) : res (list evres) :=
  fold_left (fun acc i =>
    do evs <- acc;
    mapM (fun p => rescale_event (factors (fst p) i) i (only_at only i) (snd p)) (enum evs))
    (seq 0 Nf) (Ok evs).

(** ** alignment *)
(** argument station (site.py:194): None, one name or a list of names *)
Inductive staopt := StaNone | StaStr (s : string) | StaList (l : list string).

(** Python's test a in b for two strings (site.py:299): substring *)
Fixpoint substr (a b : string) : bool :=
  String.prefix a b || match b with EmptyString => false | String _ r => substr a r end.

(** station is None or sta == station or sta in station, site.py:299 *)
Definition norm_station (station : staopt) (sta : string) : bool :=
  match station with
  | StaNone => true
  | StaStr s => String.eqb sta s || substr sta s
  | StaList l => inb String.eqb sta l
  end.

(** Nstations[i][sta], site.py:225-233 *)
Definition nstations (evs : list evres) (i : nat) (sta : string) : nat :=
  List.length (filter (fun p => String.eqb (fst p) sta && valid (at_ (snd p) i)) (flat_map evR evs)).

(** an observation entering the system: number of the event, station, value *)
Record obs := { oev : nat; osta : string; oval : R }.

(** the nested loops at site.py:290-297 *)
Definition observations (evs : list evres) (i : nat) (area : list string) : list obs :=
  flat_map (fun p => flat_map (fun q =>
      if negb (inb String.eqb (fst q) area) then []
      else match at_ (snd q) i with
           | ENum r => [{| oev := fst p; osta := fst q; oval := r |}]
           | _ => []
           end) (evR (snd p))) (enum evs).

(** state of the loop: norm_row_A, norm_row_b, stations_used_norm, last, rows *)
Record astate := {
  sA : list (nat * R); sb : R; sused : list string;
  slast : list (string * (nat * R)); srows : list (list (nat * R) * R) }.

(** norm_row_A[k] += fac, a defaultdict *)
Definition dict_add (A : list (nat * R)) (k : nat) (fac : R) : list (nat * R) :=
  dset Nat.eqb A k (match dget Nat.eqb A k with Some v => v | None => 0 end + fac).

(** site.py:299-321 *)
Definition align_step (station : staopt) (nsta : string -> nat) (s : astate) (o : obs) : astate :=
  let s := if norm_station station (osta o) then
             let fac := 1 / INR (nsta (osta o)) in
             {| sA := dict_add (sA s) (oev o) fac; sb := sb s - ln (oval o) * fac;
                sused := if inb String.eqb (osta o) (sused s) then sused s else sused s ++ [osta o];
                slast := slast s; srows := srows s |}
           else s in
  match dget String.eqb (slast s) (osta o) with
  | Some (kl, Rl) =>
      {| sA := sA s; sb := sb s; sused := sused s;
         slast := dset String.eqb (slast s) (osta o) (oev o, oval o);
         srows := srows s ++ [([(oev o, 1); (kl, -1)], ln Rl - ln (oval o))] |}
  | None =>
      {| sA := sA s; sb := sb s; sused := sused s;
         slast := dset String.eqb (slast s) (osta o) (oev o, oval o); srows := srows s |}
  end.

(** site.py:278-319: the rows of the system, the normalisation row last.
    Without a station for the normalisation 0 / 0 is evaluated. *)
Definition align_rows (station : staopt) (nsta : string -> nat) (resp : R) (l : list obs)
  : res (list (list (nat * R) * R)) :=
  let s := fold_left (align_step station nsta) l
             {| sA := []; sb := 0; sused := []; slast := []; srows := [] |} in
  let n := INR (List.length (sused s)) in
  match sused s with
  | [] => Err ZeroDivisionError
  | _ => Ok (srows s ++ [(map (fun p => (fst p, snd p / n)) (sA s), sb s / n + ln resp)])
  end.

(** response: one number or one per frequency, site.py:249 *)
Inductive response := RScalar (r : R) | RList (l : list R).

(** reponse_freqs[i], site.py:315 *)
Definition response_at (resp : response) (i : nat) : res R :=
  match resp with
  | RScalar r => Ok r
  | RList l => match nth_error l i with Some r => Ok r | None => Err IndexError end
  end.

(** site.py:254-330 for one frequency: largest area and logarithms of the factors *)
Definition align_freq (evs : list evres) (station : staopt) (resp : response)
  (ignore : option (list string)) (i : nat) : res (option (list string) * (nat -> R)) :=
  match largest (find_areas evs i ignore) with
  | None => Ok (None, fun _ => 0)
  | Some area =>
      do r <- response_at resp i;
      do rows <- align_rows station (nstations evs i) r (observations evs i area);
      Ok (Some area, lsq (List.length evs) rows)
  end.

(** array of floats: None becomes nan, site.py:49 *)
Definition epyf (e : entry) : pyf := match e with ENum r => FNum r | _ => FNan end.

(** _collectR(results, freqi=None), site.py:42-53 and core.py:376-388 *)
Definition collectR (evs : list evres) : list (string * list (list pyf)) :=
  fold_left (fun d p =>
      dset String.eqb d (fst p)
        (match dget String.eqb d (fst p) with Some l => l | None => [] end ++ [map epyf (snd p)]))
    (flat_map evR evs) [].

(** site.py:338-342; R is the mean site response of the results *)
Definition mean_responses (evs : list evres) (Nf : nat) (Rm : list (string * list (option R)))
  : res (list (string * list (option R))) :=
  fold_left (fun acc p =>
      do Rm <- acc;
      if forallb (forallb fisnan) (snd p) then Ok Rm
      else do l <- gmeanlist rlm (snd p) Nf None true 5; Ok (dset String.eqb Rm (fst p) l))
    (collectR evs) (Ok Rm).

(** site.py:207-209: drop events without result, sort by event id *)
Definition sort_events (evs : list (string * option evres)) : list (string * evres) :=
  pysort (fun a b => String.leb (fst a) (fst b))
    (flat_map (fun p => match snd p with Some e => [(fst p, e)] | None => [] end) evs).

(** site.py:194-353; results['events'] and results.get('R') to their new values.
    Not modelled: join_unconnected (off by default), the log messages, and
    calculate_source_properties (line 334), which adds sds, M0 and m to the
    results and leaves W and R alone. *)
Definition align_site_responses (events : list (string * option evres))
  (Rm : option (list (string * list (option R)))) (station : staopt) (resp : response)
  (ignore : option (list string))
  : res (list (string * evres) * list (string * list (option R))) :=
  let sorted := sort_events events in
  let evs := map snd sorted in
  do Nf <- number_of_freqs evs;
  match Nf with
  | None => Err TypeError
  | Some Nf =>
      do sols <- mapM (align_freq evs station resp ignore) (seq 0 Nf);
      let factors k i := exp (snd (nth i sols (None, fun _ => 0)) k) in
      do evs' <- rescale_results evs Nf factors (Some (map fst sols));
      do Rm' <- mean_responses evs' Nf (match Rm with Some m => m | None => [] end);
      Ok (combine (map fst sorted) evs', Rm')
  end.

End Site.
