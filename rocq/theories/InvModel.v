(** Model of the second half of invert, /repo/qopen/core.py:1318-1426: fixed
    parameters, distribution of the frequency bands and arrangement of the
    results.  Log messages and plots are left out, as is the cached filter width
    (core.py:1296-1311). *)
From Coq Require Import String List Bool Reals ZArith Arith.
From Verif Require Import Base Pyf FreqsModel SortModel EventModel SourceModel LsqfbModel.
Import ListNotations.
Open Scope string_scope.
Open Scope list_scope.
Open Scope R_scope.

(** the command, core.py:1063, 1326-1327 *)
Inductive command := Go | Fixed | Source.
(** see above *)
Definition is_fix (c : command) : bool := match c with Go => false | _ => true end.
(** see above *)
Definition is_fix_sites (c : command) : bool := match c with Source => true | _ => false end.

(** frequency bands by central frequency *)
Notation bands := (list (R * (R * R))).

(** equality of frequency bands as dictionary keys *)
Definition band_eqb (a b : R * R) : bool := (reqb (fst a) (fst b) && reqb (snd a) (snd b))%bool.

(** ** Fixed parameters, core.py:1333-1349 *)

(** the entries of the input results that are used; V are the numbers *)
Record finput (V : Type) := {
  fi_freq : list R; fi_g0 : list (option V); fi_b : list (option V);
  fi_R : list (string * list (option V)) }.
Arguments fi_freq {V}. Arguments fi_g0 {V}. Arguments fi_b {V}. Arguments fi_R {V}.

(** [set(a) != set(b)], core.py:1337 *)
Definition same_set (a b : list R) : bool :=
  (forallb (fun x => inb reqb x b) a && forallb (fun x => inb reqb x a) b)%bool.

(** [zip] of three lists, core.py:1342 *)
Fixpoint zip3 {A B C} (a : list A) (b : list B) (c : list C) : list (A * (B * C)) :=
  match a, b, c with
  | x :: a, y :: b, z :: c => (x, (y, z)) :: zip3 a b c
  | _, _, _ => []
  end.

(** an entry of a dictionary, KeyError if missing *)
Definition getitem {K V} (eqb : K -> K -> bool) (d : list (K * V)) (k : K) : res V :=
  match dget eqb d k with Some v => Ok v | None => Err KeyError end.

(** [l[i]], IndexError beyond the end *)
Definition item {A} (l : list A) (i : nat) : res A :=
  match nth_error l i with Some x => Ok x | None => Err IndexError end.

(** kw['fix_params'], core.py:1341-1342 *)
Definition fix_params {V} (freq_bands : bands) (fp : finput V)
    : res (list ((R * R) * (option V * option V))) :=
  if negb (same_set (fi_freq fp) (dkeys freq_bands)) then Err ValueError
  else
    do l <- mapM (fun x => do fb <- getitem reqb freq_bands (fst x); Ok (fb, snd x))
              (zip3 (fi_freq fp) (fi_g0 fp) (fi_b fp));
    Ok (dict_of band_eqb l).

(** the site responses of a band, core.py:1348-1349 *)
Fixpoint sites_of {V} (sites : list (string * list (option V))) (i : nat) : res (list (string * V)) :=
  match sites with
  | [] => Ok []
  | (sta, val) :: sites =>
      do v <- item val i;
      do rest <- sites_of sites i;
      match v with Some x => Ok ((sta, x) :: rest) | None => Ok rest end
  end.

(** kw['fix_sites_params'], core.py:1345-1349 *)
Definition fix_sites_params {V} (freq_bands : bands) (fp : finput V)
    : res (list ((R * R) * list (string * V))) :=
  do l <- mapM (fun x => do fb <- getitem reqb freq_bands (snd x);
                         do s <- sites_of (fi_R fp) (fst x); Ok (fb, s))
            (combine (seq 0 (List.length (fi_freq fp))) (fi_freq fp));
  Ok (dict_of band_eqb l).

(** the arguments that depend on the command, core.py:1326-1349; [input] is None
    if no results have been given (TypeError) *)
Record fixkw (V : Type) := {
  kw_fix : option (list ((R * R) * (option V * option V)));
  kw_fix_sites : option (list ((R * R) * list (string * V))) }.
Arguments kw_fix {V}. Arguments kw_fix_sites {V}.

(** see above *)
Definition fix_kw {V} (cmd : command) (freq_bands : bands) (input : option (finput V)) : res (fixkw V) :=
  match cmd, input with
  | Go, _ => Ok {| kw_fix := None; kw_fix_sites := None |}
  | _, None => Err TypeError
  | Fixed, Some fp =>
      do p <- fix_params freq_bands fp;
      Ok {| kw_fix := Some p; kw_fix_sites := None |}
  | Source, Some fp =>
      do p <- fix_params freq_bands fp;
      do s <- fix_sites_params freq_bands fp;
      Ok {| kw_fix := Some p; kw_fix_sites := Some s |}
  end.

(** ** Distribution of the bands, core.py:1351-1361 *)

Section Jobs.
  Context {B S A : Type}.
  (** invert_fb for a band: it changes the streams in place (core.py:566-567)
      and returns or raises *)
  Variable work : B -> S -> S * res A.

  (** results of a list of bands that share the streams *)
  Fixpoint run_shared (bs : list B) (s : S) : res (list A) :=
    match bs with
    | [] => Ok []
    | b :: bs =>
        let (s, r) := work b s in
        do x <- r;
        do rest <- run_shared bs s;
        Ok (x :: rest)
    end.

  (** njobs = 1, core.py:1351-1355: each band gets a copy of the streams *)
  Definition run_serial (bs : list B) (s : S) : res (list A) :=
    if Nat.ltb 1 (List.length bs) then mapM (fun b => snd (work b s)) bs
    else run_shared bs s.

  (** chunk size of multiprocessing.Pool.map *)
  Definition chunksize (n workers : nat) : nat :=
    let q := (n / (4 * workers))%nat in
    if Nat.eqb (n mod (4 * workers)) 0 then q else Datatypes.S q.

  (** consecutive chunks of length c; k is the rest of the current chunk *)
  Fixpoint chunks_from (c k : nat) (cur bs : list B) : list (list B) :=
    match bs with
    | [] => match cur with [] => [] | _ => [rev cur] end
    | b :: bs =>
        match k with
        | O => rev cur :: chunks_from c (c - 1) [b] bs
        | Datatypes.S k => chunks_from c k (b :: cur) bs
        end
    end.
  (** see above *)
  Definition chunks (c : nat) (bs : list B) : list (list B) := chunks_from c c [] bs.

  (** The chunks finish in the order given.  Each chunk is sent with its own
      copy of the streams, which its bands share.  Results are stored by the
      number of the chunk; of the exceptions the first one is kept. *)
  Record mapresult := { m_val : list (nat * list A); m_err : option exn }.

  (** see above *)
  Definition store (s : S) (cs : list (list B)) (m : mapresult) (i : nat) : mapresult :=
    match run_shared (nth i cs []) s with
    | Ok l => {| m_val := dset Nat.eqb (m_val m) i l; m_err := m_err m |}
    | Err e => {| m_val := m_val m;
                  m_err := match m_err m with None => Some e | Some e => Some e end |}
    end.

  (** [pool.map], core.py:1357-1361 *)
  Definition run_pool (workers : nat) (order : list nat) (bs : list B) (s : S) : res (list A) :=
    let cs := chunks (chunksize (List.length bs) workers) bs in
    let m := fold_left (store s cs) order {| m_val := []; m_err := None |} in
    match m_err m with
    | Some e => Err e
    | None => Ok (concat (map (fun i => match dget Nat.eqb (m_val m) i with Some l => l | None => [] end)
                              (seq 0 (List.length cs))))
    end.
End Jobs.

(** ** Arrangement of the results, core.py:1363-1426 *)

(** the result of a band, core.py:952-959, 1384; V are the numbers *)
Record bandres (V : Type) := {
  br_g0 : option V; br_b : option V;
  br_W : option (list (string * V)); br_R : option (list (string * V));
  br_n : nat; br_error : V; br_v0 : R }.
Arguments br_g0 {V}. Arguments br_b {V}. Arguments br_W {V}. Arguments br_R {V}.
Arguments br_n {V}. Arguments br_error {V}. Arguments br_v0 {V}.

(** values of the result dictionary; E are the dictionaries of the events *)
Inductive rval (V E : Type) :=
| RFreq (l : list R)
| RNums (l : list (option V))
| RCounts (l : list nat)
| RV0 (v0 : R)
| RSites (d : list (string * list (option V)))
| REvents (d : list (string * E)).
Arguments RFreq {V E}. Arguments RNums {V E}. Arguments RCounts {V E}. Arguments RV0 {V E}.
Arguments RSites {V E}. Arguments REvents {V E}.

(** [d[k].append(x)] for a defaultdict(list), core.py:1401-1411 *)
Definition append_at {A} (d : list (string * list A)) (k : string) (x : A) : list (string * list A) :=
  dset String.eqb d k ((match dget String.eqb d k with Some l => l | None => [] end) ++ [x]).

Section Arrange.
  Context {V E : Type}.
  Variables (cmd : command) (coda_norm : bool).
  (** core.py:1369-1370 *)
  Definition r_ok : bool := (negb (is_fix_sites cmd) && negb coda_norm)%bool.
  (** see above *)
  Definition w_ok : bool := negb coda_norm.

  (** The dictionary result while the bands are added.  v0 is None as long as
      there is no such key. *)
  Record rstate := {
    rs_freq : list R; rs_g0 : list (option V); rs_b : list (option V);
    rs_v0 : option R; rs_error : list (option V); rs_n : list nat;
    rs_R : list (string * list (option V)); rs_W : list (string * list (option V)) }.

  (** core.py:1371-1374 *)
  Definition rs_init : rstate :=
    {| rs_freq := []; rs_g0 := []; rs_b := []; rs_v0 := None; rs_error := []; rs_n := [];
       rs_R := []; rs_W := [] |}.

  (** core.py:1375-1411 for one band *)
  Definition add_band (stations events : list string) (st : rstate) (x : R * option (bandres V)) : res rstate :=
    let (cfreq, r) := x in
    let g0 := match r with None => None | Some r => br_g0 r end in
    let b := match r with None => None | Some r => br_b r end in
    let W := match r with None => None | Some r => br_W r end in
    let Rs := match r with None => None | Some r => br_R r end in
    let n := match r with None => 0%nat | Some r => br_n r end in
    let error := match r with None => None | Some r => Some (br_error r) end in
    let v0 := match r with None => None | Some r => Some (br_v0 r) end in
    if (is_fix cmd && match g0 with None => false | Some _ => true end)%bool then Err AssertionError
    else if (is_fix cmd && match b with None => false | Some _ => true end)%bool then Err AssertionError
    else if (negb r_ok && match Rs with None => false | Some _ => true end)%bool then Err AssertionError
    else if (negb w_ok && match W with None => false | Some _ => true end)%bool then Err AssertionError
    else
      Ok {| rs_freq := rs_freq st ++ [cfreq];
            rs_g0 := if is_fix cmd then rs_g0 st else rs_g0 st ++ [g0];
            rs_b := if is_fix cmd then rs_b st else rs_b st ++ [b];
            rs_v0 := match v0 with Some v => Some v | None => rs_v0 st end;
            rs_error := rs_error st ++ [error];
            rs_n := rs_n st ++ [n];
            rs_R := if r_ok then
                      fold_left (fun d sta => append_at d sta (match Rs with None => None | Some m => dget String.eqb m sta end))
                                stations (rs_R st)
                    else rs_R st;
            rs_W := if w_ok then
                      fold_left (fun d ev => append_at d ev (match W with None => None | Some m => dget String.eqb m ev end))
                                events (rs_W st)
                    else rs_W st |}.

  (** see above *)
  Fixpoint add_bands (stations events : list string) (st : rstate) (l : list (R * option (bandres V)))
      : res rstate :=
    match l with
    | [] => Ok st
    | x :: l => do st <- add_band stations events st x; add_bands stations events st l
    end.

  (** insert_source_properties with the magnitude of the event (core.py:1415-1418),
      for the frequencies, the id of the event, its dictionary and v0; an event
      dictionary is made from the list W; without W it is empty *)
  Variable with_W : list (option V) -> E.
  (** see above *)
  Variable source : list R -> string -> E -> option R -> res E.

  (** core.py:1413-1419; [result['events'][evid]] exists for each event *)
  Fixpoint add_source (freq : list R) (v0 : option R) (events : list string) (d : list (string * E))
      : res (list (string * E)) :=
    match events with
    | [] => Ok d
    | ev :: events =>
        do e <- source freq ev (match dget String.eqb d ev with Some e => e | None => with_W [] end) v0;
        add_source freq v0 events (dset String.eqb d ev e)
    end.

  (** the dictionary in the order of its keys: R and events are created first,
      v0 after the first band with a result.  Simplification: its place among
      the keys does not matter, since the keys are sorted afterwards. *)
  Definition result_items (st : rstate) (evs : list (string * E)) : list (string * rval V E) :=
    (if r_ok then [("R", RSites (rs_R st))] else []) ++
    [("events", REvents evs)] ++
    match rs_freq st with
    | [] => []
    | _ =>
        [("freq", RFreq (rs_freq st))] ++
        (if is_fix cmd then [] else [("g0", RNums (rs_g0 st)); ("b", RNums (rs_b st))]) ++
        [("error", RNums (rs_error st)); ("nstations", RCounts (rs_n st))]
    end ++
    match rs_v0 st with Some v0 => [("v0", RV0 v0)] | None => [] end.

  (** core.py:1363-1427: None without result *)
  Definition arrange (stations events : list string) (freq_bands : bands) (rlist : list (option (bandres V)))
      : res (option (list (string * rval V E))) :=
    if forallb (fun r => match r with None => true | Some _ => false end) rlist then Ok None
    else
      do st <- add_bands stations events rs_init (combine (dkeys freq_bands) rlist);
      do evs <- (if w_ok then add_source (rs_freq st) (rs_v0 st) events
                                 (map (fun kw => (fst kw, with_W (snd kw))) (rs_W st))
                 else Ok []);
      if (match rs_freq st with [] => true | _ => false end
          || (negb (is_fix cmd) && forallb (fun g => match g with None => true | Some _ => false end) (rs_g0 st)))%bool
      then Ok None
      else do r <- sort_dict DUMP_ORDER (result_items st evs); Ok (Some r).
End Arrange.

(** ** All, core.py:1318-1427 *)

(** the names of the stations, core.py:1318-1323 *)
Definition station_names (ignore : bool) (stations : list string) : res (list string) :=
  if ignore then ignore_network stations else Ok stations.

(** [jobs] distributes the bands; it is run_serial or run_pool *)
Definition invert_rest {V E St : Type} (cmd : command) (coda_norm ignore : bool)
    (jobs : ((R * R) -> St -> St * res (option (bandres V))) -> list (R * R) -> St -> res (list (option (bandres V))))
    (invert_fb : fixkw V -> (R * R) -> St -> St * res (option (bandres V)))
    (with_W : list (option V) -> E) (source : list R -> string -> E -> option R -> res E)
    (input : option (finput V)) (stations events : list string) (freq_bands : bands) (streams : St)
    : res (option (list (string * rval V E))) :=
  do stations <- station_names ignore stations;
  do kw <- fix_kw cmd freq_bands input;
  do rlist <- jobs (invert_fb kw) (map snd freq_bands) streams;
  arrange cmd coda_norm with_W source stations events freq_bands rlist.

(** ** Event dictionaries, core.py:1405-1418 *)

(** the dictionary of an event with its list W *)
Definition event_W (l : list (option R)) : evdict := [("W", VList l)].

(** core.py:1416-1419; the first four arguments are the optimisers of source.py,
    [mags] the magnitudes of the catalogue (get_magnitude of the event with the
    id).  The dictionary of the event is a defaultdict(list) (core.py:1374):
    source.py:219-220 create a list of spectra where there is none. *)
Definition event_source rlm1 lin2 min1 minN (rho0 : option R) (method : option string) (so : smo)
    (mags : string -> option R) (freq : list R) (ev : string) (e : evdict) (v0 : option R) : res evdict :=
  let e := dsetdefault String.eqb e "sds" (VList []) in
  do p <- insert_source_properties rlm1 lin2 min1 minN freq e v0 rho0 method so (mags ev);
  Ok (snd p).

(** the tuple returned by invert_fb, core.py:952-959 *)
Definition bandres_of (r : fbresult) : bandres pyf :=
  {| br_g0 := fb_g0 r; br_b := fb_b r; br_W := fb_W r; br_R := fb_R r;
     br_n := fb_nstations r; br_error := fb_error r; br_v0 := fb_v0 r |}.
