(** Model of the inversion in one frequency band, /repo/qopen/core.py:768-1024.
    Green's functions (Gsmooth, G_func), the weighted least squares solver of
    statsmodels and the scalar optimiser of scipy are arbitrary functions.
    Dumps, plots and log messages are left out. *)
From Coq Require Import String List Bool Reals Lra ZArith Arith.
From Verif Require Import Base Pyf PyfOps FbModel.
Import ListNotations.
Open Scope string_scope.
Open Scope list_scope.
Open Scope R_scope.

(** [list(OrderedDict.fromkeys(l))], core.py:772-773 *)
Fixpoint fromkeys_into (seen l : list string) : list string :=
  match l with
  | [] => []
  | x :: r => if inb String.eqb x seen then fromkeys_into seen r
              else x :: fromkeys_into (x :: seen) r
  end.
(** see above *)
Definition fromkeys (l : list string) : list string := fromkeys_into [] l.

(** [l.index(x)], core.py:793-794 *)
Fixpoint index_of (l : list string) (x : string) : res nat :=
  match l with
  | [] => Err ValueError
  | y :: r => if String.eqb y x then Ok 0%nat else do i <- index_of r x; Ok (S i)
  end.

(** [A[i, :] = x] for the column of one equation; IndexError outside *)
Fixpoint put {A} (l : list A) (i : nat) (x : A) : res (list A) :=
  match l, i with
  | [], _ => Err IndexError
  | _ :: r, O => Ok (x :: r)
  | y :: r, S i => do r <- put r i x; Ok (y :: r)
  end.

(** [A[-1, :] = x] *)
Definition put_last {A} (l : list A) (x : A) : res (list A) :=
  match l with [] => Err IndexError | _ => put l (List.length l - 1) x end.

(** bounds of Python slices: negative numbers count from the end *)
Definition clamp (n : nat) (i : Z) : nat :=
  Z.to_nat (if Z.ltb i 0 then i + Z.of_nat n else i).
(** [l[:i]], core.py:889 *)
Definition slice_to {A} (l : list A) (i : Z) : list A := firstn (clamp (List.length l) i) l.
(** [l[i:j]], core.py:891 *)
Definition slice_of {A} (l : list A) (i j : Z) : list A :=
  skipn (clamp (List.length l) i) (firstn (clamp (List.length l) j) l).

(** float equality: nan differs from everything *)
Definition feqb (x y : pyf) : bool := (fleb x y && fleb y x)%bool.

(** the scalar optimiser (core.py:938): asks for the misfit at points, depending
    on the values so far, until it returns a point or raises *)
Inductive optim :=
| Ask (x : pyf) (k : pyf -> optim)
| Done (x : pyf)
| Fail (e : exn).

(** The options of invert_fb used here. *)
Record lopts := {
  l_coda_norm : bool;                       (* coda_normalization is not None *)
  l_fix : bool;
  l_fix_sites : option (list (string * pyf));  (* fix_sites with fix_sites_params[freq_band] *)
  l_fix_params : option (option pyf * option pyf);  (* fix_params[freq_band], None: no such key *)
  l_R0 : R;
  l_b_bounds : option (R * R);
  l_g0_bounds : option (R * R);
  l_bulk : bool;                            (* bulk_window given *)
  l_optimize : bool;
  l_plot_optimization : bool;
  l_num : Z;                                (* plot_optimization_options.get('num', 7) *)
  l_gcoda : R -> list R -> pyf -> res (list pyf);   (* Gsmooth(G_func, r, t, v0, g0, ...) *)
  l_gbulk : R -> R * R -> pyf -> res pyf;           (* np.mean(G_func(r, linspace(t1, t2), v0, g0)) *)
  l_wls : list pyf -> list (list pyf) -> option (list R) -> res (list pyf * pyf);
                                            (* WLS(B, A, weights).fit(): params, mse_resid *)
  l_optim : optim                           (* minimize_scalar(..., **optimize) *)
}.

Section L.
  Variable o : lopts.
  Variable st : wstate.

  (** [event_station_pairs], core.py:770 *)
  Definition pairs : list (string * string) := map get_pair (w_energies st).
  (** core.py:771-773 *)
  Definition eventids : list string := fromkeys (map fst pairs).
  (** see above *)
  Definition stations : list string := fromkeys (map snd pairs).
  (** core.py:786-787 *)
  Definition Ns : nat := List.length stations.
  (** see above *)
  Definition Ne : nat := List.length eventids.
  (** fix as a number *)
  Definition fix01 : nat := if l_fix o then 1 else 0.

  (** [enumerate(Ecoda + [[_] for _ in Ebulk])]: number of samples of block i *)
  Definition block_lengths : list nat :=
    map (@List.length pyf) (w_ecoda st) ++ map (fun _ => 1%nat) (w_ebulk st).

  (** [event_station_pairs[i % len(event_station_pairs)]], core.py:792, 804 *)
  Definition pair_at (i : nat) : res (string * string) :=
    match pairs with
    | [] => Err ZeroDivisionError
    | _ => match nth_error pairs (i mod List.length pairs) with
           | Some p => Ok p
           | None => Err IndexError
           end
    end.

  (** one column of A for block i with free site responses, core.py:789-797 *)
  Definition row_free (i : nat) : res (list pyf) :=
    let zeros := repeat (FNum 0) (Ns + Ne - fix01) in
    do p <- pair_at i;
    let (evid, sta) := p in
    do j <- index_of stations sta;
    do a <- put zeros j (FNum 1);
    do idx <- index_of eventids evid;
    if Nat.ltb 0 idx then put a (Ns + idx - 1) (FNum 1) else Ok a.

  (** the same with fixed site responses, core.py:802-810; with the response *)
  Definition row_fix_sites (params : list (string * pyf)) (i : nat) : res (list pyf * pyf) :=
    let zeros := repeat (FNum 0) Ne in
    do p <- pair_at i;
    let (evid, sta) := p in
    match dget String.eqb params sta with
    | None => Err KeyError
    | Some site_resp =>
        do idx <- index_of eventids evid;
        do a <- put zeros idx (FNum 1);
        Ok (a, site_resp)
    end.

  (** each element k times *)
  Fixpoint stretch {A} (ks : list nat) (l : list A) : list A :=
    match ks, l with
    | k :: ks, x :: l => repeat x k ++ stretch ks l
    | _, _ => []
    end.

  (** [np.hstack(tcoda + tbulk)], core.py:821, 853 *)
  Definition times : list pyf := concat (map (map FNum) (w_tcoda st)) ++ w_tbulk st.

  (** [A[-1, :] = ...], core.py:820-821; ValueError if the lengths differ *)
  Fixpoint put_times (a : list (list pyf)) (t : list pyf) : res (list (list pyf)) :=
    match a, t with
    | [], [] => Ok []
    | x :: a, y :: t => do x <- put_last x (fneg y); do a <- put_times a t; Ok (x :: a)
    | _, _ => Err ValueError
    end.

  (** the rows of the (transposed) matrix A, with B_fix_sites and R_fix_sites
      (empty without fixed responses), core.py:785-822 *)
  Definition build : res (list (list pyf) * list pyf * list pyf) :=
    let is := seq 0 (List.length block_lengths) in
    do abr <-
      match l_coda_norm o, l_fix_sites o with
      | false, None =>
          do rows <- mapM row_free is;
          Ok (stretch block_lengths rows, [], [])
      | _, Some params =>
          do rows <- mapM (row_fix_sites params) is;
          let b := stretch block_lengths (map (fun r => flog (snd r)) rows) in
          if existsb fisnan b then Err AssertionError
          else Ok (stretch block_lengths (map fst rows), b, firstn Ns (map snd rows))
      | true, None =>
          Ok (stretch block_lengths (map (fun _ => [FNum 1; FNum 1]) is), [], [])
      end;
    let '(a, b, r) := abr in
    if l_fix o then Ok (a, b, r) else do a <- put_times a times; Ok (a, b, r).

  (** one fit: error, g0, b, W, R (info left out), core.py:902-905 *)
  Record fit := { f_err : pyf; f_g0 : pyf; f_b : pyf; f_W : list pyf; f_R : list pyf }.

  (** the lists record and record_g0; recorded_g0 contains the g0 of record *)
  Record rstate := { r_record : list fit; r_g0 : list (pyf * pyf) }.

  (** Green's functions of the pairs, core.py:836-848 *)
  Fixpoint greens (g0 : pyf) (ps : list (string * string)) (ecoda : list (list pyf))
      (tcoda : list (list R)) : res (list (list pyf) * list pyf) :=
    match ps with
    | [] => Ok ([], [])
    | p :: ps =>
        match ecoda with
        | [] => Err IndexError
        | e :: ecoda =>
            if Nat.eqb (List.length e) 0 then Err AssertionError
            else
              match dget pair_eqb (w_distances st) p with
              | None => Err KeyError
              | Some r =>
                  match tcoda with
                  | [] => Err IndexError
                  | t :: tcoda =>
                      do gc <- l_gcoda o r t g0;
                      do gb <-
                        (if l_bulk o then
                           match dget pair_eqb (w_tbulk_window st) p with
                           | None => Err KeyError
                           | Some t12 => do g <- l_gbulk o r t12 g0; Ok [g]
                           end
                         else Ok []);
                      do rest <- greens g0 ps ecoda tcoda;
                      let (gcs, gbs) := rest in
                      Ok (gc :: gcs, gb ++ gbs)
                  end
              end
        end
    end.

  (** elementwise operation on arrays; ValueError for different lengths.
      Simplification: arrays of length 1 are not repeated. *)
  Fixpoint zip_op (f : pyf -> pyf -> pyf) (x y : list pyf) : res (list pyf) :=
    match x, y with
    | [], [] => Ok []
    | a :: x, b :: y => do r <- zip_op f x y; Ok (f a b :: r)
    | _, _ => Err ValueError
    end.

  (** [b_fix] as a condition, core.py:852 *)
  Definition nonzero (b : option pyf) : option pyf :=
    match b with
    | Some (FNum x) => if Req_EM_T x 0 then None else b
    | _ => b
    end.

  (** right hand side, core.py:849-855 *)
  Definition rhs (g0 : pyf) (b_fix : option pyf) (fix_sites : bool) (b_fix_sites : list pyf)
      : res (list pyf) :=
    do gs <- greens g0 pairs (w_ecoda st) (w_tcoda st);
    let (gcoda, gbulk) := gs in
    let e := concat (w_ecoda st) ++ w_ebulk st in
    let g := concat gcoda ++ gbulk in
    do b <- zip_op fsub (map flog e) (map flog g);
    do b <- match nonzero b_fix with
            | None => Ok b
            | Some bf => zip_op fadd b (map (fmul bf) times)
            end;
    if fix_sites then zip_op fsub b b_fix_sites else Ok b.

  (** core.py:856-860 *)
  Definition weights (b : list pyf) : option (list R) :=
    if l_bulk o then Some (repeat 1 (List.length b - List.length (w_weights st)) ++ w_weights st)
    else None.

  (** outside of the bounds, core.py:879-880 *)
  Definition b_outside (b : pyf) : bool :=
    match l_b_bounds o with
    | None => false
    | Some (b1, b2) => negb (fltb (FNum b1) b && fltb b (FNum b2))
    end.
  (** core.py:834, 880 *)
  Definition g0_outside (g0 : pyf) : bool :=
    match l_g0_bounds o with
    | None => false
    | Some (g1, g2) => negb (fleb (FNum g1) g0 && fleb g0 (FNum g2))
    end.

  (** core.py:882-895: W and R *)
  Definition decode (c : list pyf) (fix_sites : bool) (r_fix_sites : list pyf)
      : list pyf * list pyf :=
    if fix_sites then (map fexp c, r_fix_sites)
    else
      let n1 := (Z.of_nat (List.length c) - Z.of_nat Ne + Z.of_nat fix01)%Z in
      let n2 := (Z.of_nat (List.length c) - 1 + Z.of_nat fix01)%Z in
      let w0 := fdiv (fexp (fmean (slice_to c n1))) (FNum (l_R0 o)) in
      let w := w0 :: map (fun x => fmul (fexp x) w0) (slice_of c n1 n2) in
      let r := if l_coda_norm o then repeat (FNum 1) Ns
               else map (fun x => fdiv (fexp x) w0) (slice_to c n1) in
      (w, r).

  (** the fit at g0, core.py:836-895 *)
  Definition solve_at (a : list (list pyf)) (b_sites r_sites : list pyf)
      (g0 : pyf) (b_fix : option pyf) (fix_sites : bool) : res fit :=
    do b <- rhs g0 b_fix fix_sites b_sites;
    do sol <- l_wls o b a (weights b);
    let (c, mse) := sol in
    let err := fsqrt mse in
    do be <-
      (if l_fix o then
         if l_coda_norm o then Err AssertionError
         else match b_fix with Some b => Ok (b, err) | None => Err TypeError end
       else
         match c with
         | [] => Err IndexError
         | _ => let b := last c FNan in
                Ok (b, if (b_outside b || g0_outside g0)%bool then FPInf else err)
         end);
    let (b, err) := be in
    let (w, r) := decode c fix_sites r_sites in
    Ok {| f_err := err; f_g0 := g0; f_b := b; f_W := w; f_R := r |}.

  (** core.py:897-902 *)
  Definition add_record (rs : rstate) (f : fit) (opt : bool) : rstate :=
    let rs := if (l_plot_optimization o && opt)%bool
              then {| r_record := r_record rs; r_g0 := r_g0 rs ++ [(f_err f, f_g0 f)] |}
              else rs in
    if (l_plot_optimization o && negb (existsb (fun x => feqb (f_g0 x) (f_g0 f)) (r_record rs))
        && (Z.ltb (Z.of_nat (List.length (r_record rs))) (l_num o - 1) || negb opt))%bool
    then {| r_record := r_record rs ++ [f]; r_g0 := r_g0 rs |}
    else rs.

  (** [lstsq(g0, True)], core.py:832-904 *)
  Definition lstsq_opt (a : list (list pyf)) (b_sites r_sites : list pyf) (rs : rstate) (g0 : pyf)
      : res (rstate * pyf) :=
    if g0_outside g0 then Ok (rs, FPInf)
    else
      do f <- solve_at a b_sites r_sites g0 None false;
      Ok (add_record rs f true, f_err f).

  (** [lstsq(g0, ...)], core.py:832-905 *)
  Definition lstsq (a : list (list pyf)) (b_sites r_sites : list pyf) (rs : rstate) (g0 : pyf)
      (b_fix : option pyf) (fix_sites : bool) : res (rstate * fit) :=
    do f <- solve_at a b_sites r_sites g0 b_fix fix_sites;
    Ok (add_record rs f false, f).

  (** [minimize_scalar(lstsq, args=(True,))], core.py:938 *)
  Fixpoint minimize (a : list (list pyf)) (b_sites r_sites : list pyf) (p : optim) (rs : rstate)
      : res (rstate * pyf) :=
    match p with
    | Done x => Ok (rs, x)
    | Fail e => Err e
    | Ask x k =>
        do y <- lstsq_opt a b_sites r_sites rs x;
        let (rs, err) := y in minimize a b_sites r_sites (k err) rs
    end.

  (** the three ways to choose g0, core.py:907-942; None: skip the band *)
  Definition choose : res (option (rstate * fit)) :=
    do abr <- build;
    let '(a, bs, r) := abr in
    let rs := {| r_record := []; r_g0 := [] |} in
    let fs := match l_fix_sites o with None => false | Some _ => true end in
    if l_fix o then
      match l_fix_params o with
      | None => Err KeyError
      | Some (Some g0_fix, Some b_fix) =>
          do y <- lstsq a bs r rs g0_fix (Some b_fix) fs;
          if (feqb (f_g0 (snd y)) g0_fix && feqb (f_b (snd y)) b_fix)%bool then Ok (Some y)
          else Err AssertionError
      | Some _ => Ok None
      end
    else if negb (l_optimize o) then
      match l_g0_bounds o with
      | None => Err TypeError
      | Some (g1, g2) =>
          do y <- lstsq a bs r rs (FNum ((g1 + g2) / 2)) None false; Ok (Some y)
      end
    else
      do x <- minimize a bs r (l_optim o) rs;
      let (rs, g0) := x in
      do y <- lstsq a bs r rs g0 None false; Ok (Some y).

  (** The result of a band, core.py:953-959; None where the dictionary has None. *)
  Record fbresult := {
    fb_g0 : option pyf; fb_b : option pyf;
    fb_W : option (list (string * pyf)); fb_R : option (list (string * pyf));
    fb_nstations : nat; fb_error : pyf; fb_v0 : R }.

  (** core.py:946-959 *)
  Definition arrange (f : fit) (v0 : R) : fbresult :=
    let rok := match l_fix_sites o with None => negb (l_coda_norm o) | Some _ => false end in
    {| fb_g0 := if l_fix o then None else Some (f_g0 f);
       fb_b := if l_fix o then None else Some (f_b f);
       fb_W := if l_coda_norm o then None
               else Some (dict_of String.eqb (combine eventids (f_W f)));
       fb_R := if rok then Some (dict_of String.eqb (combine stations (f_R f))) else None;
       fb_nstations := List.length (filter (fun x => negb (fisnan x)) (f_R f));
       fb_error := f_err f; fb_v0 := v0 |}.

  (** [not 1.01 * lo < x < 0.99 * hi], core.py:1019-1020 *)
  Definition near_bounds (bounds : option (R * R)) (x : pyf) : bool :=
    match bounds with
    | None => false
    | Some (lo, hi) => negb (fltb (FNum (1.01 * lo)) x && fltb x (FNum (0.99 * hi)))
    end.

  (** core.py:768-1024: result of the band (None: skipped) and the records *)
  Definition invert_band (v0 : R) : res (option fbresult * rstate) :=
    match pairs with
    | [] => Err ValueError
    | _ =>
        do y <- choose;
        match y with
        | None => Ok (None, {| r_record := []; r_g0 := [] |})
        | Some (rs, f) =>
            let result := arrange f v0 in
            if (near_bounds (l_b_bounds o) (f_b f) || near_bounds (l_g0_bounds o) (f_g0 f))%bool
            then Ok (None, rs)
            else Ok (Some result, rs)
        end
    end.
End L.
