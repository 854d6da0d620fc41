(** Model of the arrangement of panels in the plots of /repo/qopen/imaging.py.
    Drawing itself is left out, only the cells of the grids are kept.
    Simplification: numbers of columns and of panels are natural numbers. *)
From Coq Require Import List Bool Arith ZArith.
From Verif Require Import Base.
Import ListNotations.

(** [int(np.ceil(np.sqrt(N)))], imaging.py:296, 476, 508, 541, 683.
    Simplification: exact square root. *)
Definition ceil_sqrt (N : nat) : nat :=
  let s := Nat.sqrt N in if Nat.eqb (s * s) N then s else S s.

(** [gridspec.GridSpec(ny, nx)]: matplotlib demands positive numbers. *)
Definition gridspec (ny nx : nat) : res (nat * nat) :=
  if (Nat.eqb ny 0 || Nat.eqb nx 0)%bool then Err ValueError else Ok (ny, nx).

(** [gs[row, col]] *)
Definition cell (gs : nat * nat) (row col : nat) : res (nat * nat) :=
  if (Nat.ltb row (fst gs) && Nat.ltb col (snd gs))%bool then Ok (row, col) else Err IndexError.

(** _get_grid, imaging.py:681-687: nx, ny and the grid; [1 + (N-1) // nx] is 0
    for N = 0 *)
Definition get_grid (N : nat) (nx : option nat) : res (nat * nat * (nat * nat)) :=
  match nx with
  | None => let n := ceil_sqrt N in do gs <- gridspec n n; Ok (n, n, gs)
  | Some 0 => Err ZeroDivisionError
  | Some nx => let ny := match N with 0 => 0 | S m => 1 + m / nx end in
               do gs <- gridspec ny nx; Ok (nx, ny, gs)
  end.

(** A finished plot: the grid, the cells of the panels in the order of drawing and
    the cell of the colour bar *)
Record layout := { g_grid : nat * nat; g_cells : list (nat * nat); g_bar : option (nat * nat) }.

(** [gs[i // nx, i % nx]] for panels i = 0 .. k-1, imaging.py:311, 481, 515, 556,
    635, 732 *)
Definition panels (gs : nat * nat) (nx k : nat) : res (list (nat * nat)) :=
  mapM (fun i => cell gs (i / nx) (i mod nx)) (seq 0 k).

(** imaging.py:295-311 (plot_fits), 475-481 (plot_eventresult), 507-515
    (plot_eventsites) and 540-556 (plot_results) *)
Definition square_plot (N : nat) : res layout :=
  let n := ceil_sqrt N in
  do gs <- gridspec n n;
  do cs <- panels gs n N;
  Ok {| g_grid := gs; g_cells := cs; g_bar := None |}.

Definition b2n (b : bool) : nat := if b then 1 else 0.

(** plot_sites, imaging.py:613-672; [finite]: for every station whether it has a
    value that is not NaN.  Stations without are left out (632-634).  Without any
    panel [ax] is not bound at 666. *)
Definition plot_sites (max_nobs : nat) (finite : list bool) (nx : option nat) : res layout :=
  let k := List.length (filter (fun b => b) finite) in
  let N := b2n (Nat.ltb 1 max_nobs) + k in
  do g <- get_grid N nx;
  let '(nx, ny, gs) := g in
  do cs <- panels gs nx k;
  if Nat.eqb k 0 then Err UnboundLocalError
  else
    do bar <- (if Nat.eqb max_nobs 1 then Ok None
               else do c <- cell gs ((N - 1) / nx) ((N - 1) mod nx); Ok (Some c));
    Ok {| g_grid := gs; g_cells := cs; g_bar := bar |}.

(** plot_all_sds, imaging.py:711-755; [k]: number of events, [xlabel]: the label is
    not empty.  [list(result.values())[0]] fails without events. *)
Definition plot_all_sds (max_nobs k : nat) (nx : option nat) (xlabel : bool) : res layout :=
  if Nat.eqb k 0 then Err IndexError
  else
    let N := k + b2n (negb (Nat.eqb max_nobs 1)) in
    do g <- get_grid N nx;
    let '(nx, ny, gs) := g in
    do cs <- panels gs nx k;
    do bar <- (if Nat.eqb max_nobs 1 then Ok None
               else
                 let N := if (Nat.eqb ((N - 1) mod nx) ((nx - 1) / 2) && xlabel)%bool then N + 1 else N in
                 do c <- cell gs ((N - 1) / nx) ((N - 1) mod nx); Ok (Some c));
    Ok {| g_grid := gs; g_cells := cs; g_bar := bar |}.

(** What _set_gridlabels leaves on a panel *)
Record labels := { yticks : bool; ylabelled : bool; xticks : bool; xlabelled : bool }.

(** _set_gridlabels, imaging.py:96-105; [xlabel], [ylabel]: the label is not empty *)
Definition set_gridlabels (i nx ny N : nat) (xtlabel ytlabel xlabel ylabel : bool) : labels :=
  let below := (Z.of_nat i <? Z.of_nat N - Z.of_nat nx)%Z in
  {| yticks := negb (negb (Nat.eqb (i mod nx) 0) && negb ytlabel);
     ylabelled := Nat.eqb (i mod nx) 0 && Nat.eqb (i / nx) ((ny - 1) / 2) && ylabel;
     xticks := negb (below && negb xtlabel);
     xlabelled := Nat.eqb (i mod nx) ((nx - 1) / 2) && negb below && xlabel |}.

(** ** Steps of the optimisation *)

(** core.py:899-902: the step at g0 is recorded.  Values of g0 are compared only. *)
Definition record_step (max_record : nat) (opt : bool) (record : list Z) (g0 : Z) : list Z :=
  if (negb (existsb (Z.eqb g0) record) &&
      (Nat.ltb (S (List.length record)) max_record || negb opt))%bool
  then record ++ [g0] else record.

(** core.py:825-828, 897-905 and the calls of lstsq: the values tried by the
    optimisation, then the optimal one; plot_optimization is set *)
Definition recorded (num : nat) (tried : list Z) (best : Z) : list Z :=
  record_step num false (fold_left (record_step num true) tried []) best.

(** Rows and columns [r1:r2, c1:c2] of the grid *)
Record region := { r1 : nat; r2 : nat; c1 : nat; c2 : nat }.

(** imaging.py:240-248: cell and label of record i, None for "best"; negative
    indices count from the end *)
Definition step_cell (gs : nat * nat) (n num i : nat) : res ((nat * nat) * option nat) :=
  if Nat.ltb i n then do c <- cell gs 0 i; Ok (c, Some (i + 1))
  else if Nat.ltb (S i) num then do c <- cell gs (i - n + 1) (snd gs - 1); Ok (c, Some (i + 1))
  else do c <- cell gs (n - 1) (snd gs - 1); Ok (c, None).

(** plot_optimization, imaging.py:213-219 and 237-275, of a number of records: the
    region of the main panel (None: whole figure) and the panels.  A slice without
    cells is an IndexError of matplotlib; without records [ax2] is not bound at 274.
    Simplification: the figures drawn into the panels are left out. *)
Definition plot_optimization (num nrec : nat) : res (option region * list ((nat * nat) * option nat)) :=
  if Nat.ltb 1 num then
    let n := (num + 1) / 2 in
    do gs <- gridspec n n;
    if Nat.leb n 1 then Err IndexError
    else
      let main := {| r1 := 1; r2 := n; c1 := 0; c2 := n - 1 |} in
      do ps <- mapM (step_cell gs n num) (seq 0 nrec);
      if Nat.eqb nrec 0 then Err UnboundLocalError else Ok (Some main, ps)
  else Ok (None, []).
