(** Properties C91 - C92: the command "qopen rt" (/repo/qopen/rt.py:213-361). *)
From Coq Require Import String List Bool Reals Lra Lia.
From Verif Require Import Base RtModel RtSpec RtProof4 CmdModel CmdSpec CmdProof CmdEx.
Import ListNotations.
Open Scope R_scope.

(** C91: one number per mean free path, the Green's function times absorption. *)
Theorem C91_calc : forall ty r t c ls la nd out,
  main Calc [ty] (Some r) (Some t) c ls la nd = Ok out ->
  Forall2 (fun l x => exists g, G_scalar ty r t c (1 / l) = Ok g /\ x = Printed (absorbed la c t g)) ls out.
Proof. exact calc_values. Qed.
Print Assumptions C91_calc.

(** C91: every documented type is calculated. *)
Theorem C91_calc_total : forall ty r t c ls la nd,
  In ty documented_types -> (forall l, In l ls -> l <> 0) -> la <> Some 0 ->
  exists out, main Calc [ty] (Some r) (Some t) c ls la nd = Ok out.
Proof. exact calc_total. Qed.
Print Assumptions C91_calc_total.

Example C91_calc_ex : In "rt2d"%string documented_types /\ (forall l, In l [1000; 2000] -> l <> 0) /\ Some 1 <> Some 0.
Proof. exact calc_hyps. Qed.

(** C91: calc-direct prints the energy density of the direct wave; r is not used. *)
Theorem C91_direct : forall ty tys r t c ls la nd,
  In ty ["rt1d"; "rt2d"; "rt3d"]%string -> 0 < c -> 0 < t -> (forall l, In l ls -> 0 < l) -> la <> Some 0 ->
  main CalcDirect (ty :: tys) r (Some t) c ls la nd =
  Ok (map (fun l => Printed (absorbed la c t (direct_energy ty t c (1 / l)))) ls).
Proof. exact calc_direct_values. Qed.
Print Assumptions C91_direct.

Example C91_direct_ex : In "rt3d"%string ["rt1d"; "rt2d"; "rt3d"]%string /\ (forall l, In l [1000; 2000] -> 0 < l).
Proof. exact direct_hyps. Qed.

(** C91: diffusion has no direct wave. *)
Theorem C91_no_direct : forall ty tys r t c ls la nd,
  ~ In ty ["rt1d"; "rt2d"; "rt3d"]%string -> ls <> [] ->
  main CalcDirect (ty :: tys) r t c ls la nd = Err ValueError.
Proof. exact calc_direct_none. Qed.
Print Assumptions C91_no_direct.

Example C91_no_direct_ex : ~ In "diff3d"%string ["rt1d"; "rt2d"; "rt3d"]%string /\ [1000] <> [].
Proof. exact no_direct_hyps. Qed.

(** C91: calc and plot-rt accept one type only. *)
Theorem C91_types : forall com types r t c ls la nd,
  com = Calc \/ com = PlotRT -> length types <> 1%nat ->
  main com types r t c ls la nd = Err ValueError.
Proof. exact several_types. Qed.
Print Assumptions C91_types.

Example C91_types_ex : length ["rt2d"; "rt3d"]%string <> 1%nat.
Proof. exact types_hyps. Qed.

(** C91: without r or t calc fails. *)
Theorem C91_missing : forall ty r t c ls la nd,
  r = None \/ t = None -> ls <> [] -> (forall l, In l ls -> l <> 0) ->
  main Calc [ty] r t c ls la nd = Err TypeError.
Proof. exact calc_missing. Qed.
Print Assumptions C91_missing.

Example C91_missing_ex : main Calc ["rt3d"%string] (Some 1) None 3 [1000] None false = Err TypeError.
Proof. exact missing_ex. Qed.

(** C92: one curve (mesh) for every mean free path and type, in this order. *)
Theorem C92_curves : forall com types r t c ls la nd out,
  com = PlotT \/ com = PlotR \/ com = PlotRT -> main com types r t c ls la nd = Ok out ->
  Forall2 (fun lt o => match com with
     | PlotT => exists pts, plot_t c (1 / fst lt) r t 1000 (negb nd) la (snd lt) = Ok pts /\ o = Curve pts
     | PlotR => exists pts, plot_r c (1 / fst lt) t r 1000 (negb nd) la (snd lt) = Ok pts /\ o = Curve pts
     | _ => exists pts, plot_rt c (1 / fst lt) t r 1000 la (snd lt) = Ok pts /\ o = Mesh pts
     end) (list_prod ls types) out.
Proof. exact main_curves. Qed.
Print Assumptions C92_curves.

Example C92_curves_ex : exists out,
  main PlotR ["rt2d"; "diff2d"]%string (Some 2) (Some 1) 1 [1; 2] None false = Ok out.
Proof. exact curves_ex. Qed.

(** C92: the curve over time starts just before the arrival r/c, ends at t and has
    the values of the Green's function everywhere except at the arrival itself. *)
Theorem C92_times : forall c g0 r t N ty pts,
  In ty documented_types -> 0 < c -> 0 < r -> r / c + / 1000 < t -> (2 <= N)%nat ->
  plot_t c g0 (Some r) (Some t) N false None ty = Ok pts ->
  length pts = S (S N) /\ fst (nth 0 pts (0, 0)) = 99 / 100 * (r / c) /\ fst (nth 1 pts (0, 0)) = r / c /\
  fst (nth (S N) pts (0, 0)) = t /\
  forall x g, In (x, g) pts -> x <> r / c -> G_scalar ty r x c g0 = Ok g.
Proof. exact plot_t_samples. Qed.
Print Assumptions C92_times.

Example C92_times_ex : 1 / 1 + / 1000 < 2 /\ exists pts, plot_t 1 1 (Some 1) (Some 2) 3 false None "rt2d" = Ok pts.
Proof. exact times_ex. Qed.

(** C92: default distance 10 mean free paths, default time 10 travel times. *)
Theorem C92_time_defaults : forall c g0 r t N d la ty,
  plot_t c g0 None t N d la ty = plot_t c g0 (Some (10 / g0)) t N d la ty /\
  plot_t c g0 (Some r) None N d la ty = plot_t c g0 (Some r) (Some (10 * r / c)) N d la ty.
Proof. exact plot_t_defaults. Qed.
Print Assumptions C92_time_defaults.

Example C92_time_defaults_ex : plot_t 1 2 None None 3 false None "rt2d" = plot_t 1 2 (Some (10 / 2)) None 3 false None "rt2d".
Proof. exact (proj1 (plot_t_defaults 1 2 0 None 3 false None "rt2d")). Qed.

(** C92: the curve over distance samples the Green's function from 0 to r evenly,
    in front of and behind the wave front. *)
Theorem C92_distances : forall c g0 r t N ty pts,
  In ty documented_types -> 0 < c -> 0 < r -> 0 <= t -> (2 <= N)%nat ->
  plot_r c g0 (Some t) (Some r) N false None ty = Ok pts ->
  (length pts = N /\ forall k, (k < N)%nat -> fst (nth k pts (0, 0)) = r * INR k / INR (N - 1)) /\
  forall x g, In (x, g) pts -> G_scalar ty x t c g0 = Ok g.
Proof. exact plot_r_points. Qed.
Print Assumptions C92_distances.

Example C92_distances_ex : exists pts, plot_r 1 1 (Some 1) (Some 2) 3 false None "rt2d" = Ok pts.
Proof. exact distances_ex. Qed.

(** C92: by default distances end 10 percent beyond the wave front. *)
Theorem C92_distance_defaults : forall c g0 t N d la ty, 0 < c -> 0 < g0 ->
  plot_r c g0 (Some t) None N d la ty = plot_r c g0 (Some t) (Some (11 / 10 * (c * t))) N d la ty /\
  plot_r c g0 None None N d la ty = plot_r c g0 (Some (10 / 11 * (10 / g0) / c)) (Some (10 / g0)) N d la ty.
Proof. exact plot_r_defaults. Qed.
Print Assumptions C92_distance_defaults.

Example C92_distance_defaults_ex : 11 / 10 * (2 * 5) = 11 /\ 10 / 11 * (10 / 2) * (11 / 10) = 10 / 2.
Proof. exact distance_defaults_ex. Qed.

(** C92: "plot-r" with -r but without -t fails. *)
Theorem C92_distance_needs_time : forall c g0 r N d la ty, plot_r c g0 None (Some r) N d la ty = Err TypeError.
Proof. exact plot_r_no_time. Qed.
Print Assumptions C92_distance_needs_time.

Example C92_distance_needs_time_ex : plot_r 1 1 None (Some 2) 3 false None "rt2d" = Err TypeError.
Proof. exact (plot_r_no_time 1 1 2 3 false None "rt2d"). Qed.

(** C92: the mesh has all pairs of N distances and N times, with the Green's function
    and (other than the curves over time) the absorption of each time. *)
Theorem C92_mesh : forall c g0 r t N la ty, In ty documented_types -> 0 < c -> (2 <= N)%nat ->
  exists pts, plot_rt c g0 (Some t) (Some r) N la ty = Ok pts /\
    (forall x y, In (x, y) (map fst pts) <->
       exists i j, (i < N)%nat /\ (j < N)%nat /\ x = r * INR i / INR (N - 1) /\ y = t * INR j / INR (N - 1)) /\
    forall x y g, In ((x, y), g) pts ->
      exists g', G_scalar ty x y c g0 = Ok g' /\ g = absorbed la c y g'.
Proof. exact plot_rt_points. Qed.
Print Assumptions C92_mesh.

Example C92_mesh_ex : exists pts, plot_rt 1 1 (Some 2) (Some 2) 3 (Some 5) "diff3d" = Ok pts /\ In (1, 2) (map fst pts).
Proof. exact mesh_ex. Qed.

(** C92: defaults of the mesh. *)
Theorem C92_mesh_defaults : forall c g0 r t N la ty,
  plot_rt c g0 None None N la ty = plot_rt c g0 (Some (10 * (10 / g0) / c)) (Some (10 / g0)) N la ty /\
  plot_rt c g0 None (Some r) N la ty = plot_rt c g0 (Some (10 * r / c)) (Some r) N la ty /\
  plot_rt c g0 (Some t) None N la ty = plot_rt c g0 (Some t) (Some (1.1 * c * t)) N la ty.
Proof. exact plot_rt_defaults. Qed.
Print Assumptions C92_mesh_defaults.

Example C92_mesh_defaults_ex :
  plot_rt 2 1 (Some 5) None 3 None "diff3d" = plot_rt 2 1 (Some 5) (Some (1.1 * 2 * 5)) 3 None "diff3d".
Proof. exact (proj2 (proj2 (plot_rt_defaults 2 1 0 5 3 None "diff3d"))). Qed.
