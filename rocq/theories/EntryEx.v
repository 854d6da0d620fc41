(** Concrete cases used in the examples of EntryProps. *)
From Coq Require Import String List Bool Reals ZArith Arith Lra Lia.
From Verif Require Import Base Pyf PySort SortModel StatModel CollectModel WrapModel EventModel PairsModel EntryModel EntrySpec EntryProof.
Import ListNotations.
Open Scope string_scope.
Open Scope list_scope.
Open Scope R_scope.

Definition ori_full : eorigin := {| eo_time := 7; eo_lat := Some 50; eo_lon := Some 12; eo_depth := Some 9000 |}.
Definition ori_flat : eorigin := {| eo_time := 9; eo_lat := Some 51; eo_lon := Some 12; eo_depth := None |}.

(** the first origin counts *)
Definition ent_full : entry :=
  {| e_resource := "smi:local/cat/ev1"; e_pref_origin := None; e_origins := [ori_full; ori_flat];
     e_pref_mag := Some (Some 3); e_mags := [None; Some 2] |}.
(** the preferred origin counts *)
Definition ent_flat : entry :=
  {| e_resource := "smi:local/cat/ev2"; e_pref_origin := Some ori_flat; e_origins := [ori_full];
     e_pref_mag := None; e_mags := [] |}.
Definition ent_empty : entry :=
  {| e_resource := "ev3"; e_pref_origin := None; e_origins := []; e_pref_mag := None; e_mags := [None] |}.

Lemma full_depth : has_depth ent_full.
Proof. exists ori_full, 9000. split; [right; split; [reflexivity|eexists; reflexivity]|reflexivity]. Qed.

Lemma flat_depth : lacks_depth ent_flat.
Proof. exists ori_flat. split; [now left|reflexivity]. Qed.

(** one value for every event *)
Definition ent_invert (l : list entry) : res (option ires) :=
  match l with
  | [e] => Ok (Some {| ir_items := [("freq", VList [FNum 1])]; ir_events := [(entry_id e, [("W", VList [FNum 2])])] |})
  | _ => Ok None
  end.

Definition ent_start : wstate := {| ws_freq := None; ws_events := [] |}.
Definition ent_end : wstate := {| ws_freq := Some (VList [FNum 1]); ws_events := [("ev1", [("W", VList [FNum 2])])] |}.

Lemma ent_run : each_entry false ent_invert [ent_full] ent_start = Ok ent_end.
Proof. reflexivity. Qed.

Lemma ent_run_fails : each_entry false ent_invert [ent_full; ent_flat] ent_start = Err TypeError.
Proof. apply (each_stops false ent_invert [ent_full] ent_flat [] flat_depth ent_start ent_end ent_run). Qed.

Lemma depth_stops : exists coda_norm invert e1 e2 st st1,
  has_depth e1 /\ lacks_depth e2 /\ entry_id e1 <> entry_id e2 /\
  each_entry coda_norm invert [e1] st = Ok st1 /\ ws_events st1 <> [] /\
  each_entry coda_norm invert [e1; e2] st = Err TypeError.
Proof.
  exists false, ent_invert, ent_full, ent_flat, ent_start, ent_end.
  split; [exact full_depth|]. split; [exact flat_depth|]. split; [vm_compute; discriminate|]. split; [exact ent_run|].
  split; [discriminate|exact ent_run_fails].
Qed.

(** order *)
Definition ent_same (a b : entry) : bool := String.eqb (e_resource a) (e_resource b).
Lemma ent_sorted : sort_events entry_time ent_same [ent_flat; ent_empty; ent_full] = Ok [ent_full; ent_flat].
Proof. reflexivity. Qed.

(** distances: one station *)
Definition ent_opts : popts unit :=
  {| p_use_picks := false; p_vp := None; p_vs := Some 3000; p_correct := true; p_subtract := false;
     p_distance := None; p_num_pairs := None; p_window := (0, 100); p_tol := 5%Z;
     p_coords := fun ch _ => if String.eqb ch "A.B..HHZ" then Ok {| co_lat := 50; co_lon := 12; co_elev := 100; co_local := 0 |}
                             else Err OtherError;
     p_gps := fun _ _ _ _ => Ok 1000; p_shift := fun t _ => Ok t;
     p_waveforms := fun _ _ _ _ => Ok None; p_gaps := fun _ => 0%nat; p_merge := fun l => Ok l; p_times := fun _ => (0%Z, 0%Z);
     p_remove := false; p_attach := fun _ => 0%nat; p_correct_response := fun l => Ok l |}.

Lemma ent_no_exit : no_exit ent_opts.
Proof.
  split.
  - intros ch t e. cbn. destruct (String.eqb ch "A.B..HHZ"); [discriminate|]. intros [= <-]. split; discriminate.
  - intros a b c d e. discriminate.
Qed.

Definition ent_origins : list (string * eorigin) := [("ev1", ori_full); ("ev2", ori_flat)].
Definition ent_points : list (string * origin) :=
  [("ev1", {| or_time := 7; or_lat := 50; or_lon := 12; or_depth := 9000 |})].

Lemma ent_points_of : Forall2 (fun a b => fst a = fst b /\ point_of (snd a) (snd b)) [("ev1", ori_full)] ent_points.
Proof. repeat constructor. Qed.

Lemma ent_selected : exists dist,
  select_entries ent_opts ["A.B..HHZ"] ent_origins [("ev2", "A.B"); ("ev1", "A.B")] = Ok ([("ev1", "A.B", dist)], []).
Proof.
  eexists. rewrite (select_whole ent_opts _ _ _ ent_no_exit). cbn [filter whole_pair ent_origins dget fst String.eqb Ascii.eqb Bool.eqb whole ori_full ori_flat eo_lat eo_lon eo_depth].
  cbn [select_entries dget String.eqb Ascii.eqb Bool.eqb].
  unfold entry_distance. change (dget String.eqb (one_channel ["A.B..HHZ"]) "A.B") with (Some "A.B..HHZ").
  cbn [p_coords ent_opts String.eqb Ascii.eqb Bool.eqb eo_lat eo_lon eo_depth ori_full p_gps bind p_subtract co_local co_elev].
  unfold rltb, BOREHOLE_STATION_DEPTH. destruct (Rlt_dec 10 0); [lra|]. cbn [too_far p_distance]. reflexivity.
Qed.
