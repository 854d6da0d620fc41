(** Proofs about distances and about the number of pairs of a band (C60, C63,
    C64). *)
From Coq Require Import String List Bool Reals Lra Lia ZArith Arith Sorted.
From Verif Require Import Base Pyf PyStr EventModel FbModel FbSpec FbProof FbProof2 PairsModel PairsSpec PairsProof.
Import ListNotations.
Open Scope string_scope.
Open Scope list_scope.
Open Scope R_scope.

(** ** C64 *)
Section D.
  Context {T : Type}.
  Variable o : popts T.
  Variables (channels stations : list string) (events : list qevent).
  Variables (ss : list (qstream T)) (bs : list string).
  Hypothesis ND : NoDup (map q_id events).
  Hypothesis LO : lists_once stations (map get_station channels).
  Hypothesis SEL : select o channels stations events = Ok (Some (ss, bs)).

  Lemma distances_spec q : In q ss ->
    exists ev ori ch c h, In ev events /\ q_id ev = qs_ev q /\ q_origin ev = Ok ori /\
      last_channel channels (qs_sta q) ch /\ p_coords o ch (or_time ori) = Ok c /\
      p_gps o (co_lat c) (co_lon c) (or_lat ori) (or_lon ori) = Ok h /\ 0 <= qs_dist q /\
      (p_correct o = true -> p_subtract o = false ->
         qs_dist q * qs_dist q = h * h + (or_depth ori + co_elev c) * (or_depth ori + co_elev c)) /\
      (p_correct o = true -> p_subtract o = true ->
         qs_dist q * qs_dist q = h * h + (or_depth ori + (co_elev c - co_local c)) * (or_depth ori + (co_elev c - co_local c))) /\
      (p_correct o = false ->
         qs_dist q * qs_dist q = h * h + (or_depth ori - co_local c) * (or_depth ori - co_local c)).
  Proof.
    intros I. destruct (select_spec _ _ _ _ _ _ ND LO SEL) as (S1 & _). apply S1 in I.
    destruct I as (ev & ori & ch & trs & IE & EI & EO & TM & CH & (c & h & PC & G & D0 & D) & _).
    exists ev, ori, ch, c, h. repeat (split; [assumption|]).
    unfold vertical, sensor_elevation in D.
    split; [|split]; [intros C S|intros C S|intros C]; rewrite C in D; try rewrite S in D; exact D.
  Qed.
End D.

(** ** C63: with arrivals for all events in reach every usable pair is used *)
Lemma picks_kept {T} (o : popts T) channels stations events r q :
  NoDup (map q_id events) -> lists_once stations (map get_station channels) ->
  p_use_picks o = true -> p_num_pairs o = None ->
  select o channels stations events = Ok r ->
  (forall ev, In ev events -> within_reach o channels ev ->
     exists ar, get_arrivals (q_arr ev) = Ok (Some ar) /\ forall sta, exists ons, get_picks ar sta = Ok ons) ->
  (forall t d, exists s, p_shift o t d = Ok s) ->
  valid o channels events q ->
  exists ss bs, r = Some (ss, bs) /\ In q ss.
Proof.
  intros ND LO UP NP H AR SH V. destruct r as [[ss bs]|].
  - exists ss, bs. split; [reflexivity|]. now apply (select_spec _ _ _ _ _ _ ND LO H).
  - exfalso. destruct (select_skipped o channels stations events ND LO H (fun _ => AR) SH ltac:(congruence) [q]) as [E|(x & E & _)].
    + repeat constructor. intros [].
    + intros q' [<-|[]]. exact V.
    + discriminate.
    + congruence.
Qed.

(** ** C60: the band *)
Lemma band_too_few {W} (o : fbopts W) v0 es es' v r keep :
  NoDup (map uid es) -> noise_loop o es = Ok es' -> mean_velocity v0 es' = Some v ->
  (forall e, In e es' -> (keep e = true <-> accepted o e)) ->
  select_data o v0 es = Ok r ->
  (r = None <-> filter keep es' = [] \/ (Z.of_nat (List.length (filter keep es')) < o_num_pairs o)%Z).
Proof.
  intros ND NL MV K H. unfold select_data in H. rewrite NL in H. cbn [bind] in H. rewrite MV in H.
  destruct (window_loop o v es') as [st|] eqn:WL; [|discriminate]. cbn [bind] in H.
  destruct (noise_loop_spec o es es' ND NL) as (_ & ND').
  destruct (window_selection o v es' st ND' WL) as (keep' & K' & M).
  destruct (window_alignment o v es' st ND' WL) as (L & _).
  assert (E : filter keep' es' = filter keep es').
  { clear - K K'. induction es' as [|e l IH]; [reflexivity|]. cbn.
    assert (keep' e = keep e) as ->.
    { specialize (K e (or_introl eq_refl)). specialize (K' e (or_introl eq_refl)).
      destruct (keep e), (keep' e); intuition congruence. }
    now rewrite IH by (intros; auto using in_cons). }
  assert (LE : List.length (w_ecoda st) = List.length (filter keep es')).
  { rewrite L, <- E, <- (map_length uid), M, map_length. reflexivity. }
  unfold FbModel.too_few in H. rewrite LE in H. destruct (_ || _)%bool eqn:B.
  - injection H as <-. split; [intros _|reflexivity]. apply orb_true_iff in B. rewrite Nat.eqb_eq, Z.ltb_lt in B.
    destruct B as [B|B]; [|auto]. left. now apply length_zero_iff_nil.
  - injection H as <-. split; [discriminate|]. apply orb_false_iff in B. rewrite Nat.eqb_neq, Z.ltb_ge in B.
    intros [Q|Q]; [rewrite Q in B; cbn in B; lia|lia].
Qed.

(** ** C59: exits *)
Section X.
  Context {T : Type}.
  Variable o : popts T.

  Lemma distance_exits channels os ps : forall r, select_distance o channels os ps = Ok r ->
    forall ev sta ori ch x, In (ev, sta) ps -> dget String.eqb os ev = Some ori ->
    last_channel channels sta ch -> p_coords o ch (or_time ori) = Err x -> x <> KeyboardInterrupt /\ x <> SystemExit.
  Proof.
    induction ps as [|[e s] ps IH]; intros r H ev sta ori ch x I O C P; [destruct I|].
    cbn [select_distance] in H. destruct I as [[= -> ->]|I].
    - apply one_channel_spec in C. rewrite O in H. unfold get_distance in H. rewrite C, P in H.
      split; intros ->; discriminate.
    - destruct (match dget String.eqb os e with None => _ | Some _ => _ end) as [[ori' [d b]]|x'].
      + destruct (select_distance o channels os ps) as [rest|]; [|discriminate]. eauto.
      + destruct (caught x'); [eauto|discriminate].
  Qed.

  Lemma correct_exits ss : forall r, correct_streams o ss = Ok r ->
    forall s x, In s ss -> p_attach o (qs_traces s) = 0%nat ->
    p_correct_response o (qs_traces s) = Err x -> x <> KeyboardInterrupt /\ x <> SystemExit.
  Proof.
    induction ss as [|q ss IH]; intros r H s x I A P; [destruct I|].
    cbn [correct_streams] in H. destruct I as [->|I].
    - rewrite A, P in H. cbn [Nat.ltb Nat.leb] in H. split; intros ->; discriminate.
    - destruct (Nat.ltb 0 (p_attach o (qs_traces q))); [eauto|].
      destruct (p_correct_response o (qs_traces q)) as [trs|x'].
      + destruct (correct_streams o ss) as [rest|]; [|discriminate]. eauto.
      + destruct (caught x'); [eauto|discriminate].
  Qed.
End X.
