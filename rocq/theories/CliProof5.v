(** Lemmas about the call of run by a command line. *)
From Coq Require Import String Ascii List Bool ZArith Arith Lia.
From Verif Require Import Base PyStr RunModel CliModel CliSpec CliProof CliProof2 CliProof3 CliProof4.
Import ListNotations.
Open Scope string_scope.
Open Scope list_scope.

Notation get := (dget String.eqb).

(** sorts of the named arguments *)
Definition key_ok (k : string) (s : sort) : bool :=
  if inb String.eqb k ["conf"; "eventid"] then match s with Text => true | _ => false end
  else if inb String.eqb k ["tutorial"; "print_mag"; "pdb"] then match s with Yes | No => true | _ => false end
  else negb (inb String.eqb k ["cmd"]).

Lemma keys_ok cmd table u k s : documented cmd table -> used table u k s -> key_ok k s = true.
Proof.
  intros D U. assert (F : forallb (fun r => key_ok (fst (snd r)) (snd (snd r))) table = true) by (destruct D; vm_compute; reflexivity).
  destruct u as [f v]. cbn [used] in U. apply (dget_In _ string_eqb_spec) in U.
  exact (proj1 (forallb_forall _ _) F _ U).
Qed.

Lemma last_use table k us : (forall u s, In u us -> ~ used table u k s) \/
  exists us1 u us2 s, us = us1 ++ u :: us2 /\ used table u k s /\ forall u2 s2, In u2 us2 -> ~ used table u2 k s2.
Proof.
  induction us as [|u us IH]; [left; intros ? ? []|]. destruct IH as [N|(us1 & x & us2 & s & -> & U & N)].
  - destruct u as [f v]. destruct (get table f) as [[k2 s]|] eqn:D.
    + destruct (String.string_dec k2 k) as [->|NE].
      * right. exists [], (Use f v), us, s. split; [reflexivity|]. split; [exact D|exact N].
      * left. intros u2 s2 [<-|I]; [cbn [used]; rewrite D; congruence|now apply N].
    + left. intros u2 s2 [<-|I]; [cbn [used]; rewrite D; congruence|now apply N].
  - right. exists (u :: us1), x, us2, s. split; [reflexivity|]. auto.
Qed.

Lemma use_value table cmd loads int_of us d k : documented cmd table -> usable table loads int_of us -> values table cmd loads int_of us d ->
  k <> "cmd" -> get d k = default cmd k \/ exists u s, used table u k s /\ (s = Count \/ exists x, value_of loads int_of u s x /\ get d k = Some x).
Proof.
  intros D [U _] (_ & V2 & _ & V4) N. destruct (last_use table k us) as [A|(us1 & u & us2 & s & E & UU & L)]; [left; now apply V4|].
  right. exists u, s. split; [exact UU|]. destruct (U u k s ltac:(rewrite E; apply in_or_app; right; now left) UU) as [NH [C|[x VO]]]; [now left|].
  destruct s; try (now left); right; exists x; (split; [exact VO|]); (apply (V2 us1 u us2 k _ x E UU); [discriminate|exact L|exact VO]).
Qed.

Lemma text_value table cmd loads int_of us d k : documented cmd table -> usable table loads int_of us -> values table cmd loads int_of us d ->
  In k ["conf"; "eventid"] -> text_or_none (getd d k JNull) = Ok (text d k).
Proof.
  intros D U V I. assert (N : k <> "cmd") by (intros ->; destruct I as [E|[E|[]]]; discriminate).
  unfold getd, text. destruct (use_value _ _ _ _ _ _ k D U V N) as [->|(u & s & UU & X)].
  - destruct I as [<-|[<-|[]]]; reflexivity.
  - pose proof (keys_ok _ _ _ _ _ D UU) as KO. assert (s = Text).
    { destruct I as [<-|[<-|[]]]; destruct s; try discriminate; reflexivity. }
    subst s. destruct X as [X|(x & VO & ->)]; [discriminate|]. destruct u as [f [v|]]; cbn [value_of] in VO; [subst x; reflexivity|destruct VO].
Qed.

Lemma switch_value table cmd loads int_of us d k : documented cmd table -> usable table loads int_of us -> values table cmd loads int_of us d ->
  In k ["tutorial"; "print_mag"] -> truthy (getd d k (JBool false)) = switched d k.
Proof.
  intros D U V I. assert (N : k <> "cmd") by (intros ->; destruct I as [E|[E|[]]]; discriminate).
  unfold getd, switched. destruct (use_value _ _ _ _ _ _ k D U V N) as [->|(u & s & UU & X)].
  - destruct I as [<-|[<-|[]]]; reflexivity.
  - pose proof (keys_ok _ _ _ _ _ D UU) as KO. assert (s = Yes \/ s = No) as S.
    { destruct I as [<-|[<-|[]]]; destruct s; try discriminate; auto. }
    destruct X as [X|(x & VO & ->)]; [destruct S; congruence|].
    destruct S as [-> | ->]; destruct u as [f [v|]]; cbn [value_of] in VO; subst x; reflexivity.
Qed.

Lemma popd_spec d k x : popd d k x = (getd d k x, dpop String.eqb d k).
Proof. reflexivity. Qed.

Lemma dpop_get (d : dict) k k2 : NoDup (map fst d) -> get (dpop String.eqb d k) k2 = if String.eqb k2 k then None else get d k2.
Proof.
  intros N. destruct (String.eqb_spec k2 k) as [->|NE].
  - now apply (dget_dpop_eq _ string_eqb_spec).
  - now apply (dget_dpop_neq _ string_eqb_spec).
Qed.

Fixpoint pops (d : dict) (ks : list string) : dict :=
  match ks with [] => d | k :: ks => pops (dpop String.eqb d k) ks end.

Lemma pops_get ks : forall d k, NoDup (map fst d) -> get (pops d ks) k = if inb String.eqb k ks then None else get d k.
Proof.
  induction ks as [|x ks IH]; intros d k N; [reflexivity|]. cbn [pops].
  rewrite IH by (now apply (dpop_nodup String.eqb)). rewrite dpop_get by exact N. unfold inb. cbn [existsb].
  destruct (String.eqb k x); cbn [orb]; [now destruct (existsb (String.eqb k) ks)|reflexivity].
Qed.

Lemma getd_pops d ks k x : NoDup (map fst d) -> inb String.eqb k ks = false -> getd (pops d ks) k x = getd d k x.
Proof. intros N I. unfold getd. rewrite pops_get by exact N. now rewrite I. Qed.

Lemma call_run_spec {E} (w : world E) d cmd conf eventid : NoDup (map fst d) ->
  get d "cmd" = Some (JStr cmd) -> text_or_none (getd d "conf" JNull) = Ok conf -> text_or_none (getd d "eventid" JNull) = Ok eventid ->
  call_run w d = run w cmd conf (truthy (getd d "tutorial" (JBool false))) eventid (given d "get_waveforms")
                   (truthy (getd d "print_mag" (JBool false))) (given d "plots") (pops d named_arguments).
Proof.
  intros N C T1 T2. unfold call_run. rewrite !popd_spec.
  change (dpop String.eqb d "cmd") with (pops d ["cmd"]).
  change (dpop String.eqb (pops d ["cmd"]) "conf") with (pops d ["cmd"; "conf"]).
  change (dpop String.eqb (pops d ["cmd"; "conf"]) "pdb") with (pops d ["cmd"; "conf"; "pdb"]).
  change (dpop String.eqb (pops d ["cmd"; "conf"; "pdb"]) "tutorial") with (pops d ["cmd"; "conf"; "pdb"; "tutorial"]).
  change (dpop String.eqb (pops d ["cmd"; "conf"; "pdb"; "tutorial"]) "eventid") with (pops d ["cmd"; "conf"; "pdb"; "tutorial"; "eventid"]).
  change (dpop String.eqb (pops d ["cmd"; "conf"; "pdb"; "tutorial"; "eventid"]) "get_waveforms")
    with (pops d ["cmd"; "conf"; "pdb"; "tutorial"; "eventid"; "get_waveforms"]).
  change (dpop String.eqb (pops d ["cmd"; "conf"; "pdb"; "tutorial"; "eventid"; "get_waveforms"]) "print_mag")
    with (pops d ["cmd"; "conf"; "pdb"; "tutorial"; "eventid"; "get_waveforms"; "print_mag"]).
  change (dpop String.eqb (pops d ["cmd"; "conf"; "pdb"; "tutorial"; "eventid"; "get_waveforms"; "print_mag"]) "plots")
    with (pops d named_arguments).
  rewrite !getd_pops by (assumption || (vm_compute; reflexivity)).
  unfold getd at 1. rewrite C, T1. cbn [bind]. rewrite T2. cbn [bind]. reflexivity.
Qed.

Lemma overwritten d o a : NoDup (map fst d) -> NoDup (map fst o) -> overwriting d o -> cmdline_args d = Ok a ->
  NoDup (map fst a) /\ forall k, get a k = match get o k with Some v => Some v | None => if String.eqb k "overwrite_conf" then None else get d k end.
Proof.
  intros Nd No O H. unfold cmdline_args in H. rewrite popd_spec in H.
  assert (G : update_pairs (getd d "overwrite_conf" (JDict [])) = Ok o) by (unfold getd; destruct O as [-> |[-> ->]]; reflexivity).
  rewrite G in H. cbn [bind] in H. injection H as <-.
  assert (Np : NoDup (map fst (dpop String.eqb d "overwrite_conf"))) by (now apply (dpop_nodup String.eqb)).
  split; [now apply (dupdate_nodup _ string_eqb_spec)|]. intros k. destruct (get o k) as [v|] eqn:G2.
  - apply (dupdate_get_in _ string_eqb_spec); [exact No|]. now apply (dget_In _ string_eqb_spec).
  - rewrite (dupdate_get_other _ string_eqb_spec); [now apply dpop_get|].
    intros I. apply (proj1 (dget_None _ string_eqb_spec _ _) G2). exact I.
Qed.

Lemma cmdline_run {E} (w : world E) loads int_of cmd table ss us : documented cmd table -> reading table ss us -> usable table loads int_of us ->
  exists d, values table cmd loads int_of us d /\
    forall o, overwriting d o -> NoDup (map fst o) -> (forall k, In k ("overwrite_conf" :: named_arguments) -> get o k = None) ->
    exists args, passed d o args /\
      forall r, r = run w cmd (text d "conf") (switched d "tutorial") (text d "eventid") JNull (switched d "print_mag") (given d "plots") args ->
        (r <> Err ParseError -> run_cmdline loads int_of w (cmd :: ss) = Ran r) /\
        (r = Err ParseError -> exists u, run_cmdline loads int_of w (cmd :: ss) = Error u).
Proof.
  intros D R U. destruct (parse_complete _ _ _ _ _ _ D R U) as (d & P & V & N). exists d. split; [exact V|]. intros o O No HO.
  assert (exists a, cmdline_args d = Ok a) as [a C].
  { unfold cmdline_args. rewrite popd_spec. unfold getd. destruct O as [-> |[-> ->]]; cbn [update_pairs bind]; eauto. }
  destruct (overwritten d o a N No O C) as [Na G]. exists (pops a named_arguments). split.
  { intros k. rewrite pops_get by exact Na. rewrite G. change (inb String.eqb k ("overwrite_conf" :: named_arguments))
      with (String.eqb k "overwrite_conf" || inb String.eqb k named_arguments)%bool.
    destruct (String.eqb_spec k "overwrite_conf") as [->|NE]; cbn [orb].
    - rewrite (HO "overwrite_conf") by now left. now destruct (inb String.eqb "overwrite_conf" named_arguments).
    - reflexivity. }
  assert (same : forall k, In k named_arguments -> get a k = get d k).
  { intros k I. rewrite G, (HO k) by now right. destruct (String.eqb_spec k "overwrite_conf") as [->|]; [|reflexivity].
    exfalso. repeat (destruct I as [I|I]; [discriminate|]). destruct I. }
  intros r Er.
  assert (CR : call_run w a = r).
  { subst r. destruct V as (V1 & V).
    rewrite (call_run_spec w a cmd (text d "conf") (text d "eventid") Na).
    - unfold getd, given. rewrite !same by (cbn; tauto).
      change (match get d "tutorial" with Some v => v | None => JBool false end) with (getd d "tutorial" (JBool false)).
      change (match get d "print_mag" with Some v => v | None => JBool false end) with (getd d "print_mag" (JBool false)).
      rewrite !(switch_value table cmd loads int_of us d _ D U (conj V1 V)) by (cbn; tauto).
      assert (GW : get d "get_waveforms" = None).
      { destruct V as (_ & _ & V4). rewrite V4; [reflexivity|discriminate|]. intros u s I X.
        assert (F : forallb (fun r => negb (String.eqb (fst (snd r)) "get_waveforms")) table = true) by (destruct D; vm_compute; reflexivity).
        destruct u as [f v]. cbn [used] in X. apply (dget_In _ string_eqb_spec) in X.
        pose proof (proj1 (forallb_forall _ _) F _ X) as Y. cbn in Y. discriminate. }
      rewrite GW. reflexivity.
    - rewrite same by (cbn; tauto). exact V1.
    - unfold getd. rewrite same by (cbn; tauto). apply (text_value _ _ _ _ _ _ "conf" D U (conj V1 V)). cbn; tauto.
    - unfold getd. rewrite same by (cbn; tauto). apply (text_value _ _ _ _ _ _ "eventid" D U (conj V1 V)). cbn; tauto. }
  assert (RC : run_cmdline loads int_of w (cmd :: ss) = start_run w d).
  { unfold run_cmdline. rewrite P. destruct D; reflexivity. }
  rewrite RC. unfold start_run. rewrite C, CR. split.
  - intros NP. destruct r as [x|e]; [reflexivity|]. destruct e; try reflexivity. congruence.
  - intros ->. eauto.
Qed.

Lemma cmdline_rejected {E} (w : world E) loads int_of cmd table ss : documented cmd table ->
  (forall us, reading table ss us -> ~ usable table loads int_of us) ->
  run_cmdline loads int_of w (cmd :: ss) = Information \/ exists u, run_cmdline loads int_of w (cmd :: ss) = Error u.
Proof.
  intros D N. destruct (parse loads int_of cmd ss) as [st|d] eqn:P.
  - unfold run_cmdline. rewrite P. destruct D, st; cbn; eauto.
  - exfalso. destruct (parse_sound _ _ _ _ _ _ D P) as (us & R & U & _). exact (N us R U).
Qed.

Lemma cmdline_unknown {E} (w : world E) loads int_of cmd ss : (forall table, ~ documented cmd table) -> cmd <> "rt" ->
  (forall r, cmd <> String "-" r) -> exists u, run_cmdline loads int_of w (cmd :: ss) = Error u.
Proof.
  intros N R M. unfold run_cmdline. destruct (String.prefix "-" cmd) eqn:P.
  { exfalso. apply prefix_app in P as [r P]. exact (M r P). }
  destruct (String.eqb_spec cmd "rt"); [congruence|]. destruct (parser cmd) as [acts|] eqn:Q; [|eauto].
  exfalso. destruct (parser_documented _ _ Q) as [t D]. exact (N t D).
Qed.
