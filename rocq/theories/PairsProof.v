(** Proofs about the selection of pairs (C59, C60, C63, C64). *)
From Coq Require Import String List Bool Reals Lra Lia ZArith Arith Sorted Permutation.
From Verif Require Import Base Pyf PySort PyStr EventModel TimesModel PairsModel PairsSpec.
Import ListNotations.
Open Scope string_scope.
Open Scope list_scope.
Open Scope R_scope.

(** ** The last channel *)
Lemma one_channel_app l ch sta : dget String.eqb (one_channel (l ++ [ch])) sta =
  if String.eqb sta (get_station ch) then Some ch else dget String.eqb (one_channel l) sta.
Proof.
  unfold one_channel, dict_of, dupdate. rewrite map_app, fold_left_app. cbn [map fold_left fst snd].
  set (d := fold_left _ (map _ l) []). destruct (String.eqb sta (get_station ch)) eqn:E.
  - apply String.eqb_eq in E. subst sta. apply (dget_dset_eq _ string_eqb_spec).
  - apply String.eqb_neq in E. now apply (dget_dset_neq _ string_eqb_spec).
Qed.

Lemma one_channel_spec channels sta ch :
  dget String.eqb (one_channel channels) sta = Some ch <-> last_channel channels sta ch.
Proof.
  revert ch. induction channels as [|c l IH] using rev_ind; intros ch.
  - cbn. split; [discriminate|]. intros ([|] & l2 & H & _); discriminate.
  - rewrite one_channel_app. destruct (String.eqb sta (get_station c)) eqn:E.
    + apply String.eqb_eq in E. split.
      * intros [= <-]. exists l, []. split; [reflexivity|]. split; [auto|]. intros ? [].
      * intros (l1 & l2 & H & G & N). destruct l2 as [|x l2] using rev_ind.
        -- apply app_inj_tail in H. now destruct H as [_ ->].
        -- clear IHl2. rewrite app_comm_cons, app_assoc in H. apply app_inj_tail in H. destruct H as [_ ->].
           exfalso. apply (N x); [apply in_or_app; right; now left|]. congruence.
    + apply String.eqb_neq in E. rewrite IH. split.
      * intros (l1 & l2 & -> & G & N). exists l1, (l2 ++ [c]). rewrite <- app_assoc. split; [reflexivity|].
        split; [exact G|]. intros ch' I. apply in_app_or in I. destruct I as [I|[<-|[]]]; [auto|congruence].
      * intros (l1 & l2 & H & G & N). destruct l2 as [|x l2] using rev_ind.
        -- apply app_inj_tail in H. destruct H as [_ ->]. congruence.
        -- clear IHl2. rewrite app_comm_cons, app_assoc in H. apply app_inj_tail in H. destruct H as [-> ->].
           exists l1, l2. split; [reflexivity|]. split; [exact G|]. intros ch' I. apply N. apply in_or_app. now left.
Qed.

Lemma last_channel_fun channels sta c1 c2 : last_channel channels sta c1 -> last_channel channels sta c2 -> c1 = c2.
Proof. rewrite <- !one_channel_spec. congruence. Qed.

Lemma last_channel_station channels sta ch : last_channel channels sta ch -> In sta (map get_station channels).
Proof. intros (l1 & l2 & -> & <- & _). rewrite map_app. apply in_or_app. right. now left. Qed.

Section P.
  Context {T : Type}.
  Variable o : popts T.

  (** ** Origins and arrivals *)
  Lemma read_events_spec events : forall os ars os' ars',
    NoDup (map q_id events) -> (forall e, In e events -> ~ In (q_id e) (map fst os) /\ ~ In (q_id e) (map fst ars)) ->
    NoDup (map fst os) ->
    read_events o events os ars = Ok (os', ars') ->
    NoDup (map fst os') /\
    (forall k ori, dget String.eqb os' k = Some ori <->
       dget String.eqb os k = Some ori \/ exists e, In e events /\ q_id e = k /\ q_origin e = Ok ori) /\
    (forall k ar, p_use_picks o = true -> dget String.eqb ars' k = Some ar <->
       dget String.eqb ars k = Some ar \/ exists e, In e events /\ q_id e = k /\ get_arrivals (q_arr e) = Ok (Some ar)) /\
    (forall e, In e events -> exists ori, q_origin e = Ok ori) /\
    (forall e, p_use_picks o = true -> In e events -> exists ar, get_arrivals (q_arr e) = Ok ar).
  Proof.
    induction events as [|e events IH]; intros os ars os' ars' ND DIS NDO H; cbn [read_events] in H.
    - injection H as <- <-. split; [exact NDO|]. repeat split; auto; try tauto.
      + intros [?|(e & [] & _)]; auto.
      + intros [?|(e & [] & _)]; auto.
      + intros e [].
      + intros e _ [].
    - destruct (q_origin e) as [ori|] eqn:QO; [|discriminate]. cbn [bind] in H.
      inversion ND as [|? ? NI ND']; subst.
      destruct (DIS e (or_introl eq_refl)) as [D1 D2].
      assert (DO : dget String.eqb os (q_id e) = None) by (now apply (dget_None _ string_eqb_spec)).
      assert (DA : dget String.eqb ars (q_id e) = None) by (now apply (dget_None _ string_eqb_spec)).
      assert (NO1 : NoDup (map fst (dset String.eqb os (q_id e) ori))) by (now apply (dset_nodup _ string_eqb_spec)).
      assert (DIS1 : forall e', In e' events -> ~ In (q_id e') (map fst (dset String.eqb os (q_id e) ori))).
      { intros e' I Q. apply (dset_in_keys _ string_eqb_spec) in Q. destruct Q as [Q|Q].
        - apply NI. rewrite <- Q. now apply in_map.
        - exact (proj1 (DIS e' (or_intror I)) Q). }
      assert (GO : forall k x, dget String.eqb (dset String.eqb os (q_id e) ori) k = Some x <->
                dget String.eqb os k = Some x \/ k = q_id e /\ x = ori).
      { intros k x. destruct (String.eqb k (q_id e)) eqn:E.
        - apply String.eqb_eq in E. subst k. rewrite (dget_dset_eq _ string_eqb_spec), DO. intuition congruence.
        - apply String.eqb_neq in E. rewrite (dget_dset_neq _ string_eqb_spec) by exact E. intuition congruence. }
      assert (K : exists ars1, read_events o events (dset String.eqb os (q_id e) ori) ars1 = Ok (os', ars') /\
                (forall e', In e' events -> ~ In (q_id e') (map fst ars1)) /\
                (p_use_picks o = true -> exists ar, get_arrivals (q_arr e) = Ok ar) /\
                (p_use_picks o = true -> forall k ar, dget String.eqb ars1 k = Some ar <->
                   dget String.eqb ars k = Some ar \/ k = q_id e /\ get_arrivals (q_arr e) = Ok (Some ar))).
      { destruct (p_use_picks o) eqn:UP.
        - destruct (get_arrivals (q_arr e)) as [[ar|]|] eqn:GA; cbn [bind] in H; [| |discriminate].
          + eexists. split; [exact H|]. split; [|split; [eauto|]].
            * intros e' I Q. apply (dset_in_keys _ string_eqb_spec) in Q. destruct Q as [Q|Q].
              -- apply NI. rewrite <- Q. now apply in_map.
              -- exact (proj2 (DIS e' (or_intror I)) Q).
            * intros _ k x. destruct (String.eqb k (q_id e)) eqn:E.
              -- apply String.eqb_eq in E. subst k. rewrite (dget_dset_eq _ string_eqb_spec), DA. intuition congruence.
              -- apply String.eqb_neq in E. rewrite (dget_dset_neq _ string_eqb_spec) by exact E. intuition congruence.
          + exists ars. split; [exact H|]. split; [intros e' I; apply (DIS e' (or_intror I))|]. split; [eauto|].
            intros _ k x. intuition congruence.
        - exists ars. split; [exact H|]. split; [intros e' I; apply (DIS e' (or_intror I))|]. split; congruence. }
      destruct K as (ars1 & H1 & DIS2 & GA0 & GA).
      destruct (IH _ _ _ _ ND' (fun e' I => conj (DIS1 e' I) (DIS2 e' I)) NO1 H1) as (N1 & S1 & S2 & S3 & S4).
      split; [exact N1|]. split; [|split; [|split]].
      + intros k x. rewrite S1, GO. split.
        * intros [[A|[-> ->]]|(e' & I & A & B)]; [auto| |].
          -- right. exists e. split; [now left|auto].
          -- right. exists e'. split; [now right|auto].
        * intros [A|(e' & [<-|I] & A & B)]; [auto| |].
          -- left. right. split; congruence.
          -- right. eauto.
      + intros k x UP. rewrite (S2 k x UP), (GA UP). split.
        * intros [[A|[-> A]]|(e' & I & A & B)]; [auto| |].
          -- right. exists e. split; [now left|auto].
          -- right. exists e'. split; [now right|auto].
        * intros [A|(e' & [<-|I] & A & B)]; [auto| |].
          -- left. right. split; congruence.
          -- right. eauto.
      + intros e' [<-|I]; eauto.
      + intros e' UP [<-|I]; eauto.
  Qed.

  (** ** C64: distances *)
  Lemma get_distance_spec channels ori sta d b :
    get_distance o channels ori sta = Ok (d, b) <->
    exists ch c h, last_channel channels sta ch /\ p_coords o ch (or_time ori) = Ok c /\
      p_gps o (co_lat c) (co_lon c) (or_lat ori) (or_lon ori) = Ok h /\
      0 <= d /\ d * d = h * h + vertical o ori c * vertical o ori c /\
      (b = true <-> 10 < co_local c).
  Proof.
    unfold get_distance. split.
    - destruct (dget String.eqb (one_channel channels) sta) as [ch|] eqn:CH; [|discriminate].
      destruct (p_coords o ch (or_time ori)) as [c|e] eqn:PC; [|destruct (caught e); discriminate].
      destruct (p_gps _ _ _ _ _) as [h|] eqn:G; [|discriminate]. cbn [bind]. intros [= <- <-].
      exists ch, c, h. split; [now apply one_channel_spec|]. split; [exact PC|]. split; [exact G|].
      split; [apply sqrt_pos|]. split; [|apply rltb_true].
      assert (V : or_depth ori + (if p_subtract o then co_elev c else co_elev c + co_local c) * (if p_correct o then 1 else 0)
                - co_local c = vertical o ori c).
      { unfold vertical, sensor_elevation. destruct (p_correct o), (p_subtract o); ring. }
      rewrite V. rewrite sqrt_sqrt; [ring|]. pose proof (Rle_0_sqr h). pose proof (Rle_0_sqr (vertical o ori c)).
      unfold Rsqr in *. cbn. lra.
    - intros (ch & c & h & CH & PC & G & D0 & D & B). apply one_channel_spec in CH. rewrite CH, PC, G. cbn [bind].
      assert (V : or_depth ori + (if p_subtract o then co_elev c else co_elev c + co_local c) * (if p_correct o then 1 else 0)
                - co_local c = vertical o ori c).
      { unfold vertical, sensor_elevation. destruct (p_correct o), (p_subtract o); ring. }
      rewrite V. do 2 f_equal.
      + replace (h ^ 2 + vertical o ori c ^ 2) with (d * d) by (rewrite D; ring). now apply sqrt_square.
      + rewrite <- rltb_true in B. unfold BOREHOLE_STATION_DEPTH.
        destruct b, (rltb 10 (co_local c)); intuition congruence.
  Qed.

  Lemma distance_of_iff channels ori sta d :
    (exists b, get_distance o channels ori sta = Ok (d, b)) <->
    exists ch, last_channel channels sta ch /\ distance_of o ch ori d.
  Proof.
    split.
    - intros (b & H). apply get_distance_spec in H. destruct H as (ch & c & h & CH & PC & G & D0 & D & _).
      exists ch. split; [exact CH|]. exists c, h. auto.
    - intros (ch & CH & c & h & PC & G & D0 & D). exists (rltb 10 (co_local c)). apply get_distance_spec.
      exists ch, c, h. rewrite rltb_true. tauto.
  Qed.

  Lemma too_far_spec d : too_far o d = false <-> near o d.
  Proof.
    unfold too_far, near. destruct (p_distance o) as [x|].
    - destruct (Req_EM_T x 0) as [E|E].
      + split; [|reflexivity]. intros _ y [= <-]. contradiction.
      + rewrite rltb_false. split; [intros H y [= <-] _; exact H|]. intros H. now apply H.
    - split; [|reflexivity]. intros _ y H. discriminate.
  Qed.

  Lemma select_distance_spec channels origins pairs : forall cs bs,
    select_distance o channels origins pairs = Ok (cs, bs) ->
    (forall c, In c cs <-> In (k_ev c, k_sta c) pairs /\ dget String.eqb origins (k_ev c) = Some (k_ori c) /\
       (exists b, get_distance o channels (k_ori c) (k_sta c) = Ok (k_dist c, b)) /\ near o (k_dist c)) /\
    (NoDup pairs -> NoDup (map (fun c => (k_ev c, k_sta c)) cs)) /\
    (forall sta, In sta bs <-> exists ev ori d, In (ev, sta) pairs /\ dget String.eqb origins ev = Some ori /\
       get_distance o channels ori sta = Ok (d, true)).
  Proof.
    induction pairs as [|[ev sta] pairs IH]; intros cs bs H; cbn [select_distance] in H.
    - injection H as <- <-. split; [|split].
      + intros c. split; [intros []|intros [[] _]].
      + constructor.
      + intros s. split; [intros []|intros (e & ori & d & [] & _)].
    - destruct (dget String.eqb origins ev) as [ori|] eqn:DO.
      2:{ cbn [caught] in H. destruct (IH _ _ H) as (I1 & I2 & I3). split; [|split].
          - intros c. rewrite I1. split; [intros (A & B & C); split; [now right|auto]|].
            intros ([A|A] & B & C); [|auto]. injection A as -> ->. congruence.
          - intros ND. inversion ND; subst. auto.
          - intros s. rewrite I3. split; [intros (e & r & d & A & B); exists e, r, d; split; [now right|auto]|].
            intros (e & r & d & [A|A] & B & C); [|eauto 6]. injection A as -> ->. congruence. }
      cbn [bind] in H. destruct (get_distance o channels ori sta) as [[d b]|x] eqn:GD; cbn [bind] in H.
      2:{ destruct (caught x); [|discriminate]. destruct (IH _ _ H) as (I1 & I2 & I3). split; [|split].
          - intros c. rewrite I1. split; [intros (A & B & C); split; [now right|auto]|].
            intros ([A|A] & B & (b & C) & D); [|split; [exact A|split; [exact B|split; [exists b; exact C|exact D]]]].
            injection A as E1 E2. exfalso. rewrite <- E1, DO in B. injection B as B. rewrite <- B, <- E2, GD in C. discriminate C.
          - intros ND. inversion ND; subst. auto.
          - intros s. rewrite I3. split; [intros (e & r & d & A & B); exists e, r, d; split; [now right|auto]|].
            intros (e & r & d & [A|A] & B & C); [|eauto 6]. injection A as -> ->. congruence. }
      destruct (select_distance o channels origins pairs) as [[cs1 bs1]|] eqn:SD; [|discriminate]. cbn [bind] in H.
      destruct (IH _ _ eq_refl) as (I1 & I2 & I3).
      assert (EB : bs = (if b then sta :: bs1 else bs1) /\
                cs = (if too_far o d then cs1 else {| k_ev := ev; k_sta := sta; k_ori := ori; k_dist := d |} :: cs1)).
      { destruct (too_far o d); injection H as <- <-; auto. }
      destruct EB as [-> ->]. split; [|split].
      + intros c.
        assert (HD : In (k_ev c, k_sta c) ((ev, sta) :: pairs) /\ dget String.eqb origins (k_ev c) = Some (k_ori c) /\
          (exists b, get_distance o channels (k_ori c) (k_sta c) = Ok (k_dist c, b)) /\ near o (k_dist c) <->
          (c = {| k_ev := ev; k_sta := sta; k_ori := ori; k_dist := d |} /\ too_far o d = false) \/ In c cs1).
        { rewrite I1. split.
          - intros ([A|A] & B & (b' & C) & D); [|right; eauto 6]. left. destruct c as [ev' sta' ori' d']. cbn in *.
            injection A as -> ->. rewrite DO in B. injection B as <-. rewrite GD in C. injection C as <- _.
            split; [reflexivity|]. now apply too_far_spec.
          - intros [[-> TF]|(A & B)]; [|split; [now right|auto]]. cbn. split; [now left|]. split; [exact DO|].
            split; [eauto|]. now apply too_far_spec. }
        rewrite HD. destruct (too_far o d); cbn [In]; intuition congruence.
      + intros ND. inversion ND as [|? ? NI ND']; subst. destruct (too_far o d); [auto|].
        cbn [map k_ev k_sta]. constructor; [|auto]. intros Q. apply in_map_iff in Q. destruct Q as (c & E & I).
        apply I1 in I. rewrite E in I. tauto.
      + intros s. assert (HB : In s (if b then sta :: bs1 else bs1) <-> (s = sta /\ b = true) \/ In s bs1).
        { destruct b; cbn [In]; intuition congruence. }
        rewrite HB, I3. split.
        * intros [[-> ->]|(e & r & d' & A & B)].
          -- exists ev, ori, d. split; [now left|auto].
          -- exists e, r, d'. split; [now right|auto].
        * intros (e & r & d' & [A|A] & B & C); [|right; eauto 6]. injection A as -> ->. rewrite DO in B.
          injection B as <-. rewrite GD in C. injection C as <- ->. auto.
  Qed.

  (** ** Order *)
  Lemma cand_leb_spec a b : cand_leb a b = true <->
    (or_time (k_ori a) < or_time (k_ori b))%Z \/
    or_time (k_ori a) = or_time (k_ori b) /\ k_dist a <= k_dist b.
  Proof.
    unfold cand_leb. rewrite orb_true_iff, andb_true_iff, Z.ltb_lt, Z.eqb_eq, negb_true_iff, rltb_false. tauto.
  Qed.

  Lemma cand_leb_total a b : cand_leb a b = true \/ cand_leb b a = true.
  Proof.
    rewrite !cand_leb_spec. destruct (Rle_or_lt (k_dist a) (k_dist b)); destruct (Z.lt_trichotomy (or_time (k_ori a)) (or_time (k_ori b))) as [?|[?|?]];
    try (left; left; assumption); try (right; left; assumption).
    - left. right. auto.
    - right. right. split; [auto|lra].
  Qed.

  Lemma cand_leb_trans a b c : cand_leb a b = true -> cand_leb b c = true -> cand_leb a c = true.
  Proof.
    rewrite !cand_leb_spec. intros [H1|[H1 H1']] [H2|[H2 H2']].
    - left; lia.
    - left; lia.
    - left; lia.
    - right. split; [congruence|lra].
  Qed.

  (** ** Onsets *)
  Lemma select_onsets_spec arrivals cs : forall ps, select_onsets o arrivals cs = Ok ps ->
    (forall p, In p ps <-> In (k_cand p) cs /\ get_onsets o arrivals (k_cand p) = Ok (Some (k_p p, k_s p))) /\
    (NoDup (map (fun c => (k_ev c, k_sta c)) cs) -> NoDup (map (fun p => (k_ev (k_cand p), k_sta (k_cand p))) ps)) /\
    (StronglySorted (fun a b => cand_leb a b = true) cs ->
     StronglySorted (fun a b => cand_leb (k_cand a) (k_cand b) = true) ps) /\
    (forall c, In c cs -> exists x, get_onsets o arrivals c = Ok x).
  Proof.
    induction cs as [|c cs IH]; intros ps H; cbn [select_onsets] in H.
    - injection H as <-. split; [|split; [constructor|split; [constructor|intros c []]]]. intros p. cbn. tauto.
    - destruct (get_onsets o arrivals c) as [x|] eqn:GO; [|discriminate]. cbn [bind] in H.
      destruct (select_onsets o arrivals cs) as [rest|] eqn:SO; [|discriminate]. cbn [bind] in H.
      destruct (IH _ eq_refl) as (I1 & I2 & I3 & I4).
      destruct x as [[p s]|].
      + injection H as <-. split; [|split; [|split]].
        * intros q. cbn [In]. rewrite I1. split.
          -- intros [<-|(A & B)]; cbn [k_cand k_p k_s]; auto.
          -- intros [[E|A] B]; [|auto]. left. destruct q as [c' p' s']. cbn in *. subst c'. rewrite GO in B.
             now injection B as <- <-.
        * intros ND. inversion ND as [|? ? NI ND']; subst. cbn [map k_cand]. constructor; [|auto].
          intros Q. apply NI. apply in_map_iff in Q. destruct Q as (q & E & I). apply I1 in I.
          rewrite <- E. apply in_map_iff. exists (k_cand q). tauto.
        * intros SS. inversion SS as [|? ? S1 S2]; subst. constructor; [auto|]. rewrite Forall_forall in *.
          intros q I. cbn [k_cand]. apply S2. now apply I1 in I.
        * intros c' [<-|I]; eauto.
      + injection H as <-. split; [|split; [|split]].
        * intros q. cbn [In]. rewrite I1. split; [intros [A B]; auto|]. intros [[E|A] B]; [|auto]. congruence.
        * intros ND. inversion ND; subst. auto.
        * intros SS. inversion SS; subst. auto.
        * intros c' [<-|I]; eauto.
  Qed.

  Lemma get_onsets_spec arrivals c ev p s :
    (forall ar, p_use_picks o = true -> dget String.eqb arrivals (k_ev c) = Some ar <-> get_arrivals (q_arr ev) = Ok (Some ar)) ->
    (get_onsets o arrivals c = Ok (Some (p, s)) <->
     p_onset o ev (k_ori c) (k_sta c) (k_dist c) p /\ s_onset o ev (k_ori c) (k_sta c) (k_dist c) s).
  Proof.
    intros GA. unfold get_onsets, p_onset, p_pick, s_onset. destruct (p_use_picks o) eqn:UP.
    - specialize (GA) as GA'. destruct (dget String.eqb arrivals (k_ev c)) as [ar|] eqn:DA.
      2:{ cbn [bind]. split; [discriminate|]. intros [_ (ar & ons & A & _)].
          apply (proj2 (GA ar eq_refl)) in A. discriminate. }
      pose proof (proj1 (GA ar eq_refl) eq_refl) as AR.
      destruct (get_picks ar (k_sta c)) as [ons|] eqn:GP; cbn [bind].
      2:{ split; [discriminate|]. intros [_ (ar' & ons & A & B & _)]. rewrite AR in A. injection A as <-. congruence. }
      assert (PK : forall x k, (exists ar ons, get_arrivals (q_arr ev) = Ok (Some ar) /\ get_picks ar (k_sta c) = Ok ons /\
                dget String.eqb ons k = Some x) <-> dget String.eqb ons k = Some x).
      { intros x k. split; [|intros; exists ar, ons; auto]. intros (ar' & ons' & A & B & C).
        rewrite AR in A. injection A as <-. rewrite GP in B. injection B as <-. exact C. }
      assert (PS : dget String.eqb (dset String.eqb ons "P" 0%Z) "S" = dget String.eqb ons "S")
        by (apply (dget_dset_neq _ string_eqb_spec); discriminate).
      unfold dmem.
      destruct (dget String.eqb ons "S") as [s0|] eqn:DS; destruct (dget String.eqb ons "P") as [p0|] eqn:DP; cbn [andb negb].
      + cbn [bind]. rewrite DP, DS. split.
        * intros [= <- <-]. split; [left; split; [reflexivity|now apply PK]|now apply PK].
        * intros [[[_ A]|[A _]] B].
          -- apply PK in A. apply PK in B. congruence.
          -- exfalso. apply (A p0). split; [reflexivity|now apply PK].
      + assert (NP : forall p', ~ (true = true /\ exists ar ons, get_arrivals (q_arr ev) = Ok (Some ar) /\
                  get_picks ar (k_sta c) = Ok ons /\ dget String.eqb ons "P" = Some p')).
        { intros p' [_ Q]. apply PK in Q. congruence. }
        destruct (p_vp o) as [vp|].
        * destruct (p_shift o (or_time (k_ori c)) (k_dist c / vp)) as [p1|] eqn:SH; cbn [bind].
          -- rewrite (dget_dset_eq _ string_eqb_spec), (dget_dset_neq _ string_eqb_spec) by discriminate. rewrite DS. split.
             ++ intros [= <- <-]. split; [right; split; [exact NP|eauto]|now apply PK].
             ++ intros [[A|[_ (v & [= <-] & A)]] B]; [now apply NP in A|]. apply PK in B. congruence.
          -- split; [discriminate|]. intros [[A|[_ (v & [= <-] & A)]] B]; [now apply NP in A|congruence].
        * cbn [bind]. rewrite DP. split; [discriminate|]. intros [[A|[_ (v & A & _)]] B]; [now apply NP in A|discriminate].
      + cbn [bind]. rewrite DP, DS. split; [discriminate|]. intros [_ B]. apply PK in B. congruence.
      + cbn [bind]. rewrite DP. split; [discriminate|]. intros [_ B]. apply PK in B. congruence.
    - destruct (p_vs o) as [vs|].
      2:{ cbn [bind]. split; [discriminate|]. intros [_ (v & A & _)]. discriminate. }
      destruct (p_shift o (or_time (k_ori c)) (k_dist c / vs)) as [s0|] eqn:SS; cbn [bind].
      2:{ split; [discriminate|]. intros [_ (v & [= <-] & A)]. congruence. }
      change (dmem String.eqb [("S", s0)] "S") with true. change (dmem String.eqb [("S", s0)] "P") with false.
      cbn [andb negb].
      assert (NP : forall p', ~ (false = true /\ exists ar ons, get_arrivals (q_arr ev) = Ok (Some ar) /\
                  get_picks ar (k_sta c) = Ok ons /\ dget String.eqb ons "P" = Some p')) by (intros p' [Q _]; discriminate).
      destruct (p_vp o) as [vp|].
      + destruct (p_shift o (or_time (k_ori c)) (k_dist c / vp)) as [p1|] eqn:SH; cbn [bind].
        * change (dget String.eqb (dset String.eqb [("S", s0)] "P" p1) "P") with (Some p1).
          change (dget String.eqb (dset String.eqb [("S", s0)] "P" p1) "S") with (Some s0). cbv iota. split.
          -- intros [= <- <-]. split; [right; split; [exact NP|eauto]|eauto].
          -- intros [[A|[_ (v & [= <-] & A)]] (w & [= <-] & B)]; [now apply NP in A|congruence].
        * split; [discriminate|]. intros [[A|[_ (v & [= <-] & A)]] B]; [now apply NP in A|congruence].
      + cbn [bind]. change (dget String.eqb [("S", s0)] "P") with (@None Z). split; [discriminate|].
        intros [[A|[_ (v & A & _)]] B]; [now apply NP in A|discriminate].
  Qed.

  (** ** Data *)
  Lemma check_stream_spec ch ev ori t1 t2 trs :
    p_shift o (or_time ori) (fst (p_window o)) = Ok t1 ->
    p_shift o (or_time ori) (snd (p_window o)) = Ok t2 ->
    (exists stream, p_waveforms o (drop_last 1 ch ++ "?")%string t1 t2 ev = Ok stream /\
       check_stream o stream t1 t2 = Ok (Some trs) /\ List.length trs = 3%nat) <->
    record_of o ev ori ch trs.
  Proof.
    intros T1 T2.
    assert (FB : forall l, forallb (fun tr => match check_times (fst (p_times o tr)) (snd (p_times o tr)) (t1, t2) (p_tol o) with
                                | None => true | Some _ => false end) l = true <->
              forall tr, In tr l -> (fst (p_times o tr) < t1 + p_tol o)%Z /\ (t2 - p_tol o < snd (p_times o tr))%Z).
    { intros l. rewrite forallb_forall. split; intros H tr I; specialize (H tr I); unfold check_times in *; cbn [fst snd] in *.
      - destruct (_ && _)%bool eqn:E; [|discriminate]. apply andb_true_iff in E. rewrite !Z.ltb_lt in E. lia.
      - rewrite (proj2 (Z.ltb_lt _ _)) by lia. rewrite (proj2 (Z.ltb_lt _ _)) by lia. reflexivity. }
    split.
    - intros (stream & W & C & L). unfold check_stream in C. destruct stream as [[|x raw]|]; [|destruct (Nat.ltb 0 _) eqn:G; [discriminate|]|discriminate].
      { injection C as <-. discriminate. }
      destruct (p_merge o (x :: raw)) as [trs'|] eqn:M; [|discriminate]. cbn [bind] in C.
      destruct (forallb _ trs') eqn:F; [|discriminate]. injection C as <-.
      exists t1, t2, (x :: raw). split; [exact T1|]. split; [exact T2|]. split; [exact W|]. split; [discriminate|].
      apply Nat.ltb_ge in G. split; [lia|]. split; [exact M|]. split; [exact L|]. now apply FB.
    - intros (t1' & t2' & raw & A1 & A2 & W & NE & G & M & L & F). rewrite T1 in A1. injection A1 as <-.
      rewrite T2 in A2. injection A2 as <-. exists (Some raw). split; [exact W|]. split; [|exact L].
      unfold check_stream. destruct raw as [|x raw]; [contradiction|]. rewrite G. cbn [Nat.ltb Nat.leb]. rewrite M. cbn [bind].
      now rewrite (proj2 (FB trs) F).
  Qed.

  Lemma retrieve_spec channels ps : forall ss, retrieve o channels ps = Ok ss ->
    (forall q, In q ss <-> exists p ch, In p ps /\ last_channel channels (k_sta (k_cand p)) ch /\
       record_of o (k_ev (k_cand p)) (k_ori (k_cand p)) ch (qs_traces q) /\
       q = {| qs_ev := k_ev (k_cand p); qs_sta := k_sta (k_cand p); qs_time := or_time (k_ori (k_cand p));
              qs_p := k_p p; qs_s := k_s p; qs_dist := k_dist (k_cand p); qs_traces := qs_traces q |}) /\
    (NoDup (map (fun p => (k_ev (k_cand p), k_sta (k_cand p))) ps) -> NoDup (map (fun q => (qs_ev q, qs_sta q)) ss)) /\
    (StronglySorted (fun a b => cand_leb (k_cand a) (k_cand b) = true) ps -> StronglySorted ordered ss) /\
    (List.length ss <= List.length ps)%nat.
  Proof.
    induction ps as [|p ps IH]; intros ss H; cbn [retrieve] in H.
    - injection H as <-. split; [|split; [constructor|split; [constructor|auto]]].
      intros q. split; [intros []|intros (p & ch & [] & _)].
    - destruct (dget String.eqb (one_channel channels) (k_sta (k_cand p))) as [ch|] eqn:CH; [|discriminate].
      apply one_channel_spec in CH.
      destruct (p_shift o _ (fst (p_window o))) as [t1|] eqn:T1; [|discriminate]. cbn [bind] in H.
      destruct (p_shift o _ (snd (p_window o))) as [t2|] eqn:T2; [|discriminate]. cbn [bind] in H.
      destruct (p_waveforms o _ t1 t2 _) as [stream|] eqn:W; [|discriminate]. cbn [bind] in H.
      destruct (check_stream o stream t1 t2) as [st|] eqn:CS; [|discriminate]. cbn [bind] in H.
      destruct (retrieve o channels ps) as [rest|] eqn:RT; [|discriminate]. cbn [bind] in H.
      destruct (IH _ eq_refl) as (I1 & I2 & I3 & I4).
      assert (REC : forall trs, record_of o (k_ev (k_cand p)) (k_ori (k_cand p)) ch trs <-> st = Some trs /\ List.length trs = 3%nat).
      { intros trs. rewrite <- (check_stream_spec ch _ _ t1 t2 trs T1 T2). split.
        - intros (st' & A & B & C). rewrite W in A. injection A as <-. rewrite CS in B. injection B as <-. auto.
        - intros (-> & L). exists stream. auto. }
      assert (K : (ss = rest /\ forall trs, ~ record_of o (k_ev (k_cand p)) (k_ori (k_cand p)) ch trs) \/
                exists trs, record_of o (k_ev (k_cand p)) (k_ori (k_cand p)) ch trs /\
                  ss = {| qs_ev := k_ev (k_cand p); qs_sta := k_sta (k_cand p); qs_time := or_time (k_ori (k_cand p));
                          qs_p := k_p p; qs_s := k_s p; qs_dist := k_dist (k_cand p); qs_traces := trs |} :: rest).
      { destruct st as [trs|].
        - destruct (Nat.eqb (List.length trs) 3) eqn:L; cbn [negb] in H; injection H as <-.
          + right. exists trs. split; [|reflexivity]. apply REC. apply Nat.eqb_eq in L. auto.
          + left. split; [reflexivity|]. intros trs' Q. apply REC in Q. destruct Q as [[= <-] Q].
            apply Nat.eqb_neq in L. contradiction.
        - left. injection H as <-. split; [reflexivity|]. intros trs Q. apply REC in Q. destruct Q; discriminate. }
      destruct K as [[-> N]|(trs & RC & ->)].
      + split; [|split; [|split]].
        * intros q. rewrite I1. split.
          -- intros (p' & ch' & A & B). exists p', ch'. split; [now right|exact B].
          -- intros (p' & ch' & [<-|A] & B & C & D); [|eauto 7].
             rewrite (last_channel_fun _ _ _ _ B CH) in C. now apply N in C.
        * intros ND. inversion ND; subst. auto.
        * intros SS. inversion SS; subst. auto.
        * cbn. lia.
      + split; [|split; [|split]].
        * intros q. cbn [In]. rewrite I1. split.
          -- intros [<-|(p' & ch' & A & B)].
             ++ exists p, ch. split; [now left|]. auto.
             ++ exists p', ch'. split; [now right|exact B].
          -- intros (p' & ch' & [<-|A] & B & C & D); [|right; eauto 7]. left.
             rewrite (last_channel_fun _ _ _ _ B CH) in C. apply REC in C. apply REC in RC.
             rewrite D. f_equal. destruct C as [-> _]. destruct RC as [[= <-] _]. reflexivity.
        * intros ND. inversion ND as [|? ? NI ND']; subst. cbn [map qs_ev qs_sta]. constructor; [|auto].
          intros Q. apply NI. apply in_map_iff in Q. destruct Q as (q & E & I). apply I1 in I.
          destruct I as (p' & ch' & A & _ & _ & D). apply in_map_iff. exists p'. split; [|exact A].
          rewrite <- E. rewrite D. reflexivity.
        * intros SS. inversion SS as [|? ? S1 S2]; subst. constructor; [auto|]. rewrite Forall_forall in *.
          intros q I. apply I1 in I. destruct I as (p' & ch' & A & _ & _ & D). rewrite D.
          specialize (S2 p' A). apply cand_leb_spec in S2. exact S2.
        * cbn. lia.
  Qed.

  Lemma correct_streams_spec ss : forall rs, correct_streams o ss = Ok rs ->
    (forall q, In q rs <-> exists s, In s ss /\ p_attach o (qs_traces s) = 0%nat /\
       p_correct_response o (qs_traces s) = Ok (qs_traces q) /\ q = set_traces s (qs_traces q)) /\
    (NoDup (map (fun q => (qs_ev q, qs_sta q)) ss) -> NoDup (map (fun q => (qs_ev q, qs_sta q)) rs)) /\
    (StronglySorted ordered ss -> StronglySorted ordered rs) /\
    (List.length rs <= List.length ss)%nat.
  Proof.
    induction ss as [|s ss IH]; intros rs H; cbn [correct_streams] in H.
    - injection H as <-. split; [|split; [constructor|split; [constructor|auto]]].
      intros q. split; [intros []|intros (s & [] & _)].
    - assert (K : (correct_streams o ss = Ok rs /\ forall trs, ~ (p_attach o (qs_traces s) = 0%nat /\ p_correct_response o (qs_traces s) = Ok trs)) \/
                exists trs rest, p_attach o (qs_traces s) = 0%nat /\ p_correct_response o (qs_traces s) = Ok trs /\
                  correct_streams o ss = Ok rest /\ rs = set_traces s trs :: rest).
      { destruct (Nat.ltb 0 (p_attach o (qs_traces s))) eqn:A.
        - left. split; [exact H|]. apply Nat.ltb_lt in A. intros trs [Q _]. lia.
        - apply Nat.ltb_ge in A. destruct (p_correct_response o (qs_traces s)) as [trs|e] eqn:R.
          + destruct (correct_streams o ss) as [rest|]; [|discriminate]. cbn [bind] in H. injection H as <-.
            right. exists trs, rest. split; [lia|auto].
          + destruct (caught e); [|discriminate]. left. split; [exact H|]. intros trs [_ Q]. discriminate. }
      destruct K as [[H1 N]|(trs & rest & A & R & H1 & ->)].
      + destruct (IH _ H1) as (I1 & I2 & I3 & I4). split; [|split; [|split]].
        * intros q. rewrite I1. split.
          -- intros (s' & A & B). exists s'. split; [now right|exact B].
          -- intros (s' & [<-|A] & B & C & D); [|eauto 6]. exfalso. now apply (N (qs_traces q)).
        * intros ND. inversion ND; subst. auto.
        * intros SS. inversion SS; subst. auto.
        * cbn. lia.
      + destruct (IH _ H1) as (I1 & I2 & I3 & I4). split; [|split; [|split]].
        * intros q. cbn [In]. rewrite I1. split.
          -- intros [<-|(s' & B & C)]; [|exists s'; split; [now right|exact C]]. exists s.
             cbn [set_traces qs_traces]. split; [now left|]. auto.
          -- intros (s' & [<-|B] & C & D & E); [|right; eauto 6]. left. rewrite E. f_equal. congruence.
        * intros ND. inversion ND as [|? ? NI ND']; subst. cbn [map]. constructor; [|auto].
          intros Q. apply NI. apply in_map_iff in Q. destruct Q as (q & E & I). apply I1 in I.
          destruct I as (s' & B & _ & _ & D). apply in_map_iff. exists s'. split; [|exact B].
          rewrite D in E. exact E.
        * intros SS. inversion SS as [|? ? S1 S2]; subst. constructor; [auto|]. rewrite Forall_forall in *.
          intros q I. apply I1 in I. destruct I as (s' & B & _ & _ & D). rewrite D. exact (S2 s' B).
        * cbn. lia.
  Qed.

  (** ** The whole selection *)
  Lemma nodup_product (l m : list string) : NoDup l -> NoDup m ->
    NoDup (flat_map (fun ev => map (fun sta => (ev, sta)) m) l).
  Proof.
    intros NL NM. induction NL as [|x l NI NL IH]; cbn; [constructor|].
    assert (D : forall p, In p (map (fun sta => (x, sta)) m) -> In p (flat_map (fun ev => map (fun sta => (ev, sta)) m) l) -> False).
    { intros p A B. apply in_map_iff in A. destruct A as (s & <- & _). apply in_flat_map in B.
      destruct B as (y & IY & B). apply in_map_iff in B. destruct B as (s' & E & _). injection E as -> _. contradiction. }
    assert (M : NoDup (map (fun sta => (x, sta)) m)).
    { clear - NM. induction NM as [|s m NI NM IH]; cbn; constructor; [|exact IH].
      intros Q. apply in_map_iff in Q. destruct Q as (s' & [= ->] & I). contradiction. }
    revert D M IH. generalize (map (fun sta => (x, sta)) m) (flat_map (fun ev => map (fun sta => (ev, sta)) m) l).
    intros a b D M N. induction M as [|p a NP M IHa]; cbn; [exact N|]. constructor.
    - intros Q. apply in_app_or in Q. destruct Q as [Q|Q]; [contradiction|]. apply (D p); [now left|exact Q].
    - apply IHa. intros q A B. apply (D q); [now right|exact B].
  Qed.

  Lemma sorted_map {A} (R1 R2 : A -> A -> Prop) l : (forall x y, R1 x y -> R2 x y) ->
    StronglySorted R1 l -> StronglySorted R2 l.
  Proof.
    intros H S. induction S as [|x l S IH F]; constructor; [exact IH|].
    rewrite Forall_forall in *. auto.
  Qed.

  (** what is known after the selection by onsets *)
  Lemma stage_onsets channels stations events os ars cs bs ps :
    NoDup (map q_id events) -> lists_once stations (map get_station channels) ->
    read_events o events [] [] = Ok (os, ars) ->
    select_distance o channels os (flat_map (fun ev => map (fun sta => (ev, sta)) stations) (dkeys os)) = Ok (cs, bs) ->
    select_onsets o ars (pysort cand_leb cs) = Ok ps ->
    (forall p, In p ps <-> exists ev ch,
       In ev events /\ q_id ev = k_ev (k_cand p) /\ q_origin ev = Ok (k_ori (k_cand p)) /\
       last_channel channels (k_sta (k_cand p)) ch /\
       distance_of o ch (k_ori (k_cand p)) (k_dist (k_cand p)) /\ near o (k_dist (k_cand p)) /\
       p_onset o ev (k_ori (k_cand p)) (k_sta (k_cand p)) (k_dist (k_cand p)) (k_p p) /\
       s_onset o ev (k_ori (k_cand p)) (k_sta (k_cand p)) (k_dist (k_cand p)) (k_s p)) /\
    NoDup (map (fun p => (k_ev (k_cand p), k_sta (k_cand p))) ps) /\
    StronglySorted (fun a b => cand_leb (k_cand a) (k_cand b) = true) ps.
  Proof.
    intros ND [NS IS] RE SD SO.
    destruct (read_events_spec events [] [] os ars ND) as (N1 & S1 & S2 & S3 & S4); auto.
    { constructor. }
    destruct (select_distance_spec _ _ _ _ _ SD) as (D1 & D2 & D3).
    destruct (select_onsets_spec _ _ _ SO) as (O1 & O2 & O3 & O4).
    assert (NP : NoDup (map (fun c => (k_ev c, k_sta c)) cs)).
    { apply D2. apply nodup_product; assumption. }
    split; [|split].
    - intros p. rewrite O1, pysort_in, D1. set (c := k_cand p).
      assert (UE : forall e1 e2, In e1 events -> In e2 events -> q_id e1 = q_id e2 -> e1 = e2).
      { clear - ND. intros e1 e2 I1 I2 E. induction events as [|e l IH]; [destruct I1|].
        cbn in ND. inversion ND as [|? ? NI ND']; subst. destruct I1 as [->|I1], I2 as [->|I2]; auto.
        - exfalso. apply NI. rewrite E. now apply in_map.
        - exfalso. apply NI. rewrite <- E. now apply in_map. }
      assert (GA : forall ev, In ev events -> q_id ev = k_ev c ->
                forall ar, p_use_picks o = true -> dget String.eqb ars (k_ev c) = Some ar <-> get_arrivals (q_arr ev) = Ok (Some ar)).
      { intros ev I E ar UP. rewrite (S2 _ _ UP). split.
        - intros [Q|(e & I' & E' & Q)]; [discriminate|]. now rewrite (UE ev e I I' ltac:(congruence)).
        - intros Q. right. eauto. }
      split.
      + intros ((A & B & (b & C) & D) & E). apply S1 in B. destruct B as [B|(ev & I & EI & EO)]; [discriminate|].
        destruct (proj1 (distance_of_iff _ _ _ _) (ex_intro _ b C)) as (ch & CH & DI).
        exists ev, ch. split; [exact I|]. split; [exact EI|]. split; [exact EO|]. split; [exact CH|].
        split; [exact DI|]. split; [exact D|]. apply (get_onsets_spec ars c ev); [now apply GA|exact E].
      + intros (ev & ch & I & EI & EO & CH & DI & NE & PO & SO'). split.
        * assert (DG : dget String.eqb os (k_ev c) = Some (k_ori c)) by (apply S1; right; eauto).
          split; [|split; [exact DG|split; [|exact NE]]].
          -- apply in_flat_map. exists (k_ev c). split.
             ++ apply (dget_In _ string_eqb_spec) in DG. now apply (in_map fst) in DG.
             ++ apply in_map_iff. exists (k_sta c). split; [reflexivity|]. apply IS. now apply last_channel_station in CH.
          -- apply distance_of_iff. eauto.
        * apply (get_onsets_spec ars c ev); [now apply GA|auto].
    - apply O2. refine (Permutation_NoDup _ NP). apply Permutation_map, Permutation_sym, pysort_perm.
    - apply O3. apply pysort_sorted; [exact cand_leb_total|exact cand_leb_trans].
  Qed.

  Lemma select_spec channels stations events ss bs :
    NoDup (map q_id events) -> lists_once stations (map get_station channels) ->
    select o channels stations events = Ok (Some (ss, bs)) ->
    (forall q, In q ss <-> valid o channels events q) /\
    NoDup (map (fun q => (qs_ev q, qs_sta q)) ss) /\
    StronglySorted ordered ss.
  Proof.
    intros ND LO H. unfold select in H.
    destruct (read_events o events [] []) as [[os ars]|] eqn:RE; [|discriminate]. cbn [bind] in H.
    destruct (select_distance o channels os _) as [[cs bs']|] eqn:SD; [|discriminate]. cbn [bind] in H.
    destruct (select_onsets o ars (pysort cand_leb cs)) as [ps|e] eqn:SO; [|destruct (caught e); discriminate].
    destruct (too_few o (List.length ps)); [discriminate|].
    destruct (retrieve o channels ps) as [ss1|] eqn:RT; [|discriminate]. cbn [bind] in H.
    destruct (stage_onsets _ _ _ _ _ _ _ _ ND LO RE SD SO) as (P1 & P2 & P3).
    destruct (retrieve_spec _ _ _ RT) as (R1 & R2 & R3 & _).
    assert (C : exists ss2, (if p_remove o then correct_streams o ss1 else Ok ss1) = Ok ss2 /\ ss2 = ss).
    { destruct (if p_remove o then _ else _) as [ss2|]; [|discriminate]. cbn [bind] in H.
      destruct (too_few o (List.length ss2)); [discriminate|]. injection H as <- <-. eauto. }
    destruct C as (ss2 & C & ->). clear H.
    assert (Q : (forall q, In q ss <-> exists s, In s ss1 /\ corrected o (qs_traces s) (qs_traces q) /\ q = set_traces s (qs_traces q)) /\
              NoDup (map (fun q => (qs_ev q, qs_sta q)) ss) /\ StronglySorted ordered ss).
    { unfold corrected. destruct (p_remove o).
      - destruct (correct_streams_spec _ _ C) as (C1 & C2 & C3 & _). split; [|auto].
        intros q. rewrite C1. split; intros (s & A & B); exists s; tauto.
      - injection C as <-. split; [|auto]. intros q. split.
        + intros I. exists q. split; [exact I|]. split; [reflexivity|]. now destruct q.
        + intros (s & I & E & D). rewrite E in D. destruct s, q. cbn in *. injection D as -> -> -> -> -> ->.
          now rewrite E. }
    destruct Q as (Q1 & Q2 & Q3). split; [|auto]. intros q. rewrite Q1. unfold valid. split.
    - intros (s & I & CO & E). apply R1 in I. destruct I as (p & ch & I & CH & RC & ES). apply P1 in I.
      destruct I as (ev & ch' & IE & EI & EO & CH' & DI & NE & PO & SO').
      pose proof (last_channel_fun _ _ _ _ CH CH') as ->. rewrite ES in E. unfold set_traces in E. cbn in E.
      exists ev, (k_ori (k_cand p)), ch', (qs_traces s). rewrite E. cbn.
      repeat (split; [assumption || reflexivity|]). exact CO.
    - intros (ev & ori & ch & trs & IE & EI & EO & TM & CH & DI & NE & PO & SO' & RC & CO).
      exists {| qs_ev := qs_ev q; qs_sta := qs_sta q; qs_time := qs_time q; qs_p := qs_p q; qs_s := qs_s q;
                qs_dist := qs_dist q; qs_traces := trs |}.
      split; [|split; [exact CO|now destruct q]]. apply R1.
      exists {| k_cand := {| k_ev := qs_ev q; k_sta := qs_sta q; k_ori := ori; k_dist := qs_dist q |};
                k_p := qs_p q; k_s := qs_s q |}, ch.
      split; [|split; [exact CH|split; [exact RC|cbn; now rewrite TM]]].
      apply P1. exists ev, ch. cbn. auto 10.
  Qed.

  (** borehole stations *)
  Lemma select_boreholes channels stations events ss bs :
    NoDup (map q_id events) -> lists_once stations (map get_station channels) ->
    select o channels stations events = Ok (Some (ss, bs)) ->
    forall sta, In sta bs <-> borehole o channels events sta.
  Proof.
    intros ND [NS IS] H. unfold select in H.
    destruct (read_events o events [] []) as [[os ars]|] eqn:RE; [|discriminate]. cbn [bind] in H.
    destruct (select_distance o channels os _) as [[cs bs']|] eqn:SD; [|discriminate]. cbn [bind] in H.
    assert (bs' = bs) as ->.
    { destruct (select_onsets o ars _) as [ps|e]; [|destruct (caught e); discriminate].
      destruct (too_few o (List.length ps)); [discriminate|].
      destruct (retrieve o channels ps) as [ss1|]; [|discriminate]. cbn [bind] in H.
      destruct (if p_remove o then _ else _) as [ss2|]; [|discriminate]. cbn [bind] in H.
      destruct (too_few o (List.length ss2)); [discriminate|]. now injection H as _ <-. }
    destruct (read_events_spec events [] [] os ars ND) as (N1 & S1 & _); auto.
    { constructor. }
    destruct (select_distance_spec _ _ _ _ _ SD) as (_ & _ & D3). intros sta. rewrite D3. unfold borehole. split.
    - intros (ev & ori & d & _ & DO & GD). apply S1 in DO. destruct DO as [DO|(e & I & EI & EO)]; [discriminate|].
      apply get_distance_spec in GD. destruct GD as (ch & c & h & CH & PC & G & _ & _ & B).
      exists e, ori, ch, c, h. repeat (split; [assumption|]). now apply B.
    - intros (e & ori & ch & c & h & I & EO & CH & PC & G & B).
      assert (DO : dget String.eqb os (q_id e) = Some ori) by (apply S1; right; eauto).
      exists (q_id e), ori, (sqrt (h * h + vertical o ori c * vertical o ori c)). split; [|split; [exact DO|]].
      + apply in_flat_map. exists (q_id e). split.
        * apply (dget_In _ string_eqb_spec) in DO. now apply (in_map fst) in DO.
        * apply in_map_iff. exists sta. split; [reflexivity|]. apply IS. now apply last_channel_station in CH.
      + apply get_distance_spec. exists ch, c, h. repeat (split; [assumption|]). split; [apply sqrt_pos|].
        split; [|tauto]. apply sqrt_sqrt. pose proof (Rle_0_sqr h). pose proof (Rle_0_sqr (vertical o ori c)).
        unfold Rsqr in *. lra.
  Qed.

  (** C60 *)
  Lemma too_few_spec n : too_few o n = true <-> n = 0%nat \/ exists x, p_num_pairs o = Some x /\ (Z.of_nat n <= x)%Z.
  Proof.
    unfold too_few. rewrite orb_true_iff, Nat.eqb_eq. destruct (p_num_pairs o) as [x|].
    - rewrite Z.leb_le. split; [intros [?|?]; eauto|]. intros [?|(y & [= <-] & ?)]; auto.
    - split; [intros [?|?]; [auto|discriminate]|]. intros [?|(y & ? & _)]; [auto|discriminate].
  Qed.

  Lemma select_enough channels stations events ss bs x :
    select o channels stations events = Ok (Some (ss, bs)) -> p_num_pairs o = Some x ->
    (x < Z.of_nat (List.length ss))%Z /\ ss <> [].
  Proof.
    intros H NP. unfold select in H.
    destruct (read_events o events [] []) as [[os ars]|] eqn:RE; [|discriminate]. cbn [bind] in H.
    destruct (select_distance o channels os _) as [[cs bs']|] eqn:SD; [|discriminate]. cbn [bind] in H.
    destruct (select_onsets o ars _) as [ps|e]; [|destruct (caught e); discriminate].
    destruct (too_few o (List.length ps)); [discriminate|].
    destruct (retrieve o channels ps) as [ss1|]; [|discriminate]. cbn [bind] in H.
    destruct (if p_remove o then _ else _) as [ss2|]; [|discriminate]. cbn [bind] in H.
    destruct (too_few o (List.length ss2)) eqn:TF; [discriminate|]. injection H as <- <-.
    assert (N : ~ (List.length ss2 = 0%nat \/ exists x, p_num_pairs o = Some x /\ (Z.of_nat (List.length ss2) <= x)%Z)).
    { rewrite <- too_few_spec. congruence. }
    split.
    - destruct (Z.lt_ge_cases x (Z.of_nat (List.length ss2))) as [?|L]; [assumption|]. exfalso. apply N. right. eauto.
    - intros ->. apply N. now left.
  Qed.

  (** all streams that could be used if there were no minimum *)
  Lemma select_skipped channels stations events :
    NoDup (map q_id events) -> lists_once stations (map get_station channels) ->
    select o channels stations events = Ok None ->
    (p_use_picks o = true -> forall ev, In ev events -> within_reach o channels ev ->
       exists ar, get_arrivals (q_arr ev) = Ok (Some ar) /\
       forall sta, exists ons, get_picks ar sta = Ok ons) ->
    (forall t d, exists s, p_shift o t d = Ok s) -> (p_use_picks o = false -> p_vs o <> None) ->
    forall l, NoDup (map (fun q => (qs_ev q, qs_sta q)) l) -> (forall q, In q l -> valid o channels events q) ->
    l = [] \/ exists x, p_num_pairs o = Some x /\ (Z.of_nat (List.length l) <= x)%Z.
  Proof.
    intros ND LO H AR SH VS l NL VL. unfold select in H.
    destruct (read_events o events [] []) as [[os ars]|] eqn:RE; [|discriminate]. cbn [bind] in H.
    destruct (select_distance o channels os _) as [[cs bs']|] eqn:SD; [|discriminate]. cbn [bind] in H.
    assert (ONS : forall c, In c cs -> exists x, get_onsets o ars c = Ok x).
    { intros c I. apply (select_distance_spec _ _ _ _ _ SD) in I. destruct I as (_ & DO & (b & GD) & NE).
      destruct (read_events_spec events [] [] os ars ND) as (N1 & S1 & S2 & _); auto. { constructor. }
      apply S1 in DO. destruct DO as [DO|(e & I & EI & EO)]; [discriminate|].
      unfold get_onsets. destruct (p_use_picks o) eqn:UP.
      - assert (WR : within_reach o channels e).
        { destruct (proj1 (distance_of_iff _ _ _ _) (ex_intro _ b GD)) as (ch & CH & DI).
          exists (k_ori c), (k_sta c), ch, (k_dist c). auto. }
        destruct (AR eq_refl e I WR) as (ar & GA & GP).
        rewrite (proj2 (S2 (k_ev c) ar eq_refl) (or_intror (ex_intro _ e (conj I (conj EI GA))))).
        destruct (GP (k_sta c)) as (ons & ->). cbn [bind].
        destruct (_ && _)%bool.
        + destruct (p_vp o) as [vp|].
          * destruct (SH (or_time (k_ori c)) (k_dist c / vp)) as (p & ->). cbn [bind].
            match goal with |- context [dget String.eqb ?d "P"] => destruct (dget String.eqb d "P"), (dget String.eqb d "S") end; eauto.
          * cbn [bind]. match goal with |- context [dget String.eqb ?d "P"] => destruct (dget String.eqb d "P"), (dget String.eqb d "S") end; eauto.
        + cbn [bind]. match goal with |- context [dget String.eqb ?d "P"] => destruct (dget String.eqb d "P"), (dget String.eqb d "S") end; eauto.
      - destruct (p_vs o) as [vs|]; [|now destruct (VS eq_refl)].
        destruct (SH (or_time (k_ori c)) (k_dist c / vs)) as (s & ->). cbn [bind].
        destruct (_ && _)%bool.
        + destruct (p_vp o) as [vp|].
          * destruct (SH (or_time (k_ori c)) (k_dist c / vp)) as (p & ->). cbn [bind].
            match goal with |- context [dget String.eqb ?d "P"] => destruct (dget String.eqb d "P"), (dget String.eqb d "S") end; eauto.
          * cbn [bind]. match goal with |- context [dget String.eqb ?d "P"] => destruct (dget String.eqb d "P"), (dget String.eqb d "S") end; eauto.
        + cbn [bind]. match goal with |- context [dget String.eqb ?d "P"] => destruct (dget String.eqb d "P"), (dget String.eqb d "S") end; eauto. }
    assert (SOK : exists ps, select_onsets o ars (pysort cand_leb cs) = Ok ps).
    { assert (G : forall c, In c (pysort cand_leb cs) -> exists x, get_onsets o ars c = Ok x).
      { intros c I. apply pysort_in in I. now apply ONS. }
      revert G. generalize (pysort cand_leb cs). clear. induction l as [|c l IH]; intros G; cbn; [eauto|].
      destruct (G c (or_introl eq_refl)) as (x & ->). destruct (IH (fun c I => G c (or_intror I))) as (ps & ->).
      cbn [bind]. destruct x as [[p s]|]; eauto. }
    destruct SOK as (ps & SO). rewrite SO in H.
    destruct (stage_onsets _ _ _ _ _ _ _ _ ND LO RE SD SO) as (P1 & P2 & P3).
    assert (CNT : forall n, too_few o n = true -> (List.length l <= n)%nat ->
              l = [] \/ exists x, p_num_pairs o = Some x /\ (Z.of_nat (List.length l) <= x)%Z).
    { intros n TF LE. apply too_few_spec in TF. destruct TF as [->|(x & NP & LX)].
      - left. destruct l; [reflexivity|cbn in LE; lia].
      - right. exists x. split; [exact NP|lia]. }
    destruct (too_few o (List.length ps)) eqn:TF.
    - apply (CNT _ TF). rewrite <- (map_length (fun q => (qs_ev q, qs_sta q)) l).
      rewrite <- (map_length (fun p => (k_ev (k_cand p), k_sta (k_cand p))) ps).
      apply NoDup_incl_length; [exact NL|]. intros pr I. apply in_map_iff in I. destruct I as (q & <- & I).
      apply VL in I. destruct I as (ev & ori & ch & trs & IE & EI & EO & TM & CH & DI & NE & PO & SO' & _).
      apply in_map_iff.
      exists {| k_cand := {| k_ev := qs_ev q; k_sta := qs_sta q; k_ori := ori; k_dist := qs_dist q |};
                k_p := qs_p q; k_s := qs_s q |}. split; [reflexivity|]. apply P1. exists ev, ch. cbn. auto 10.
    - destruct (retrieve o channels ps) as [ss1|] eqn:RT; [|discriminate]. cbn [bind] in H.
      destruct (if p_remove o then _ else _) as [ss2|] eqn:C; [|discriminate]. cbn [bind] in H.
      destruct (too_few o (List.length ss2)) eqn:TF2; [|discriminate].
      apply (CNT _ TF2). rewrite <- (map_length (fun q => (qs_ev q, qs_sta q)) l).
      rewrite <- (map_length (fun q => (qs_ev q, qs_sta q)) ss2).
      apply NoDup_incl_length; [exact NL|]. intros pr I. apply in_map_iff in I. destruct I as (q & <- & I).
      apply VL in I. destruct I as (ev & ori & ch & trs & IE & EI & EO & TM & CH & DI & NE & PO & SO' & RC & CO).
      destruct (retrieve_spec _ _ _ RT) as (R1 & _).
      set (s := {| qs_ev := qs_ev q; qs_sta := qs_sta q; qs_time := qs_time q; qs_p := qs_p q; qs_s := qs_s q;
                qs_dist := qs_dist q; qs_traces := trs |}).
      assert (IS : In s ss1).
      { apply R1. exists {| k_cand := {| k_ev := qs_ev q; k_sta := qs_sta q; k_ori := ori; k_dist := qs_dist q |};
                k_p := qs_p q; k_s := qs_s q |}, ch.
        split; [|split; [exact CH|split; [exact RC|cbn; unfold s; now rewrite TM]]].
        apply P1. exists ev, ch. cbn. auto 10. }
      apply in_map_iff. exists (set_traces s (qs_traces q)). split; [reflexivity|].
      unfold corrected in CO. destruct (p_remove o).
      + apply (correct_streams_spec _ _ C). exists s. split; [exact IS|]. cbn. tauto.
      + injection C as <-. unfold set_traces. cbn. rewrite CO. exact IS.
  Qed.

  (** the selection is empty exactly if too few pairs can be used *)
  Lemma select_none_iff channels stations events r l :
    NoDup (map q_id events) -> lists_once stations (map get_station channels) ->
    select o channels stations events = Ok r ->
    (p_use_picks o = true -> forall ev, In ev events -> within_reach o channels ev ->
       exists ar, get_arrivals (q_arr ev) = Ok (Some ar) /\
       forall sta, exists ons, get_picks ar sta = Ok ons) ->
    (forall t d, exists s, p_shift o t d = Ok s) -> (p_use_picks o = false -> p_vs o <> None) ->
    NoDup (map (fun q => (qs_ev q, qs_sta q)) l) -> (forall q, In q l <-> valid o channels events q) ->
    (r = None <-> l = [] \/ exists x, p_num_pairs o = Some x /\ (Z.of_nat (List.length l) <= x)%Z).
  Proof.
    intros ND LO H AR SH VS NL VL. split.
    - intros ->. apply (select_skipped _ _ _ ND LO H AR SH VS l NL). intros q I. now apply VL.
    - intros K. destruct r as [[ss bs]|]; [|reflexivity]. exfalso.
      destruct (select_spec _ _ _ _ _ ND LO H) as (S1 & S2 & _).
      assert (L : List.length l = List.length ss).
      { assert (M : forall a b : list (qstream T), NoDup (map (fun q => (qs_ev q, qs_sta q)) a) ->
                  (forall q, In q a -> In q b) -> (List.length a <= List.length b)%nat).
        { intros a b N I. apply NoDup_incl_length; [now apply NoDup_map_inv in N|exact I]. }
        apply Nat.le_antisymm; apply M; auto; intros q I.
        - apply S1. now apply VL.
        - apply VL. now apply S1. }
      destruct K as [->|(x & NP & LE)].
      + cbn in L. assert (NE : ss <> []); [|destruct ss; [now apply NE|discriminate]].
        clear - H. unfold select in H.
        destruct (read_events o events [] []) as [[os ars]|]; [|discriminate]. cbn [bind] in H.
        destruct (select_distance o channels os _) as [[cs bs']|]; [|discriminate]. cbn [bind] in H.
        destruct (select_onsets o ars _) as [ps|e]; [|destruct (caught e); discriminate].
        destruct (too_few o (List.length ps)); [discriminate|].
        destruct (retrieve o channels ps) as [ss1|]; [|discriminate]. cbn [bind] in H.
        destruct (if p_remove o then _ else _) as [ss2|]; [|discriminate]. cbn [bind] in H.
        destruct (too_few o (List.length ss2)) eqn:TF; [discriminate|]. injection H as <- <-.
        intros ->. cbn in TF. discriminate.
      + destruct (select_enough _ _ _ _ _ _ H NP) as (GT & _). rewrite L in LE. lia.
  Qed.
End P.
