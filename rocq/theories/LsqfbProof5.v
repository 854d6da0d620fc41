(** C54: the results of a band for synthetic data. *)
From Coq Require Import String List Bool Reals Lra Lia ZArith Arith.
From Verif Require Import Base Pyf PyfOps StatModel StatProof FbModel FbProof3 SiteProof LsqfbModel LsqfbSpec LsqfbProof LsqfbProof2 LsqfbProof3 LsqfbProof4.
Import ListNotations.
Open Scope string_scope.
Open Scope list_scope.
Open Scope R_scope.

Lemma Forall2_map_l {A B C} (P : C -> B -> Prop) (f : A -> C) l m :
  Forall2 (fun x y => P (f x) y) l m -> Forall2 P (map f l) m.
Proof. induction 1; cbn; constructor; auto. Qed.

Section G.
  Variable o : lopts.
  Variable st : wstate.
  Variables (g0 : pyf) (site source : string -> R) (bt : R).
  Let syn := synthetic site source bt.

  Lemma greens_coda ps : forall ec tc gc gb,
    greens o st g0 ps ec tc = Ok (gc, gb) ->
    (forall i p r t e gs, nth_error ps i = Some p -> dget pair_eqb (w_distances st) p = Some r ->
       nth_error tc i = Some t -> nth_error ec i = Some e -> l_gcoda o r t g0 = Ok gs ->
       Forall2 (fun te g => syn (p, te) g) (combine (map FNum t) e) gs) ->
    Forall2 syn (flat_map (fun b => map (fun te => (fst b, te)) (snd b))
       (combine ps (map (fun te => combine (map FNum (fst te)) (snd te)) (combine tc ec)))) (concat gc).
  Proof.
    induction ps as [|p ps IH]; intros ec tc gc gb H K; cbn [greens] in H.
    - injection H as <- <-. constructor.
    - destruct ec as [|e ec]; [discriminate|]. destruct (Nat.eqb _ 0); [discriminate|].
      destruct (dget pair_eqb (w_distances st) p) as [r|] eqn:D; [|discriminate].
      destruct tc as [|t tc]; [discriminate|].
      destruct (l_gcoda o r t g0) as [g|] eqn:G; [|discriminate]. cbn [bind] in H.
      match type of H with bind ?x _ = _ => destruct x as [gb1|]; [|discriminate] end. cbn [bind] in H.
      destruct (greens o st g0 ps ec tc) as [[gcs gbs]|] eqn:GS; [|discriminate]. cbn [bind] in H.
      injection H as <- <-. cbn [combine map flat_map concat fst snd]. apply Forall2_app.
      + apply Forall2_map_l. exact (K 0%nat p r t e g eq_refl D eq_refl eq_refl G).
      + apply (IH ec tc gcs gbs GS). intros i. exact (K (S i)).
  Qed.

  Lemma greens_nobulk ps : forall ec tc gc gb, l_bulk o = false ->
    greens o st g0 ps ec tc = Ok (gc, gb) -> gb = [].
  Proof.
    intros ec tc gc gb B. revert ec tc gc gb.
    induction ps as [|p ps IH]; intros ec tc gc gb H; cbn [greens] in H.
    - now injection H as <- <-.
    - destruct ec as [|e ec]; [discriminate|]. destruct (Nat.eqb _ 0); [discriminate|].
      destruct (dget pair_eqb (w_distances st) p) as [r|] eqn:D; [|discriminate].
      destruct tc as [|t tc]; [discriminate|].
      destruct (l_gcoda o r t g0) as [g|] eqn:G; [|discriminate]. rewrite B in H. cbn [bind] in H.
      destruct (greens o st g0 ps ec tc) as [[gcs gbs]|] eqn:GS; [|discriminate]. cbn [bind] in H.
      injection H as <- <-. exact (IH _ _ _ _ GS).
  Qed.

  Lemma greens_bulk ps : forall ec tc gc gb tb eb, l_bulk o = true ->
    greens o st g0 ps ec tc = Ok (gc, gb) ->
    List.length tb = List.length eb ->
    (eb <> [] -> List.length eb = List.length ps) ->
    (forall i p r w t e g, nth_error ps i = Some p -> dget pair_eqb (w_distances st) p = Some r ->
       dget pair_eqb (w_tbulk_window st) p = Some w ->
       nth_error tb i = Some t -> nth_error eb i = Some e -> l_gbulk o r w g0 = Ok g -> syn (p, (t, e)) g) ->
    List.length gb = List.length ps /\
    (eb <> [] -> Forall2 syn (flat_map (fun b => map (fun te => (fst b, te)) (snd b))
       (combine ps (map (fun te => [te]) (combine tb eb)))) gb).
  Proof.
    intros ec tc gc gb tb eb B. revert ec tc gc gb tb eb.
    induction ps as [|p ps IH]; intros ec tc gc gb tb eb H LT LE K; cbn [greens] in H.
    - injection H as <- <-. split; [reflexivity|]. intros NE. specialize (LE NE). now destruct eb.
    - destruct ec as [|e ec]; [discriminate|]. destruct (Nat.eqb _ 0); [discriminate|].
      destruct (dget pair_eqb (w_distances st) p) as [r|] eqn:D; [|discriminate].
      destruct tc as [|t tc]; [discriminate|].
      destruct (l_gcoda o r t g0) as [g|] eqn:G; [|discriminate]. rewrite B in H. cbn [bind] in H.
      destruct (dget pair_eqb (w_tbulk_window st) p) as [w|] eqn:W; [|discriminate].
      destruct (l_gbulk o r w g0) as [g1|] eqn:G1; [|discriminate]. cbn [bind] in H.
      destruct (greens o st g0 ps ec tc) as [[gcs gbs]|] eqn:GS; [|discriminate]. cbn [bind] in H.
      injection H as <- <-. cbn [List.length app].
      destruct eb as [|e1 eb].
      + destruct tb; [|discriminate]. split; [|congruence]. f_equal.
        apply (IH ec tc gcs gbs [] [] GS eq_refl); [congruence|]. intros [|i]; cbn; discriminate.
      + destruct tb as [|t1 tb]; [discriminate|].
        assert (LE' : List.length eb = List.length ps) by (specialize (LE ltac:(discriminate)); cbn in LE; lia).
        destruct (IH ec tc gcs gbs tb eb GS) as [L F].
        * now injection LT.
        * auto.
        * intros i. exact (K (S i)).
        * split; [now rewrite L|]. intros _. cbn [combine map flat_map fst snd app]. constructor.
          -- exact (K 0%nat p r w t1 e1 g1 eq_refl D W eq_refl eq_refl G1).
          -- destruct eb as [|e2 eb]; [|apply F; discriminate].
             destruct ps; [|discriminate]. destruct gbs; [|discriminate]. constructor.
  Qed.

  Hypothesis AL : aligned st.
  Hypothesis SB : synthetic_band o st g0 site source bt.

  Lemma samples_synthetic gc gb :
    greens o st g0 (pairs st) (w_ecoda st) (w_tcoda st) = Ok (gc, gb) ->
    List.length (samples st) = List.length (concat gc ++ gb) ->
    Forall2 syn (samples st) (concat gc ++ gb).
  Proof.
    intros GR L. destruct SB as [S1 S2]. pose proof (greens_coda _ _ _ _ _ GR S1) as FC.
    unfold samples, blocks in *. rewrite flat_map_app in *. apply Forall2_app; [exact FC|].
    pose proof (Forall2_len _ _ _ FC) as LC. rewrite !app_length, LC in L.
    apply Nat.add_cancel_l in L. destruct AL as (NP & _ & _ & LT & LB).
    assert (LB' : w_ebulk st <> [] -> List.length (w_ebulk st) = List.length (pairs st)) by (destruct LB; tauto).
    destruct (l_bulk o) eqn:B.
    - destruct (greens_bulk _ _ _ _ _ _ _ B GR LT LB' S2) as [LG F].
      destruct (w_ebulk st) as [|x eb] eqn:EB; [|apply F; discriminate].
      exfalso. rewrite LG in L. destruct (w_tbulk st); [|discriminate].
      cbn [combine map] in L. replace (combine (pairs st) ([] : list (list (pyf * pyf)))) with ([] : list ((string * string) * list (pyf * pyf))) in L by now destruct (pairs st).
      cbn in L. destruct (pairs st); [contradiction|discriminate].
    - rewrite (greens_nobulk _ _ _ _ _ B GR) in *. cbn [List.length] in L.
      destruct (flat_map _ (combine (pairs st) (map (fun te => [te]) _))); [constructor|discriminate].
  Qed.

  Lemma rhs_lengths bf fs bs z : rhs o st g0 bf fs bs = Ok z ->
    exists gc gb, greens o st g0 (pairs st) (w_ecoda st) (w_tcoda st) = Ok (gc, gb) /\
      List.length (samples st) = List.length (concat gc ++ gb).
  Proof.
    unfold rhs. destruct (greens _ _ _ _ _ _) as [[gc gb]|]; [|discriminate]. cbn [bind].
    destruct (zip_op fsub _ _) as [z0|] eqn:E; [|discriminate]. intros _. exists gc, gb. split; [reflexivity|].
    apply zip_op_spec in E. destruct E as [L _]. rewrite !map_length in L. rewrite <- L.
    now apply samples_length.
  Qed.

  Lemma rhs_synthetic bf fs bs z : rhs o st g0 bf fs bs = Ok z ->
    exists gc gb, greens o st g0 (pairs st) (w_ecoda st) (w_tcoda st) = Ok (gc, gb) /\
      Forall2 syn (samples st) (concat gc ++ gb).
  Proof.
    intros H. destruct (rhs_lengths _ _ _ _ H) as (gc & gb & GR & L). exists gc, gb.
    split; [exact GR|]. now apply samples_synthetic.
  Qed.
End G.

Lemma solve_at_rhs o st a bs rs g0 bf fs f : solve_at o st a bs rs g0 bf fs = Ok f ->
  exists z, rhs o st g0 bf fs bs = Ok z.
Proof. unfold solve_at. destruct (rhs _ _ _ _ _ _) as [z|]; [eauto|discriminate]. Qed.

Lemma table_combine keys l f : lists_once keys l ->
  table l f (dict_of String.eqb (combine keys (map (fun k => FNum (f k)) keys))).
Proof.
  intros [ND IN]. set (vs := map (fun k => FNum (f k)) keys).
  assert (M : map fst (combine keys vs) = keys).
  { unfold vs. clear. induction keys; cbn; congruence. }
  rewrite dict_of_nodup by now rewrite M. split; [rewrite M; split; assumption|].
  intros k v. unfold vs. clear. induction keys as [|x keys IH]; cbn; [tauto|].
  intros [[= <- <-]|H]; auto.
Qed.

Section T.
  Variable o : lopts.
  Variable st : wstate.
  Variables (site source : string -> R) (bt : R).
  Hypothesis AL : aligned st.
  Hypothesis LS : least_squares (l_wls o).
  Hypothesis WP : good_weights o st.
  Hypothesis CN : l_coda_norm o = false.
  Hypothesis SITE : positive_on (map snd (pairs st)) site.
  Hypothesis SOURCE : positive_on (map fst (pairs st)) source.

  Lemma site_pos s : In s (stations st) -> 0 < site s.
  Proof. intros I. apply SITE. apply (proj2 (fromkeys_spec (map snd (pairs st)))). exact I. Qed.
  Lemma source_pos e : In e (eventids st) -> 0 < source e.
  Proof. intros I. apply SOURCE. apply (proj2 (fromkeys_spec (map fst (pairs st)))). exact I. Qed.

  Lemma network_stations : one_network st ->
    forall s1 s2, In s1 (stations st) -> In s2 (stations st) -> connected (pairs st) s1 s2.
  Proof.
    intros N s1 s2 I1 I2. apply N; apply (proj2 (fromkeys_spec (map snd (pairs st)))); assumption.
  Qed.

  Lemma result_of v0 r s : invert_band o st v0 = Ok (Some r, s) ->
    exists a bs rs f s0, build o st = Ok (a, bs, rs) /\ r = arrange o st f v0 /\
      ((l_fix o = true /\ exists g b, l_fix_params o = Some (Some g, Some b) /\
          lstsq o st a bs rs s0 g (Some b) (match l_fix_sites o with None => false | Some _ => true end) = Ok (s, f)) \/
       (l_fix o = false /\ exists g, lstsq o st a bs rs s0 g None false = Ok (s, f))).
  Proof.
    unfold invert_band. destruct (pairs st); [discriminate|].
    destruct (choose o st) as [[[s1 f]|]|] eqn:CH; cbn [bind]; try discriminate.
    destruct (_ || _)%bool; [discriminate|]. intros [= <- <-].
    destruct (choose_cases o st _ CH) as (a & bs & rs & BU & [(FX & g & b & s0 & FP & L)|(FX & s0 & g & L)]).
    - exists a, bs, rs, f, s0. split; [exact BU|]. split; [reflexivity|]. left. eauto.
    - exists a, bs, rs, f, s0. split; [exact BU|]. split; [reflexivity|]. right. eauto.
  Qed.

  Lemma lstsq_fit a bs rs s0 g bf fs s f : lstsq o st a bs rs s0 g bf fs = Ok (s, f) ->
    solve_at o st a bs rs g bf fs = Ok f.
  Proof.
    unfold lstsq. destruct (solve_at _ _ _ _ _ _ _ _); [|discriminate]. cbn [bind]. now intros [= _ <-].
  Qed.

  (** command go *)
  Lemma result_go v0 r s g : l_fix_sites o = None -> l_fix o = false -> 0 < l_R0 o ->
    mean_site st site (l_R0 o) -> one_network st -> two_times st ->
    invert_band o st v0 = Ok (Some r, s) -> fb_g0 r = Some g -> synthetic_band o st g site source bt ->
    fb_b r = Some (FNum bt) /\
    (exists W, fb_W r = Some W /\ table (map fst (pairs st)) source W) /\
    (exists Rs, fb_R r = Some Rs /\ table (map snd (pairs st)) site Rs) /\
    (positive_bounds (l_b_bounds o) -> positive_bounds (l_g0_bounds o) -> fb_error r = FNum 0).
  Proof.
    intros FS FX R0 MS NET TT H HG SB. pose proof (accepted_inside o st v0 r s H) as (IB & IG & _).
    destruct (result_of v0 r s H) as (a & bs & rs & f & s0 & BU & ER & [(FX' & _)|(_ & g' & L)]); [congruence|].
    pose proof (lstsq_fit _ _ _ _ _ _ _ _ _ L) as S. pose proof (solve_at_g0 o st _ _ _ _ _ _ _ S) as G0.
    assert (EG : g' = g). { rewrite ER in HG. unfold arrange in HG. cbn in HG. rewrite FX in HG. congruence. }
    rewrite EG in S, G0. destruct (solve_at_rhs _ _ _ _ _ _ _ _ _ S) as (z & RH).
    destruct (rhs_synthetic o st g site source bt AL SB _ _ _ _ RH) as (gc & gb & GR & SY).
    destruct (recover_free o st g a bs rs gc gb site source bt AL LS WP BU GR SY site_pos source_pos CN
               (fun _ => network_stations NET) f FS FX TT R0 (MS _ (fromkeys_spec _)) S) as (E1 & E2 & E3 & E4 & E5).
    rewrite ER in IB, IG |- *. unfold arrange in *. cbn in *. rewrite FX, FS, CN in *. cbn [negb].
    rewrite E2, E3, E4. split; [reflexivity|].
    split; [eexists; split; [reflexivity|]; apply table_combine, fromkeys_spec|].
    split; [eexists; split; [reflexivity|]; apply table_combine, fromkeys_spec|].
    intros P1 P2. apply E5.
    - intros lo hi B. destruct (IB _ eq_refl lo hi B) as (x & X & Q). specialize (P1 lo hi B).
      rewrite E2 in X. exists x. split; [exact X|lra].
    - intros lo hi B. destruct (IG _ eq_refl lo hi B) as (x & X & Q). specialize (P2 lo hi B).
      rewrite G0 in X. exists x. split; [exact X|lra].
  Qed.

  (** command fixed *)
  Lemma result_fixed v0 r s g : l_fix_sites o = None -> l_fix o = true -> 0 < l_R0 o ->
    mean_site st site (l_R0 o) -> one_network st ->
    l_fix_params o = Some (Some g, Some (FNum bt)) -> synthetic_band o st g site source bt ->
    invert_band o st v0 = Ok (Some r, s) ->
    (exists W, fb_W r = Some W /\ table (map fst (pairs st)) source W) /\
    (exists Rs, fb_R r = Some Rs /\ table (map snd (pairs st)) site Rs) /\ fb_error r = FNum 0.
  Proof.
    intros FS FX R0 MS NET FP SB H.
    destruct (result_of v0 r s H) as (a & bs & rs & f & s0 & BU & ER & [(_ & g' & b' & FP' & L)|(FX' & _)]); [|congruence].
    rewrite FP in FP'. injection FP' as <- <-. rewrite FS in L.
    pose proof (lstsq_fit _ _ _ _ _ _ _ _ _ L) as S.
    destruct (solve_at_rhs _ _ _ _ _ _ _ _ _ S) as (z & RH).
    destruct (rhs_synthetic o st g site source bt AL SB _ _ _ _ RH) as (gc & gb & GR & SY).
    destruct (recover_fixed o st g a bs rs gc gb site source bt AL LS WP BU GR SY site_pos source_pos CN
               (fun _ => network_stations NET) f FS FX R0 (MS _ (fromkeys_spec _)) S) as (E1 & E2 & E3 & E4 & E5).
    rewrite ER. unfold arrange. cbn. rewrite FS, CN. cbn [negb]. rewrite E3, E4, E5.
    split; [eexists; split; [reflexivity|]; apply table_combine, fromkeys_spec|].
    split; [eexists; split; [reflexivity|]; apply table_combine, fromkeys_spec|]. reflexivity.
  Qed.

  (** command source *)
  Lemma result_source v0 r s g params : l_fix_sites o = Some params -> l_fix o = true ->
    (forall x, In x (map snd (pairs st)) -> dget String.eqb params x = Some (FNum (site x))) ->
    l_fix_params o = Some (Some g, Some (FNum bt)) -> synthetic_band o st g site source bt ->
    invert_band o st v0 = Ok (Some r, s) ->
    (exists W, fb_W r = Some W /\ table (map fst (pairs st)) source W) /\ fb_error r = FNum 0.
  Proof.
    intros FS FX PA FP SB H.
    destruct (result_of v0 r s H) as (a & bs & rs & f & s0 & BU & ER & [(_ & g' & b' & FP' & L)|(FX' & _)]); [|congruence].
    rewrite FP in FP'. injection FP' as <- <-. rewrite FS in L.
    pose proof (lstsq_fit _ _ _ _ _ _ _ _ _ L) as S.
    destruct (solve_at_rhs _ _ _ _ _ _ _ _ _ S) as (z & RH).
    destruct (rhs_synthetic o st g site source bt AL SB _ _ _ _ RH) as (gc & gb & GR & SY).
    destruct (recover_source o st g a bs rs gc gb site source bt AL LS WP BU GR SY site_pos source_pos CN
               f params FS FX) as (E1 & E2 & E3 & E4); [|exact S|].
    { intros x I. apply PA. apply (proj2 (fromkeys_spec (map snd (pairs st)))). exact I. }
    rewrite ER. unfold arrange. cbn. rewrite CN, E3, E4.
    split; [eexists; split; [reflexivity|]; apply table_combine, fromkeys_spec|]. reflexivity.
  Qed.
End T.
