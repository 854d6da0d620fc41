(** Proofs about the result of invert_wrapper (C63, C65, C66, C67). *)
From Coq Require Import String List Bool Reals Lra Lia ZArith Arith Permutation Sorting.Sorted.
From Verif Require Import Base Pyf PySort SortModel SortProof StatModel StatSpec StatProof CollectModel CollectSpec
  CollectProof CollectProof2 SourceProof3 InvProof2 WrapModel WrapSpec WrapProof WrapProof2.
Import ListNotations.
Open Scope string_scope.
Open Scope list_scope.
Open Scope R_scope.

Lemma weights_robust mean col ws : weights_of mean col = Ok ws ->
  (mean <> Some "weighted" -> ws = None) /\
  (mean = Some "weighted" -> exists e, collected_table col "error" = Ok e /\ ws = Some (map (map finv) e)).
Proof.
  unfold weights_of. destruct mean as [m|].
  - destruct (String.eqb m "weighted") eqn:E.
    + apply String.eqb_eq in E. subst m. intros H. split; [congruence|]. intros _.
      destruct (collected_table col "error") as [e|]; [|discriminate]. cbn [bind] in H. injection H as <-. eauto.
    + apply String.eqb_neq in E. intros [= <-]. split; [reflexivity|]. intros [= ->]. congruence.
  - intros [= <-]. split; [reflexivity|discriminate].
Qed.

Lemma robust_of_spec mean : (mean = Some "robust" -> robust_of mean = true) /\ (mean <> Some "robust" -> robust_of mean = false).
Proof.
  unfold robust_of. destruct mean as [m|]; [|split; [discriminate|reflexivity]].
  split; [intros [= ->]; reflexivity|]. intros N. apply String.eqb_neq. congruence.
Qed.

Section Mean.
  Variable rlm : list R -> R * R.
  Context {C : Type}.
  Variable mean : option string.

  Lemma mean_list_averaged col ws errors rows l : weights_of mean col = Ok ws ->
    (forall e, collected_table col "error" = Ok e -> e = errors) -> rect rows ->
    mean_list rlm rows ws (robust_of mean) = Ok l -> averaged rlm mean errors rows l.
  Proof.
    intros W E RC H. destruct (weights_robust _ _ _ W) as [W1 W2]. destruct (robust_of_spec mean) as [R1 R2]. split.
    - intros N. rewrite (W1 N) in H. apply mean_list_of in H; [|exact RC]. split; intros Q; [now rewrite R1 in H|now rewrite R2 in H].
    - intros Q. destruct (W2 Q) as (e & Q1 & ->). apply E in Q1. subst e.
      rewrite R2 in H by (rewrite Q; discriminate). now apply (mean_list_weighted rlm).
  Qed.

  (** the stations *)
  Lemma mean_sites_spec evs col ws m : collect_results (map (fun e : string * evdict => (fst e, Some (snd e))) evs) (Some ["g0"; "b"; "error"; "R"]) None = Ok col ->
    (forall id d s, In (id, d) evs -> sget d "R" = Some (VSites s) -> NoDup (map fst s)) ->
    weights_of mean col = Ok ws ->
    mean_sites rlm col ws (robust_of mean) = Ok m ->
    (m = [] /\ (forall sta, site_lists sta evs = [])) \/
    (exists d : list (string * list (option R)), m = [("R", TSites (C := C) d)] /\ (exists sta, site_lists sta evs <> []) /\
      forall sta, match sget d sta with
                  | None => site_lists sta evs = []
                  | Some l => site_lists sta evs <> [] /\ averaged rlm mean (lists_of "error" evs) (site_lists sta evs) l
                  end).
  Proof.
    intros COL SN W H. destruct (collected_sites evs col COL SN) as (d & D & V).
    destruct (collected_lists evs col COL "error" ltac:(cbn; tauto)) as [_ TE].
    unfold mean_sites in H. rewrite D in H. destruct d as [|s0 d0].
    - injection H as <-. left. split; [reflexivity|]. intros sta. apply (V sta).
    - right. set (d := s0 :: d0) in *.
      destruct (mapM (fun sr : string * list rval => do t <- table_of (snd sr); do m <- mean_list rlm t ws (robust_of mean); Ok (fst sr, m)) d)
        as [ms|] eqn:M; [|discriminate]. cbn [bind] in H. injection H as <-. exists ms. split; [reflexivity|]. split.
      + exists (fst s0). specialize (V (fst s0)). unfold d in V. destruct s0 as [s r]. cbn [dget fst] in V.
        rewrite String.eqb_refl in V. destruct V as (N & _ & E). cbn [fst]. intros Q. rewrite Q in E. apply N. exact E.
      + intros sta. specialize (V sta). clear D. clearbody d. revert ms M. induction d as [|[s r] d IH]; intros ms M; cbn [mapM] in M.
        * injection M as <-. exact V.
        * cbn [snd fst] in M. destruct (table_of r) as [t|] eqn:T; [|discriminate]. cbn [bind] in M.
          destruct (mean_list rlm t ws (robust_of mean)) as [l|] eqn:L; [|discriminate]. cbn [bind] in M.
          destruct (mapM _ d) as [ms'|] eqn:M'; [|discriminate]. cbn [bind] in M. injection M as <-.
          cbn [dget] in *. destruct (String.eqb sta s); [|now apply IH]. destruct V as (N & A & E).
          destruct (to_array_rect _ _ A T) as [ER RC].
          assert (t = site_lists sta evs).
          { rewrite E in ER. clear - ER. revert ER. generalize (site_lists sta evs). induction t as [|x t I]; intros [|y q] ER; try discriminate; [reflexivity|].
            cbn in ER. injection ER as -> ER. f_equal. now apply I. }
          subst t. split; [intros Q; rewrite Q in E; apply N; exact E|].
          apply (mean_list_averaged col ws); auto. intros e Q. now apply TE in Q.
  Qed.

  (** C67 *)
  Lemma add_means_spec st r : add_means (C := C) rlm mean st = Ok (Some r) ->
    (forall id d s, In (id, d) (ws_events st) -> sget d "R" = Some (VSites s) -> NoDup (map fst s)) ->
    let evs := ws_events st in
    evs <> [] /\ NoDup (map fst r) /\ (forall k, In k (map fst r) -> In k DUMP_ORDER) /\
    sget r "events" = Some (TEvents evs) /\
    sget r "freq" = option_map TVal (ws_freq st) /\
    (exists l, sget r "error" = Some (TMean l) /\ averaged rlm mean (lists_of "error" evs) (lists_of "error" evs) l) /\
    ((exists e, In e evs /\ sget (snd e) "g0" <> None) -> forall c, In c ["g0"; "b"] ->
       exists l, sget r c = Some (TMean l) /\ averaged rlm mean (lists_of "error" evs) (lists_of c evs) l) /\
    ((exists e, In e evs /\ sget (snd e) "g0" <> None) ->
       exists row x, In row (lists_of "g0" evs) /\ In x row /\ fisnan x = false) /\
    ((forall e, In e evs -> sget (snd e) "g0" = None) -> sget r "g0" = None /\ sget r "b" = None) /\
    ((forall sta, site_lists sta evs = []) -> sget r "R" = None) /\
    ((exists sta, site_lists sta evs <> []) -> exists d, sget r "R" = Some (TSites d) /\
       forall sta, match sget d sta with
                  | None => site_lists sta evs = []
                  | Some l => site_lists sta evs <> [] /\ averaged rlm mean (lists_of "error" evs) (site_lists sta evs) l
                  end).
  Proof.
    intros H SN. cbv zeta. unfold add_means in H. revert H SN. generalize (ws_events st). intros evs H SN.
    assert (NE : evs <> []) by (intros Q; rewrite Q in H; discriminate).
    assert (H' : (do col <- collect_results (map (fun e => (fst e, Some (snd e))) evs) (Some ["g0"; "b"; "error"; "R"]) None;
        do nog0 <- (if dmem String.eqb col "g0" then do g0 <- collected_table col "g0"; Ok (all_nan g0) else Ok false);
        if nog0 : bool then Ok None
        else
          do ws <- weights_of mean col;
          do m1 <- mean_g0 rlm col ws (robust_of mean);
          do m2 <- mean_error rlm col ws (robust_of mean);
          do m3 <- mean_sites rlm col ws (robust_of mean);
          Ok (Some ([("events", TEvents evs)] ++
                    match ws_freq st with Some f => [("freq", TVal f)] | None => [] end ++ m1 ++ m2 ++ m3))) = Ok (Some r)).
    { destruct evs as [|x y]; [congruence|exact H]. }
    clear H. rename H' into H.
    destruct (collect_results _ _ _) as [col|] eqn:COL; [|discriminate]. cbn [bind] in H.
    destruct (if dmem String.eqb col "g0" then _ else _) as [nog0|] eqn:NG; [|discriminate]. cbn [bind] in H.
    destruct nog0; [discriminate|].
    destruct (weights_of mean col) as [ws|] eqn:W; [|discriminate]. cbn [bind] in H.
    destruct (mean_g0 rlm col ws (robust_of mean)) as [m1|] eqn:M1; [|discriminate]. cbn [bind] in H.
    destruct (mean_error rlm col ws (robust_of mean)) as [m2|] eqn:M2; [|discriminate]. cbn [bind] in H.
    destruct (mean_sites rlm col ws (robust_of mean)) as [m3|] eqn:M3; [|discriminate]. cbn [bind] in H.
    injection H as <-.
    destruct (collected_lists evs col COL "error" ltac:(cbn; tauto)) as [_ TE].
    destruct (collected_lists evs col COL "g0" ltac:(cbn; tauto)) as [DG TG].
    destruct (collected_lists evs col COL "b" ltac:(cbn; tauto)) as [_ TB].
    assert (TE' : forall e, collected_table col "error" = Ok e -> e = lists_of "error" evs) by (intros e Q; now apply TE in Q).
    (* error *)
    unfold mean_error in M2. destruct (collected_table col "error") as [et|] eqn:CE; [|discriminate]. cbn [bind] in M2.
    destruct (mean_list rlm et ws (robust_of mean)) as [el|] eqn:EL; [|discriminate]. cbn [bind] in M2. injection M2 as <-.
    destruct (TE et eq_refl) as [-> RE].
    assert (AE : averaged rlm mean (lists_of "error" evs) (lists_of "error" evs) el).
    { apply (mean_list_averaged col ws); auto. now rewrite CE. }
    (* g0 and b *)
    assert (AG : (m1 = [] /\ dmem String.eqb col "g0" = false) \/
      exists g b, m1 = [("g0", TMean g); ("b", TMean b)] /\ dmem String.eqb col "g0" = true /\
        averaged rlm mean (lists_of "error" evs) (lists_of "g0" evs) g /\ averaged rlm mean (lists_of "error" evs) (lists_of "b" evs) b /\
        all_nan (lists_of "g0" evs) = false).
    { unfold mean_g0 in M1. destruct (dmem String.eqb col "g0"); [|left; split; [now injection M1|reflexivity]]. right.
      destruct (collected_table col "g0") as [gt|]; [|discriminate]. cbn [bind] in M1, NG.
      destruct (mean_list rlm gt ws (robust_of mean)) as [g|] eqn:G1; [|discriminate]. cbn [bind] in M1.
      destruct (collected_table col "b") as [bt|]; [|discriminate]. cbn [bind] in M1.
      destruct (mean_list rlm bt ws (robust_of mean)) as [b|] eqn:B1; [|discriminate]. cbn [bind] in M1.
      injection M1 as <-. destruct (TG gt eq_refl) as [-> RG]. destruct (TB bt eq_refl) as [-> RB].
      exists g, b. split; [reflexivity|]. split; [reflexivity|]. split; [|split; [|now injection NG]].
      - apply (mean_list_averaged col ws); auto. now rewrite CE.
      - apply (mean_list_averaged col ws); auto. now rewrite CE. }
    (* stations *)
    assert (AR := mean_sites_spec evs col ws m3 COL SN W M3).
    set (fr := match ws_freq st with Some f => [("freq", TVal f)] | None => [] end : list (string * tval C)).
    assert (FR : fr = [] /\ ws_freq st = None \/ exists f, fr = [("freq", TVal f)] /\ ws_freq st = Some f).
    { unfold fr. destruct (ws_freq st); eauto. }
    clearbody fr. split; [exact NE|].
    assert (KEYS : NoDup (map fst ([("events", TEvents evs)] ++ fr ++ m1 ++ [("error", TMean el)] ++ m3)) /\
      (forall k, In k (map fst ([("events", TEvents evs)] ++ fr ++ m1 ++ [("error", TMean el)] ++ m3)) -> In k DUMP_ORDER)).
    { destruct FR as [[-> _]|(f & -> & _)], AG as [[-> _]|(g & b & -> & _)], AR as [[-> _]|(d & -> & _)]; cbn; (split;
        [repeat (constructor; [cbn; intuition discriminate|]); constructor|cbn; intuition (subst; tauto)]). }
    destruct KEYS as [K1 K2]. split; [exact K1|]. split; [exact K2|]. split; [reflexivity|]. clear K1 K2.
    assert (NOG : dmem String.eqb col "g0" = false -> ~ exists e, In e evs /\ sget (snd e) "g0" <> None).
    { intros Q X. apply DG in X. congruence. }
    split.
    { destruct FR as [[-> ->]|(f & -> & ->)], AG as [[-> _]|(g & b & -> & _)], AR as [[-> _]|(d & -> & _)]; reflexivity. }
    split.
    { exists el. split; [|exact AE].
      destruct FR as [[-> _]|(f & -> & _)], AG as [[-> _]|(g & b & -> & _)]; reflexivity. }
    split.
    { intros X c I. destruct AG as [[_ Q]|(g & b & -> & _ & A1 & A2 & _)]; [now elim (NOG Q)|].
      destruct I as [<-|[<-|[]]].
      - exists g. split; [|exact A1]. destruct FR as [[-> _]|(f & -> & _)]; reflexivity.
      - exists b. split; [|exact A2]. destruct FR as [[-> _]|(f & -> & _)]; reflexivity. }
    split.
    { intros X. destruct AG as [[_ Q]|(g & b & -> & _ & _ & _ & A)]; [now elim (NOG Q)|].
      clear - A. unfold all_nan in A. induction (lists_of "g0" evs) as [|row t I]; [discriminate|].
      cbn [forallb] in A. apply andb_false_iff in A. destruct A as [A|A].
      - exists row. clear I. induction row as [|x row I]; [discriminate|]. cbn [forallb] in A. apply andb_false_iff in A.
        destruct A as [A|A]; [exists x; split; [now left|]; split; [now left|exact A]|].
        destruct (I A) as (y & _ & J & K). exists y. split; [now left|]. split; [now right|exact K].
      - destruct (I A) as (row' & x & J & K). exists row', x. split; [now right|exact K]. }
    split.
    { intros X. destruct AG as [[-> Q]|(g & b & -> & Q & _)].
      - destruct FR as [[-> _]|(f & -> & _)], AR as [[-> _]|(d & -> & _)]; split; reflexivity.
      - apply DG in Q. destruct Q as (e & I & N). elim N. now apply X. }
    split.
    - intros X. destruct AR as [[-> _]|(d & -> & (sta & Q) & _)]; [|now elim Q].
      destruct FR as [[-> _]|(f & -> & _)], AG as [[-> _]|(g & b & -> & _)]; reflexivity.
    - intros (sta & Q). destruct AR as [[-> X]|(d & -> & _ & V)]; [now elim Q|]. exists d. split; [|exact V].
      destruct FR as [[-> _]|(f & -> & _)], AG as [[-> _]|(g & b & -> & _)]; reflexivity.
  Qed.
End Mean.
