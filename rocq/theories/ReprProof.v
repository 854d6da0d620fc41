From Coq Require Import String Ascii Bool NArith ZArith Decimal DecimalPos DecimalZ Lia Arith List.
From Verif Require Import Base CacheModel CacheSpec.
Import ListNotations.
Open Scope list_scope.
Open Scope N_scope.

(** ** hexadecimal numbers *)
Lemma hex_length w c : List.length (hex w c) = w.
Proof. revert c. induction w; intros c; [reflexivity|]. cbn [hex]. rewrite app_length, IHw. cbn. lia. Qed.

Definition unhexd (d : N) : N := if d <? 58 then d - 48 else d - 87.
Definition unhex (l : text) : N := fold_left (fun a d => a * 16 + unhexd d) l 0.

Lemma unhex_hex w : forall c, c < 16 ^ N.of_nat w -> unhex (hex w c) = c.
Proof.
  induction w as [|w IH]; intros c Hc.
  - change (16 ^ N.of_nat 0) with 1 in *. cbn. lia.
  - cbn [hex]. unfold unhex. rewrite fold_left_app. cbn [fold_left].
    change (fold_left (fun a d => a * 16 + unhexd d) (hex w (c / 16)) 0) with (unhex (hex w (c / 16))).
    rewrite Nat2N.inj_succ, N.pow_succ_r' in Hc.
    rewrite IH by (apply N.div_lt_upper_bound; [discriminate|exact Hc]).
    assert (M : c mod 16 < 16) by (apply N.mod_lt; lia).
    assert (E : unhexd (hex_digit (c mod 16)) = c mod 16).
    { clear - M. generalize dependent (c mod 16). clear c. intros c M. unfold unhexd, hex_digit. destruct (N.ltb_spec c 10).
      - destruct (N.ltb_spec (48 + c) 58); lia.
      - destruct (N.ltb_spec (87 + c) 58); lia. }
    rewrite E. pose proof (N.div_mod c 16 ltac:(lia)). lia.
Qed.

(** ** strings *)
Section Str.
Variable printable : N -> bool.

Definition unesc (l : text) : N * text :=
  match l with
  | [] => (0, [])
  | x :: r =>
      if x =? 92 then
        match r with
        | [] => (0, [])
        | y :: r' =>
            if y =? 116 then (9, r') else if y =? 110 then (10, r') else if y =? 114 then (13, r')
            else if y =? 120 then (unhex (firstn 2 r'), skipn 2 r')
            else if y =? 117 then (unhex (firstn 4 r'), skipn 4 r')
            else if y =? 85 then (unhex (firstn 8 r'), skipn 8 r')
            else (y, r')
        end
      else (x, r)
  end.

Lemma unhex_app w c r : c < 16 ^ N.of_nat w -> unhex (firstn w (hex w c ++ r)) = c /\ skipn w (hex w c ++ r) = r.
Proof.
  intros Hc. assert (L := hex_length w c).
  rewrite firstn_app, skipn_app, L, Nat.sub_diag. cbn [firstn skipn]. rewrite app_nil_r.
  rewrite <- L at 1. rewrite firstn_all. split; [now apply unhex_hex|].
  rewrite <- L at 1. now rewrite skipn_all.
Qed.

Lemma unesc_esc q c r : (q = 39 \/ q = 34) -> c < 1114112 -> unesc (esc printable q c ++ r) = (c, r).
Proof.
  intros Hq Hc. unfold esc.
  destruct (N.eqb_spec c q) as [->|Nq]; cbn [orb].
  { destruct Hq; subst q; reflexivity. }
  destruct (N.eqb_spec c 92) as [->|]; cbn [orb]; [reflexivity|].
  destruct (N.eqb_spec c 9) as [->|]; [reflexivity|].
  destruct (N.eqb_spec c 10) as [->|]; [reflexivity|].
  destruct (N.eqb_spec c 13) as [->|]; [reflexivity|].
  destruct ((c <? 32) || (c =? 127)) eqn:E.
  { cbn [app]. change (unesc (92 :: 120 :: hex 2 c ++ r)) with (unhex (firstn 2 (hex 2 c ++ r)), skipn 2 (hex 2 c ++ r)).
    destruct (unhex_app 2 c r) as [-> ->]; [|reflexivity]. cbn.
    destruct (N.ltb_spec c 32), (N.eqb_spec c 127); cbn in E; try discriminate; lia. }
  assert (Raw : unesc ([c] ++ r) = (c, r)).
  { cbn [app unesc]. destruct (N.eqb_spec c 92); [contradiction|reflexivity]. }
  destruct (c <? 127); [exact Raw|]. destruct (printable c); [exact Raw|].
  destruct (N.ltb_spec c 256).
  { cbn [app]. change (unesc (92 :: 120 :: hex 2 c ++ r)) with (unhex (firstn 2 (hex 2 c ++ r)), skipn 2 (hex 2 c ++ r)).
    destruct (unhex_app 2 c r) as [-> ->]; [cbn; lia|reflexivity]. }
  destruct (N.ltb_spec c 65536).
  { cbn [app]. change (unesc (92 :: 117 :: hex 4 c ++ r)) with (unhex (firstn 4 (hex 4 c ++ r)), skipn 4 (hex 4 c ++ r)).
    destruct (unhex_app 4 c r) as [-> ->]; [cbn; lia|reflexivity]. }
  cbn [app]. change (unesc (92 :: 85 :: hex 8 c ++ r)) with (unhex (firstn 8 (hex 8 c ++ r)), skipn 8 (hex 8 c ++ r)).
  destruct (unhex_app 8 c r) as [-> ->]; [cbn; lia|reflexivity].
Qed.

Lemma esc_inj q c d r s : (q = 39 \/ q = 34) -> c < 1114112 -> d < 1114112 ->
  esc printable q c ++ r = esc printable q d ++ s -> c = d /\ r = s.
Proof.
  intros Hq Hc Hd H. apply (f_equal unesc) in H. rewrite !unesc_esc in H by assumption.
  split; congruence.
Qed.

Lemma esc_no_quote q c s r : (q = 39 \/ q = 34) -> esc printable q c ++ r <> q :: s.
Proof.
  intros Hq. unfold esc.
  destruct (N.eqb_spec c q); cbn [orb]; [intros [=]; destruct Hq; lia|].
  repeat match goal with |- context [if ?b then _ else _] => destruct b end;
  cbn [app]; intros H; injection H; intros; destruct Hq; congruence.
Qed.

Lemma body_inj q : (q = 39 \/ q = 34) -> forall s1 s2 r1 r2, is_text s1 -> is_text s2 ->
  flat_map (esc printable q) s1 ++ q :: r1 = flat_map (esc printable q) s2 ++ q :: r2 -> s1 = s2 /\ r1 = r2.
Proof.
  intros Hq. induction s1 as [|c s1 IH]; intros [|d s2] r1 r2 H1 H2 H.
  - cbn in H. split; congruence.
  - cbn [flat_map] in H. rewrite <- app_assoc in H. symmetry in H. now apply esc_no_quote in H.
  - cbn [flat_map] in H. rewrite <- app_assoc in H. now apply esc_no_quote in H.
  - cbn [flat_map] in H. rewrite <- !app_assoc in H.
    inversion H1; inversion H2; subst.
    apply esc_inj in H; auto. destruct H as [-> H]. apply IH in H; auto. destruct H as [-> ->]. auto.
Qed.

Lemma quote_of_cases s : quote_of s = 39 \/ quote_of s = 34.
Proof. unfold quote_of. destruct (_ && _); auto. Qed.

Lemma repr_str_inj s1 s2 r1 r2 : is_text s1 -> is_text s2 ->
  repr_str printable s1 ++ r1 = repr_str printable s2 ++ r2 -> s1 = s2 /\ r1 = r2.
Proof.
  intros H1 H2 H. unfold repr_str in H. cbn [app] in H. rewrite <- !app_assoc in H. cbn [app] in H.
  injection H as Eq H. rewrite <- Eq in H. apply body_inj in H; auto. apply quote_of_cases.
Qed.
End Str.

(** ** words *)
Definition is_delim (c : N) : Prop := In c [44; 41; 93; 125; 58; 123].
Definition delimited (r : text) : Prop := match r with [] => True | c :: _ => is_delim c end.
Definition is_word (t : text) : Prop := Forall (fun c => ~ is_delim c) t.

Lemma word_inj t1 : forall t2 r1 r2, is_word t1 -> is_word t2 -> delimited r1 -> delimited r2 ->
  t1 ++ r1 = t2 ++ r2 -> t1 = t2 /\ r1 = r2.
Proof.
  induction t1 as [|c t1 IH]; intros [|d t2] r1 r2 W1 W2 D1 D2 H; cbn in H.
  - auto.
  - subst r1. inversion W2; subst. now contradiction D1.
  - subst r2. inversion W1; subst. now contradiction D2.
  - injection H as -> H. inversion W1; inversion W2; subst. apply IH in H; auto. destruct H as [-> ->]. auto.
Qed.

Lemma digits_chars u : Forall (fun c => 48 <= c <= 57) (digits u).
Proof. induction u; cbn; constructor; auto; lia. Qed.

Lemma digits_inj u : forall v, digits u = digits v -> u = v.
Proof. induction u; intros [|v|v|v|v|v|v|v|v|v|v] H; cbn in H; try discriminate; try reflexivity; injection H as H; f_equal; auto. Qed.

Lemma digits_not_nil u : u <> Nil -> digits u <> [].
Proof. destruct u; cbn; congruence. Qed.

Lemma to_int_inj a b : Z.to_int a = Z.to_int b -> a = b.
Proof. intros H. rewrite <- (DecimalZ.of_to a), <- (DecimalZ.of_to b). now rewrite H. Qed.

Lemma repr_int_chars z : Forall (fun c => c = 45 \/ 48 <= c <= 57) (repr_int z).
Proof.
  unfold repr_int. destruct (Z.to_int z) as [u|u]; [|constructor; [auto|]];
  (eapply Forall_impl; [|apply digits_chars]); cbn; auto.
Qed.

Lemma repr_int_inj a b : repr_int a = repr_int b -> a = b.
Proof.
  intros H. apply to_int_inj. unfold repr_int in H.
  destruct (Z.to_int a) as [u|u], (Z.to_int b) as [v|v].
  - apply digits_inj in H. now subst.
  - assert (D := digits_chars u). rewrite H in D. inversion D. lia.
  - assert (D := digits_chars v). rewrite <- H in D. inversion D. lia.
  - injection H as H. apply digits_inj in H. now subst.
Qed.

Lemma uint_not_nil p : Pos.to_uint p <> Nil.
Proof. intros H. assert (E := DecimalPos.Unsigned.of_to p). rewrite H in E. discriminate. Qed.

Lemma repr_int_not_nil z : repr_int z <> [].
Proof.
  unfold repr_int, Z.to_int. destruct z; cbn; try discriminate. apply digits_not_nil, uint_not_nil.
Qed.

(** ** lists of items *)
Definition closer (c : N) : Prop := c = 41 \/ c = 93 \/ c = 125.

Section Items.
Context {A : Type} (pr : A -> text) (good : A -> Prop).
Variable starts : forall x, good x -> exists c t, pr x = c :: t /\ c <> 41 /\ c <> 93 /\ c <> 125.

Definition item_inj (x : A) : Prop := forall y r1 r2, good y -> delimited r1 -> delimited r2 ->
  pr x ++ r1 = pr y ++ r2 -> x = y /\ r1 = r2.

Definition after (cl : N) (l : list A) (r : text) : text :=
  match l with [] => cl :: r | _ => 44 :: 32 :: join (map pr l) ++ cl :: r end.

Lemma join_cons x l cl r : join (map pr (x :: l)) ++ cl :: r = pr x ++ after cl l r.
Proof. destruct l as [|y l]; [reflexivity|]. cbn [map join after]. rewrite <- app_assoc. reflexivity. Qed.

Lemma after_delim cl l r : closer cl -> delimited (after cl l r).
Proof. intros H. unfold delimited, is_delim. destruct l; cbn; [destruct H as [->|[->| ->]]; auto 10|auto]. Qed.

Lemma join_inj cl : closer cl -> forall l1 l2 r1 r2,
  Forall good l1 -> Forall good l2 -> Forall item_inj l1 ->
  join (map pr l1) ++ cl :: r1 = join (map pr l2) ++ cl :: r2 -> l1 = l2 /\ r1 = r2.
Proof.
  intros Hc. induction l1 as [|x l1 IH]; intros [|y l2] r1 r2 G1 G2 I1 H.
  - cbn in H. split; congruence.
  - rewrite join_cons in H. inversion G2; subst. destruct (starts y) as (c & t & E & N1 & N2 & N3); auto.
    rewrite E in H. cbn in H. injection H as Ec _. destruct Hc as [->|[->| ->]]; congruence.
  - rewrite join_cons in H. inversion G1; subst. destruct (starts x) as (c & t & E & N1 & N2 & N3); auto.
    rewrite E in H. cbn in H. injection H as Ec _. destruct Hc as [->|[->| ->]]; congruence.
  - rewrite !join_cons in H. inversion G1; inversion G2; inversion I1; subst.
    match goal with K : item_inj x |- _ => apply K in H; auto using after_delim end.
    destruct H as [-> H]. destruct l1 as [|x' l1], l2 as [|y' l2]; cbn [after] in H.
    + split; congruence.
    + injection H as Ec _. destruct Hc as [->|[->| ->]]; congruence.
    + injection H as Ec _. destruct Hc as [->|[->| ->]]; congruence.
    + apply (f_equal (@tl N)) in H. apply (f_equal (@tl N)) in H. cbn [tl] in H.
      apply IH in H; auto. destruct H as [-> ->]. auto.
Qed.

Definition tuple_body (l : list A) : text :=
  match l with [x] => pr x ++ [44] | _ => join (map pr l) end.

Lemma tuple_inj l1 l2 r1 r2 : Forall good l1 -> Forall good l2 -> Forall item_inj l1 ->
  tuple_body l1 ++ 41 :: r1 = tuple_body l2 ++ 41 :: r2 -> l1 = l2 /\ r1 = r2.
Proof.
  intros G1 G2 I1 H.
  assert (C : closer 41) by (left; reflexivity).
  assert (D : forall x, delimited (44 :: x)) by (intros; cbn; auto).
  destruct l1 as [|x [|x' l1]]; cbn [tuple_body] in H.
  - destruct l2 as [|y [|y' l2]]; cbn [tuple_body] in H; try (eapply join_inj; eauto; fail).
    inversion G2; subst. destruct (starts y) as (c & t & E & N1 & _); auto. rewrite E in H. cbn in H. congruence.
  - rewrite <- app_assoc in H. cbn [app] in H. inversion G1; inversion I1; subst.
    destruct l2 as [|y [|y' l2]]; cbn [tuple_body] in H.
    + destruct (starts x) as (c & t & E & N1 & _); auto. rewrite E in H. cbn in H. congruence.
    + rewrite <- app_assoc in H. cbn [app] in H. inversion G2; subst.
      match goal with K : item_inj x |- _ => apply K in H; auto end. destruct H as [-> H]. split; congruence.
    + rewrite join_cons in H. inversion G2; subst.
      match goal with K : item_inj x |- _ => apply K in H; auto using after_delim end. destruct H as [_ H].
      cbn in H. congruence.
  - destruct l2 as [|y [|y' l2]]; cbn [tuple_body] in H; try (eapply join_inj; eauto; fail).
    rewrite <- app_assoc in H. cbn [app] in H. rewrite join_cons in H.
    inversion G1; inversion I1; inversion G2; subst.
    match goal with K : item_inj x |- _ => apply K in H; auto using after_delim end. destruct H as [_ H].
    cbn in H. congruence.
Qed.
End Items.

(** ** values *)
Section Val.
Variable printable : N -> bool.
Notation repr := (repr printable).

Fixpoint vsize (v : pyval) : nat :=
  match v with
  | PTuple l | PList l => S (fold_right (fun x n => vsize x + n)%nat O l)
  | PDict l => S (fold_right (fun p n => vsize (snd p) + n)%nat O l)
  | _ => 1%nat
  end.

Lemma vsize_in l x : In x l -> (vsize x <= fold_right (fun x n => vsize x + n)%nat O l)%nat.
Proof. induction l as [|y l IH]; cbn; [contradiction|]. intros [->|H]; [lia|]. apply IH in H. lia. Qed.

Lemma vsize_in_dict (l : list (text * pyval)) x : In x l ->
  (vsize (snd x) <= fold_right (fun p n => vsize (snd p) + n)%nat O l)%nat.
Proof. induction l as [|y l IH]; cbn; [contradiction|]. intros [->|H]; [lia|]. apply IH in H. lia. Qed.

(** class of the first character *)
Definition cls (c : N) : nat :=
  if (c =? 39) || (c =? 34) then 1%nat else if c =? 40 then 2%nat else if c =? 91 then 3%nat
  else if c =? 123 then 4%nat else 0%nat.

Definition vcls (v : pyval) : nat :=
  match v with PStr _ => 1%nat | PTuple _ => 2%nat | PList _ => 3%nat | PDict _ => 4%nat | _ => 0%nat end.

Lemma float_word t : is_float_repr t -> is_word t /\ exists c r, t = c :: r /\ In c (asc "0123456789+-.einfa").
Proof.
  intros [F E]. split.
  - eapply Forall_impl; [|exact F]. cbn. intros c Hc Hd. unfold is_delim in Hd. cbn in Hd.
    destruct Hd as [<-|[<-|[<-|[<-|[<-|[<-|[]]]]]]]; repeat (destruct Hc as [Hc|Hc]; [discriminate|]); exact Hc.
  - destruct t as [|c r]; [inversion E|]. exists c, r. inversion F; auto.
Qed.

Lemma word_val v : wf v -> vcls v = 0%nat ->
  is_word (repr v) /\ exists c r, repr v = c :: r /\ cls c = 0%nat /\ ~ closer c.
Proof.
  intros W. destruct v; cbn [vcls]; try discriminate; intros _.
  - split.
    + eapply Forall_impl; [|apply repr_int_chars]. cbn. unfold is_delim. cbn. intros c Hc Hd. lia.
    + assert (C := repr_int_chars z). assert (Nn := repr_int_not_nil z). cbn [CacheModel.repr].
      destruct (repr_int z) as [|c r]; [congruence|]. exists c, r. split; [reflexivity|].
      inversion C; subst. unfold closer. split; [|lia]. unfold cls.
      destruct (N.eqb_spec c 39); [lia|]. destruct (N.eqb_spec c 34); [lia|]. cbn [orb].
      destruct (N.eqb_spec c 40); [lia|]. destruct (N.eqb_spec c 91); [lia|]. destruct (N.eqb_spec c 123); [lia|]. reflexivity.
  - inversion W; subst. destruct (float_word t) as [F (c & r & E & Hc)]; [assumption|]. split; [exact F|].
    exists c, r. split; [exact E|]. unfold closer. cbn in Hc.
    repeat (destruct Hc as [<-|Hc]; [split; [reflexivity|lia]|]). contradiction.
  - unfold is_word, is_delim. destruct b; (split; [cbn; repeat (apply Forall_cons; [cbn; lia|]); apply Forall_nil|]);
    (eexists _, _; split; [reflexivity|]; split; [reflexivity|unfold closer; cbn; lia]).
  - unfold is_word, is_delim. (split; [cbn; repeat (apply Forall_cons; [cbn; lia|]); apply Forall_nil|]).
    (eexists _, _; split; [reflexivity|]; split; [reflexivity|unfold closer; cbn; lia]).
Qed.

Lemma first_char v : wf v -> exists c t, repr v = c :: t /\ cls c = vcls v /\ ~ closer c.
Proof.
  intros W. destruct (Nat.eq_dec (vcls v) 0) as [E|E].
  { destruct (word_val v W E) as [_ (c & r & H & Hc & Hn)]. exists c, r. rewrite E. auto. }
  destruct v; cbn [vcls] in E; try congruence; cbn [CacheModel.repr vcls]; unfold repr_str; cbn [app];
  eexists _, _; (split; [reflexivity|]); unfold closer.
  - destruct (quote_of_cases s) as [-> | ->]; split; try reflexivity; lia.
  - split; [reflexivity|lia].
  - split; [reflexivity|lia].
  - split; [reflexivity|lia].
Qed.

Lemma word_val_inj v1 v2 : wf v1 -> wf v2 -> vcls v1 = 0%nat -> vcls v2 = 0%nat -> repr v1 = repr v2 -> v1 = v2.
Proof.
  intros W1 W2 C1 C2 H.
  assert (FI : forall t z, is_float_repr t -> repr_int z = t -> False).
  { intros t z [_ Ex] E. subst t. assert (F := repr_int_chars z). rewrite Exists_exists in Ex. destruct Ex as (c & Hin & Hc).
    rewrite Forall_forall in F. apply F in Hin. cbn in Hc.
    repeat (destruct Hc as [<-|Hc]; [lia|]). contradiction. }
  assert (FW : forall t c r, is_float_repr t -> t = c :: r -> c = 84 \/ c = 70 \/ c = 78 -> False).
  { intros t c r [F _] -> Hc. inversion F as [|? ? Hin]; subst. cbn in Hin.
    repeat (destruct Hin as [<-|Hin]; [lia|]). contradiction. }
  assert (IW : forall z c r, repr_int z = c :: r -> c = 84 \/ c = 70 \/ c = 78 -> False).
  { intros z c r E Hc. assert (F := repr_int_chars z). rewrite E in F. inversion F; subst. lia. }
  assert (WF : forall t, wf (PFloat t) -> is_float_repr t) by (intros t W; now inversion W).
  destruct v1, v2; cbn [vcls] in *; try discriminate; cbn [CacheModel.repr] in H.
  - f_equal. now apply repr_int_inj.
  - exfalso. eauto.
  - exfalso. destruct b; cbn in H; apply IW in H; auto.
  - exfalso. cbn in H. apply IW in H; auto.
  - exfalso. eauto.
  - now rewrite H.
  - exfalso. destruct b; cbn in H; eapply FW in H; eauto.
  - exfalso. cbn in H. eapply FW in H; eauto.
  - exfalso. symmetry in H. destruct b; cbn in H; apply IW in H; auto.
  - exfalso. destruct b; cbn in H; symmetry in H; eapply FW in H; eauto.
  - destruct b, b0; cbn in H; congruence.
  - destruct b; cbn in H; congruence.
  - exfalso. symmetry in H. cbn in H; apply IW in H; auto.
  - exfalso. cbn in H; symmetry in H; eapply FW in H; eauto.
  - destruct b; cbn in H; congruence.
  - reflexivity.
Qed.

Lemma repr_inj : forall n v1, (vsize v1 <= n)%nat -> wf v1 -> forall v2 r1 r2, wf v2 -> delimited r1 -> delimited r2 ->
  repr v1 ++ r1 = repr v2 ++ r2 -> v1 = v2 /\ r1 = r2.
Proof.
  induction n as [|n IH]; intros v1 Hs W1 v2 r1 r2 W2 D1 D2 H; [destruct v1; cbn in Hs; lia|].
  assert (C : vcls v1 = vcls v2).
  { destruct (first_char v1 W1) as (c1 & t1 & E1 & <- & _), (first_char v2 W2) as (c2 & t2 & E2 & <- & _).
    rewrite E1, E2 in H. cbn in H. injection H as -> _. reflexivity. }
  destruct (Nat.eq_dec (vcls v1) 0) as [Z1|Z1].
  { assert (Z2 : vcls v2 = 0%nat) by congruence.
    apply word_inj in H; auto; try (apply word_val; assumption). destruct H as [H ->]. split; [|reflexivity].
    now apply word_val_inj. }
  assert (St : forall x, wf x -> exists c t, repr x = c :: t /\ c <> 41 /\ c <> 93 /\ c <> 125).
  { intros x Wx. destruct (first_char x Wx) as (c & t & E & _ & Hc). exists c, t. unfold closer in Hc. split; [exact E|]. lia. }
  destruct v1, v2; cbn [vcls] in C, Z1; try congruence; cbn [CacheModel.repr] in H.
  - inversion W1; inversion W2; subst. apply repr_str_inj in H; auto. destruct H as [-> ->]. auto.
  - inversion W1; inversion W2; subst. cbn [app] in H. rewrite <- !app_assoc in H. cbn [app] in H. injection H as H.
    assert (T := tuple_inj repr wf St l l0 r1 r2). unfold tuple_body in T.
    destruct T as [-> ->]; auto.
    rewrite Forall_forall in *. intros x Hx. unfold item_inj. intros. apply (IH x); auto.
    apply vsize_in in Hx. cbn in Hs. lia.
  - inversion W1; inversion W2; subst. cbn [app] in H. rewrite <- !app_assoc in H. cbn [app] in H. injection H as H.
    destruct (join_inj repr wf St 93) with (l1 := l) (l2 := l0) (r1 := r1) (r2 := r2) as [-> ->]; auto.
    { right; left; reflexivity. }
    rewrite Forall_forall in *. intros x Hx. unfold item_inj. intros. apply (IH x); auto.
    apply vsize_in in Hx. cbn in Hs. lia.
  - inversion W1; inversion W2; subst. cbn [app] in H. rewrite <- !app_assoc in H. cbn [app] in H. injection H as H.
    destruct (join_inj (fun p => repr_str printable (fst p) ++ 58 :: 32 :: repr (snd p))
      (fun p => is_text (fst p) /\ wf (snd p))) with (cl := 125) (l1 := l) (l2 := l0) (r1 := r1) (r2 := r2) as [-> ->]; auto.
    { intros x [Hx _]. unfold repr_str. cbn [app]. eexists _, _. split; [reflexivity|].
      destruct (quote_of_cases (fst x)) as [-> | ->]; lia. }
    { right; right; reflexivity. }
    rewrite Forall_forall in *. intros x Hx. unfold item_inj. intros y s1 s2 [Y1 Y2] E1 E2 Hy.
    rewrite <- !app_assoc in Hy. assert (Hx' := Hx). apply H1 in Hx' as [X1 X2].
    apply repr_str_inj in Hy; auto. destruct Hy as [Ek Hy]. cbn [app] in Hy. injection Hy as Hy.
    apply IH in Hy; auto. { destruct Hy as [Ev ->]. split; [|reflexivity]. destruct x, y; cbn in *; congruence. }
    apply vsize_in_dict in Hx. cbn in Hs. lia.
Qed.

Lemma cache_key_inj a1 k1 a2 k2 :
  Forall wf a1 -> Forall wf a2 ->
  Forall (fun p => is_text (fst p) /\ wf (snd p)) k1 -> Forall (fun p => is_text (fst p) /\ wf (snd p)) k2 ->
  cache_key printable a1 k1 = cache_key printable a2 k2 -> a1 = a2 /\ k1 = k2.
Proof.
  intros A1 A2 K1 K2 H. unfold cache_key in H.
  apply (repr_inj _ (PTuple a1) (le_n _)) in H; try (constructor; assumption); try (cbn; auto 10; fail).
  destruct H as [H1 H2]. injection H1 as ->. split; [reflexivity|].
  rewrite <- (app_nil_r (repr (PDict k1))), <- (app_nil_r (repr (PDict k2))) in H2.
  apply (repr_inj _ (PDict k1) (le_n _)) in H2; try (constructor; assumption); try exact I.
  destruct H2 as [H2 _]. now injection H2.
Qed.
End Val.
