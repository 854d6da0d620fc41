(** Lemmas about the words of a command line. *)
From Coq Require Import String Ascii List Bool ZArith Arith Lia.
From Verif Require Import Base PyStr RunModel CliModel CliSpec.
Import ListNotations.
Open Scope string_scope.
Open Scope list_scope.

(** ** Tables *)

Definition sort_of (k : kind) : sort :=
  match k with
  | KText => Text | KJson => Json | KInt => Number | KTrue => Yes | KFalse => No | KCount => Count | KHelp => CliSpec.Help
  end.

Definition row (a : action) : string * sort := (a_dest a, sort_of (a_kind a)).

Definition short_flag (f : string) : bool :=
  match f with String "-" (String c "") => negb (Ascii.eqb c "-") | _ => false end.

Definition long_flag (f : string) : bool :=
  match f with String "-" (String "-" (String _ _)) => true | _ => false end.

Definition flag_ok (f : string) : bool := ((short_flag f || long_flag f) && negb (has_char "=" f))%bool.

Definition same_group (a b : action) : bool :=
  match a_group a, a_group b with Some g, Some h => String.eqb g h | _, _ => false end.

Definition opposite (a b : action) : bool :=
  match a_kind a, a_kind b with KTrue, KFalse | KFalse, KTrue => String.eqb (a_dest a) (a_dest b) | _, _ => false end.

Definition is_switch (a : action) : bool := match a_kind a with KTrue | KFalse => true | _ => false end.

Definition pair_ok (a b : action) : bool :=
  ((* conflicts are opposite switches *)
   Bool.eqb (opposite a b)
     (same_group a b && negb (match a_kind a, a_kind b with KTrue, KTrue | KFalse, KFalse => true | _, _ => false end)) &&
   (* counted keys are only counted *)
   (negb (String.eqb (a_dest a) (a_dest b)) || Bool.eqb (match a_kind a with KCount => true | _ => false end)
                                                   (match a_kind b with KCount => true | _ => false end)))%bool.

Definition table_ok (cmd : string) (acts : list action) : bool :=
  (forallb (fun fa => flag_ok (fst fa)) (named acts) &&
   forallb (fun a => forallb (pair_ok a) acts) acts &&
   forallb (fun a => negb (String.eqb (a_dest a) "cmd")) acts &&
   forallb (fun a => match a_kind a with KCount => negb (inb String.eqb (a_dest a) ["conf"; "pdb"]) | _ => true end) acts)%bool.

(** what is known about a parser *)
Record known (cmd : string) (acts : list action) (table : list (string * (string * sort))) : Prop := {
  kn_rows : map (fun fa => (fst fa, row (snd fa))) (named acts) = table;
  kn_nodup : NoDup (map fst (named acts));
  kn_ok : table_ok cmd acts = true;
  kn_default : forall k, dget String.eqb (defaults acts) k = default cmd k;
  kn_two : exists g h, dget String.eqb table g <> None /\ dget String.eqb table h <> None /\
             String.prefix "--" g = true /\ String.prefix "--" h = true /\ g <> h;
  kn_distinct : NoDup (map fst (("cmd", JStr cmd) :: defaults acts))
}.

Fixpoint nodupb (l : list string) : bool :=
  match l with [] => true | x :: l => (negb (inb String.eqb x l) && nodupb l)%bool end.

Lemma nodupb_ok l : nodupb l = true -> NoDup l.
Proof.
  induction l as [|x l IH]; cbn [nodupb]; [constructor|]. intros H. apply andb_true_iff in H as [A B].
  constructor; [|auto]. intros I. apply (inb_In _ string_eqb_spec) in I. now rewrite I in A.
Qed.

Lemma known_parser cmd table : documented cmd table -> exists acts, parser cmd = Some acts /\ known cmd acts table.
Proof.
  intros D. destruct D; eexists; (split; [vm_compute; reflexivity|]);
    (split; [vm_compute; reflexivity|apply nodupb_ok; vm_compute; reflexivity|vm_compute; reflexivity| |
             exists "--help", "--conf"; repeat split; vm_compute; congruence|apply nodupb_ok; vm_compute; reflexivity]);
    intros k; unfold default; cbn [defaults flat_map a_default app a_dest dget];
    destruct (String.eqb_spec k "conf") as [->|N]; try reflexivity;
    destruct (String.eqb_spec k "pdb") as [->|N2]; reflexivity.
Qed.

Lemma parser_documented cmd acts : parser cmd = Some acts -> exists table, documented cmd table.
Proof.
  unfold parser. destruct (String.eqb_spec cmd "create") as [->|]; [eexists; constructor|].
  destruct (inb _ _ _) eqn:I; [|discriminate]. intros _. apply (inb_In _ string_eqb_spec) in I.
  repeat (destruct I as [<-|I]; [eexists; constructor|]). destruct I.
Qed.

(** ** Names *)

Lemma dget_map {A B} (g : A -> B) (l : list (string * A)) k :
  dget String.eqb (map (fun x => (fst x, g (snd x))) l) k = option_map g (dget String.eqb l k).
Proof. induction l as [|[x v] l IH]; cbn; [reflexivity|]. now destruct (String.eqb k x). Qed.

Lemma partition_some s p v : partition_eq s = Some (p, v) <-> s = (p ++ "=" ++ v)%string /\ no_eq p.
Proof.
  unfold no_eq. revert p. induction s as [|c s IH]; intros p; cbn [partition_eq].
  - split; [discriminate|]. intros [H _]. destruct p; discriminate.
  - destruct (Ascii.eqb_spec c "=") as [->|N].
    + split.
      * intros H. injection H as <- <-. cbn. tauto.
      * intros [H E]. destruct p as [|d p]; cbn in H.
        -- injection H as <-. reflexivity.
        -- injection H as <- H. exfalso. apply E. now left.
    + destruct (partition_eq s) as [[a b]|] eqn:P.
      * split.
        -- intros H. injection H as <- <-. destruct (proj1 (IH a) eq_refl) as [-> E]. cbn. split; [reflexivity|]. intros [H|H]; [congruence|auto].
        -- intros [H E]. destruct p as [|d p]; cbn in H; [injection H as H; congruence|]. injection H as <- H.
           assert (X : Some (a, b) = Some (p, v)) by (apply IH; split; [exact H|intros I; apply E; now right]).
           now injection X as -> ->.
      * split; [discriminate|]. intros [H E]. destruct p as [|d p]; cbn in H; [injection H as H; congruence|]. injection H as <- H.
        assert (X : None = Some (p, v)) by (apply IH; split; [exact H|intros I; apply E; now right]). discriminate.
Qed.

Lemma partition_none s : partition_eq s = None <-> no_eq s.
Proof.
  unfold no_eq. induction s as [|c s IH]; cbn [partition_eq list_ascii_of_string In]; [tauto|].
  destruct (Ascii.eqb_spec c "=") as [->|N]; [split; [discriminate|intros H; exfalso; auto]|].
  destruct (partition_eq s) as [[a b]|]; split; try discriminate.
  - intros H. exfalso. assert (X : Some (a, b) = None) by tauto. discriminate.
  - intros _ [H|H]; [congruence|]. revert H. now apply IH.
  - reflexivity.
Qed.

Lemma has_char_In c s : has_char c s = true <-> In c (list_ascii_of_string s).
Proof.
  induction s as [|a s IH]; cbn [has_char list_ascii_of_string In]; [split; [discriminate|tauto]|].
  rewrite orb_true_iff, IH, Ascii.eqb_eq. reflexivity.
Qed.

Lemma no_eq_has s : no_eq s <-> has_char "=" s = false.
Proof. unfold no_eq. rewrite <- has_char_In. destruct (has_char "=" s); split; intros; try discriminate; auto; exfalso; auto. Qed.

Lemma prefix_cons c p d f : String.prefix (String c p) (String d f) = if ascii_dec c d then String.prefix p f else false.
Proof. reflexivity. Qed.

Lemma prefix_app p f : String.prefix p f = true <-> exists r, f = (p ++ r)%string.
Proof.
  revert f. induction p as [|c p IH]; intros f; simpl.
  - destruct f; (split; [intros _; eexists; reflexivity|reflexivity]).
  - destruct f as [|d f]; [split; [discriminate|intros [r H]; discriminate]|].
    rewrite prefix_cons. destruct (ascii_dec c d) as [<-|N].
    + rewrite IH. split; intros [r H]; exists r; [cbn; now rewrite H|cbn in H; now injection H].
    + split; [discriminate|]. intros [r H]. cbn in H. injection H as H _. congruence.
Qed.

Lemma list_app_s a b : list_ascii_of_string (a ++ b) = list_ascii_of_string a ++ list_ascii_of_string b.
Proof. induction a as [|c a IH]; cbn; [reflexivity|now rewrite IH]. Qed.

Section Known.
  Context {cmd : string} {acts : list action} {table : list (string * (string * sort))}.
  Variable K : known cmd acts table.

  Lemma find_row f : dget String.eqb table f = option_map row (find_flag acts f).
  Proof. rewrite <- (kn_rows _ _ _ K). apply (dget_map row). Qed.

  Lemma find_some f k s : dget String.eqb table f = Some (k, s) <-> exists a, find_flag acts f = Some a /\ a_dest a = k /\ sort_of (a_kind a) = s.
  Proof.
    rewrite find_row. destruct (find_flag acts f) as [a|]; cbn [option_map].
    - split; [intros H; injection H as <- <-; eauto|]. intros (b & H & <- & <-). now injection H as <-.
    - split; [discriminate|]. intros (b & H & _). discriminate.
  Qed.

  Lemma find_none f : dget String.eqb table f = None <-> find_flag acts f = None.
  Proof. rewrite find_row. destruct (find_flag acts f); cbn; split; intros; try discriminate; reflexivity. Qed.

  Lemma find_named f a : find_flag acts f = Some a <-> In (f, a) (named acts).
  Proof.
    unfold find_flag. split; [apply (dget_In _ string_eqb_spec)|].
    intros I. apply (dget_nodup _ string_eqb_spec); [exact (kn_nodup _ _ _ K)|exact I].
  Qed.

  Lemma find_acts f a : find_flag acts f = Some a -> In a acts /\ In f (a_flags a).
  Proof.
    intros H. apply find_named in H. unfold named in H. apply in_flat_map in H as (b & I & M).
    apply in_map_iff in M as (g & X & M). injection X as <- <-. auto.
  Qed.

  Lemma flag_shape f a : find_flag acts f = Some a -> flag_ok f = true.
  Proof.
    intros H. apply find_named in H. pose proof (kn_ok _ _ _ K) as T. unfold table_ok in T.
    rewrite !andb_true_iff in T. destruct T as (((T & _) & _) & _).
    exact (proj1 (forallb_forall _ _) T _ H).
  Qed.

  Lemma flag_no_eq f a : find_flag acts f = Some a -> no_eq f.
  Proof.
    intros H. apply flag_shape in H. unfold flag_ok in H. apply andb_true_iff in H as [_ H].
    apply no_eq_has. now apply negb_true_iff in H.
  Qed.

  Lemma flag_cases f a : find_flag acts f = Some a ->
    (exists c, f = String "-" (String c "") /\ c <> "-"%char) \/ (exists c r, f = String "-" (String "-" (String c r))).
  Proof.
    intros H. apply flag_shape in H. unfold flag_ok in H. apply andb_true_iff in H as [H _]. apply orb_true_iff in H as [H|H].
    - left. unfold short_flag in H. destruct f as [|c0 [|c [|]]]; try discriminate.
      + destruct c0 as [[] [] [] [] [] [] [] []]; discriminate.
      + destruct c0 as [[] [] [] [] [] [] [] []]; try discriminate. exists c. split; [reflexivity|].
        intros ->. discriminate.
      + destruct c0 as [[] [] [] [] [] [] [] []]; discriminate.
    - right. unfold long_flag in H. destruct f as [|c0 [|c1 [|c r]]]; try discriminate.
      + destruct c0 as [[] [] [] [] [] [] [] []]; discriminate.
      + destruct c0 as [[] [] [] [] [] [] [] []]; try discriminate. destruct c1 as [[] [] [] [] [] [] [] []]; discriminate.
      + destruct c0 as [[] [] [] [] [] [] [] []]; try discriminate. destruct c1 as [[] [] [] [] [] [] [] []]; try discriminate.
        eauto.
  Qed.

  Lemma filter_unique (P : string -> bool) f a :
    filter (fun fa => P (fst fa)) (named acts) = [(f, a)] <->
    find_flag acts f = Some a /\ (forall g, dget String.eqb table g <> None -> (P g = true <-> g = f)).
  Proof.
    split.
    - intros H. assert (I : In (f, a) (filter (fun fa => P (fst fa)) (named acts))) by (rewrite H; now left).
      apply filter_In in I as [I Pf]. split; [now apply find_named|].
      intros g G. split; [|intros ->; exact Pf]. intros Pg.
      destruct (find_flag acts g) as [b|] eqn:Fg; [|exfalso; apply G; now apply find_none].
      assert (J : In (g, b) (filter (fun fa => P (fst fa)) (named acts))).
      { apply filter_In. split; [now apply find_named|exact Pg]. }
      rewrite H in J. destruct J as [J|[]]. now injection J.
    - intros [F U]. apply find_named in F.
      assert (U2 : forall g b, In (g, b) (named acts) -> (P g = true <-> g = f)).
      { intros g b I. apply U. intros N. apply find_none in N. apply find_named in I. congruence. }
      pose proof (kn_nodup _ _ _ K) as N. clear U. revert F U2 N. generalize (named acts). intros l F U N.
      induction l as [|[g b] l IH]; [destruct F|]. cbn [filter fst]. inversion N as [|? ? N1 N2]; subst.
      destruct (P g) eqn:Pg.
      + apply (U g b ltac:(now left)) in Pg. subst g. destruct F as [F|F].
        * injection F as ->. f_equal.
          clear IH N N2. induction l as [|[g c] l IH]; [reflexivity|]. cbn [filter fst].
          destruct (P g) eqn:Pg.
          -- apply (U g c ltac:(right; now left)) in Pg. subst g. exfalso. apply N1. now left.
          -- apply IH; [|intros X; apply N1; now right]. intros g2 b2 [I|I]; [apply (U g2 b2); now left|apply (U g2 b2); right; now right].
        * exfalso. apply N1. apply in_map_iff. exists (f, a). auto.
      + destruct F as [F|F]; [injection F as -> ->; assert (X : P f = true) by (apply (U f a); [now left|reflexivity]); congruence|].
        apply IH; [exact F| |exact N2]. intros g2 b2 I. apply (U g2 b2). now right.
  Qed.

  Lemma filter_empty (P : string -> bool) :
    filter (fun fa => P (fst fa)) (named acts) = [] <-> (forall g, dget String.eqb table g <> None -> P g = false).
  Proof.
    split.
    - intros H g G. destruct (find_flag acts g) as [b|] eqn:Fg; [|exfalso; apply G; now apply find_none].
      destruct (P g) eqn:Pg; [|reflexivity]. exfalso.
      assert (J : In (g, b) (filter (fun fa => P (fst fa)) (named acts))).
      { apply filter_In. split; [now apply find_named|exact Pg]. }
      rewrite H in J. exact J.
    - intros H. assert (U : forall g b, In (g, b) (named acts) -> P g = false).
      { intros g b I. apply H. intros N. apply find_none in N. apply find_named in I. congruence. }
      revert U. generalize (named acts). intros l U. induction l as [|[g b] l IH]; [reflexivity|]. cbn [filter fst].
      rewrite (U g b ltac:(now left)). apply IH. intros g2 b2 I. apply (U g2 b2). now right.
  Qed.
End Known.
