From Coq Require Import String Bool NArith ZArith Lia Arith List.
From Verif Require Import Base CacheModel CacheSpec CacheProof ReprProof.
Import ListNotations.
Open Scope list_scope.

(** a function of two texts; fails for an empty second one *)
Definition ex_fun (a : string * string) : res nat :=
  match snd a with EmptyString => Err SkipError | s => Ok (String.length (fst a ++ s)) end.

(** counts its calls *)
Definition ex_world (w : nat) (a : string * string) : nat * res nat := (S w, ex_fun a).

(** a function whose first evaluation fails *)
Definition ex_flaky (n : nat) (a : string) : res nat := if Nat.eqb n 0 then Err OtherError else Ok n.

Lemma ex_calls : cached_calls String.eqb (fun a => (fst a ++ "," ++ snd a)%string) ex_world ([], 0%nat)
   [("ev", "A"); ("ev", ""); ("ev", "A"); ("ev", "")]%string
   = ([("ev,A"%string, 3%nat)], 3%nat, [Ok 3%nat; Err SkipError; Ok 3%nat; Err SkipError]).
Proof. reflexivity. Qed.

Lemma ex_flaky_calls : cached_calls String.eqb (fun a => a) (logging ex_flaky) ([], []) ["A"; "A"; "A"; "B"]%string
  = ([("A", 1%nat); ("B", 2%nat)]%string,
     [("A", Err OtherError); ("A", Ok 1%nat); ("B", Ok 2%nat)]%string,
     [Err OtherError; Ok 1%nat; Ok 1%nat; Ok 2%nat]).
Proof. reflexivity. Qed.

Open Scope N_scope.
Definition ex_args : list pyval :=
  [PStr (asc "it's, a ""test"); PInt (-20); PFloat (asc "1.5e-07"); PBool true; PNone;
   PTuple [PInt 1]; PList [PStr [10; 92; 233; 8233]]].
Definition ex_kwargs : list (text * pyval) := [(asc "cfreqs", PDict [(asc "a", PTuple [])])].

Lemma ex_wf : Forall wf ex_args /\ Forall (fun p => is_text (fst p) /\ wf (snd p)) ex_kwargs.
Proof.
  assert (F : is_float_repr (asc "1.5e-07")).
  { split; [repeat (apply Forall_cons; [cbn; auto 30|]); apply Forall_nil|]. apply Exists_cons_tl, Exists_cons_hd. cbn. auto. }
  unfold ex_args, ex_kwargs. split; repeat (constructor; try exact F); cbn; try lia; auto 20.
Qed.

Lemma ex_key : cache_key (fun c => c =? 233) ex_args ex_kwargs =
  asc "('it\'s, a ""test', -20, 1.5e-07, True, None, (1,), ['\n\\" ++ [233] ++ asc "\u2029']){'cfreqs': {'a': ()}}".
Proof. vm_compute. reflexivity. Qed.
