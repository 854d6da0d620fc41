(** Lemmas about the filter width: no corners. *)
From Coq Require Import String Ascii List Bool Reals Arith Lia Lra.
From Coquelicot Require Import Coquelicot.
From Verif Require Import Base WidthModel WidthSpec WidthProof WidthProof2 WidthProof3.
Import ListNotations.
Open Scope R_scope.

Lemma width_flat sr x freq f1 f2 type z : valid sr x -> asked x freq f1 f2 type ->
  filter_width sr freq f1 f2 0 z type = Ok (sr / 2).
Proof.
  intros V A. pose proof (sr_pos _ _ V) as H. pose proof PI_RGT_0.
  assert (half : forall f, 0 < f < sr / 2 -> 0 < f / (0.5 * sr) < 1).
  { intros f F. assert (0 < 0.5 * sr) by lra. split; [apply Rdiv_lt_0_compat; lra|].
    apply Rmult_lt_reg_r with (0.5 * sr); [assumption|]. unfold Rdiv. rewrite Rmult_assoc, Rinv_l by lra. lra. }
  assert (R : squared_response 0 (cut_of sr x) (match x with Lowpass _ => "low" | Highpass _ => "high" | Bandpass _ _ => "band" end)%string
              = Ok (map (response (kind_of x) (cut_of sr x) 0) frequencies)).
  { destruct x as [f|f|g1 g2]; cbn [cut_of kind_of valid] in *; unfold squared_response; cbn [btype_of String.eqb Ascii.eqb Bool.eqb orb].
    - pose proof (half f V). destruct (Rlt_dec 0 _); [|lra]. destruct (Rlt_dec _ 1); [reflexivity|lra].
    - pose proof (half f V). destruct (Rlt_dec 0 _); [|lra]. destruct (Rlt_dec _ 1); [reflexivity|lra].
    - pose proof (half g1 ltac:(lra)). pose proof (half g2 ltac:(lra)).
      assert (g1 / (0.5 * sr) < g2 / (0.5 * sr)) by (apply Rmult_lt_compat_r; [apply Rinv_0_lt_compat; lra|lra]).
      destruct (Rlt_dec 0 _); [|lra]. destruct (Rlt_dec _ 1); [|lra]. destruct (Rlt_dec _ _); [reflexivity|lra]. }
  assert (F : exists fs, (if String.eqb type "bandpass" then
             match f1, f2 with
             | Some f1, Some f2 => Ok (Two (f1 / (0.5 * sr)) (f2 / (0.5 * sr)))
             | _, _ => Err TypeError
             end
           else match freq with Some f => Ok (One (f / (0.5 * sr))) | None => Err TypeError end) = Ok fs /\
           fs = cut_of sr x /\ rstrip (lstrip type) = (match x with Lowpass _ => "low" | Highpass _ => "high" | Bandpass _ _ => "band" end)%string).
  { destruct A; eexists; (split; [reflexivity|split; reflexivity]). }
  destruct F as (fs & F1 & -> & F3). unfold filter_width. rewrite F1. cbn [bind]. rewrite F3, R. cbn [bind].
  f_equal. change (nth 1 frequencies 0) with (PI * INR 1 / 512). change (nth 0 frequencies 0) with (PI * INR 0 / 512).
  transitivity (sr / 1024 * rs (fun _ => 1) 512).
  - f_equal; [cbn [INR]; field; lra|]. rewrite <- rs_list. unfold frequencies. rewrite !map_map. f_equal. apply map_ext. intros k.
    unfold response. destruct z; ring.
  - rewrite rs_const, n512. field.
Qed.
