(** Every u-coordinate belongs to a point of the curve or of the twist. *)
From Verif Require Import BaseFacts S_Field S_Edwards S_Twist S_X25519 P_Field P_FieldInv P_Edwards P_TwEd P_X25519b P_Mont P_TwMont.
Local Open Scope F_scope.

(** ** Square roots *)
Lemma chi_root w : fpow w ((p - 1) / 2) = 1 -> exists s, s * s = w.
Proof.
  intros H.
  assert (E4 : fpow w ((p - 1) / 4) * fpow w ((p - 1) / 4) = 1 * 1).
  { rewrite <- fpow_add by (unfold p; lia). change ((p - 1) / 4 + (p - 1) / 4)%Z with ((p - 1) / 2)%Z. rewrite H. ring. }
  assert (E8 : fpow w ((p + 3) / 8) * fpow w ((p + 3) / 8) = fpow w ((p - 1) / 4) * w).
  { rewrite <- fpow_add by (unfold p; lia). change ((p + 3) / 8 + (p + 3) / 8)%Z with ((p - 1) / 4 + 1)%Z.
    rewrite fpow_add by (unfold p; lia). now rewrite fpow_1_r. }
  set (s := fpow w ((p + 3) / 8)) in *. set (r := fpow w ((p - 1) / 4)) in *. clearbody s r.
  apply fsq_eq in E4. destruct E4 as [E4|E4]; rewrite E4 in E8.
  - exists s. rewrite E8. ring.
  - exists (f_i * s). transitivity ((f_i * f_i) * (s * s)); [ring|]. rewrite E8, f_i_sq. ring.
Qed.
Lemma chi_pm w : w <> 0 -> fpow w ((p - 1) / 2) = 1 \/ fpow w ((p - 1) / 2) = - f1.
Proof.
  intros Hw. apply fsq_eq. rewrite <- fpow_add by (unfold p; lia). change ((p - 1) / 2 + (p - 1) / 2)%Z with (p - 1)%Z.
  rewrite (fermat w Hw). ring.
Qed.
Definition NN : F := toF 121665 * toF 121666.
Lemma NN_nonsquare x : x * x <> NN.
Proof. unfold NN. rewrite <- toF_mul. exact (N_nonsquare x). Qed.
Lemma NN_neq0 : NN <> 0.
Proof. apply fmul_neq0; [exact c121665_neq0|exact c121666_neq0]. Qed.
Lemma square_or w : (exists s, s * s = w) \/ (exists s, s * s = NN * w).
Proof.
  destruct (F_eq_dec w 0) as [->|Hw]; [left; exists 0; ring|].
  destruct (chi_pm w Hw) as [H|H]; [left; exact (chi_root w H)|right]. apply chi_root.
  rewrite fpow_mul by (unfold p; lia). rewrite H. destruct (chi_pm NN NN_neq0) as [G|G]; rewrite G; [|ring].
  exfalso. destruct (chi_root _ G) as (s & Hs). exact (NN_nonsquare s Hs).
Qed.

(** ** Lifting u *)
Lemma f4_neq0 : (1 + 1) * (1 + 1) <> 0. Proof. apply fmul_neq0; exact f2_neq0. Qed.
Ltac fnz := repeat split; first [apply const_neq0; vm_compute; reflexivity|exact f2_neq0|match goal with H : ?t <> 0 |- ?t <> 0 => exact H | H : ?t <> 0 |- ?t' <> 0 => change t' with t; exact H end].
Section Lift.
  Variable u : F.
  Let a := toF 121665. Let b := toF 121666.
  Let q := u * u + ((1 + 1) * (a + b)) * u + 1.
  Let Eab : b = a + 1 := c12.
  Let Na : a <> 0 := c121665_neq0.
  Let Nb : b <> 0 := c121666_neq0.
  Lemma q_neq0 : q <> 0.
  Proof.
    intros E. apply (NN_nonsquare ((u + a + b) / (1 + 1))).
    transitivity ((u + a + b) * (u + a + b) / ((1 + 1) * (1 + 1))); [field; fnz|].
    assert (G : (u + a + b) * (u + a + b) = (1 + 1) * (1 + 1) * NN).
    { transitivity (q + (a + b) * (a + b) - 1); [unfold q; ring|]. rewrite E. change NN with (a * b). rewrite Eab. ring. }
    rewrite G. field; fnz.
  Qed.
  Lemma lift_curve s : s * s = b * u * q -> exists P, on_curve P /\ u = mont_u P.
  Proof.
    intros Hs. pose proof q_neq0 as Nq.
    assert (N1 : u + 1 <> 0).
    { intros E. assert (U : u = - f1) by (transitivity (u + 1 - 1); [ring|rewrite E; ring]).
      apply (NN_nonsquare (s / (1 + 1))). transitivity (s * s / ((1 + 1) * (1 + 1))); [field; fnz|]. rewrite Hs.
      transitivity ((1 + 1) * (1 + 1) * (a * b) / ((1 + 1) * (1 + 1))); [|change NN with (a * b); field; fnz].
      apply (f_equal (fun t => t / ((1 + 1) * (1 + 1)))). unfold q. rewrite U, Eab. ring. }
    exists ((1 + 1) * f_i * s / q, (u - 1) / (u + 1)).
    assert (N2 : 1 - (u - 1) / (u + 1) <> 0).
    { intros E. apply f2_neq0. transitivity ((1 - (u - 1) / (u + 1)) * (u + 1)); [field; fnz|rewrite E; ring]. }
    split.
    - unfold on_curve.
      assert (Y : (u - 1) / (u + 1) * ((u - 1) / (u + 1)) * ((u + 1) * (u + 1)) = (u - 1) * (u - 1)) by (field; fnz).
      assert (X : (1 + 1) * f_i * s / q * ((1 + 1) * f_i * s / q) * q = - ((1 + 1) * (1 + 1) * b * u)).
      { transitivity ((1 + 1) * (1 + 1) * (f_i * f_i) * (s * s) / q); [field; fnz|]. rewrite f_i_sq, Hs. field; fnz. }
      set (Y2 := (u - 1) / (u + 1) * ((u - 1) / (u + 1))) in *. set (X2 := (1 + 1) * f_i * s / q * ((1 + 1) * f_i * s / q)) in *.
      clearbody X2 Y2. pose proof ed_d_def as Ed. fold a b in Ed.
      apply (fmul_cancel (b * ((u + 1) * (u + 1)))); [repeat apply fmul_neq0; assumption|].
      transitivity (b * (Y2 * ((u + 1) * (u + 1))) - b * ((u + 1) * (u + 1)) * X2); [ring|].
      transitivity (b * ((u + 1) * (u + 1)) + (ed_d * b) * X2 * (Y2 * ((u + 1) * (u + 1)))); [|ring].
      rewrite Y, Ed.
      transitivity (b * ((u + 1) * (u + 1)) - (b * ((1 + 1) * (1 + 1) * u) + b * ((u + 1) * (u + 1)) * X2)); [ring|].
      transitivity (b * ((u + 1) * (u + 1)) - a * (u - 1) * (u - 1) * X2); [|ring].
      transitivity (b * ((u + 1) * (u + 1)) - (X2 * q + (1 + 1) * (1 + 1) * b * u + a * (u - 1) * (u - 1) * X2)); [unfold q; rewrite Eab; ring|].
      rewrite X. ring.
    - unfold mont_u. apply (fmul_cancel (1 - (u - 1) / (u + 1))); [exact N2|].
      transitivity (1 + (u - 1) / (u + 1)); [field; fnz|]. set (t := (u - 1) / (u + 1)) in *. clearbody t.
      field; fnz.
  Qed.
  Lemma lift_twist s : s * s = NN * (b * u * q) -> exists P, tw_curve P /\ u = tw_u P.
  Proof.
    intros Hs. pose proof q_neq0 as Nq.
    assert (N1 : u - 1 <> 0).
    { intros E. assert (U : u = f1) by (transitivity (u - 1 + 1); [ring|rewrite E; ring]).
      apply (NN_nonsquare (s / ((1 + 1) * b))).
      transitivity (s * s / ((1 + 1) * b * ((1 + 1) * b))); [field; fnz|]. rewrite Hs.
      transitivity ((1 + 1) * (1 + 1) * (a * b) * (b * b) / ((1 + 1) * b * ((1 + 1) * b)));
        [|change NN with (a * b); field; fnz ].
      apply (f_equal (fun t => t / ((1 + 1) * b * ((1 + 1) * b)))). unfold q. change NN with (a * b). rewrite U, Eab. ring. }
    exists ((1 + 1) * f_i * s / (b * q), (u + 1) / (u - 1)).
    assert (N2 : (u + 1) / (u - 1) - 1 <> 0).
    { intros E. apply f2_neq0. transitivity (((u + 1) / (u - 1) - 1) * (u - 1)); [field; fnz|rewrite E; ring]. }
    split.
    - unfold tw_curve.
      assert (Y : (u + 1) / (u - 1) * ((u + 1) / (u - 1)) * ((u - 1) * (u - 1)) = (u + 1) * (u + 1)) by (field; fnz).
      assert (X : (1 + 1) * f_i * s / (b * q) * ((1 + 1) * f_i * s / (b * q)) * q = - ((1 + 1) * (1 + 1) * a * u)).
      { transitivity ((1 + 1) * (1 + 1) * (f_i * f_i) * (s * s) / (b * b * q)); [field; fnz|]. rewrite f_i_sq, Hs.
        change NN with (a * b). field; fnz. }
      set (Y2 := (u + 1) / (u - 1) * ((u + 1) / (u - 1))) in *.
      set (X2 := (1 + 1) * f_i * s / (b * q) * ((1 + 1) * f_i * s / (b * q))) in *.
      clearbody X2 Y2. pose proof tw_d_def as Ed. fold a b in Ed.
      apply (fmul_cancel (a * ((u - 1) * (u - 1)))); [repeat apply fmul_neq0; assumption|].
      transitivity (a * (Y2 * ((u - 1) * (u - 1))) - a * ((u - 1) * (u - 1)) * X2); [ring|].
      transitivity (a * ((u - 1) * (u - 1)) + (tw_d * a) * X2 * (Y2 * ((u - 1) * (u - 1)))); [|ring].
      rewrite Y, Ed.
      transitivity (a * ((u - 1) * (u - 1)) + (X2 * q + (1 + 1) * (1 + 1) * a * u - b * X2 * ((u + 1) * (u + 1)))); [unfold q; rewrite Eab; ring|].
      rewrite X. ring.
    - unfold tw_u. apply (fmul_cancel ((u + 1) / (u - 1) - 1)); [exact N2|].
      transitivity (1 + (u + 1) / (u - 1)); [field; fnz|]. set (t := (u + 1) / (u - 1)) in *. clearbody t.
      field; fnz.
  Qed.
End Lift.
Theorem every_u u : (exists P, on_curve P /\ u = mont_u P) \/ (exists P, tw_curve P /\ u = tw_u P).
Proof.
  destruct (square_or (toF 121666 * u * (u * u + ((1 + 1) * (toF 121665 + toF 121666)) * u + 1))) as [(s & H)|(s & H)].
  - left. exact (lift_curve u s H).
  - right. exact (lift_twist u s H).
Qed.
