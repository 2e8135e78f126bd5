(** The group law of the twist; the same proofs as in P_Edwards. *)
From Verif Require Import BaseFacts S_Field S_Edwards S_Twist P_Field P_FieldInv P_Edwards.
Local Open Scope F_scope.

Lemma tw_d_def : tw_d * toF 121665 = - toF 121666.
Proof.
  unfold tw_d. assert (E : toF (-121666) = - toF 121666) by now rewrite <- toF_opp. rewrite E. field. exact c121665_neq0.
Qed.
#[global] Opaque tw_d.
Lemma tw_d_nonsquare s : s * s <> tw_d.
Proof.
  intros E. apply (N_nonsquare (f_i * (s * toF 121665))).
  rewrite toF_mul.
  transitivity ((f_i * f_i) * (s * s * toF 121665) * toF 121665); [ring|].
  rewrite E, tw_d_def, f_i_sq. ring.
Qed.
Lemma tw_d_neq0 : tw_d <> 0.
Proof. intros E. apply (tw_d_nonsquare 0). rewrite E. ring. Qed.

Lemma tw_complete x1 y1 x2 y2 e :
  tw_curve (x1, y1) -> tw_curve (x2, y2) -> e * e = 1 -> tw_d * (x1 * x2 * (y1 * y2)) = e -> False.
Proof.
  unfold tw_curve. intros H1 H2 He E.
  assert (Hne : e <> 0) by (intros ->; apply f1_neq0; rewrite <- He; ring).
  assert (N : x1 * x2 * (y1 * y2) <> 0).
  { intros Z. rewrite Z in E. apply Hne. rewrite <- E. ring. }
  assert (Nx1 : x1 <> 0) by (intros ->; apply N; ring).
  assert (Ny1 : y1 <> 0) by (intros ->; apply N; ring).
  assert (Nx2 : x2 <> 0) by (intros ->; apply N; ring).
  assert (Ny2 : y2 <> 0) by (intros ->; apply N; ring).
  assert (K : y1 * y1 - x1 * x1 = tw_d * (x1 * y1 * (x1 * y1)) * (y2 * y2 - x2 * x2)).
  { rewrite H2.
    frepl (tw_d * (x1 * y1 * (x1 * y1)) * (1 + tw_d * (x2 * x2) * (y2 * y2))) with (tw_d * (x1 * x1) * (y1 * y1) + (tw_d * (x1 * x2 * (y1 * y2))) * (tw_d * (x1 * x2 * (y1 * y2)))).
    rewrite E, He, H1. ring. }
  pose proof f_i_sq as Hi.
  assert (S1 : forall t, t * t = - f1 ->
    (y1 + e * (t * x1)) * (y1 + e * (t * x1)) = tw_d * (x1 * y1 * (y2 + t * x2) * (x1 * y1 * (y2 + t * x2)))).
  { intros t Ht.
    transitivity (y1 * y1 - x1 * x1 + (1 + 1) * t * x1 * y1 * e).
    { transitivity (y1 * y1 + (e * e) * (t * t) * (x1 * x1) + (1 + 1) * t * x1 * y1 * e); [ring|]. rewrite He, Ht. ring. }
    rewrite K, <- E.
    transitivity (tw_d * (x1 * y1 * (x1 * y1)) * (y2 * y2 + (t * t) * (x2 * x2) + (1 + 1) * t * x2 * y2)); [|ring].
    rewrite Ht. ring. }
  assert (Hz : forall t, t * t = - f1 -> y2 + t * x2 = 0).
  { intros t Ht. destruct (Z.eq_dec (fz (y2 + t * x2)) 0) as [Z|Z].
    - rewrite <- (toF_fz (y2 + t * x2)), Z. reflexivity.
    - exfalso. assert (Z' : y2 + t * x2 <> 0) by (intros Q; apply Z; now rewrite Q).
      destruct (square_quot _ _ _ (fmul_neq0 _ _ (fmul_neq0 _ _ Nx1 Ny1) Z') (S1 t Ht)) as [s Hs].
      exact (tw_d_nonsquare s Hs). }
  pose proof (Hz _ Hi) as Z1. assert (Hi' : (- f_i) * (- f_i) = - f1) by (rewrite <- Hi; ring).
  pose proof (Hz _ Hi') as Z2.
  assert (T : (1 + 1) * y2 = 0) by (transitivity ((y2 + f_i * x2) + (y2 + - f_i * x2)); [ring|rewrite Z1, Z2; ring]).
  apply fmul_eq0 in T. destruct T as [T|T]; [exact (f2_neq0 T)|exact (Ny2 T)].
Qed.
Lemma tw_den_plus x1 y1 x2 y2 : tw_curve (x1, y1) -> tw_curve (x2, y2) -> 1 + tw_d * (x1 * x2 * (y1 * y2)) <> 0.
Proof.
  intros H1 H2 E. apply (tw_complete _ _ _ _ (- f1) H1 H2); [ring|].
  transitivity (1 + tw_d * (x1 * x2 * (y1 * y2)) - 1); [ring|rewrite E; ring].
Qed.
Lemma tw_den_minus x1 y1 x2 y2 : tw_curve (x1, y1) -> tw_curve (x2, y2) -> 1 - tw_d * (x1 * x2 * (y1 * y2)) <> 0.
Proof.
  intros H1 H2 E. apply (tw_complete _ _ _ _ f1 H1 H2); [ring|].
  transitivity (1 - (1 - tw_d * (x1 * x2 * (y1 * y2)))); [ring|rewrite E; ring].
Qed.
(** The sum, characterised without division. *)
Lemma tw_add_char x1 y1 x2 y2 x y : tw_curve (x1, y1) -> tw_curve (x2, y2) ->
  x * (1 + tw_d * (x1 * x2 * (y1 * y2))) = x1 * y2 + x2 * y1 ->
  y * (1 - tw_d * (x1 * x2 * (y1 * y2))) = y1 * y2 + x1 * x2 ->
  tw_add (x1, y1) (x2, y2) = (x, y).
Proof.
  intros H1 H2 Hx Hy. unfold tw_add. rewrite <- Hx, <- Hy. f_equal; field; [now apply tw_den_plus|now apply tw_den_minus].
Qed.
Lemma tw_add_spec P Q : tw_curve P -> tw_curve Q -> exists x y, tw_add P Q = (x, y) /\
  x * (1 + tw_d * (fst P * fst Q * (snd P * snd Q))) = fst P * snd Q + fst Q * snd P /\
  y * (1 - tw_d * (fst P * fst Q * (snd P * snd Q))) = snd P * snd Q + fst P * fst Q.
Proof.
  destruct P as [x1 y1], Q as [x2 y2]. intros H1 H2. cbn [fst snd tw_add]. do 2 eexists. split; [reflexivity|].
  split; field; [now apply tw_den_plus|now apply tw_den_minus].
Qed.

Lemma tw_curve_mono x y : tw_curve (x, y) -> tw_d * x * x * y * y = y * y - x * x - 1.
Proof. unfold tw_curve. intros H. rewrite H. ring. Qed.
Lemma tw_mono_curve x y : tw_d * x * x * y * y = y * y - x * x - 1 -> tw_curve (x, y).
Proof.
  unfold tw_curve. intros H. transitivity (y * y - x * x - 1 + 1); [ring|]. rewrite <- H. ring.
Qed.

Lemma tw_curve_zero : tw_curve tw_zero.
Proof. unfold tw_curve, tw_zero. ring. Qed.
Lemma tw_curve_opp P : tw_curve P -> tw_curve (tw_opp P).
Proof. destruct P as [x y]. unfold tw_curve, tw_opp. intros H. transitivity (y * y - x * x); [ring|rewrite H; ring]. Qed.
Lemma tw_curve_add P Q : tw_curve P -> tw_curve Q -> tw_curve (tw_add P Q).
Proof.
  destruct P as [x1 y1], Q as [x2 y2]. intros H1 H2.
  pose proof (tw_den_plus _ _ _ _ H1 H2) as D1. pose proof (tw_den_minus _ _ _ _ H1 H2) as D2.
  destruct (tw_add_spec _ _ H1 H2) as (x & y & -> & Ex & Ey). cbn [fst snd] in Ex, Ey.
  apply tw_curve_mono in H1. apply tw_curve_mono in H2.
  pose proof tw_d_neq0 as Nd. set (d := tw_d) in *.
  set (de := 1 + d * (x1 * x2 * (y1 * y2))) in *. set (ep := 1 - d * (x1 * x2 * (y1 * y2))) in *.
  unfold tw_curve. fold d.
  apply (fmul_cancel (d * d * d * d * (de * de) * (ep * ep))).
  { repeat apply fmul_neq0; assumption. }
  transitivity (d * d * d * d * ((y * ep) * (y * ep) * (de * de) - (x * de) * (x * de) * (ep * ep))); [ring|].
  transitivity (d * d * d * d * ((de * de) * (ep * ep) + d * ((x * de) * (x * de)) * ((y * ep) * (y * ep)))); [|ring].
  rewrite Ex, Ey. unfold de, ep. ring [H1 H2].
Qed.
#[global] Hint Resolve tw_curve_zero tw_curve_opp tw_curve_add : twist.

Lemma tw_add_comm P Q : tw_add P Q = tw_add Q P.
Proof. destruct P as [x1 y1], Q as [x2 y2]. unfold tw_add.
  frepl (x1 * x2 * (y1 * y2)) with (x2 * x1 * (y2 * y1)). frepl (x1 * y2 + x2 * y1) with (x2 * y1 + x1 * y2).
  frepl (y1 * y2 + x1 * x2) with (y2 * y1 + x2 * x1). reflexivity.
Qed.
Lemma tw_add_0_l P : tw_add tw_zero P = P.
Proof.
  destruct P as [x y]. unfold tw_add, tw_zero.
  frepl (1 + tw_d * (f0 * x * (f1 * y))) with 1.
  frepl (1 - tw_d * (f0 * x * (f1 * y))) with 1. f_equal; field; exact f1_neq0.
Qed.
Lemma tw_add_0_r P : tw_add P tw_zero = P.
Proof. rewrite tw_add_comm. apply tw_add_0_l. Qed.
Lemma tw_opp_r P : tw_curve P -> tw_add P (tw_opp P) = tw_zero.
Proof.
  destruct P as [x y]. intros H. apply tw_add_char; [assumption|exact (tw_curve_opp (x, y) H)|ring|].
  unfold tw_curve in H. transitivity (1 + tw_d * (x * x) * (y * y)); [ring|]. rewrite <- H. ring.
Qed.
Lemma tw_opp_l P : tw_curve P -> tw_add (tw_opp P) P = tw_zero.
Proof. intros H. rewrite tw_add_comm. now apply tw_opp_r. Qed.


Lemma tw_add_assoc P Q R : tw_curve P -> tw_curve Q -> tw_curve R ->
  tw_add (tw_add P Q) R = tw_add P (tw_add Q R).
Proof.
  destruct P as [x1 y1], Q as [x2 y2], R as [x3 y3]. intros H1 H2 H3.
  pose proof (tw_den_plus _ _ _ _ H1 H2) as D1. pose proof (tw_den_minus _ _ _ _ H1 H2) as D2.
  pose proof (tw_den_plus _ _ _ _ H2 H3) as D3. pose proof (tw_den_minus _ _ _ _ H2 H3) as D4.
  pose proof (tw_curve_add _ _ H1 H2) as C12. pose proof (tw_curve_add _ _ H2 H3) as C23.
  destruct (tw_add_spec _ _ H1 H2) as (x12 & y12 & E12 & X12 & Y12). cbn [fst snd] in X12, Y12. rewrite E12 in *.
  destruct (tw_add_spec _ _ H2 H3) as (x23 & y23 & E23 & X23 & Y23). cbn [fst snd] in X23, Y23. rewrite E23 in *.
  pose proof (tw_den_plus _ _ _ _ C12 H3) as D5. pose proof (tw_den_minus _ _ _ _ C12 H3) as D6.
  pose proof (tw_den_plus _ _ _ _ H1 C23) as D7. pose proof (tw_den_minus _ _ _ _ H1 C23) as D8.
  destruct (tw_add_spec _ _ H1 C23) as (x & y & E & X & Y). cbn [fst snd] in X, Y. rewrite E.
  pose proof tw_d_neq0 as Nd.
  pose proof (assoc_x tw_d _ _ _ _ _ _ (tw_curve_mono _ _ H1) (tw_curve_mono _ _ H2) (tw_curve_mono _ _ H3)) as AX.
  pose proof (assoc_y tw_d _ _ _ _ _ _ (tw_curve_mono _ _ H1) (tw_curve_mono _ _ H2) (tw_curve_mono _ _ H3)) as AY.
  rewrite <- X12, <- Y12, <- X23, <- Y23 in AX, AY.
  set (d := tw_d) in *.
  set (de := 1 + d * (x1 * x2 * (y1 * y2))) in *. set (ep := 1 - d * (x1 * x2 * (y1 * y2))) in *.
  set (de' := 1 + d * (x2 * x3 * (y2 * y3))) in *. set (ep' := 1 - d * (x2 * x3 * (y2 * y3))) in *.
  clearbody de ep de' ep'.
  set (w := 1 + d * (x1 * x23 * (y1 * y23))) in *. set (w' := 1 - d * (x1 * x23 * (y1 * y23))) in *.
  apply tw_add_char; [assumption|assumption| |]; fold d.
  - set (v := 1 + d * (x12 * x3 * (y12 * y3))).
    apply (fmul_cancel (d * d * d * d * (de * ep * (de' * ep') * w))); [repeat apply fmul_neq0; assumption|].
    transitivity (d * d * d * d * ((x * w) * (de' * ep') * (de * ep * v))); [ring|].
    rewrite X.
    transitivity (d * d * d * d * ((x1 * (y23 * ep') * de' + y1 * (x23 * de') * ep') *
       (de * ep + d * (x12 * de) * (y12 * ep) * x3 * y3))); [unfold v; ring|].
    rewrite <- AX. unfold w. ring.
  - set (v := 1 - d * (x12 * x3 * (y12 * y3))).
    apply (fmul_cancel (d * d * d * d * (de * ep * (de' * ep') * w'))); [repeat apply fmul_neq0; assumption|].
    transitivity (d * d * d * d * ((y * w') * (de' * ep') * (de * ep * v))); [ring|].
    rewrite Y.
    transitivity (d * d * d * d * ((y1 * (y23 * ep') * de' + x1 * (x23 * de') * ep') *
       (de * ep - d * (x12 * de) * (y12 * ep) * x3 * y3))); [unfold v; ring|].
    rewrite <- AY. unfold w'. ring.
Qed.

(** * Multiples. *)
Lemma tw_opp_opp P : tw_opp (tw_opp P) = P.
Proof. destruct P as [x y]. unfold tw_opp. f_equal. ring. Qed.
Lemma tw_opp_zero : tw_opp tw_zero = tw_zero.
Proof. unfold tw_opp, tw_zero. f_equal. Qed.
Lemma tw_cancel P Q R : tw_curve P -> tw_curve Q -> tw_curve R -> tw_add P Q = tw_add P R -> Q = R.
Proof.
  intros HP HQ HR H. rewrite <- (tw_add_0_l Q), <- (tw_add_0_l R), <- (tw_opp_l P HP).
  rewrite !tw_add_assoc by auto with twist. now rewrite H.
Qed.
Lemma tw_opp_unique P Q : tw_curve P -> tw_curve Q -> tw_add P Q = tw_zero -> Q = tw_opp P.
Proof. intros HP HQ H. apply (tw_cancel P); auto with twist. now rewrite tw_opp_r. Qed.
Lemma tw_opp_add P Q : tw_curve P -> tw_curve Q -> tw_opp (tw_add P Q) = tw_add (tw_opp P) (tw_opp Q).
Proof.
  intros HP HQ. symmetry. apply tw_opp_unique; auto with twist.
  rewrite (tw_add_comm (tw_opp P)). rewrite <- tw_add_assoc by auto with twist.
  rewrite (tw_add_assoc P Q) by auto with twist. rewrite tw_opp_r by auto. rewrite tw_add_0_r. now apply tw_opp_r.
Qed.
Lemma tw_curve_nmul n P : tw_curve P -> tw_curve (tw_nmul n P).
Proof. intros H. unfold tw_nmul. induction n; cbn [Nat.iter nat_rect]; auto with twist. Qed.
#[global] Hint Resolve tw_curve_nmul : twist.
Lemma tw_curve_mul n P : tw_curve P -> tw_curve (tw_mul n P).
Proof. intros H. unfold tw_mul. destruct (n <? 0)%Z; auto with twist. Qed.
#[global] Hint Resolve tw_curve_mul : twist.
Lemma tw_nmul_S n P : tw_nmul (S n) P = tw_add P (tw_nmul n P). Proof. reflexivity. Qed.
Lemma tw_mul_0 P : tw_mul 0 P = tw_zero. Proof. reflexivity. Qed.
Lemma tw_mul_1 P : tw_mul 1 P = P. Proof. apply tw_add_0_r. Qed.
Lemma tw_mul_opp n P : tw_mul (- n) P = tw_opp (tw_mul n P).
Proof.
  unfold tw_mul. destruct (Z.ltb_spec n 0); destruct (Z.ltb_spec (- n) 0); try lia.
  - now rewrite tw_opp_opp.
  - now rewrite Z.opp_involutive.
  - assert (n = 0)%Z by lia. subst n. symmetry. exact tw_opp_zero.
Qed.
Lemma tw_mul_succ n P : tw_curve P -> tw_mul (n + 1) P = tw_add P (tw_mul n P).
Proof.
  intros HP. unfold tw_mul. destruct (Z.ltb_spec n 0); destruct (Z.ltb_spec (n + 1) 0); try lia.
  - replace (Z.to_nat (- n)) with (S (Z.to_nat (- (n + 1)))) by lia. rewrite tw_nmul_S, tw_opp_add by auto with twist.
    rewrite <- tw_add_assoc by auto with twist. rewrite tw_opp_r by assumption. now rewrite tw_add_0_l.
  - assert (n = -1)%Z by lia. subst n.
    change (tw_zero = tw_add P (tw_opp (tw_add P tw_zero))). rewrite tw_add_0_r. symmetry. now apply tw_opp_r.
  - replace (Z.to_nat (n + 1)) with (S (Z.to_nat n)) by lia. reflexivity.
Qed.
Lemma tw_mul_add m n P : tw_curve P -> tw_mul (m + n) P = tw_add (tw_mul m P) (tw_mul n P).
Proof.
  intros HP. revert n.
  assert (A : forall k n, (0 <= k)%Z -> tw_mul (k + n) P = tw_add (tw_mul k P) (tw_mul n P)).
  { intros k n Hk. revert k Hk. apply natlike_ind.
    - rewrite tw_mul_0, tw_add_0_l. f_equal.
    - intros k Hk IH. rewrite <- Z.add_1_r. replace (k + 1 + n)%Z with ((k + n) + 1)%Z by lia.
      rewrite !tw_mul_succ by assumption. rewrite IH. rewrite tw_add_assoc by auto with twist. reflexivity. }
  intros n. destruct (Z.le_gt_cases 0 m) as [H|H]; [now apply A|].
  apply (tw_cancel (tw_mul (- m) P)); auto with twist.
  rewrite <- A by lia. rewrite <- tw_add_assoc by auto with twist.
  rewrite (tw_mul_opp m), tw_opp_l by auto with twist. rewrite tw_add_0_l. f_equal. lia.
Qed.
Lemma tw_mul_mul m n P : tw_curve P -> tw_mul m (tw_mul n P) = tw_mul (m * n) P.
Proof.
  intros HP.
  assert (A : forall k, (0 <= k)%Z -> tw_mul k (tw_mul n P) = tw_mul (k * n) P).
  { apply natlike_ind; [reflexivity|]. intros k Hk IH. rewrite <- Z.add_1_r, tw_mul_succ by auto with twist.
    rewrite IH. rewrite Z.mul_add_distr_r, Z.mul_1_l, tw_mul_add by assumption. apply tw_add_comm. }
  destruct (Z.le_gt_cases 0 m) as [H|H]; [now apply A|].
  replace m with (- - m)%Z by lia. rewrite tw_mul_opp, A by lia. rewrite <- tw_mul_opp. f_equal. lia.
Qed.
Lemma tw_mul_dist n P Q : tw_curve P -> tw_curve Q -> tw_mul n (tw_add P Q) = tw_add (tw_mul n P) (tw_mul n Q).
Proof.
  intros HP HQ.
  assert (A : forall k, (0 <= k)%Z -> tw_mul k (tw_add P Q) = tw_add (tw_mul k P) (tw_mul k Q)).
  { apply natlike_ind; [now rewrite !tw_mul_0, tw_add_0_l|]. intros k Hk IH.
    rewrite <- Z.add_1_r, !tw_mul_succ, IH by auto with twist.
    rewrite !tw_add_assoc by auto with twist. f_equal.
    rewrite <- (tw_add_assoc Q) by auto with twist. rewrite (tw_add_comm Q (tw_mul k P)).
    now rewrite tw_add_assoc by auto with twist. }
  destruct (Z.le_gt_cases 0 n) as [H|H]; [now apply A|].
  replace n with (- - n)%Z by lia. rewrite tw_mul_opp, A, (tw_mul_opp (- n) P), (tw_mul_opp (- n) Q) by lia.
  now apply tw_opp_add; auto with twist.
Qed.
Lemma tw_mul_zero n : tw_mul n tw_zero = tw_zero.
Proof.
  assert (A : forall k, (0 <= k)%Z -> tw_mul k tw_zero = tw_zero).
  { apply natlike_ind; [reflexivity|]. intros k Hk IH.
    rewrite <- Z.add_1_r, tw_mul_succ, IH by auto with twist. apply tw_add_0_l. }
  destruct (Z.le_gt_cases 0 n) as [H|H]; [now apply A|].
  replace n with (- - n)%Z by lia. rewrite tw_mul_opp, A by lia. apply tw_opp_zero.
Qed.
Lemma tw_mul_2 P : tw_curve P -> tw_mul 2 P = tw_add P P.
Proof. intros H. change 2%Z with (1 + 1)%Z. rewrite tw_mul_add by assumption. now rewrite tw_mul_1. Qed.

