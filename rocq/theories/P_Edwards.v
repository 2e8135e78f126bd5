(** The group law of edwards25519. *)
From Verif Require Import BaseFacts S_Field S_Edwards P_Field P_FieldInv.
Local Open Scope F_scope.

(** * A square root of -1, and d is not a square. *)
Definition sqrtm1_z : Z := 19681161376707505956807079304988542015446066515923890162744021073123829784752.
Definition f_i : F := toF sqrtm1_z.
Lemma f_i_sq : f_i * f_i = - f1.
Proof. unfold f_i. rewrite <- mulr_ok. apply toF_eq. vm_compute. reflexivity. Qed.
Lemma f2_neq0 : 1 + 1 <> 0.
Proof. intros E. apply toF_inj in E. discriminate E. Qed.
Lemma c121666_neq0 : toF 121666 <> 0. Proof. apply const_neq0. reflexivity. Qed.
Lemma c121665_neq0 : toF 121665 <> 0. Proof. apply const_neq0. reflexivity. Qed.
Lemma ed_d_def : ed_d * toF 121666 = - toF 121665.
Proof.
  unfold ed_d. assert (E : toF (-121665) = - toF 121665) by now rewrite <- toF_opp. rewrite E. field. exact c121666_neq0.
Qed.
(** [replace ... by ring], which does not try hypotheses first. *)
Tactic Notation "frepl" constr(a) "with" constr(b) :=
  let H := fresh in assert (H : a = b) by ring; rewrite H; clear H.
#[global] Opaque ed_d fdiv finv fadd fsub fmul fopp.
Lemma ed_d_nonsquare s : s * s <> ed_d.
Proof.
  intros E. apply (N_nonsquare (f_i * (s * toF 121666))).
  rewrite toF_mul.
  transitivity ((f_i * f_i) * (s * s * toF 121666) * toF 121666); [ring|].
  rewrite E, ed_d_def, f_i_sq. ring.
Qed.
Lemma ed_d_neq0 : ed_d <> 0.
Proof. intros E. apply (ed_d_nonsquare 0). rewrite E. ring. Qed.

(** * Completeness of the addition law. *)
Lemma square_quot a b c : c <> 0 -> a * a = b * (c * c) -> exists s, s * s = b.
Proof. intros Hc H. exists (a / c). replace (a / c * (a / c)) with (a * a / (c * c)) by (field; assumption). rewrite H. field. assumption. Qed.

Lemma complete x1 y1 x2 y2 e :
  on_curve (x1, y1) -> on_curve (x2, y2) -> e * e = 1 -> ed_d * (x1 * x2 * (y1 * y2)) = e -> False.
Proof.
  unfold on_curve. intros H1 H2 He E.
  assert (Hne : e <> 0) by (intros ->; apply f1_neq0; rewrite <- He; ring).
  assert (N : x1 * x2 * (y1 * y2) <> 0).
  { intros Z. rewrite Z in E. apply Hne. rewrite <- E. ring. }
  assert (Nx1 : x1 <> 0) by (intros ->; apply N; ring).
  assert (Ny1 : y1 <> 0) by (intros ->; apply N; ring).
  assert (Nx2 : x2 <> 0) by (intros ->; apply N; ring).
  assert (Ny2 : y2 <> 0) by (intros ->; apply N; ring).
  assert (K : y1 * y1 - x1 * x1 = ed_d * (x1 * y1 * (x1 * y1)) * (y2 * y2 - x2 * x2)).
  { rewrite H2.
    frepl (ed_d * (x1 * y1 * (x1 * y1)) * (1 + ed_d * (x2 * x2) * (y2 * y2))) with (ed_d * (x1 * x1) * (y1 * y1) + (ed_d * (x1 * x2 * (y1 * y2))) * (ed_d * (x1 * x2 * (y1 * y2)))).
    rewrite E, He, H1. ring. }
  pose proof f_i_sq as Hi.
  assert (S1 : forall t, t * t = - f1 ->
    (y1 + e * (t * x1)) * (y1 + e * (t * x1)) = ed_d * (x1 * y1 * (y2 + t * x2) * (x1 * y1 * (y2 + t * x2)))).
  { intros t Ht.
    transitivity (y1 * y1 - x1 * x1 + (1 + 1) * t * x1 * y1 * e).
    { transitivity (y1 * y1 + (e * e) * (t * t) * (x1 * x1) + (1 + 1) * t * x1 * y1 * e); [ring|]. rewrite He, Ht. ring. }
    rewrite K, <- E.
    transitivity (ed_d * (x1 * y1 * (x1 * y1)) * (y2 * y2 + (t * t) * (x2 * x2) + (1 + 1) * t * x2 * y2)); [|ring].
    rewrite Ht. ring. }
  assert (Hz : forall t, t * t = - f1 -> y2 + t * x2 = 0).
  { intros t Ht. destruct (Z.eq_dec (fz (y2 + t * x2)) 0) as [Z|Z].
    - rewrite <- (toF_fz (y2 + t * x2)), Z. reflexivity.
    - exfalso. assert (Z' : y2 + t * x2 <> 0) by (intros Q; apply Z; now rewrite Q).
      destruct (square_quot _ _ _ (fmul_neq0 _ _ (fmul_neq0 _ _ Nx1 Ny1) Z') (S1 t Ht)) as [s Hs].
      exact (ed_d_nonsquare s Hs). }
  pose proof (Hz _ Hi) as Z1. assert (Hi' : (- f_i) * (- f_i) = - f1) by (rewrite <- Hi; ring).
  pose proof (Hz _ Hi') as Z2.
  assert (T : (1 + 1) * y2 = 0) by (transitivity ((y2 + f_i * x2) + (y2 + - f_i * x2)); [ring|rewrite Z1, Z2; ring]).
  apply fmul_eq0 in T. destruct T as [T|T]; [exact (f2_neq0 T)|exact (Ny2 T)].
Qed.
Lemma den_plus x1 y1 x2 y2 : on_curve (x1, y1) -> on_curve (x2, y2) -> 1 + ed_d * (x1 * x2 * (y1 * y2)) <> 0.
Proof.
  intros H1 H2 E. apply (complete _ _ _ _ (- f1) H1 H2); [ring|].
  transitivity (1 + ed_d * (x1 * x2 * (y1 * y2)) - 1); [ring|rewrite E; ring].
Qed.
Lemma den_minus x1 y1 x2 y2 : on_curve (x1, y1) -> on_curve (x2, y2) -> 1 - ed_d * (x1 * x2 * (y1 * y2)) <> 0.
Proof.
  intros H1 H2 E. apply (complete _ _ _ _ f1 H1 H2); [ring|].
  transitivity (1 - (1 - ed_d * (x1 * x2 * (y1 * y2)))); [ring|rewrite E; ring].
Qed.
(** The sum, characterised without division. *)
Lemma ed_add_char x1 y1 x2 y2 x y : on_curve (x1, y1) -> on_curve (x2, y2) ->
  x * (1 + ed_d * (x1 * x2 * (y1 * y2))) = x1 * y2 + x2 * y1 ->
  y * (1 - ed_d * (x1 * x2 * (y1 * y2))) = y1 * y2 + x1 * x2 ->
  ed_add (x1, y1) (x2, y2) = (x, y).
Proof.
  intros H1 H2 Hx Hy. unfold ed_add. rewrite <- Hx, <- Hy. f_equal; field; [now apply den_plus|now apply den_minus].
Qed.
Lemma ed_add_spec P Q : on_curve P -> on_curve Q -> exists x y, ed_add P Q = (x, y) /\
  x * (1 + ed_d * (fst P * fst Q * (snd P * snd Q))) = fst P * snd Q + fst Q * snd P /\
  y * (1 - ed_d * (fst P * fst Q * (snd P * snd Q))) = snd P * snd Q + fst P * fst Q.
Proof.
  destruct P as [x1 y1], Q as [x2 y2]. intros H1 H2. cbn [fst snd ed_add]. do 2 eexists. split; [reflexivity|].
  split; field; [now apply den_plus|now apply den_minus].
Qed.

Lemma curve_mono x y : on_curve (x, y) -> ed_d * x * x * y * y = y * y - x * x - 1.
Proof. unfold on_curve. intros H. rewrite H. ring. Qed.
Lemma mono_curve x y : ed_d * x * x * y * y = y * y - x * x - 1 -> on_curve (x, y).
Proof.
  unfold on_curve. intros H. transitivity (y * y - x * x - 1 + 1); [ring|]. rewrite <- H. ring.
Qed.

Lemma on_curve_zero : on_curve ed_zero.
Proof. unfold on_curve, ed_zero. ring. Qed.
Lemma on_curve_opp P : on_curve P -> on_curve (ed_opp P).
Proof. destruct P as [x y]. unfold on_curve, ed_opp. intros H. transitivity (y * y - x * x); [ring|rewrite H; ring]. Qed.
Lemma on_curve_add P Q : on_curve P -> on_curve Q -> on_curve (ed_add P Q).
Proof.
  destruct P as [x1 y1], Q as [x2 y2]. intros H1 H2.
  pose proof (den_plus _ _ _ _ H1 H2) as D1. pose proof (den_minus _ _ _ _ H1 H2) as D2.
  destruct (ed_add_spec _ _ H1 H2) as (x & y & -> & Ex & Ey). cbn [fst snd] in Ex, Ey.
  apply curve_mono in H1. apply curve_mono in H2.
  pose proof ed_d_neq0 as Nd. set (d := ed_d) in *.
  set (de := 1 + d * (x1 * x2 * (y1 * y2))) in *. set (ep := 1 - d * (x1 * x2 * (y1 * y2))) in *.
  unfold on_curve. fold d.
  apply (fmul_cancel (d * d * d * d * (de * de) * (ep * ep))).
  { repeat apply fmul_neq0; assumption. }
  transitivity (d * d * d * d * ((y * ep) * (y * ep) * (de * de) - (x * de) * (x * de) * (ep * ep))); [ring|].
  transitivity (d * d * d * d * ((de * de) * (ep * ep) + d * ((x * de) * (x * de)) * ((y * ep) * (y * ep)))); [|ring].
  rewrite Ex, Ey. unfold de, ep. ring [H1 H2].
Qed.
#[global] Hint Resolve on_curve_zero on_curve_opp on_curve_add : curve.

Lemma ed_add_comm P Q : ed_add P Q = ed_add Q P.
Proof. destruct P as [x1 y1], Q as [x2 y2]. unfold ed_add.
  frepl (x1 * x2 * (y1 * y2)) with (x2 * x1 * (y2 * y1)). frepl (x1 * y2 + x2 * y1) with (x2 * y1 + x1 * y2).
  frepl (y1 * y2 + x1 * x2) with (y2 * y1 + x2 * x1). reflexivity.
Qed.
Lemma finv_1 : finv 1 = 1.
Proof. transitivity (finv 1 * 1); [ring|]. apply finv_l. exact f1_neq0. Qed.
Lemma ed_add_0_l P : ed_add ed_zero P = P.
Proof.
  destruct P as [x y]. unfold ed_add, ed_zero.
  frepl (1 + ed_d * (f0 * x * (f1 * y))) with 1.
  frepl (1 - ed_d * (f0 * x * (f1 * y))) with 1. f_equal; field; exact f1_neq0.
Qed.
Lemma ed_add_0_r P : ed_add P ed_zero = P.
Proof. rewrite ed_add_comm. apply ed_add_0_l. Qed.
Lemma ed_opp_r P : on_curve P -> ed_add P (ed_opp P) = ed_zero.
Proof.
  destruct P as [x y]. intros H. apply ed_add_char; [assumption|exact (on_curve_opp (x, y) H)|ring|].
  unfold on_curve in H. transitivity (1 + ed_d * (x * x) * (y * y)); [ring|]. rewrite <- H. ring.
Qed.
Lemma ed_opp_l P : on_curve P -> ed_add (ed_opp P) P = ed_zero.
Proof. intros H. rewrite ed_add_comm. now apply ed_opp_r. Qed.

Section Assoc.
  Variables d x1 y1 x2 y2 x3 y3 : F.
  Hypothesis H1 : d * x1 * x1 * y1 * y1 = y1 * y1 - x1 * x1 - 1.
  Hypothesis H2 : d * x2 * x2 * y2 * y2 = y2 * y2 - x2 * x2 - 1.
  Hypothesis H3 : d * x3 * x3 * y3 * y3 = y3 * y3 - x3 * x3 - 1.
  Let n := x1 * y2 + x2 * y1. Let m := y1 * y2 + x1 * x2.
  Let de := 1 + d * (x1 * x2 * (y1 * y2)). Let ep := 1 - d * (x1 * x2 * (y1 * y2)).
  Let n' := x2 * y3 + x3 * y2. Let m' := y2 * y3 + x2 * x3.
  Let de' := 1 + d * (x2 * x3 * (y2 * y3)). Let ep' := 1 - d * (x2 * x3 * (y2 * y3)).
  Lemma assoc_x : d * d * d * d * ((n * ep * y3 + m * de * x3) * (de' * ep' + d * x1 * y1 * n' * m')) =
                  d * d * d * d * ((x1 * m' * de' + y1 * n' * ep') * (de * ep + d * n * m * x3 * y3)).
  Proof. subst n m de ep n' m' de' ep'. ring [H1 H2 H3]. Qed.
  Lemma assoc_y : d * d * d * d * ((m * de * y3 + n * ep * x3) * (de' * ep' - d * x1 * y1 * n' * m')) =
                  d * d * d * d * ((y1 * m' * de' + x1 * n' * ep') * (de * ep - d * n * m * x3 * y3)).
  Proof. subst n m de ep n' m' de' ep'. ring [H1 H2 H3]. Qed.
End Assoc.

Lemma ed_add_assoc P Q R : on_curve P -> on_curve Q -> on_curve R ->
  ed_add (ed_add P Q) R = ed_add P (ed_add Q R).
Proof.
  destruct P as [x1 y1], Q as [x2 y2], R as [x3 y3]. intros H1 H2 H3.
  pose proof (den_plus _ _ _ _ H1 H2) as D1. pose proof (den_minus _ _ _ _ H1 H2) as D2.
  pose proof (den_plus _ _ _ _ H2 H3) as D3. pose proof (den_minus _ _ _ _ H2 H3) as D4.
  pose proof (on_curve_add _ _ H1 H2) as C12. pose proof (on_curve_add _ _ H2 H3) as C23.
  destruct (ed_add_spec _ _ H1 H2) as (x12 & y12 & E12 & X12 & Y12). cbn [fst snd] in X12, Y12. rewrite E12 in *.
  destruct (ed_add_spec _ _ H2 H3) as (x23 & y23 & E23 & X23 & Y23). cbn [fst snd] in X23, Y23. rewrite E23 in *.
  pose proof (den_plus _ _ _ _ C12 H3) as D5. pose proof (den_minus _ _ _ _ C12 H3) as D6.
  pose proof (den_plus _ _ _ _ H1 C23) as D7. pose proof (den_minus _ _ _ _ H1 C23) as D8.
  destruct (ed_add_spec _ _ H1 C23) as (x & y & E & X & Y). cbn [fst snd] in X, Y. rewrite E.
  pose proof ed_d_neq0 as Nd.
  pose proof (assoc_x ed_d _ _ _ _ _ _ (curve_mono _ _ H1) (curve_mono _ _ H2) (curve_mono _ _ H3)) as AX.
  pose proof (assoc_y ed_d _ _ _ _ _ _ (curve_mono _ _ H1) (curve_mono _ _ H2) (curve_mono _ _ H3)) as AY.
  rewrite <- X12, <- Y12, <- X23, <- Y23 in AX, AY.
  set (d := ed_d) in *.
  set (de := 1 + d * (x1 * x2 * (y1 * y2))) in *. set (ep := 1 - d * (x1 * x2 * (y1 * y2))) in *.
  set (de' := 1 + d * (x2 * x3 * (y2 * y3))) in *. set (ep' := 1 - d * (x2 * x3 * (y2 * y3))) in *.
  clearbody de ep de' ep'.
  set (w := 1 + d * (x1 * x23 * (y1 * y23))) in *. set (w' := 1 - d * (x1 * x23 * (y1 * y23))) in *.
  apply ed_add_char; [assumption|assumption| |]; fold d.
  - set (v := 1 + d * (x12 * x3 * (y12 * y3))).
    apply (fmul_cancel (d * d * d * d * (de * ep * (de' * ep') * w))); [repeat apply fmul_neq0; assumption|].
    transitivity (d * d * d * d * ((x * w) * (de' * ep') * (de * ep * v))); [ring|].
    rewrite X.
    transitivity (d * d * d * d * ((x1 * (y23 * ep') * de' + y1 * (x23 * de') * ep') *
       (de * ep + d * (x12 * de) * (y12 * ep) * x3 * y3))); [unfold v; ring|].
    rewrite <- AX. unfold w. ring.
  - set (v := 1 - d * (x12 * x3 * (y12 * y3))).
    apply (fmul_cancel (d * d * d * d * (de * ep * (de' * ep') * w'))); [repeat apply fmul_neq0; assumption|].
    transitivity (d * d * d * d * ((y * w') * (de' * ep') * (de * ep * v))); [ring|].
    rewrite Y.
    transitivity (d * d * d * d * ((y1 * (y23 * ep') * de' + x1 * (x23 * de') * ep') *
       (de * ep - d * (x12 * de) * (y12 * ep) * x3 * y3))); [unfold v; ring|].
    rewrite <- AY. unfold w'. ring.
Qed.

(** * Multiples. *)
Lemma ed_opp_opp P : ed_opp (ed_opp P) = P.
Proof. destruct P as [x y]. unfold ed_opp. f_equal. ring. Qed.
Lemma ed_opp_zero : ed_opp ed_zero = ed_zero.
Proof. unfold ed_opp, ed_zero. f_equal. Qed.
Lemma ed_cancel P Q R : on_curve P -> on_curve Q -> on_curve R -> ed_add P Q = ed_add P R -> Q = R.
Proof.
  intros HP HQ HR H. rewrite <- (ed_add_0_l Q), <- (ed_add_0_l R), <- (ed_opp_l P HP).
  rewrite !ed_add_assoc by auto with curve. now rewrite H.
Qed.
Lemma ed_opp_unique P Q : on_curve P -> on_curve Q -> ed_add P Q = ed_zero -> Q = ed_opp P.
Proof. intros HP HQ H. apply (ed_cancel P); auto with curve. now rewrite ed_opp_r. Qed.
Lemma ed_opp_add P Q : on_curve P -> on_curve Q -> ed_opp (ed_add P Q) = ed_add (ed_opp P) (ed_opp Q).
Proof.
  intros HP HQ. symmetry. apply ed_opp_unique; auto with curve.
  rewrite (ed_add_comm (ed_opp P)). rewrite <- ed_add_assoc by auto with curve.
  rewrite (ed_add_assoc P Q) by auto with curve. rewrite ed_opp_r by auto. rewrite ed_add_0_r. now apply ed_opp_r.
Qed.
Lemma on_curve_nmul n P : on_curve P -> on_curve (ed_nmul n P).
Proof. intros H. unfold ed_nmul. induction n; cbn [Nat.iter nat_rect]; auto with curve. Qed.
#[global] Hint Resolve on_curve_nmul : curve.
Lemma on_curve_mul n P : on_curve P -> on_curve (ed_mul n P).
Proof. intros H. unfold ed_mul. destruct (n <? 0)%Z; auto with curve. Qed.
#[global] Hint Resolve on_curve_mul : curve.
Lemma ed_nmul_S n P : ed_nmul (S n) P = ed_add P (ed_nmul n P). Proof. reflexivity. Qed.
Lemma ed_mul_0 P : ed_mul 0 P = ed_zero. Proof. reflexivity. Qed.
Lemma ed_mul_1 P : ed_mul 1 P = P. Proof. apply ed_add_0_r. Qed.
Lemma ed_mul_opp n P : ed_mul (- n) P = ed_opp (ed_mul n P).
Proof.
  unfold ed_mul. destruct (Z.ltb_spec n 0); destruct (Z.ltb_spec (- n) 0); try lia.
  - now rewrite ed_opp_opp.
  - now rewrite Z.opp_involutive.
  - assert (n = 0)%Z by lia. subst n. symmetry. exact ed_opp_zero.
Qed.
Lemma ed_mul_succ n P : on_curve P -> ed_mul (n + 1) P = ed_add P (ed_mul n P).
Proof.
  intros HP. unfold ed_mul. destruct (Z.ltb_spec n 0); destruct (Z.ltb_spec (n + 1) 0); try lia.
  - replace (Z.to_nat (- n)) with (S (Z.to_nat (- (n + 1)))) by lia. rewrite ed_nmul_S, ed_opp_add by auto with curve.
    rewrite <- ed_add_assoc by auto with curve. rewrite ed_opp_r by assumption. now rewrite ed_add_0_l.
  - assert (n = -1)%Z by lia. subst n.
    change (ed_zero = ed_add P (ed_opp (ed_add P ed_zero))). rewrite ed_add_0_r. symmetry. now apply ed_opp_r.
  - replace (Z.to_nat (n + 1)) with (S (Z.to_nat n)) by lia. reflexivity.
Qed.
Lemma ed_mul_add m n P : on_curve P -> ed_mul (m + n) P = ed_add (ed_mul m P) (ed_mul n P).
Proof.
  intros HP. revert n.
  assert (A : forall k n, (0 <= k)%Z -> ed_mul (k + n) P = ed_add (ed_mul k P) (ed_mul n P)).
  { intros k n Hk. revert k Hk. apply natlike_ind.
    - rewrite ed_mul_0, ed_add_0_l. f_equal.
    - intros k Hk IH. rewrite <- Z.add_1_r. replace (k + 1 + n)%Z with ((k + n) + 1)%Z by lia.
      rewrite !ed_mul_succ by assumption. rewrite IH. rewrite ed_add_assoc by auto with curve. reflexivity. }
  intros n. destruct (Z.le_gt_cases 0 m) as [H|H]; [now apply A|].
  apply (ed_cancel (ed_mul (- m) P)); auto with curve.
  rewrite <- A by lia. rewrite <- ed_add_assoc by auto with curve.
  rewrite (ed_mul_opp m), ed_opp_l by auto with curve. rewrite ed_add_0_l. f_equal. lia.
Qed.
Lemma ed_mul_mul m n P : on_curve P -> ed_mul m (ed_mul n P) = ed_mul (m * n) P.
Proof.
  intros HP.
  assert (A : forall k, (0 <= k)%Z -> ed_mul k (ed_mul n P) = ed_mul (k * n) P).
  { apply natlike_ind; [reflexivity|]. intros k Hk IH. rewrite <- Z.add_1_r, ed_mul_succ by auto with curve.
    rewrite IH. rewrite Z.mul_add_distr_r, Z.mul_1_l, ed_mul_add by assumption. apply ed_add_comm. }
  destruct (Z.le_gt_cases 0 m) as [H|H]; [now apply A|].
  replace m with (- - m)%Z by lia. rewrite ed_mul_opp, A by lia. rewrite <- ed_mul_opp. f_equal. lia.
Qed.
Lemma ed_mul_dist n P Q : on_curve P -> on_curve Q -> ed_mul n (ed_add P Q) = ed_add (ed_mul n P) (ed_mul n Q).
Proof.
  intros HP HQ.
  assert (A : forall k, (0 <= k)%Z -> ed_mul k (ed_add P Q) = ed_add (ed_mul k P) (ed_mul k Q)).
  { apply natlike_ind; [now rewrite !ed_mul_0, ed_add_0_l|]. intros k Hk IH.
    rewrite <- Z.add_1_r, !ed_mul_succ, IH by auto with curve.
    rewrite !ed_add_assoc by auto with curve. f_equal.
    rewrite <- (ed_add_assoc Q) by auto with curve. rewrite (ed_add_comm Q (ed_mul k P)).
    now rewrite ed_add_assoc by auto with curve. }
  destruct (Z.le_gt_cases 0 n) as [H|H]; [now apply A|].
  replace n with (- - n)%Z by lia. rewrite ed_mul_opp, A, (ed_mul_opp (- n) P), (ed_mul_opp (- n) Q) by lia.
  now apply ed_opp_add; auto with curve.
Qed.
Lemma ed_mul_zero n : ed_mul n ed_zero = ed_zero.
Proof.
  assert (A : forall k, (0 <= k)%Z -> ed_mul k ed_zero = ed_zero).
  { apply natlike_ind; [reflexivity|]. intros k Hk IH.
    rewrite <- Z.add_1_r, ed_mul_succ, IH by auto with curve. apply ed_add_0_l. }
  destruct (Z.le_gt_cases 0 n) as [H|H]; [now apply A|].
  replace n with (- - n)%Z by lia. rewrite ed_mul_opp, A by lia. apply ed_opp_zero.
Qed.
Lemma ed_mul_2 P : on_curve P -> ed_mul 2 P = ed_add P P.
Proof. intros H. change 2%Z with (1 + 1)%Z. rewrite ed_mul_add by assumption. now rewrite ed_mul_1. Qed.

(** * The base point. *)
Lemma five_neq0 : toF 5 <> 0. Proof. apply const_neq0. reflexivity. Qed.
Lemma on_curve_B : on_curve ed_B.
Proof.
  unfold ed_B. set (x := 15112221349535400772501151409588531511454012693041857206046113283949847762202%Z).
  unfold on_curve. apply (fmul_cancel (toF 121666 * (toF 5 * toF 5))).
  { repeat apply fmul_neq0; try exact five_neq0. exact c121666_neq0. }
  assert (Y : toF 4 / toF 5 * toF 5 = toF 4) by (field; exact five_neq0).
  set (y := toF 4 / toF 5) in *.
  transitivity (toF 121666 * (toF 4 * toF 4 - toF x * toF x * (toF 5 * toF 5))).
  { rewrite <- Y. ring. }
  transitivity (toF 121666 * (toF 5 * toF 5) + (ed_d * toF 121666) * (toF x * toF x) * (toF 4 * toF 4)).
  2: { rewrite <- Y. ring. }
  rewrite ed_d_def. rewrite <- (mulr_ok x x).
  rewrite <- !toF_mul, <- !toF_opp, <- !toF_mul, <- !toF_add, <- !toF_sub, <- !toF_mul.
  apply toF_eq. vm_compute. reflexivity.
Qed.
#[global] Hint Resolve on_curve_B : curve.
