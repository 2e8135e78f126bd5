(** When two public keys give the same shared secret. *)
From Verif Require Import BaseFacts S_Field S_Edwards S_Twist S_X25519 P_Field P_FieldInv P_Edwards P_TwEd P_X25519b P_Mont P_TwMont P_Twist
  P_EdDecode P_EdOrder P_EdBind P_PrimeT P_TwOrder P_TwOrder2 P_TwLow.
From Coq Require Import Znumtheory.
Local Opaque ed_mul ed_add ed_zero ed_opp ed_d tw_mul tw_add tw_zero tw_opp tw_d.

Local Open Scope F_scope.
Definition qq (u : F) : F := u * u + ((1 + 1) * (toF 121665 + toF 121666)) * u + 1.
Lemma qq_neq0 u : qq u <> 0. Proof. exact (q_neq0 u). Qed.
(** ** A non-zero u-coordinate belongs to one of the two curves only *)
Lemma curve_square x y : on_curve (x, y) -> 1 - y <> 0 -> exists s, s * s = toF 121666 * mont_u (x, y) * qq (mont_u (x, y)).
Proof.
  intros C N. pose proof ed_d_def as Ed. unfold mont_u, qq, on_curve in *. rewrite c12 in *. set (a := toF 121665) in *. clearbody a.
  exists ((1 + 1) * (f_i * (x * ((a + 1) - a * (y * y)))) / ((1 - y) * (1 - y))).
  transitivity ((1 + 1) * (1 + 1) * (f_i * f_i) * (x * x * ((a + 1) - a * (y * y))) * ((a + 1) - a * (y * y)) / ((1 - y) * (1 - y) * ((1 - y) * (1 - y)))).
  { field. exact N. }
  assert (G : x * x * ((a + 1) - a * (y * y)) = (a + 1) * (y * y - 1)).
  { transitivity (x * x * ((a + 1) + (ed_d * (a + 1)) * (y * y))); [rewrite Ed; ring|].
    transitivity ((a + 1) * (1 + ed_d * (x * x) * (y * y) + x * x - 1)); [ring|]. rewrite <- C. ring. }
  rewrite G, f_i_sq. field. exact N.
Qed.
Lemma twist_square x y : tw_curve (x, y) -> y - 1 <> 0 -> exists s, s * s = NN * (toF 121666 * tw_u (x, y) * qq (tw_u (x, y))).
Proof.
  intros C N. pose proof tw_d_def as Ed. unfold tw_u, qq, tw_curve, NN in *. rewrite c12 in *. set (a := toF 121665) in *. clearbody a.
  exists ((1 + 1) * (f_i * (a + 1) * (x * ((a + 1) * (y * y) - a))) / ((y - 1) * (y - 1))).
  transitivity ((1 + 1) * (1 + 1) * (f_i * f_i) * ((a + 1) * (a + 1)) * (x * x * ((a + 1) * (y * y) - a)) * ((a + 1) * (y * y) - a) / ((y - 1) * (y - 1) * ((y - 1) * (y - 1)))).
  { field. exact N. }
  assert (G : x * x * ((a + 1) * (y * y) - a) = - (a * (y * y - 1))).
  { transitivity (- (x * x * (a + (tw_d * a) * (y * y)))); [rewrite Ed; ring|].
    transitivity (- (a * (1 + tw_d * (x * x) * (y * y) + x * x - 1))); [ring|]. rewrite <- C. ring. }
  rewrite G, f_i_sq. field. exact N.
Qed.
Lemma both_zero P Q : on_curve P -> tw_curve Q -> mont_u P = tw_u Q -> mont_u P = 0.
Proof.
  intros C C' E. destruct (F_eq_dec (mont_u P) 0) as [H|H]; [exact H|exfalso]. destruct P as [x y], Q as [x' y'].
  assert (N : 1 - y <> 0) by (intros D; exact (H (mont_u_den0 x y D))).
  assert (N' : y' - 1 <> 0) by (intros D; apply H; rewrite E; exact (tw_u_den0 x' y' D)).
  destruct (curve_square x y C N) as [s Hs]. destruct (twist_square x' y' C' N') as [t Ht]. rewrite <- E in Ht.
  pose proof (qq_neq0 (mont_u (x, y))) as Nq. set (u := mont_u (x, y)) in *. set (w := toF 121666 * u * qq u) in *.
  assert (W : w <> 0). { apply fmul_neq0; [apply fmul_neq0; [exact c121666_neq0|exact H]|exact Nq]. }
  clearbody w. assert (S : s <> 0). { intros D. apply W. rewrite <- Hs, D. ring. }
  apply (NN_nonsquare (t / s)). transitivity (t * t / (s * s)); [field; exact S|]. rewrite Ht, <- Hs. field. exact S.
Qed.

(** ** Twist: equal u-coordinates *)
Lemma tw_u_eq P Q : tw_curve P -> tw_curve Q -> tw_u P = tw_u Q -> (fst P = 0 /\ fst Q = 0) \/ P = Q \/ P = tw_opp Q.
Proof.
  intros CP CQ H. destruct (F_eq_dec (tw_u P) 0) as [Z|N].
  - left. split; [exact (tw_u_eq0 P CP Z)|]. rewrite H in Z. exact (tw_u_eq0 Q CQ Z).
  - right. assert (N' : tw_u Q <> 0) by (rewrite <- H; exact N).
    destruct P as [x y], Q as [x' y'].
    assert (D : y - 1 <> 0) by (intros E; apply N; exact (tw_u_den0 x y E)).
    assert (D' : y' - 1 <> 0) by (intros E; apply N'; exact (tw_u_den0 x' y' E)).
    clear N N'. unfold tw_u in H.
    assert (M : (1 + y) * (y' - 1) = (1 + y') * (y - 1)).
    { transitivity ((1 + y) / (y - 1) * ((y - 1) * (y' - 1))); [field; exact D|]. rewrite H. field. exact D'. }
    assert (Y : y = y').
    { apply (fmul_cancel (1 + 1)); [exact f2_neq0|].
      transitivity ((1 + y') * (y - 1) - (1 + y) * (y' - 1) + (1 + 1) * y'); [ring|]. rewrite M. ring. }
    rewrite Y in *.
    assert (NE : 1 + tw_d * (y' * y') <> 0).
    { intros E. apply f1_neq0. apply half0.
      unfold tw_curve in CP. 
      assert (A : y' * y' = 1).
      { transitivity (x * x * (1 + tw_d * (y' * y')) + 1); [|rewrite E; ring].
        transitivity (1 + tw_d * (x * x) * (y' * y') + x * x); [rewrite <- CP; ring|ring]. }
      rewrite A in E. exfalso. apply tw_d1_neq0. transitivity (1 + tw_d * 1); [ring|exact E]. }
    assert (X : x * x = x' * x').
    { apply (fmul_cancel (1 + tw_d * (y' * y'))); [exact NE|]. unfold tw_curve in CP, CQ.
      transitivity (y' * y' - 1).
      - transitivity (1 + tw_d * (x * x) * (y' * y') + x * x - 1); [ring|rewrite <- CP; ring].
      - transitivity (1 + tw_d * (x' * x') * (y' * y') + x' * x' - 1); [rewrite <- CQ; ring|ring]. }
    apply fsq_eq in X. destruct X as [E|E]; rewrite E.
    + left. exact eq_refl.
    + right. exact eq_refl.
Qed.
Lemma tw_u_opp P : tw_u (tw_opp P) = tw_u P.
Proof. Local Transparent tw_opp. destruct P as [x y]. exact eq_refl. Local Opaque tw_opp. Qed.
Local Close Scope F_scope.

(** ** The relation does not depend on the scalar *)
Lemma ed_sub_mul k P Q : on_curve P -> on_curve Q -> ed_mul k P = ed_mul k Q -> ed_mul k (ed_add P (ed_opp Q)) = ed_zero.
Proof.
  intros C D E. rewrite (ed_mul_dist k _ _ C (on_curve_opp Q D)), E, <- (ed_mul_dist k _ _ D (on_curve_opp Q D)), (ed_opp_r Q D).
  apply ed_mul_zero.
Qed.
Lemma ed_eq_of_sub k P Q : on_curve P -> on_curve Q -> ed_mul k (ed_add P (ed_opp Q)) = ed_zero -> ed_mul k P = ed_mul k Q.
Proof.
  intros C D E. assert (A : P = ed_add (ed_add P (ed_opp Q)) Q).
  { rewrite (ed_add_assoc P (ed_opp Q) Q C (on_curve_opp Q D) D), (ed_opp_l Q D). symmetry. exact (ed_add_0_r P). }
  rewrite A at 1. rewrite (ed_mul_dist k _ Q (on_curve_add _ _ C (on_curve_opp Q D)) D), E. exact (ed_add_0_l _).
Qed.
Lemma ed_clamped_8 k P : on_curve P -> ed_mul (decode_scalar k) P = ed_zero -> ed_mul 8 P = ed_zero.
Proof. intros C H. apply (clamped_zero k P C). rewrite H. exact mont_u_zero. Qed.
Lemma ed_8_clamped k P : on_curve P -> ed_mul 8 P = ed_zero -> ed_mul (decode_scalar k) P = ed_zero.
Proof. intros C H. exact (mul8_zero P _ C H (proj2 (decode_scalar_8 k))). Qed.
Lemma ed_indep1 k k' P Q : on_curve P -> on_curve Q -> ed_mul (decode_scalar k) P = ed_mul (decode_scalar k) Q ->
  ed_mul (decode_scalar k') P = ed_mul (decode_scalar k') Q.
Proof.
  intros C D E. pose proof (on_curve_add _ _ C (on_curve_opp Q D)) as CS.
  apply (ed_eq_of_sub _ _ _ C D). apply (ed_8_clamped k' _ CS). apply (ed_clamped_8 k _ CS). exact (ed_sub_mul _ _ _ C D E).
Qed.
Lemma ed_mul_opp' k P : on_curve P -> ed_mul k (ed_opp P) = ed_opp (ed_mul k P).
Proof.
  intros C. apply (ed_opp_unique _ _ (on_curve_mul k P C) (on_curve_mul k _ (on_curve_opp P C))).
  rewrite <- (ed_mul_dist k _ _ C (on_curve_opp P C)), (ed_opp_r P C). apply ed_mul_zero.
Qed.
Lemma indep_curve k k' P Q : on_curve P -> on_curve Q ->
  mont_u (ed_mul (decode_scalar k) P) = mont_u (ed_mul (decode_scalar k) Q) ->
  mont_u (ed_mul (decode_scalar k') P) = mont_u (ed_mul (decode_scalar k') Q).
Proof.
  intros C D H. destruct (F_eq_dec (mont_u (ed_mul (decode_scalar k) P)) f0) as [Z|N].
  - pose proof Z as Z'. rewrite H in Z'. apply (proj1 (clamped_zero k P C)) in Z. apply (proj1 (clamped_zero k Q D)) in Z'.
    rewrite (proj2 (clamped_zero k' P C) Z), (proj2 (clamped_zero k' Q D) Z'). exact eq_refl.
  - destruct (mont_u_eq _ _ (on_curve_mul _ P C) (on_curve_mul _ Q D) H) as [[Z _]|[E|E] ].
    + exfalso. apply N. apply (clamped_zero k P C). pose proof (x0_double _ (on_curve_mul _ P C) Z) as Y.
      rewrite (ed_mul_mul 2 _ P C) in Y. destruct (clamped_bezout k) as (u & v & B).
      rewrite <- B, (ed_mul_add _ _ P C), <- (ed_mul_mul u _ P C), <- (ed_mul_mul v _ P C), Y, (order_8L P C).
      rewrite !ed_mul_zero. exact (ed_add_0_r ed_zero).
    + rewrite (ed_indep1 k k' P Q C D E). exact eq_refl.
    + rewrite <- (ed_mul_opp' _ Q D) in E. rewrite (ed_indep1 k k' P _ C (on_curve_opp Q D) E), (ed_mul_opp' _ Q D).
      apply mont_u_opp.
Qed.

Lemma tw_mul8_zero P k : tw_curve P -> tw_mul 8 P = tw_zero -> k mod 8 = 0 -> tw_mul k P = tw_zero.
Proof.
  intros C H Hk. pose proof (Z.div_mod k 8 ltac:(discriminate)) as D. rewrite Hk in D.
  rewrite D. replace (8 * (k / 8) + 0) with (k / 8 * 8) by (clear; lia). rewrite <- (tw_mul_mul _ 8 P C), H. apply tw_mul_zero.
Qed.
Lemma tw_clamped_zero_iff k P : tw_curve P -> (tw_u (tw_mul (decode_scalar k) P) = f0 <-> tw_mul 8 P = tw_zero).
Proof.
  intros C. split; [exact (tw_clamped_zero k P C)|]. intros H. rewrite (tw_mul8_zero P _ C H (proj2 (decode_scalar_8 k))). exact tw_u_zero.
Qed.
Lemma tw_sub_mul k P Q : tw_curve P -> tw_curve Q -> tw_mul k P = tw_mul k Q -> tw_mul k (tw_add P (tw_opp Q)) = tw_zero.
Proof.
  intros C D E. rewrite (tw_mul_dist k _ _ C (tw_curve_opp Q D)), E, <- (tw_mul_dist k _ _ D (tw_curve_opp Q D)), (tw_opp_r Q D).
  apply tw_mul_zero.
Qed.
Lemma tw_eq_of_sub k P Q : tw_curve P -> tw_curve Q -> tw_mul k (tw_add P (tw_opp Q)) = tw_zero -> tw_mul k P = tw_mul k Q.
Proof.
  intros C D E. assert (A : P = tw_add (tw_add P (tw_opp Q)) Q).
  { rewrite (tw_add_assoc P (tw_opp Q) Q C (tw_curve_opp Q D) D), (tw_opp_l Q D). symmetry. exact (tw_add_0_r P). }
  rewrite A at 1. rewrite (tw_mul_dist k _ Q (tw_curve_add _ _ C (tw_curve_opp Q D)) D), E. exact (tw_add_0_l _).
Qed.
Lemma tw_clamped_8 k P : tw_curve P -> tw_mul (decode_scalar k) P = tw_zero -> tw_mul 8 P = tw_zero.
Proof. intros C H. apply (tw_clamped_zero_iff k P C). rewrite H. exact tw_u_zero. Qed.
Lemma tw_8_clamped k P : tw_curve P -> tw_mul 8 P = tw_zero -> tw_mul (decode_scalar k) P = tw_zero.
Proof. intros C H. exact (tw_mul8_zero P _ C H (proj2 (decode_scalar_8 k))). Qed.
Lemma tw_indep1 k k' P Q : tw_curve P -> tw_curve Q -> tw_mul (decode_scalar k) P = tw_mul (decode_scalar k) Q ->
  tw_mul (decode_scalar k') P = tw_mul (decode_scalar k') Q.
Proof.
  intros C D E. pose proof (tw_curve_add _ _ C (tw_curve_opp Q D)) as CS.
  apply (tw_eq_of_sub _ _ _ C D). apply (tw_8_clamped k' _ CS). apply (tw_clamped_8 k _ CS). exact (tw_sub_mul _ _ _ C D E).
Qed.
Lemma tw_mul_opp' k P : tw_curve P -> tw_mul k (tw_opp P) = tw_opp (tw_mul k P).
Proof.
  intros C. apply (tw_opp_unique _ _ (tw_curve_mul k P C) (tw_curve_mul k _ (tw_curve_opp P C))).
  rewrite <- (tw_mul_dist k _ _ C (tw_curve_opp P C)), (tw_opp_r P C). apply tw_mul_zero.
Qed.
Lemma indep_twist k k' P Q : tw_curve P -> tw_curve Q ->
  tw_u (tw_mul (decode_scalar k) P) = tw_u (tw_mul (decode_scalar k) Q) ->
  tw_u (tw_mul (decode_scalar k') P) = tw_u (tw_mul (decode_scalar k') Q).
Proof.
  intros C D H. destruct (F_eq_dec (tw_u (tw_mul (decode_scalar k) P)) f0) as [Z|N].
  - pose proof Z as Z'. rewrite H in Z'. apply (proj1 (tw_clamped_zero_iff k P C)) in Z. apply (proj1 (tw_clamped_zero_iff k Q D)) in Z'.
    rewrite (proj2 (tw_clamped_zero_iff k' P C) Z), (proj2 (tw_clamped_zero_iff k' Q D) Z'). exact eq_refl.
  - destruct (tw_u_eq _ _ (tw_curve_mul _ P C) (tw_curve_mul _ Q D) H) as [[Z _]|[E|E] ].
    + exfalso. apply N. apply (tw_clamped_zero_iff k P C). pose proof (tw_x0_double _ (tw_curve_mul _ P C) Z) as Y.
      rewrite (tw_mul_mul 2 _ P C) in Y. destruct (tw_clamped_bezout k) as (u & v & B).
      rewrite <- B, (tw_mul_add _ _ P C), <- (tw_mul_mul u _ P C), <- (tw_mul_mul v _ P C), Y, (order_8Lt P C).
      rewrite !tw_mul_zero. exact (tw_add_0_r tw_zero).
    + rewrite (tw_indep1 k k' P Q C D E). exact eq_refl.
    + rewrite <- (tw_mul_opp' _ Q D) in E. rewrite (tw_indep1 k k' P _ C (tw_curve_opp Q D) E), (tw_mul_opp' _ Q D).
      apply tw_u_opp.
Qed.

(** ** X25519 *)
Theorem x25519_indep k k' u v : x25519_F (decode_scalar k) u = x25519_F (decode_scalar k) v ->
  x25519_F (decode_scalar k') u = x25519_F (decode_scalar k') v.
Proof.
  intros H. pose proof (decode_scalar_range k) as R. pose proof (proj2 (decode_scalar_8 k)) as M.
  pose proof (decode_scalar_range k') as R'. pose proof (proj2 (decode_scalar_8 k')) as M'.
  destruct (every_u u) as [(P & C & E)|(P & C & E)]; destruct (every_u v) as [(Q & D & E')|(Q & D & E')]; rewrite E, E' in *; clear E E' u v.
  - rewrite (x25519_mul P _ C R M), (x25519_mul Q _ D R M) in H. rewrite (x25519_mul P _ C R' M'), (x25519_mul Q _ D R' M').
    exact (indep_curve k k' P Q C D H).
  - rewrite (x25519_mul P _ C R M), (tw_x25519_mul Q _ D R M) in H. rewrite (x25519_mul P _ C R' M'), (tw_x25519_mul Q _ D R' M').
    pose proof (both_zero _ _ (on_curve_mul _ P C) (tw_curve_mul _ Q D) H) as Z. pose proof Z as Z'. rewrite H in Z'.
    apply (proj1 (clamped_zero k P C)) in Z. apply (proj1 (tw_clamped_zero_iff k Q D)) in Z'.
    rewrite (proj2 (clamped_zero k' P C) Z), (proj2 (tw_clamped_zero_iff k' Q D) Z'). exact eq_refl.
  - rewrite (tw_x25519_mul P _ C R M), (x25519_mul Q _ D R M) in H. rewrite (tw_x25519_mul P _ C R' M'), (x25519_mul Q _ D R' M').
    symmetry in H. pose proof (both_zero _ _ (on_curve_mul _ Q D) (tw_curve_mul _ P C) H) as Z. pose proof Z as Z'. rewrite H in Z'.
    apply (proj1 (clamped_zero k Q D)) in Z. apply (proj1 (tw_clamped_zero_iff k P C)) in Z'.
    rewrite (proj2 (clamped_zero k' Q D) Z), (proj2 (tw_clamped_zero_iff k' P C) Z'). exact eq_refl.
  - rewrite (tw_x25519_mul P _ C R M), (tw_x25519_mul Q _ D R M) in H. rewrite (tw_x25519_mul P _ C R' M'), (tw_x25519_mul Q _ D R' M').
    exact (indep_twist k k' P Q C D H).
Qed.
Theorem x25519_comm k k' u : x25519_F (decode_scalar k') (x25519_F (decode_scalar k) u) = x25519_F (decode_scalar k) (x25519_F (decode_scalar k') u).
Proof.
  pose proof (decode_scalar_range k) as R. pose proof (proj2 (decode_scalar_8 k)) as M.
  pose proof (decode_scalar_range k') as R'. pose proof (proj2 (decode_scalar_8 k')) as M'.
  destruct (every_u u) as [(P & C & E)|(P & C & E)]; rewrite E; clear E u.
  - rewrite (x25519_mul P _ C R M), (x25519_mul P _ C R' M'), (x25519_mul _ _ (on_curve_mul _ P C) R' M'), (x25519_mul _ _ (on_curve_mul _ P C) R M).
    rewrite !(ed_mul_mul _ _ P C), Z.mul_comm. exact eq_refl.
  - rewrite (tw_x25519_mul P _ C R M), (tw_x25519_mul P _ C R' M'), (tw_x25519_mul _ _ (tw_curve_mul _ P C) R' M'), (tw_x25519_mul _ _ (tw_curve_mul _ P C) R M).
    rewrite !(tw_mul_mul _ _ P C), Z.mul_comm. exact eq_refl.
Qed.
Lemma two_on_twist : exists P, tw_curve P /\ tw_u P = toF 2.
Proof. destruct (lift_twist (toF 2) (toF G_s) G_s_ok) as (G & C & U). exists G. split; [exact C|symmetry; exact U]. Qed.
