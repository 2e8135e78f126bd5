(** The points of order dividing 8 of edwards25519 and of its twist, and multiples by clamped scalars on the twist. *)
From Verif Require Import BaseFacts S_Field S_Edwards S_Twist S_X25519 P_Field P_FieldInv P_Edwards P_TwEd P_X25519b P_Mont P_TwMont P_Twist
  P_EdDecode P_EdOrder P_EdBind P_PrimeT P_TwOrder P_TwOrder2.
From Coq Require Import Znumtheory.
Local Opaque ed_mul ed_add ed_zero ed_opp ed_d tw_mul tw_add tw_zero tw_opp tw_d.

Local Open Scope F_scope.
Lemma half0 a : a + a = 0 -> a = 0.
Proof.
  intros H. assert (Q : (1 + 1) * a = 0) by (transitivity (a + a); [ring|exact H]).
  apply fmul_eq0 in Q. destruct Q as [Q|Q]; [exact (False_ind _ (f2_neq0 Q))|exact Q].
Qed.
(** ** edwards25519 *)
Lemma ed_zero_x : fst ed_zero = 0. Proof. Local Transparent ed_zero. exact eq_refl. Qed.
Lemma ed_zero_y : snd ed_zero = 1. Proof. exact eq_refl. Qed.
Local Opaque ed_zero.
Lemma dbl_x0 x y : on_curve (x, y) -> fst (ed_mul 2 (x, y)) = 0 -> x = 0 \/ y = 0.
Proof.
  intros C H. rewrite (ed_mul_2 _ C) in H. destruct (ed_add_spec _ _ C C) as (X & Y & E & EX & EY). rewrite E in H.
  cbn [fst snd] in *. rewrite H in EX. apply fmul_eq0. apply half0.
  transitivity (0 * (1 + ed_d * (x * x * (y * y)))); [symmetry; exact EX|ring].
Qed.
Lemma dbl_y x y : on_curve (x, y) -> snd (ed_mul 2 (x, y)) * (1 - ed_d * (x * x * (y * y))) = y * y + x * x.
Proof.
  intros C. rewrite (ed_mul_2 _ C). destruct (ed_add_spec _ _ C C) as (X & Y & E & EX & EY). rewrite E.
  cbn [fst snd] in *. exact EY.
Qed.
Lemma dbl_zero P : on_curve P -> ed_mul 2 P = ed_zero -> fst P = 0.
Proof.
  destruct P as [x y]. intros C H. cbn [fst]. pose proof (dbl_y x y C) as Y. rewrite H, ed_zero_y in Y.
  destruct (dbl_x0 x y C) as [E|E]; [rewrite H; exact ed_zero_x|exact E|]. exfalso. rewrite E in *. unfold on_curve in C.
  apply f2_neq0.
  transitivity (1 + ed_d * (x * x) * (0 * 0) + 1 * (1 - ed_d * (x * x * (0 * 0)))); [ring|]. rewrite <- C, Y. ring.
Qed.
Lemma y8b_neg : toF y8b = - toF y8a.
Proof. change (- toF y8a) with (fopp (toF y8a)). apply F_ext. vm_compute. reflexivity. Qed.
Lemma y8a_neq0 : toF y8a <> 0. Proof. apply const_neq0. reflexivity. Qed.
Lemma y8a_den : 1 - toF y8a <> 0.
Proof. intros E. apply (f_equal fz) in E. vm_compute in E. discriminate E. Qed.
Lemma y8b_den : 1 - toF y8b <> 0.
Proof. intros E. apply (f_equal fz) in E. vm_compute in E. discriminate E. Qed.
Lemma u8a_eq : 1 + toF y8a = toF u8a * (1 - toF y8a).
Proof. apply F_ext. vm_compute. reflexivity. Qed.
Lemma u8b_eq : 1 + toF y8b = toF u8b * (1 - toF y8b).
Proof. apply F_ext. vm_compute. reflexivity. Qed.
Lemma quot_eq a b c : b <> 0 -> a = c * b -> a / b = c.
Proof. intros N ->. field. exact N. Qed.
Lemma y8_two y : ed_d * (y * y) * (y * y) = 1 - (1 + 1) * (y * y) -> y = toF y8a \/ y = toF y8b.
Proof.
  intros H. pose proof y8a_ok as Ha. pose proof y8a_neq0 as Na. rewrite y8b_neg. set (Y := toF y8a) in *. clearbody Y.
  apply fsq_eq. 
  assert (Q : (y * y - Y * Y) * (ed_d * (y * y + Y * Y) + (1 + 1)) = 0).
  { transitivity (ed_d * (y * y) * (y * y) - ed_d * (Y * Y) * (Y * Y) + (1 + 1) * (y * y - Y * Y)); [ring|]. rewrite H, Ha. ring. }
  apply fmul_eq0 in Q. destruct Q as [Q|Q].
  - transitivity (y * y - Y * Y + Y * Y); [ring|]. rewrite Q. ring.
  - exfalso. assert (Ny : y <> 0).
    { intros E. rewrite E in H. apply f1_neq0. transitivity (1 - (1 + 1) * (0 * 0)); [ring|]. rewrite <- H. ring. }
    assert (G : ed_d * (y * y * (Y * Y)) = - f1).
    { transitivity ((ed_d * (y * y + Y * Y) + (1 + 1)) * (Y * Y) - (ed_d * (Y * Y) * (Y * Y)) - (1 + 1) * (Y * Y)); [ring|].
      rewrite Q, Ha. ring. }
    apply (ed_d_nonsquare (f_i / (y * Y))). transitivity (f_i * f_i / (y * y * (Y * Y))); [field; split; assumption|].
    rewrite f_i_sq. change (fopp (toF 1)) with (- f1). rewrite <- G. field; split; assumption.
Qed.
Lemma low_curve P : on_curve P -> ed_mul 8 P = ed_zero ->
  mont_u P = 0 \/ mont_u P = 1 \/ mont_u P = toF u8a \/ mont_u P = toF u8b.
Proof.
  intros C H. change 8%Z with (2 * 4)%Z in H. rewrite <- (ed_mul_mul 2 4 P C) in H.
  apply (dbl_zero _ (on_curve_mul 4 P C)) in H. change 4%Z with (2 * 2)%Z in H. rewrite <- (ed_mul_mul 2 2 P C) in H.
  pose proof (on_curve_mul 2 P C) as C2. destruct P as [x y]. pose proof (dbl_y x y C) as Y.
  pose proof (dbl_x0 x y C) as X. destruct (ed_mul 2 (x, y)) as [x2 y2]. cbn [fst snd] in *.
  destruct (dbl_x0 x2 y2 C2 H) as [E|E]; rewrite E in *.
  - destruct (X eq_refl) as [Q|Q]; rewrite Q in *.
    + left. exact (mont_u_x0 y (x0_points _ _ C eq_refl)).
    + right. left. unfold mont_u. apply quot_eq; [|ring]. intros N. apply f1_neq0. transitivity (1 - 0); [ring|exact N].
  - right. right.
    assert (XX : x * x = - (y * y)).
    { transitivity (y * y + x * x - y * y); [ring|]. rewrite <- Y. ring. }
    unfold on_curve in C. rewrite XX in C. destruct (y8_two y) as [Q|Q].
    + transitivity (1 - (1 + ed_d * (- (y * y)) * (y * y))); [ring|]. rewrite <- C. ring.
    + left. rewrite Q. unfold mont_u. exact (quot_eq _ _ _ y8a_den u8a_eq).
    + right. rewrite Q. unfold mont_u. exact (quot_eq _ _ _ y8b_den u8b_eq).
Qed.

(** ** The twist *)
Lemma tw_zero_x : fst tw_zero = 0. Proof. Local Transparent tw_zero. exact eq_refl. Qed.
Lemma tw_zero_y : snd tw_zero = 1. Proof. exact eq_refl. Qed.
Local Opaque tw_zero.
Lemma tw_dbl_x0 x y : tw_curve (x, y) -> fst (tw_mul 2 (x, y)) = 0 -> x = 0 \/ y = 0.
Proof.
  intros C H. rewrite (tw_mul_2 _ C) in H. destruct (tw_add_spec _ _ C C) as (X & Y & E & EX & EY). rewrite E in H.
  cbn [fst snd] in *. rewrite H in EX. apply fmul_eq0. apply half0.
  transitivity (0 * (1 + tw_d * (x * x * (y * y)))); [symmetry; exact EX|ring].
Qed.
Lemma tw_dbl_y x y : tw_curve (x, y) -> snd (tw_mul 2 (x, y)) * (1 - tw_d * (x * x * (y * y))) = y * y + x * x.
Proof.
  intros C. rewrite (tw_mul_2 _ C). destruct (tw_add_spec _ _ C C) as (X & Y & E & EX & EY). rewrite E.
  cbn [fst snd] in *. exact EY.
Qed.
Lemma tw_dbl_zero P : tw_curve P -> tw_mul 2 P = tw_zero -> fst P = 0.
Proof.
  destruct P as [x y]. intros C H. cbn [fst]. pose proof (tw_dbl_y x y C) as Y. rewrite H, tw_zero_y in Y.
  destruct (tw_dbl_x0 x y C) as [E|E]; [rewrite H; exact tw_zero_x|exact E|]. exfalso. rewrite E in *. unfold tw_curve in C.
  apply f2_neq0.
  transitivity (1 + tw_d * (x * x) * (0 * 0) + 1 * (1 - tw_d * (x * x * (0 * 0)))); [ring|]. rewrite <- C, Y. ring.
Qed.
Definition rb : Z := 53349024335595116287218880480235248380932224208407348260407321313250266849793.
Lemma rb_sq : toF rb * toF rb = toF 121666.
Proof. rewrite <- mulr_ok. apply toF_eq. vm_compute. reflexivity. Qed.
Lemma tw_no8 y : tw_d * (y * y) * (y * y) = 1 - (1 + 1) * (y * y) -> False.
Proof.
  intros H. pose proof tw_d_def as Ed. pose proof rb_sq as Eb. rewrite c12 in Ed, Eb. set (a := toF 121665) in *.
  assert (Na : a <> 0) by exact c121665_neq0.
  set (s := f_i * (tw_d * (y * y) + 1)).
  assert (G : a * (s * s) = 1).
  { unfold s. transitivity (f_i * f_i * (a * (tw_d * (tw_d * (y * y) * (y * y)) + (1 + 1) * (tw_d * (y * y)) + 1))); [ring|].
    rewrite f_i_sq, H. transitivity (- (a * tw_d + a)); [ring|].
    transitivity (- (tw_d * a) - a); [ring|]. rewrite Ed. ring. }
  assert (Ns : s <> 0).
  { intros E. rewrite E in G. apply f1_neq0. rewrite <- G. ring. }
  apply (NN_nonsquare (toF rb / s)). unfold NN. rewrite c12. fold a. rewrite <- Eb.
  transitivity (toF rb * toF rb / (s * s)); [field; exact Ns|]. apply (fmul_cancel (s * s)); [apply fmul_neq0; exact Ns|].
  transitivity (toF rb * toF rb); [field; exact Ns|]. transitivity ((a * (s * s)) * (toF rb * toF rb)); [rewrite G; ring|ring].
Qed.
Lemma low_twist P : tw_curve P -> tw_mul 8 P = tw_zero -> tw_u P = 0 \/ tw_u P = - f1.
Proof.
  intros C H. change 8%Z with (2 * 4)%Z in H. rewrite <- (tw_mul_mul 2 4 P C) in H.
  apply (tw_dbl_zero _ (tw_curve_mul 4 P C)) in H. change 4%Z with (2 * 2)%Z in H. rewrite <- (tw_mul_mul 2 2 P C) in H.
  pose proof (tw_curve_mul 2 P C) as C2. destruct P as [x y]. pose proof (tw_dbl_y x y C) as Y.
  pose proof (tw_dbl_x0 x y C) as X. destruct (tw_mul 2 (x, y)) as [x2 y2]. cbn [fst snd] in *.
  destruct (tw_dbl_x0 x2 y2 C2 H) as [E|E]; rewrite E in *.
  - destruct (X eq_refl) as [Q|Q]; rewrite Q in *.
    + left. exact (tw_u_x0 y (tw_x0_points _ _ C eq_refl)).
    + right. unfold tw_u. apply quot_eq; [|ring]. intros N. apply f1_neq0. transitivity (- (0 - f1)); [ring|]. rewrite N. ring.
  - exfalso.
    assert (XX : x * x = - (y * y)).
    { transitivity (y * y + x * x - y * y); [ring|]. rewrite <- Y. ring. }
    unfold tw_curve in C. rewrite XX in C. apply (tw_no8 y).
    transitivity (1 - (1 + tw_d * (- (y * y)) * (y * y))); [ring|]. rewrite <- C. ring.
Qed.
Local Close Scope F_scope.

(** ** Clamped scalars on the twist *)
Lemma Lt_2 : rel_prime Lt 2.
Proof. apply prime_rel_prime; [exact prime_Lt|]. intros D. apply Z.divide_pos_le in D; [|reflexivity]. exact (D eq_refl). Qed.
Lemma tw_clamped_bezout k : exists u v, u * (2 * decode_scalar k) + v * (8 * Lt) = 8.
Proof.
  destruct (decode_scalar_form k) as (j & R & E).
  assert (N : ~ (Lt | 2 * (j + 2 ^ 251))).
  { intros D. apply (fun D => Gauss Lt 2 _ D Lt_2) in D. destruct D as [q D]. clear E. rewrite Lt_num in D.
    assert (q <= 0 \/ 1 <= q) as [Q|Q] by lia; lia. }
  destruct (rel_prime_bezout _ _ (prime_rel_prime Lt prime_Lt _ N)) as [u v B].
  exists v, u. rewrite E. transitivity (8 * (u * Lt + v * (2 * (j + 2 ^ 251)))); [clear; ring|]. rewrite B. reflexivity.
Qed.
Lemma tw_clamped_zero k P : tw_curve P -> tw_u (tw_mul (decode_scalar k) P) = f0 -> tw_mul 8 P = tw_zero.
Proof.
  intros C H.
  apply (tw_u_eq0 _ (tw_curve_mul _ P C)) in H. apply (tw_x0_double _ (tw_curve_mul _ P C)) in H.
  rewrite (tw_mul_mul 2 _ P C) in H. destruct (tw_clamped_bezout k) as (u & v & B).
  rewrite <- B, (tw_mul_add _ _ P C), <- (tw_mul_mul u _ P C), <- (tw_mul_mul v _ P C), H, (order_8Lt P C).
  rewrite !tw_mul_zero. exact (tw_add_0_r tw_zero).
Qed.
(** ** X25519 gives zero only for the five u-coordinates of points of order 1, 2, 4 and 8. *)
Theorem zero_low k u : x25519_F (decode_scalar k) u = f0 ->
  u = toF 0 \/ u = toF 1 \/ u = toF (2 ^ 255 - 20) \/ u = toF u8b \/ u = toF u8a.
Proof.
  intros H. pose proof (decode_scalar_range k) as Hr. destruct (decode_scalar_8 k) as [_ H8].
  destruct (every_u u) as [(P & C & E)|(P & C & E)].
  - rewrite E in H. rewrite (x25519_mul P _ C Hr H8) in H. apply (proj1 (clamped_zero k P C)) in H.
    destruct (low_curve P C H) as [Q|[Q|[Q|Q] ] ]; rewrite E, Q.
    + left. exact eq_refl.
    + right. left. exact eq_refl.
    + do 4 right. exact eq_refl.
    + do 3 right. left. exact eq_refl.
  - rewrite E in H. rewrite (tw_x25519_mul P _ C Hr H8) in H. apply (tw_clamped_zero k P C) in H.
    destruct (low_twist P C H) as [Q|Q]; rewrite E, Q.
    + left. exact eq_refl.
    + right. right. left. apply F_ext. vm_compute. reflexivity.
Qed.
