(** The Montgomery ladder on the twist; the proofs of P_Mont with the other sign. *)
From Verif Require Import BaseFacts S_Field S_Edwards S_Twist S_X25519 P_Field P_FieldInv P_Edwards P_TwEd P_X25519b P_Mont.
Local Open Scope F_scope.

(** Projective u-coordinates. *)
Definition tw_rep (X Z : F) (P : point) : Prop :=
  exists l, l <> 0 /\ X = l * (1 + snd P) /\ Z = l * (snd P - 1).
Lemma tw_rep_intro X Z P : ~ (X = 0 /\ Z = 0) -> X * (snd P - 1) = Z * (1 + snd P) -> tw_rep X Z P.
Proof.
  intros N E. exists ((X - Z) / (1 + 1)). set (y := snd P) in *.
  assert (E2 : (1 + 1) * ((X - Z) / (1 + 1)) = X - Z) by (field; exact f2_neq0).
  set (l := (X - Z) / (1 + 1)) in *. clearbody l.
  assert (EX : X = l * (1 + y)).
  { apply (fmul_cancel (1 + 1)); [exact f2_neq0|].
    transitivity ((1 + 1) * l * (1 + y)); [|ring]. rewrite E2.
    transitivity (X * (1 + y) - X * (y - 1)); [ring|]. rewrite E. ring. }
  assert (EZ : Z = l * (y - 1)).
  { apply (fmul_cancel (1 + 1)); [exact f2_neq0|].
    transitivity ((1 + 1) * l * (y - 1)); [|ring]. rewrite E2.
    transitivity (Z * (1 + y) - Z * (y - 1)); [ring|]. rewrite <- E. ring. }
  split; [|split; assumption].
  intros L0. apply N. rewrite EX, EZ, L0. split; ring.
Qed.
Lemma tw_rep_u X Z P : tw_rep X Z P -> X * finv Z = tw_u P.
Proof.
  destruct P as [x y]. intros (l & Hl & HX & HZ). cbn [snd] in HX, HZ. unfold tw_u.
  destruct (F_eq_dec (y - 1) 0) as [E|N].
  - assert (Z0 : Z = 0) by (rewrite HZ, E; ring). rewrite Z0. change (fdiv (1 + y) (y - 1)) with ((1 + y) * finv (y - 1)).
    rewrite E, finv_0. ring.
  - rewrite HX, HZ. rewrite finv_mul. change (fdiv (1 + y) (y - 1)) with ((1 + y) * finv (y - 1)).
    transitivity ((finv l * l) * ((1 + y) * finv (y - 1))); [ring|]. rewrite finv_l by exact Hl. ring.
Qed.

(** Doubling. *)
Lemma tw_dbl_rep X Z P : tw_curve P -> tw_rep X Z P ->
  let AA := (X + Z) * (X + Z) in let BB := (X - Z) * (X - Z) in let E := AA - BB in
  tw_rep (AA * BB) (E * (AA + toF 121665 * E)) (tw_add P P).
Proof.
  destruct P as [x y]. intros C (l & Hl & HX & HZ). cbn [snd] in HX, HZ. cbv zeta.
  pose proof (tw_den_minus _ _ _ _ C C) as Dm.
  destruct (tw_add_spec _ _ C C) as (x' & y' & E2 & _ & EY). rewrite E2. cbn [fst snd] in EY.
  pose proof tw_d_def as Ed. pose proof c12 as E12. pose proof c121665_neq0 as N6.
  unfold tw_curve in C.
  set (a := toF 121665) in *. set (b := toF 121666) in *. set (d := tw_d) in *. clearbody a b d.
  assert (KA : (X + Z) = (1 + 1) * l * y) by (rewrite HX, HZ; ring).
  assert (KB : (X - Z) = (1 + 1) * l) by (rewrite HX, HZ; ring).
  rewrite KA, KB. clear X Z HX HZ KA KB.
  set (c := (1 + 1) * l * ((1 + 1) * l)).
  assert (Nc : c <> 0) by (unfold c; repeat apply fmul_neq0; solve [exact f2_neq0|assumption]).
  assert (G1 : (1 + 1) * l * y * ((1 + 1) * l * y) * c = c * c * (y * y)) by (unfold c; ring).
  assert (G2 : ((1 + 1) * l * y * ((1 + 1) * l * y) - c) * ((1 + 1) * l * y * ((1 + 1) * l * y) + a * ((1 + 1) * l * y * ((1 + 1) * l * y) - c))
             = c * c * ((y * y - 1) * (y * y + a * (y * y - 1)))) by (unfold c; ring).
  rewrite G1, G2. clear G1 G2.
  (* (1 + x^2) (b y^2 - a) = y^2 *)
  assert (K0 : x * x * (y * y + a * (y * y - 1)) = a * (1 - y * y)).
  { transitivity (- (a * (x * x)) - (- b) * (x * x) * (y * y)); [rewrite E12; ring|]. rewrite <- Ed.
    transitivity (a * (1 - (1 + d * (x * x) * (y * y)) - x * x)); [ring|]. rewrite <- C. ring. }
  assert (K : (1 + x * x) * (y * y + a * (y * y - 1)) = y * y).
  { transitivity (y * y + a * (y * y - 1) + x * x * (y * y + a * (y * y - 1))); [ring|]. rewrite K0. ring. }
  assert (DD : 1 - d * (x * x * (y * y)) = 1 + 1 + x * x - y * y).
  { transitivity (1 + 1 + x * x - (1 + d * (x * x) * (y * y) + x * x)); [ring|]. rewrite <- C. ring. }
  rewrite DD in *.
  apply tw_rep_intro; cbn [snd].
  - intros [H1 H2].
    assert (Y0 : y * y = 0).
    { apply fmul_eq0 in H1. destruct H1 as [H1|H1]; [|exact H1]. exfalso. exact (fmul_neq0 _ _ Nc Nc H1). }
    apply fmul_eq0 in H2. destruct H2 as [H2|H2]; [exact (fmul_neq0 _ _ Nc Nc H2)|]. rewrite Y0 in H2.
    apply N6. transitivity ((0 - 1) * (0 + a * (0 - 1))); [ring|exact H2].
  - apply (fmul_cancel (1 + 1 + x * x - y * y)); [exact Dm|].
    transitivity (c * c * (y * y) * (y' * (1 + 1 + x * x - y * y) - (1 + 1 + x * x - y * y))); [ring|].
    transitivity (c * c * ((y * y - 1) * (y * y + a * (y * y - 1))) * ((1 + 1 + x * x - y * y) + y' * (1 + 1 + x * x - y * y))); [|ring].
    rewrite EY.
    transitivity (c * c * (y * y - 1) * (1 + 1) * (y * y)); [ring|].
    transitivity (c * c * (y * y - 1) * (1 + 1) * ((1 + x * x) * (y * y + a * (y * y - 1)))); [|ring].
    rewrite K. reflexivity.
Qed.

(** Differential addition. *)

Lemma tw_y0_order4 x : tw_curve (x, 0) -> x * x = - f1.
Proof. unfold tw_curve. intros H. transitivity (- (0 * 0 - x * x)); [ring|]. rewrite H. ring. Qed.

(** P2, P3 = P2 + P; P is neither of the two points with x = 0. *)
Lemma tw_dadd_rep X2 Z2 X3 Z3 P2 P u : tw_curve P2 -> tw_curve P -> fst P <> 0 -> u * (snd P - 1) = 1 + snd P ->
  let P3 := tw_add P P2 in
  tw_rep X2 Z2 P2 -> tw_rep X3 Z3 P3 ->
  let A := X2 + Z2 in let B := X2 - Z2 in let C := X3 + Z3 in let D := X3 - Z3 in
  let DA := D * A in let CB := C * B in
  tw_rep ((DA + CB) * (DA + CB)) (u * ((DA - CB) * (DA - CB))) (tw_add P2 P3).
Proof.
  intros C2 C1 Nx Hu P3 (l2 & N2 & HX2 & HZ2) (l3 & N3 & HX3 & HZ3). cbv zeta.
  assert (C3 : tw_curve P3) by (unfold P3; auto with twist).
  assert (EP : tw_add P3 (tw_opp P2) = P).
  { unfold P3. rewrite tw_add_assoc, tw_opp_r, tw_add_0_r by auto with twist. reflexivity. }
  clearbody P3. destruct P2 as [x2 y2], P3 as [x3 y3], P as [x1 y1]. cbn [fst snd] in *.
  pose proof (tw_den_plus _ _ _ _ C2 C3) as Dp. pose proof (tw_den_minus _ _ _ _ C2 C3) as Dm.
  destruct (tw_add_spec _ _ C2 C3) as (xp & yp & ES & _ & EY). rewrite ES. cbn [fst snd] in *.
  pose proof (tw_curve_opp _ C2) as C2'. cbn [tw_opp] in C2', EP.
  destruct (tw_add_spec _ _ C3 C2') as (xm & ym & EM & EXM & EYM). cbn [fst snd] in EXM, EYM. rewrite EP in EM.
  injection EM as <- <-.
  assert (KA : (X2 + Z2) = (1 + 1) * l2 * y2) by (rewrite HX2, HZ2; ring).
  assert (KB : (X2 - Z2) = (1 + 1) * l2) by (rewrite HX2, HZ2; ring).
  assert (KC : (X3 + Z3) = (1 + 1) * l3 * y3) by (rewrite HX3, HZ3; ring).
  assert (KD : (X3 - Z3) = (1 + 1) * l3) by (rewrite HX3, HZ3; ring).
  rewrite KA, KB, KC, KD. clear X2 Z2 X3 Z3 HX2 HX3 HZ2 HZ3 KA KB KC KD.
  set (c := (1 + 1) * l2 * ((1 + 1) * l3)).
  assert (Nc : c <> 0) by (unfold c; repeat apply fmul_neq0; solve [exact f2_neq0|assumption]).
  assert (KP : (1 + 1) * l3 * ((1 + 1) * l2 * y2) + (1 + 1) * l3 * y3 * ((1 + 1) * l2) = c * (y2 + y3)) by (unfold c; ring).
  assert (KM : (1 + 1) * l3 * ((1 + 1) * l2 * y2) - (1 + 1) * l3 * y3 * ((1 + 1) * l2) = c * (y2 - y3)) by (unfold c; ring).
  rewrite KP, KM. clear KP KM.
  assert (Ny1 : y1 - 1 <> 0).
  { intros E. rewrite E in Hu. apply (two_y y1); [transitivity (- (y1 - 1)); [ring|rewrite E; ring]|]. rewrite <- Hu. ring. }
  assert (Nu : u <> 0).
  { intros E. rewrite E in Hu. unfold tw_curve in C1. assert (Y1 : y1 = - f1) by (transitivity (1 + y1 - 1); [ring|rewrite <- Hu; ring]).
    rewrite Y1 in C1.
    assert (Q : x1 * x1 * (1 + tw_d) = 0).
    { transitivity ((- f1) * (- f1) - (- f1 * - f1 - x1 * x1) + tw_d * (x1 * x1) * (- f1 * - f1)); [ring|]. rewrite C1. ring. }
    apply fmul_eq0 in Q. destruct Q as [Q|Q]; [apply Nx; now apply fsq_eq0|].
    pose proof tw_d_def as Ed. assert (Dd : tw_d = - f1) by (transitivity (1 + tw_d - 1); [ring|rewrite Q; ring]).
    rewrite Dd, c12 in Ed. apply f1_neq0. transitivity (- (- (toF 121665 + 1)) - toF 121665); [ring|]. rewrite <- Ed. ring. }
  apply tw_rep_intro; cbn [snd].
  - intros [H1 H2].
    assert (S1 : y2 + y3 = 0).
    { apply fsq_eq0 in H1. apply fmul_eq0 in H1. destruct H1 as [H1|H1]; [exfalso; exact (Nc H1)|exact H1]. }
    assert (S2 : y2 - y3 = 0).
    { apply fmul_eq0 in H2. destruct H2 as [H2|H2]; [exfalso; exact (Nu H2)|]. apply fsq_eq0 in H2.
      apply fmul_eq0 in H2. destruct H2 as [H2|H2]; [exfalso; exact (Nc H2)|exact H2]. }
    assert (Y3 : y3 = 0).
    { apply (fmul_cancel (1 + 1)); [exact f2_neq0|]. transitivity ((y2 + y3) - (y2 - y3)); [ring|rewrite S1, S2; ring]. }
    assert (Y2 : y2 = 0) by (transitivity (y2 + y3 - y3); [ring|rewrite S1, Y3; ring]).
    subst y2 y3. apply Nx. transitivity (x1 * (1 + tw_d * (x3 * - x2 * (0 * 0)))); [ring|]. rewrite EXM. ring.
  - pose proof (dadd_id tw_d _ _ _ _ (tw_curve_mono _ _ C2) (tw_curve_mono _ _ C3)) as I. cbv zeta in I.
    pose proof tw_d_neq0 as Nd.
    assert (EYM' : y1 * (1 + tw_d * (x2 * x3 * (y2 * y3))) = y2 * y3 - x2 * x3).
    { transitivity (y1 * (1 - tw_d * (x3 * - x2 * (y3 * y2)))); [ring|]. rewrite EYM. ring. }
    rewrite <- EY, <- EYM' in I.
    set (d := tw_d) in *. set (t := d * (x2 * x3 * (y2 * y3))) in *. clearbody d t.
    apply (fmul_cancel (d * d * d * d * ((1 + t) * (1 - t) * (y1 - 1)))).
    { repeat apply fmul_neq0; assumption. }
    transitivity (c * c * (d * d * d * d * ((y2 + y3) * (y2 + y3) * (1 + t - y1 * (1 + t)) * (1 - t - yp * (1 - t))))); [ring|].
    rewrite I.
    transitivity (d * d * d * d * (c * c * (1 + t) * (1 - t)) * ((y2 - y3) * (y2 - y3)) * (1 + y1) * (1 + yp)); [ring|].
    rewrite <- Hu. ring.
Qed.

(** One iteration of the ladder. *)
Definition tw_state_ok (P : point) (m : Z) (a : F * F * F * F) : Prop :=
  let '(x2, z2, x3, z3) := a in tw_rep x2 z2 (tw_mul m P) /\ tw_rep x3 z3 (tw_mul (m + 1) P).

Section TwLadder.
  Variable P : point.
  Hypothesis HP : tw_curve P.
  Hypothesis Nx : fst P <> 0.
  Variable u : F.
  Hypothesis Hu : u * (snd P - 1) = 1 + snd P.

  Lemma tw_step0_ok m a : tw_state_ok P m a ->
    let '(x2, z2, x3, z3) := step0 u a in tw_rep x2 z2 (tw_mul (2 * m) P) /\ tw_rep x3 z3 (tw_mul (2 * m + 1) P).
  Proof.
    destruct a as [ [ [x2 z2] x3] z3]. intros [R2 R3]. cbn [step0 rfc_step xorb cswap fst].
    rewrite tw_mul_succ in R3 by exact HP.
    split.
    - replace (2 * m)%Z with (m + m)%Z by lia. rewrite tw_mul_add by exact HP.
      apply tw_dbl_rep; auto with twist.
    - replace (2 * m + 1)%Z with (m + (m + 1))%Z by lia. rewrite tw_mul_add, tw_mul_succ by exact HP.
      apply tw_dadd_rep; auto with twist.
  Qed.
  (** With the pair the other way round. *)
  Lemma tw_step0_flip_ok m a : tw_state_ok P m (flip a) ->
    let '(x2, z2, x3, z3) := step0 u a in tw_rep x2 z2 (tw_mul (2 * m + 2) P) /\ tw_rep x3 z3 (tw_mul (2 * m + 1) P).
  Proof.
    destruct a as [ [ [x3 z3] x2] z2]. cbn [flip]. intros [R2 R3]. cbn [step0 rfc_step xorb cswap fst].
    split.
    - replace (2 * m + 2)%Z with ((m + 1) + (m + 1))%Z by lia. rewrite tw_mul_add by exact HP.
      apply tw_dbl_rep; auto with twist.
    - replace (2 * m + 1)%Z with (m + (m + 1))%Z by lia. rewrite tw_mul_add by exact HP.
      rewrite tw_mul_succ in R3 |- * by exact HP.
      pose proof (tw_dadd_rep x2 z2 x3 z3 (tw_mul m P) P u ltac:(auto with twist) HP Nx Hu R2 R3) as G. cbv zeta in G.
      frepl ((x2 - z2) * (x3 + z3) + (x2 + z2) * (x3 - z3)) with ((x3 - z3) * (x2 + z2) + (x3 + z3) * (x2 - z2)).
      frepl (((x2 - z2) * (x3 + z3) - (x2 + z2) * (x3 - z3)) * ((x2 - z2) * (x3 + z3) - (x2 + z2) * (x3 - z3)))
        with (((x3 - z3) * (x2 + z2) - (x3 + z3) * (x2 - z2)) * ((x3 - z3) * (x2 + z2) - (x3 + z3) * (x2 - z2))).
      exact G.
  Qed.

  Definition tw_sw_ok (m : Z) (st : F * F * F * F * bool) : Prop :=
    let '(a, sw) := st in tw_state_ok P m (if sw then flip a else a).
  Lemma tw_flip_flip a : flip (flip a) = a.
  Proof. destruct a as [ [ [x2 z2] x3] z3]. reflexivity. Qed.
  Lemma tw_rfc_step_ok m bit st : tw_sw_ok m st -> tw_sw_ok (2 * m + Z.b2z bit) (rfc_step u bit st).
  Proof.
    destruct st as [a sw]. intros H. rewrite rfc_step_step0. unfold tw_sw_ok in *.
    destruct bit; cbn [Z.b2z].
    - assert (H' : tw_state_ok P m (flip (if xorb sw true then flip a else a))).
      { destruct sw; cbn [xorb]; [exact H|now rewrite tw_flip_flip]. }
      apply tw_step0_flip_ok in H'. destruct (step0 u _) as [ [ [x2 z2] x3] z3]. cbn [flip tw_state_ok].
      replace (2 * m + 1 + 1)%Z with (2 * m + 2)%Z by lia. tauto.
    - assert (H' : tw_state_ok P m (if xorb sw false then flip a else a)) by (destruct sw; exact H).
      apply tw_step0_ok in H'. destruct (step0 u _) as [ [ [x2 z2] x3] z3]. cbn [tw_state_ok]. rewrite Z.add_0_r. exact H'.
  Qed.
  Lemma tw_rfc_loop_ok k n : (0 <= k)%Z -> forall st, tw_sw_ok (k / 2 ^ Z.of_nat n) st -> tw_sw_ok k (rfc_loop u k n st).
  Proof.
    intros Hk. induction n as [|n IH]; intros st H; cbn [rfc_loop].
    - change (2 ^ Z.of_nat 0)%Z with 1%Z in H. now rewrite Z.div_1_r in H.
    - apply IH. apply (tw_rfc_step_ok _ (Z.testbit k (Z.of_nat n))) in H.
      assert (E : (k / 2 ^ Z.of_nat n = 2 * (k / 2 ^ Z.of_nat (S n)) + Z.b2z (Z.testbit k (Z.of_nat n)))%Z).
      { rewrite Z.testbit_spec' by lia. rewrite Nat2Z.inj_succ, Z.pow_succ_r by lia.
        rewrite (Z.mul_comm 2 (2 ^ _)), <- Z.div_div by lia. apply Z.div_mod. lia. }
      now rewrite E.
  Qed.
  Lemma tw_ladder_main k : (0 <= k < 2 ^ 255)%Z -> x25519_F k u = tw_u (tw_mul k P).
  Proof.
    intros Hk. unfold x25519_F.
    assert (H0 : tw_sw_ok (k / 2 ^ Z.of_nat 255) (f1, f0, u, f1, false)).
    { change (Z.of_nat 255) with 255%Z. rewrite Z.div_small by exact Hk. cbn [tw_sw_ok tw_state_ok]. split.
      - rewrite tw_mul_0. apply tw_rep_intro; cbn [snd tw_zero]; [|ring]. intros [E _]. exact (f1_neq0 E).
      - change (0 + 1)%Z with 1%Z. rewrite tw_mul_1. apply tw_rep_intro; [|rewrite Hu; ring]. intros [_ E]. exact (f1_neq0 E). }
    apply (tw_rfc_loop_ok k 255 (proj1 Hk)) in H0.
    destruct (rfc_loop u k 255 (f1, f0, u, f1, false)) as [ [ [ [x2 z2] x3] z3] sw].
    cbn [tw_sw_ok] in H0. destruct sw; cbn [flip tw_state_ok cswap] in *; apply tw_rep_u; tauto.
  Qed.
End TwLadder.

Lemma tw_x0_points x y : tw_curve (x, y) -> x = 0 -> y = 1 \/ y = - f1.
Proof.
  unfold tw_curve. intros C ->. apply fsq_eq. transitivity (y * y - 0 * 0); [ring|]. rewrite C. ring.
Qed.
Lemma tw_u_den0 x y : y - 1 = 0 -> tw_u (x, y) = 0.
Proof.
  intros E. unfold tw_u. change (fdiv (1 + y) (y - 1)) with ((1 + y) * finv (y - 1)). rewrite E, finv_0. ring.
Qed.
Lemma tw_u_num0 x y : 1 + y = 0 -> tw_u (x, y) = 0.
Proof.
  intros E. unfold tw_u. change (fdiv (1 + y) (y - 1)) with ((1 + y) * finv (y - 1)). rewrite E. ring.
Qed.
Lemma tw_u_x0 y : y = 1 \/ y = - f1 -> tw_u (0, y) = 0.
Proof. intros [E|E]; [apply tw_u_den0|apply tw_u_num0]; rewrite E; ring. Qed.
Lemma tw_x0_mul P n : tw_curve P -> fst P = 0 -> fst (tw_mul n P) = 0.
Proof.
  intros HP H0.
  assert (A : forall Q, tw_curve Q -> fst Q = 0 -> fst (tw_add P Q) = 0).
  { intros [x2 y2] HQ HQ0. destruct P as [x1 y1]. destruct (tw_add_spec _ _ HP HQ) as (x & y & -> & EX & _). cbn [fst snd] in *.
    apply (fmul_cancel _ _ _ (tw_den_plus _ _ _ _ HP HQ)). transitivity (x * (1 + tw_d * (x1 * x2 * (y1 * y2)))); [ring|].
    rewrite EX, H0, HQ0. ring. }
  assert (B : forall k, (0 <= k)%Z -> fst (tw_mul k P) = 0).
  { apply natlike_ind; [reflexivity|]. intros k Hk IH. rewrite <- Z.add_1_r, tw_mul_succ by assumption. apply A; auto with twist. }
  destruct (Z.le_gt_cases 0 n) as [H|H]; [now apply B|].
  replace n with (- - n)%Z by lia. rewrite tw_mul_opp. specialize (B (- n)%Z ltac:(lia)).
  destruct (tw_mul (- n) P) as [x y]. cbn [tw_opp fst] in *. rewrite B. ring.
Qed.

(** The ladder computes the u-coordinate of the multiple. *)
Theorem tw_x25519_mul P k : tw_curve P -> (0 <= k < 2 ^ 255)%Z -> (k mod 8 = 0)%Z ->
  x25519_F k (tw_u P) = tw_u (tw_mul k P).
Proof.
  intros HP Hk H8. destruct (F_eq_dec (fst P) 0) as [E|N].
  - pose proof (tw_x0_mul P k HP E) as E'. pose proof (tw_curve_mul k P HP) as HP'.
    destruct (tw_mul k P) as [x' y']. destruct P as [x y]. cbn [fst] in *. subst x x'.
    rewrite (tw_u_x0 y (tw_x0_points _ _ HP eq_refl)), (tw_u_x0 y' (tw_x0_points _ _ HP' eq_refl)).
    apply low_0; [apply Hk|exact H8].
  - apply tw_ladder_main; try assumption. destruct P as [x y]. cbn [fst snd tw_u] in *. field.
    intros E. change (toF 1) with f1 in E. apply N. assert (Y : y = 1) by (transitivity (1 + (y - 1)); [ring|rewrite E; ring]).
    subst y. unfold tw_curve in HP.
    assert (Q : x * x * (1 + tw_d) = 0).
    { transitivity (1 * 1 - (1 * 1 - x * x) + tw_d * (x * x) * (1 * 1)); [ring|]. rewrite HP. ring. }
    apply fmul_eq0 in Q. destruct Q as [Q|Q]; [now apply fsq_eq0|]. exfalso.
    pose proof tw_d_def as Ed. assert (Dd : tw_d = - f1) by (transitivity (1 + tw_d - 1); [ring|rewrite Q; ring]).
    rewrite Dd, c12 in Ed. apply f1_neq0. transitivity (- (- (toF 121665 + 1)) - toF 121665); [ring|]. rewrite <- Ed. ring.
Qed.
