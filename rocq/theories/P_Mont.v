(** The Montgomery ladder computes multiples of points. *)
From Verif Require Import BaseFacts S_Field S_Edwards S_X25519 P_Field P_FieldInv P_Edwards P_X25519b.
Local Open Scope F_scope.

Lemma f1m_neq0 : - f1 <> f0.
Proof. apply fopp_neq0. exact f1_neq0. Qed.
Lemma two_y y : 1 - y = 0 -> 1 + y = 0 -> False.
Proof. intros H1 H2. apply f2_neq0. transitivity ((1 - y) + (1 + y)); [ring|rewrite H1, H2; ring]. Qed.

(** Projective u-coordinates. *)
Definition rep (X Z : F) (P : point) : Prop :=
  exists l, l <> 0 /\ X = l * (1 + snd P) /\ Z = l * (1 - snd P).
Lemma rep_intro X Z P : ~ (X = 0 /\ Z = 0) -> X * (1 - snd P) = Z * (1 + snd P) -> rep X Z P.
Proof.
  intros N E. exists ((X + Z) / (1 + 1)). set (y := snd P) in *.
  assert (E2 : (1 + 1) * ((X + Z) / (1 + 1)) = X + Z) by (field; exact f2_neq0).
  set (l := (X + Z) / (1 + 1)) in *. clearbody l.
  assert (EX : X = l * (1 + y)).
  { apply (fmul_cancel (1 + 1)); [exact f2_neq0|].
    transitivity ((1 + 1) * l * (1 + y)); [|ring]. rewrite E2.
    transitivity (X * (1 - y) + X * (1 + y)); [ring|]. rewrite E. ring. }
  assert (EZ : Z = l * (1 - y)).
  { apply (fmul_cancel (1 + 1)); [exact f2_neq0|].
    transitivity ((1 + 1) * l * (1 - y)); [|ring]. rewrite E2.
    transitivity (Z * (1 + y) + Z * (1 - y)); [ring|]. rewrite <- E. ring. }
  split; [|split; assumption].
  intros L0. apply N. rewrite EX, EZ, L0. split; ring.
Qed.
Lemma rep_u X Z P : rep X Z P -> X * finv Z = mont_u P.
Proof.
  destruct P as [x y]. intros (l & Hl & HX & HZ). cbn [snd] in HX, HZ. unfold mont_u.
  destruct (F_eq_dec (1 - y) 0) as [E|N].
  - assert (Z0 : Z = 0) by (rewrite HZ, E; ring). rewrite Z0. change (fdiv (1 + y) (1 - y)) with ((1 + y) * finv (1 - y)).
    rewrite E, finv_0. ring.
  - rewrite HX, HZ. rewrite finv_mul. change (fdiv (1 + y) (1 - y)) with ((1 + y) * finv (1 - y)).
    transitivity ((finv l * l) * ((1 + y) * finv (1 - y))); [ring|]. rewrite finv_l by exact Hl. ring.
Qed.

(** Doubling. *)
Lemma ed_d_12 : ed_d * toF 121666 = - toF 121665. Proof. exact ed_d_def. Qed.
Lemma c12 : toF 121666 = toF 121665 + 1. Proof. change f1 with (toF 1). now rewrite <- toF_add. Qed.
Lemma dbl_rep X Z P : on_curve P -> rep X Z P ->
  let AA := (X + Z) * (X + Z) in let BB := (X - Z) * (X - Z) in let E := AA - BB in
  rep (AA * BB) (E * (AA + toF 121665 * E)) (ed_add P P).
Proof.
  destruct P as [x y]. intros C (l & Hl & HX & HZ). cbn [snd] in HX, HZ. cbv zeta.
  pose proof (den_minus _ _ _ _ C C) as Dm.
  destruct (ed_add_spec _ _ C C) as (x' & y' & E2 & _ & EY). rewrite E2. cbn [fst snd] in EY.
  pose proof ed_d_12 as Ed. pose proof c12 as E12. pose proof c121666_neq0 as N6.
  unfold on_curve in C.
  set (a := toF 121665) in *. set (b := toF 121666) in *. set (d := ed_d) in *. clearbody a b d.
  assert (KA : (X + Z) = (1 + 1) * l) by (rewrite HX, HZ; ring).
  assert (KB : (X - Z) = (1 + 1) * l * y) by (rewrite HX, HZ; ring).
  rewrite KA, KB. clear X Z HX HZ KA KB.
  set (c := (1 + 1) * l * ((1 + 1) * l)).
  assert (Nc : c <> 0) by (unfold c; repeat apply fmul_neq0; solve [exact f2_neq0|assumption]).
  assert (G1 : c * ((1 + 1) * l * y * ((1 + 1) * l * y)) = c * c * (y * y)) by (unfold c; ring).
  assert (G2 : (c - (1 + 1) * l * y * ((1 + 1) * l * y)) * (c + a * (c - (1 + 1) * l * y * ((1 + 1) * l * y)))
             = c * c * ((1 - y * y) * (1 + a * (1 - y * y)))) by (unfold c; ring).
  rewrite G1, G2. clear G1 G2.
  (* (1 + x^2) (b - a y^2) = y^2, when b - a y^2 <> 0 *)
  assert (K0 : x * x * (1 + a * (1 - y * y)) = b * (y * y - 1)).
  { transitivity (b * (x * x) + (d * b) * (x * x) * (y * y)); [rewrite Ed, E12; ring|].
    transitivity (b * (1 + d * (x * x) * (y * y) + x * x - 1)); [ring|]. rewrite <- C. ring. }
  assert (K : (1 + x * x) * (1 + a * (1 - y * y)) = y * y).
  { transitivity (1 + a * (1 - y * y) + x * x * (1 + a * (1 - y * y))); [ring|]. rewrite K0, E12. ring. }
  assert (DD : 1 - d * (x * x * (y * y)) = 1 + 1 + x * x - y * y).
  { transitivity (1 + 1 + x * x - (1 + d * (x * x) * (y * y) + x * x)); [ring|]. rewrite <- C. ring. }
  rewrite DD in *.
  apply rep_intro; cbn [snd].
  - intros [H1 H2].
    assert (Y0 : y * y = 0).
    { apply fmul_eq0 in H1. destruct H1 as [H1|H1]; [|exact H1]. exfalso. exact (fmul_neq0 _ _ Nc Nc H1). }
    apply fmul_eq0 in H2. destruct H2 as [H2|H2]; [exact (fmul_neq0 _ _ Nc Nc H2)|]. rewrite Y0 in H2.
    apply N6. rewrite E12. transitivity ((1 - 0) * (1 + a * (1 - 0))); [ring|exact H2].
  - apply (fmul_cancel (1 + 1 + x * x - y * y)); [exact Dm|].
    transitivity (c * c * (y * y) * ((1 + 1 + x * x - y * y) - y' * (1 + 1 + x * x - y * y))); [ring|].
    transitivity (c * c * ((1 - y * y) * (1 + a * (1 - y * y))) * ((1 + 1 + x * x - y * y) + y' * (1 + 1 + x * x - y * y))); [|ring].
    rewrite EY.
    transitivity (c * c * (1 - y * y) * (1 + 1) * (y * y)); [ring|].
    transitivity (c * c * (1 - y * y) * (1 + 1) * ((1 + x * x) * (1 + a * (1 - y * y)))); [|ring].
    rewrite K. reflexivity.
Qed.

(** Differential addition. *)
Section DAdd.
  Variables d x2 y2 x3 y3 : F.
  Hypothesis H2 : d * x2 * x2 * y2 * y2 = y2 * y2 - x2 * x2 - 1.
  Hypothesis H3 : d * x3 * x3 * y3 * y3 = y3 * y3 - x3 * x3 - 1.
  Let t := d * (x2 * x3 * (y2 * y3)).
  Lemma dadd_id :
    d * d * d * d * ((y2 + y3) * (y2 + y3) * ((1 + t) - (y2 * y3 - x2 * x3)) * ((1 - t) - (y2 * y3 + x2 * x3))) =
    d * d * d * d * ((y3 - y2) * (y3 - y2) * ((1 + t) + (y2 * y3 - x2 * x3)) * ((1 - t) + (y2 * y3 + x2 * x3))).
  Proof. unfold t. ring [H2 H3]. Qed.
End DAdd.

Lemma y0_order4 x : on_curve (x, 0) -> x * x = - f1.
Proof. unfold on_curve. intros H. transitivity (- (0 * 0 - x * x)); [ring|]. rewrite H. ring. Qed.

(** P2, P3 = P2 + P; P is neither of the two points with x = 0. *)
Lemma dadd_rep X2 Z2 X3 Z3 P2 P u : on_curve P2 -> on_curve P -> fst P <> 0 -> u * (1 - snd P) = 1 + snd P ->
  let P3 := ed_add P P2 in
  rep X2 Z2 P2 -> rep X3 Z3 P3 ->
  let A := X2 + Z2 in let B := X2 - Z2 in let C := X3 + Z3 in let D := X3 - Z3 in
  let DA := D * A in let CB := C * B in
  rep ((DA + CB) * (DA + CB)) (u * ((DA - CB) * (DA - CB))) (ed_add P2 P3).
Proof.
  intros C2 C1 Nx Hu P3 (l2 & N2 & HX2 & HZ2) (l3 & N3 & HX3 & HZ3). cbv zeta.
  assert (C3 : on_curve P3) by (unfold P3; auto with curve).
  assert (EP : ed_add P3 (ed_opp P2) = P).
  { unfold P3. rewrite ed_add_assoc, ed_opp_r, ed_add_0_r by auto with curve. reflexivity. }
  clearbody P3. destruct P2 as [x2 y2], P3 as [x3 y3], P as [x1 y1]. cbn [fst snd] in *.
  pose proof (den_plus _ _ _ _ C2 C3) as Dp. pose proof (den_minus _ _ _ _ C2 C3) as Dm.
  destruct (ed_add_spec _ _ C2 C3) as (xp & yp & ES & _ & EY). rewrite ES. cbn [fst snd] in *.
  pose proof (on_curve_opp _ C2) as C2'. cbn [ed_opp] in C2', EP.
  destruct (ed_add_spec _ _ C3 C2') as (xm & ym & EM & EXM & EYM). cbn [fst snd] in EXM, EYM. rewrite EP in EM.
  injection EM as <- <-.
  assert (KA : (X2 + Z2) = (1 + 1) * l2) by (rewrite HX2, HZ2; ring).
  assert (KB : (X2 - Z2) = (1 + 1) * l2 * y2) by (rewrite HX2, HZ2; ring).
  assert (KC : (X3 + Z3) = (1 + 1) * l3) by (rewrite HX3, HZ3; ring).
  assert (KD : (X3 - Z3) = (1 + 1) * l3 * y3) by (rewrite HX3, HZ3; ring).
  rewrite KA, KB, KC, KD. clear X2 Z2 X3 Z3 HX2 HX3 HZ2 HZ3 KA KB KC KD.
  set (c := (1 + 1) * l2 * ((1 + 1) * l3)).
  assert (Nc : c <> 0) by (unfold c; repeat apply fmul_neq0; solve [exact f2_neq0|assumption]).
  assert (KP : (1 + 1) * l3 * y3 * ((1 + 1) * l2) + (1 + 1) * l3 * ((1 + 1) * l2 * y2) = c * (y2 + y3)) by (unfold c; ring).
  assert (KM : (1 + 1) * l3 * y3 * ((1 + 1) * l2) - (1 + 1) * l3 * ((1 + 1) * l2 * y2) = c * (y3 - y2)) by (unfold c; ring).
  rewrite KP, KM. clear KP KM.
  assert (Ny1 : 1 - y1 <> 0).
  { intros E. rewrite E in Hu. apply (two_y y1 E). rewrite <- Hu. ring. }
  assert (Nu : u <> 0).
  { intros E. rewrite E in Hu. unfold on_curve in C1. assert (Y1 : y1 = - f1) by (transitivity (1 + y1 - 1); [ring|rewrite <- Hu; ring]).
    rewrite Y1 in C1.
    assert (Q : x1 * x1 * (1 + ed_d) = 0).
    { transitivity ((- f1) * (- f1) - (- f1 * - f1 - x1 * x1) + ed_d * (x1 * x1) * (- f1 * - f1)); [ring|]. rewrite C1. ring. }
    apply fmul_eq0 in Q. destruct Q as [Q|Q]; [apply Nx; now apply fsq_eq0|].
    pose proof ed_d_def as Ed. assert (Dd : ed_d = - f1) by (transitivity (1 + ed_d - 1); [ring|rewrite Q; ring]).
    rewrite Dd, c12 in Ed. apply f1_neq0. transitivity (toF 121665 + 1 - toF 121665); [ring|].
    transitivity (- (- f1 * (toF 121665 + 1)) - toF 121665); [ring|]. rewrite Ed. ring. }
  apply rep_intro; cbn [snd].
  - intros [H1 H2].
    assert (S1 : y2 + y3 = 0).
    { apply fsq_eq0 in H1. apply fmul_eq0 in H1. destruct H1 as [H1|H1]; [exfalso; exact (Nc H1)|exact H1]. }
    assert (S2 : y3 - y2 = 0).
    { apply fmul_eq0 in H2. destruct H2 as [H2|H2]; [exfalso; exact (Nu H2)|]. apply fsq_eq0 in H2.
      apply fmul_eq0 in H2. destruct H2 as [H2|H2]; [exfalso; exact (Nc H2)|exact H2]. }
    assert (Y3 : y3 = 0).
    { apply (fmul_cancel (1 + 1)); [exact f2_neq0|]. transitivity ((y2 + y3) + (y3 - y2)); [ring|rewrite S1, S2; ring]. }
    assert (Y2 : y2 = 0) by (transitivity (y2 + y3 - y3); [ring|rewrite S1, Y3; ring]).
    subst y2 y3. apply Nx. transitivity (x1 * (1 + ed_d * (x3 * - x2 * (0 * 0)))); [ring|]. rewrite EXM. ring.
  - pose proof (dadd_id ed_d _ _ _ _ (curve_mono _ _ C2) (curve_mono _ _ C3)) as I. cbv zeta in I.
    pose proof ed_d_neq0 as Nd.
    assert (EYM' : y1 * (1 + ed_d * (x2 * x3 * (y2 * y3))) = y2 * y3 - x2 * x3).
    { transitivity (y1 * (1 - ed_d * (x3 * - x2 * (y3 * y2)))); [ring|]. rewrite EYM. ring. }
    rewrite <- EY, <- EYM' in I.
    set (d := ed_d) in *. set (t := d * (x2 * x3 * (y2 * y3))) in *. clearbody d t.
    apply (fmul_cancel (d * d * d * d * ((1 + t) * (1 - t) * (1 - y1)))).
    { repeat apply fmul_neq0; assumption. }
    transitivity (c * c * (d * d * d * d * ((y2 + y3) * (y2 + y3) * (1 + t - y1 * (1 + t)) * (1 - t - yp * (1 - t))))); [ring|].
    rewrite I.
    transitivity (d * d * d * d * (c * c * (1 + t) * (1 - t)) * ((y3 - y2) * (y3 - y2)) * (1 + y1) * (1 + yp)); [ring|].
    rewrite <- Hu. ring.
Qed.

(** One iteration of the ladder. *)
Definition state_ok (P : point) (m : Z) (a : F * F * F * F) : Prop :=
  let '(x2, z2, x3, z3) := a in rep x2 z2 (ed_mul m P) /\ rep x3 z3 (ed_mul (m + 1) P).

Section Ladder.
  Variable P : point.
  Hypothesis HP : on_curve P.
  Hypothesis Nx : fst P <> 0.
  Variable u : F.
  Hypothesis Hu : u * (1 - snd P) = 1 + snd P.

  Lemma step0_ok m a : state_ok P m a ->
    let '(x2, z2, x3, z3) := step0 u a in rep x2 z2 (ed_mul (2 * m) P) /\ rep x3 z3 (ed_mul (2 * m + 1) P).
  Proof.
    destruct a as [ [ [x2 z2] x3] z3]. intros [R2 R3]. cbn [step0 rfc_step xorb cswap fst].
    rewrite ed_mul_succ in R3 by exact HP.
    split.
    - replace (2 * m)%Z with (m + m)%Z by lia. rewrite ed_mul_add by exact HP.
      apply dbl_rep; auto with curve.
    - replace (2 * m + 1)%Z with (m + (m + 1))%Z by lia. rewrite ed_mul_add, ed_mul_succ by exact HP.
      apply dadd_rep; auto with curve.
  Qed.
  (** With the pair the other way round. *)
  Lemma step0_flip_ok m a : state_ok P m (flip a) ->
    let '(x2, z2, x3, z3) := step0 u a in rep x2 z2 (ed_mul (2 * m + 2) P) /\ rep x3 z3 (ed_mul (2 * m + 1) P).
  Proof.
    destruct a as [ [ [x3 z3] x2] z2]. cbn [flip]. intros [R2 R3]. cbn [step0 rfc_step xorb cswap fst].
    split.
    - replace (2 * m + 2)%Z with ((m + 1) + (m + 1))%Z by lia. rewrite ed_mul_add by exact HP.
      apply dbl_rep; auto with curve.
    - replace (2 * m + 1)%Z with (m + (m + 1))%Z by lia. rewrite ed_mul_add by exact HP.
      rewrite ed_mul_succ in R3 |- * by exact HP.
      pose proof (dadd_rep x2 z2 x3 z3 (ed_mul m P) P u ltac:(auto with curve) HP Nx Hu R2 R3) as G. cbv zeta in G.
      frepl ((x2 - z2) * (x3 + z3) + (x2 + z2) * (x3 - z3)) with ((x3 - z3) * (x2 + z2) + (x3 + z3) * (x2 - z2)).
      frepl (((x2 - z2) * (x3 + z3) - (x2 + z2) * (x3 - z3)) * ((x2 - z2) * (x3 + z3) - (x2 + z2) * (x3 - z3)))
        with (((x3 - z3) * (x2 + z2) - (x3 + z3) * (x2 - z2)) * ((x3 - z3) * (x2 + z2) - (x3 + z3) * (x2 - z2))).
      exact G.
  Qed.

  Definition sw_ok (m : Z) (st : F * F * F * F * bool) : Prop :=
    let '(a, sw) := st in state_ok P m (if sw then flip a else a).
  Lemma flip_flip a : flip (flip a) = a.
  Proof. destruct a as [ [ [x2 z2] x3] z3]. reflexivity. Qed.
  Lemma rfc_step_ok m bit st : sw_ok m st -> sw_ok (2 * m + Z.b2z bit) (rfc_step u bit st).
  Proof.
    destruct st as [a sw]. intros H. rewrite rfc_step_step0. unfold sw_ok in *.
    destruct bit; cbn [Z.b2z].
    - assert (H' : state_ok P m (flip (if xorb sw true then flip a else a))).
      { destruct sw; cbn [xorb]; [exact H|now rewrite flip_flip]. }
      apply step0_flip_ok in H'. destruct (step0 u _) as [ [ [x2 z2] x3] z3]. cbn [flip state_ok].
      replace (2 * m + 1 + 1)%Z with (2 * m + 2)%Z by lia. tauto.
    - assert (H' : state_ok P m (if xorb sw false then flip a else a)) by (destruct sw; exact H).
      apply step0_ok in H'. destruct (step0 u _) as [ [ [x2 z2] x3] z3]. cbn [state_ok]. rewrite Z.add_0_r. exact H'.
  Qed.
  Lemma rfc_loop_ok k n : (0 <= k)%Z -> forall st, sw_ok (k / 2 ^ Z.of_nat n) st -> sw_ok k (rfc_loop u k n st).
  Proof.
    intros Hk. induction n as [|n IH]; intros st H; cbn [rfc_loop].
    - change (2 ^ Z.of_nat 0)%Z with 1%Z in H. now rewrite Z.div_1_r in H.
    - apply IH. apply (rfc_step_ok _ (Z.testbit k (Z.of_nat n))) in H.
      assert (E : (k / 2 ^ Z.of_nat n = 2 * (k / 2 ^ Z.of_nat (S n)) + Z.b2z (Z.testbit k (Z.of_nat n)))%Z).
      { rewrite Z.testbit_spec' by lia. rewrite Nat2Z.inj_succ, Z.pow_succ_r by lia.
        rewrite (Z.mul_comm 2 (2 ^ _)), <- Z.div_div by lia. apply Z.div_mod. lia. }
      now rewrite E.
  Qed.
  Lemma ladder_main k : (0 <= k < 2 ^ 255)%Z -> x25519_F k u = mont_u (ed_mul k P).
  Proof.
    intros Hk. unfold x25519_F.
    assert (H0 : sw_ok (k / 2 ^ Z.of_nat 255) (f1, f0, u, f1, false)).
    { change (Z.of_nat 255) with 255%Z. rewrite Z.div_small by exact Hk. cbn [sw_ok state_ok]. split.
      - rewrite ed_mul_0. apply rep_intro; cbn [snd ed_zero]; [|ring]. intros [E _]. exact (f1_neq0 E).
      - change (0 + 1)%Z with 1%Z. rewrite ed_mul_1. apply rep_intro; [|rewrite Hu; ring]. intros [_ E]. exact (f1_neq0 E). }
    apply (rfc_loop_ok k 255 (proj1 Hk)) in H0.
    destruct (rfc_loop u k 255 (f1, f0, u, f1, false)) as [ [ [ [x2 z2] x3] z3] sw].
    cbn [sw_ok] in H0. destruct sw; cbn [flip state_ok cswap] in *; apply rep_u; tauto.
  Qed.
End Ladder.

Lemma x0_points x y : on_curve (x, y) -> x = 0 -> y = 1 \/ y = - f1.
Proof.
  unfold on_curve. intros C ->. apply fsq_eq. transitivity (y * y - 0 * 0); [ring|]. rewrite C. ring.
Qed.
Lemma mont_u_den0 x y : 1 - y = 0 -> mont_u (x, y) = 0.
Proof.
  intros E. unfold mont_u. change (fdiv (1 + y) (1 - y)) with ((1 + y) * finv (1 - y)). rewrite E, finv_0. ring.
Qed.
Lemma mont_u_num0 x y : 1 + y = 0 -> mont_u (x, y) = 0.
Proof.
  intros E. unfold mont_u. change (fdiv (1 + y) (1 - y)) with ((1 + y) * finv (1 - y)). rewrite E. ring.
Qed.
Lemma mont_u_x0 y : y = 1 \/ y = - f1 -> mont_u (0, y) = 0.
Proof. intros [E|E]; [apply mont_u_den0|apply mont_u_num0]; rewrite E; ring. Qed.
Lemma x0_mul P n : on_curve P -> fst P = 0 -> fst (ed_mul n P) = 0.
Proof.
  intros HP H0.
  assert (A : forall Q, on_curve Q -> fst Q = 0 -> fst (ed_add P Q) = 0).
  { intros [x2 y2] HQ HQ0. destruct P as [x1 y1]. destruct (ed_add_spec _ _ HP HQ) as (x & y & -> & EX & _). cbn [fst snd] in *.
    apply (fmul_cancel _ _ _ (den_plus _ _ _ _ HP HQ)). transitivity (x * (1 + ed_d * (x1 * x2 * (y1 * y2)))); [ring|].
    rewrite EX, H0, HQ0. ring. }
  assert (B : forall k, (0 <= k)%Z -> fst (ed_mul k P) = 0).
  { apply natlike_ind; [reflexivity|]. intros k Hk IH. rewrite <- Z.add_1_r, ed_mul_succ by assumption. apply A; auto with curve. }
  destruct (Z.le_gt_cases 0 n) as [H|H]; [now apply B|].
  replace n with (- - n)%Z by lia. rewrite ed_mul_opp. specialize (B (- n)%Z ltac:(lia)).
  destruct (ed_mul (- n) P) as [x y]. cbn [ed_opp fst] in *. rewrite B. ring.
Qed.

(** The ladder computes the u-coordinate of the multiple. *)
Theorem x25519_mul P k : on_curve P -> (0 <= k < 2 ^ 255)%Z -> (k mod 8 = 0)%Z ->
  x25519_F k (mont_u P) = mont_u (ed_mul k P).
Proof.
  intros HP Hk H8. destruct (F_eq_dec (fst P) 0) as [E|N].
  - pose proof (x0_mul P k HP E) as E'. pose proof (on_curve_mul k P HP) as HP'.
    destruct (ed_mul k P) as [x' y']. destruct P as [x y]. cbn [fst] in *. subst x x'.
    rewrite (mont_u_x0 y (x0_points _ _ HP eq_refl)), (mont_u_x0 y' (x0_points _ _ HP' eq_refl)).
    apply low_0; [apply Hk|exact H8].
  - apply ladder_main; try assumption. destruct P as [x y]. cbn [fst snd mont_u] in *. field.
    intros E. change (toF 1) with f1 in E. apply N. assert (Y : y = 1) by (transitivity (1 - (1 - y)); [ring|rewrite E; ring]).
    subst y. unfold on_curve in HP.
    assert (Q : x * x * (1 + ed_d) = 0).
    { transitivity (1 * 1 - (1 * 1 - x * x) + ed_d * (x * x) * (1 * 1)); [ring|]. rewrite HP. ring. }
    apply fmul_eq0 in Q. destruct Q as [Q|Q]; [now apply fsq_eq0|]. exfalso.
    pose proof ed_d_def as Ed. assert (Dd : ed_d = - f1) by (transitivity (1 + ed_d - 1); [ring|rewrite Q; ring]).
    rewrite Dd, c12 in Ed. apply f1_neq0. transitivity (toF 121665 + 1 - toF 121665); [ring|].
    transitivity (- (- f1 * (toF 121665 + 1)) - toF 121665); [ring|]. rewrite Ed. ring.
Qed.
Lemma mont_u_B : mont_u ed_B = toF 9.
Proof.
  unfold mont_u, ed_B. pose proof five_neq0 as N5.
  assert (Y : toF 4 / toF 5 * toF 5 = toF 4) by (field; exact N5).
  set (y := toF 4 / toF 5) in *. clearbody y.
  assert (N : 1 - y <> 0).
  { intros E. apply (const_neq0 1 eq_refl). change (toF 1) with f1.
    transitivity (toF 5 - toF 4); [now rewrite <- toF_sub|]. rewrite <- Y. transitivity ((1 - y) * toF 5); [ring|rewrite E; ring]. }
  apply (fmul_cancel (1 - y)); [exact N|]. transitivity (1 + y); [field; change (toF 1) with f1; exact N|].
  apply (fmul_cancel (toF 5)); [exact N5|]. transitivity (toF 5 + y * toF 5); [ring|].
  transitivity (toF 9 * (toF 5 - y * toF 5)); [|ring]. rewrite Y. ring.
Qed.
Lemma decode_scalar_range k : (0 <= decode_scalar k < 2 ^ 255)%Z.
Proof.
  unfold decode_scalar. pose proof (Z.mod_pos_bound (le_decode k / 8) (2 ^ 251) ltac:(lia)). lia.
Qed.
Lemma decode_encode_u x : decode_u (encode_u x) = x.
Proof.
  unfold decode_u, encode_u. rewrite le_decode_encode. change (256 ^ Z.of_nat 32)%Z with (2 ^ 256)%Z.
  pose proof (fz_range x) as R. unfold p in R. rewrite !Z.mod_small by (rewrite ?Z.mod_small by lia; lia). apply toF_fz.
Qed.
Theorem x25519_comm a b base : decode_u base = toF 9 ->
  x25519 a (x25519 b base) = x25519 b (x25519 a base).
Proof.
  intros Hb. unfold x25519. rewrite Hb, !decode_encode_u, <- mont_u_B. f_equal.
  pose proof (decode_scalar_range a) as Ra. pose proof (decode_scalar_range b) as Rb.
  destruct (decode_scalar_8 a) as [_ A8], (decode_scalar_8 b) as [_ B8].
  generalize dependent (decode_scalar a). generalize dependent (decode_scalar b). clear. intros n Rn N8 m Rm M8.
  rewrite (x25519_mul ed_B n on_curve_B Rn N8), (x25519_mul ed_B m on_curve_B Rm M8).
  rewrite (x25519_mul _ m (on_curve_mul n _ on_curve_B) Rm M8), (x25519_mul _ n (on_curve_mul m _ on_curve_B) Rn N8).
  rewrite !ed_mul_mul by exact on_curve_B. now rewrite Z.mul_comm.
Qed.

(** ** Points of order eight. *)
Lemma mul8_zero P k : on_curve P -> ed_mul 8 P = ed_zero -> (k mod 8 = 0)%Z -> ed_mul k P = ed_zero.
Proof.
  intros HP H8 Hk. rewrite (Z.div_mod k 8) by lia. rewrite Hk, Z.add_0_r, Z.mul_comm.
  rewrite <- ed_mul_mul by exact HP. rewrite H8. apply ed_mul_zero.
Qed.
Lemma mont_u_zero : mont_u ed_zero = 0.
Proof. apply mont_u_den0. ring. Qed.
(** x = i y and d y^4 + 2 y^2 = 1: twice the point is (i, 0). *)
Lemma order8 y : ed_d * (y * y) * (y * y) = 1 - (1 + 1) * (y * y) ->
  on_curve (f_i * y, y) /\ ed_mul 8 (f_i * y, y) = ed_zero.
Proof.
  intros Hy. pose proof f_i_sq as Hi. pose proof (fopp_neq0 _ f1_neq0) as _.
  set (i := f_i) in *. clearbody i.
  assert (C : on_curve (i * y, y)).
  { unfold on_curve. transitivity (y * y - (i * i) * (y * y)); [ring|].
    transitivity (1 + (i * i) * (ed_d * (y * y) * (y * y))); [|ring]. rewrite Hy, Hi. ring. }
  assert (C4 : on_curve (i, 0)).
  { unfold on_curve. transitivity (- (i * i)); [ring|]. rewrite Hi. ring. }
  assert (C2 : on_curve (0, - f1)) by (unfold on_curve; ring).
  split; [exact C|].
  assert (D1 : ed_add (i * y, y) (i * y, y) = (i, 0)).
  { apply (ed_add_char _ _ _ _ _ _ C C).
    - transitivity (i + i * ((i * i) * (ed_d * (y * y) * (y * y)))); [ring|]. rewrite Hy, Hi. ring.
    - transitivity (y * y + (i * i) * (y * y)); [rewrite Hi; ring|ring]. }
  assert (D2 : ed_add (i, 0) (i, 0) = (0, - f1)).
  { apply (ed_add_char _ _ _ _ _ _ C4 C4); [ring|]. transitivity (i * i); [rewrite Hi; ring|ring]. }
  assert (D3 : ed_add (0, - f1) (0, - f1) = ed_zero).
  { apply (ed_add_char _ _ _ _ _ _ C2 C2); ring. }
  change 8%Z with (2 * (2 * 2))%Z. rewrite <- !ed_mul_mul by exact C.
  rewrite (ed_mul_2 _ C), D1, (ed_mul_2 _ C4), D2, (ed_mul_2 _ C2). exact D3.
Qed.
Lemma low_8 y u k : (ed_d * (y * y) * (y * y) = 1 - (1 + 1) * (y * y)) -> u * (1 - y) = 1 + y -> 1 - y <> 0 ->
  (0 <= k < 2 ^ 255)%Z -> (k mod 8 = 0)%Z -> x25519_F k u = 0.
Proof.
  intros Hy Hu Ny Hk H8. destruct (order8 y Hy) as [C O].
  assert (E : u = mont_u (f_i * y, y)).
  { unfold mont_u. rewrite <- Hu. field. change (toF 1) with f1. exact Ny. }
  rewrite E, x25519_mul by assumption. rewrite mul8_zero by assumption. exact mont_u_zero.
Qed.
Definition y8a : Z := 2707385501144840649318225287225658788936804267575313519463743609750303402022.
Definition u8a : Z := 39382357235489614581723060781553021112529911719440698176882885853963445705823.
Definition y8b : Z := 55188659117513257062467267217118295137698188065244968500265048394206261417927.
Definition u8b : Z := 325606250916557431795983626356110631294008115727848805560023387167927233504.
Lemma y8_check y : toF (-121665 * mulr (mulr y y) (mulr y y)) = toF (121666 * (1 - 2 * mulr y y)) ->
  ed_d * (toF y * toF y) * (toF y * toF y) = 1 - (1 + 1) * (toF y * toF y).
Proof.
  intros H. rewrite !toF_mul, toF_sub, toF_mul, !mulr_ok in H.
  apply (fmul_cancel (toF 121666)); [exact c121666_neq0|].
  transitivity ((ed_d * toF 121666) * (toF y * toF y * (toF y * toF y))); [ring|]. rewrite ed_d_def.
  transitivity (toF (-121665) * (toF y * toF y * (toF y * toF y))); [ring|]. rewrite H.
  ring.
Qed.
Lemma low_8a k : (0 <= k < 2 ^ 255)%Z -> (k mod 8 = 0)%Z -> x25519_F k (toF u8a) = 0.
Proof.
  intros Hk H8. apply (low_8 (toF y8a)); try assumption.
  - apply y8_check. apply toF_eq. vm_compute. reflexivity.
  - change f1 with (toF 1). rewrite <- toF_sub, <- toF_add, <- mulr_ok. apply toF_eq. vm_compute. reflexivity.
  - change f1 with (toF 1). rewrite <- toF_sub. apply const_neq0. vm_compute. reflexivity.
Qed.
Lemma low_8b k : (0 <= k < 2 ^ 255)%Z -> (k mod 8 = 0)%Z -> x25519_F k (toF u8b) = 0.
Proof.
  intros Hk H8. apply (low_8 (toF y8b)); try assumption.
  - apply y8_check. apply toF_eq. vm_compute. reflexivity.
  - change f1 with (toF 1). rewrite <- toF_sub, <- toF_add, <- mulr_ok. apply toF_eq. vm_compute. reflexivity.
  - change f1 with (toF 1). rewrite <- toF_sub. apply const_neq0. vm_compute. reflexivity.
Qed.
