(** A point of order Lt on the twist, and 8 Lt kills every point of the twist. *)
From Verif Require Import BaseFacts S_Field S_Edwards S_Twist S_X25519 P_Field P_FieldInv P_Edwards P_TwEd P_X25519b P_Mont P_TwMont P_Twist
  P_EdDecode P_EdOrder P_PrimeT.
From Coq Require Import Znumtheory.
Local Open Scope F_scope.

(** ** The ladder on integers *)
Definition zstate : Type := (Z * Z * Z * Z)%type.
Definition zflip (a : zstate) : zstate := let '(x2, z2, x3, z3) := a in (x3, z3, x2, z2).
Definition zstep (u : Z) (a : zstate) : zstate :=
  let '(x2, z2, x3, z3) := a in
  (let A := x2 + z2 in let AA := mulr A A in let B := x2 - z2 in let BB := mulr B B in let E := AA - BB in
   let C := x3 + z3 in let D := x3 - z3 in let DA := mulr D A in let CB := mulr C B in
   (mulr AA BB, mulr E (AA + 121665 * E), mulr (DA + CB) (DA + CB), mulr u (mulr (DA - CB) (DA - CB))))%Z.
Fixpoint zloop (u k : Z) (n : nat) (a : zstate) (sw : bool) : zstate * bool :=
  match n with
  | O => (a, sw)
  | S t => let bit := Z.testbit k (Z.of_nat t) in zloop u k t (zstep u (if xorb sw bit then zflip a else a)) bit
  end.
Definition toF4 (a : zstate) : F * F * F * F := let '(x2, z2, x3, z3) := a in (toF x2, toF z2, toF x3, toF z3).
Lemma zflip_ok a : toF4 (zflip a) = flip (toF4 a).
Proof. destruct a as [ [ [x2 z2] x3] z3]. reflexivity. Qed.
Lemma zstep_ok u a : toF4 (zstep u a) = step0 (toF u) (toF4 a).
Proof.
  destruct a as [ [ [x2 z2] x3] z3]. cbn [zstep toF4 step0 rfc_step xorb cswap fst].
  repeat first [rewrite mulr_ok|rewrite toF_add|rewrite toF_sub|rewrite toF_mul]. reflexivity.
Qed.
Lemma zloop_ok u k n : forall a sw,
  rfc_loop (toF u) k n (toF4 a, sw) = (toF4 (fst (zloop u k n a sw)), snd (zloop u k n a sw)).
Proof.
  induction n as [|n IH]; intros a sw; cbn [rfc_loop zloop]; [reflexivity|].
  rewrite rfc_step_step0, <- IH. f_equal. f_equal. rewrite zstep_ok.
  destruct (xorb sw _); [rewrite zflip_ok|]; reflexivity.
Qed.

Local Opaque tw_mul tw_add tw_zero tw_opp.
(** ** Basic facts *)
Lemma tw_d1_neq0 : 1 + tw_d <> 0.
Proof.
  intros Q. pose proof tw_d_def as Ed. assert (Dd : tw_d = - f1) by (transitivity (1 + tw_d - 1); [ring|rewrite Q; ring]).
  rewrite Dd, c12 in Ed. apply f1_neq0. transitivity (- (- (toF 121665 + 1)) - toF 121665); [ring|]. rewrite <- Ed. ring.
Qed.
Lemma tw_y_unit x y : tw_curve (x, y) -> y * y = 1 -> x = 0.
Proof.
  unfold tw_curve. intros C Y.
  assert (Q : x * x * (1 + tw_d) = 0).
  { rewrite Y in C. transitivity (1 + tw_d * (x * x) * 1 - (1 - x * x)); [ring|]. rewrite <- C. ring. }
  apply fmul_eq0 in Q. destruct Q as [Q|Q]; [exact (fsq_eq0 x Q)|exact (False_ind _ (tw_d1_neq0 Q))].
Qed.
Local Transparent tw_zero tw_opp.
Lemma tw_snd_zero : snd tw_zero = f1. Proof. exact eq_refl. Qed.
Lemma tw_y1_zero P : tw_curve P -> snd P = f1 -> P = tw_zero.
Proof.
  destruct P as [x y]. cbn [snd]. intros C E. rewrite E in C. rewrite E. assert (O : f1 * f1 = 1) by ring. pose proof (tw_y_unit x f1 C O) as X. rewrite X. exact eq_refl.
Qed.
Lemma tw_opp_fix P : fst P = 0 -> tw_opp P = P.
Proof. destruct P as [x y]. cbn [fst]. intros ->. unfold tw_opp. apply (f_equal (fun t => (t, y))). ring. Qed.
Lemma tw_x0_double P : tw_curve P -> fst P = 0 -> tw_mul 2 P = tw_zero.
Proof.
  intros C X. rewrite (tw_mul_2 P C). rewrite <- (tw_opp_fix P X) at 2. exact (tw_opp_r P C).
Qed.
(** u = 0 exactly at the two points with x = 0. *)
Lemma tw_u_eq0 P : tw_curve P -> tw_u P = 0 -> fst P = 0.
Proof.
  destruct P as [x y]. intros C H. cbn [fst]. apply (tw_y_unit x y C). unfold tw_u in H.
  change (fdiv (1 + y) (y - 1)) with ((1 + y) * finv (y - 1)) in H. apply fmul_eq0 in H. destruct H as [H|H].
  - assert (Y : y = - f1) by (transitivity (1 + y - 1); [ring|rewrite H; ring]). rewrite Y. ring.
  - destruct (F_eq_dec (y - 1) 0) as [E|N].
    + assert (Y : y = 1) by (transitivity (1 + (y - 1)); [ring|rewrite E; ring]). rewrite Y. ring.
    + exfalso. apply f1_neq0. transitivity (finv (y - 1) * (y - 1)); [symmetry; exact (finv_l _ N)|rewrite H; ring].
Qed.
Lemma tw_u_zero : tw_u tw_zero = 0.
Proof. apply tw_u_den0. ring. Qed.
Local Opaque tw_zero tw_opp.

(** ** A point of order Lt: the one with u = 2 *)
Definition G_s : Z := 39918814536025110419800116306638632435624651647003340863360182320969454650934.
Lemma G_s_ok : toF G_s * toF G_s =
  NN * (toF 121666 * toF 2 * (toF 2 * toF 2 + ((1 + 1) * (toF 121665 + toF 121666)) * toF 2 + 1)).
Proof.
  unfold NN. rewrite <- mulr_ok.
  transitivity (toF (mulr (121665 * 121666) (121666 * 2 * (2 * 2 + (2 * (121665 + 121666)) * 2 + 1)))); [apply toF_eq; vm_compute; reflexivity|].
  rewrite mulr_ok. repeat first [rewrite toF_mul|rewrite toF_add]. reflexivity.
Qed.
Lemma zloop_zero P u k n : tw_curve P -> fst P <> 0 -> toF u * (snd P - 1) = 1 + snd P -> (0 <= k < 2 ^ Z.of_nat n)%Z ->
  (let '((x2, z2, x3, z3), sw) := zloop u k n (1, 0, u, 1)%Z false in ((if sw : bool then z3 else z2) mod p = 0)%Z) ->
  tw_mul k P = tw_zero.
Proof.
  intros C Nx Hu Hk E.
  assert (H0 : tw_sw_ok P (k / 2 ^ Z.of_nat n) (f1, f0, toF u, f1, false)).
  { rewrite Z.div_small by exact Hk. cbn [tw_sw_ok tw_state_ok]. split.
    - rewrite tw_mul_0. apply tw_rep_intro; [intros [Q _]; exact (f1_neq0 Q)|]. rewrite tw_snd_zero. ring.
    - change (0 + 1)%Z with 1%Z. rewrite tw_mul_1. apply tw_rep_intro; [|rewrite Hu; ring]. intros [_ Q]. exact (f1_neq0 Q). }
  apply (tw_rfc_loop_ok P C Nx (toF u) Hu k n (proj1 Hk)) in H0.
  change (f1, f0, toF u, f1, false) with (toF4 (1, 0, u, 1)%Z, false) in H0. rewrite zloop_ok in H0.
  revert E H0. generalize (zloop u k n (1, 0, u, 1)%Z false). intros r E H0. destruct r as [ [ [ [x2 z2] x3] z3] sw].
  cbn [fst snd toF4 tw_sw_ok] in H0.
  apply (tw_y1_zero _ (tw_curve_mul k P C)).
  assert (R : forall X Z, tw_rep X (toF Z) (tw_mul k P) -> (Z mod p = 0)%Z -> snd (tw_mul k P) = f1).
  { intros X Z (l & Nl & _ & EZ) M. assert (Z0 : toF Z = 0) by (apply toF_eq; rewrite M; reflexivity). rewrite Z0 in EZ. symmetry in EZ.
    apply fmul_eq0 in EZ. destruct EZ as [EZ|EZ]; [exfalso; exact (Nl EZ)|].
    transitivity (1 + (snd (tw_mul k P) - 1)); [ring|rewrite EZ; ring]. }
  destruct sw; cbn [flip tw_state_ok] in H0; destruct H0 as [H0 _]; exact (R _ _ H0 E).
Qed.
Lemma ladder_end_ok : let '((x2, z2, x3, z3), sw) := zloop 2 Lt 253 (1, 0, 2, 1)%Z false in ((if sw : bool then z3 else z2) mod p = 0)%Z.
Proof. vm_compute. reflexivity. Qed.
Lemma Lt_range : (0 <= Lt < 2 ^ Z.of_nat 253)%Z. Proof. split; [discriminate|reflexivity]. Qed.
Lemma G_exists : exists G, tw_curve G /\ fst G <> 0 /\ tw_mul Lt G = tw_zero.
Proof.
  destruct (lift_twist (toF 2) (toF G_s) G_s_ok) as (G & C & U). exists G. split; [exact C|].
  assert (Nx : fst G <> 0).
  { intros X. apply f2_neq0. change (1 + 1) with (toF 2). rewrite U. clear U. destruct G as [x y]. cbn [fst] in X. subst x.
    exact (tw_u_x0 y (tw_x0_points _ _ C eq_refl)). }
  split; [exact Nx|].
  assert (N1 : snd G - 1 <> 0).
  { intros E. apply Nx. destruct G as [x y]. cbn [fst snd] in *. apply (tw_y_unit x y C).
    assert (Y : y = 1) by (transitivity (1 + (y - 1)); [ring|rewrite E; ring]). rewrite Y. ring. }
  assert (Hu : toF 2 * (snd G - 1) = 1 + snd G).
  { rewrite U. destruct G as [x y]. cbn [snd] in *. unfold tw_u. field. exact N1. }
  exact (zloop_zero G 2 Lt 253 C Nx Hu Lt_range ladder_end_ok).
Qed.
