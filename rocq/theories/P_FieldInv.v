(** The integers modulo p form a field. *)
From Verif Require Import BaseFacts S_Field P_Field P_Slp P_Prime P_PrimeP.
From Coq Require Import Znumtheory.
From Coq Require Export Field.

Lemma toF_0_divide z : toF z = f0 <-> (p | z).
Proof.
  split.
  - intros H. apply toF_inj in H. apply Z.mod_divide; [exact p_nz|]. rewrite H. reflexivity.
  - intros H. apply toF_eq. rewrite (proj2 (Z.mod_divide z p p_nz) H). reflexivity.
Qed.
Lemma fmul_eq0 a b : fmul a b = f0 -> a = f0 \/ b = f0.
Proof.
  intros H. rewrite <- (toF_fz a), <- (toF_fz b) in *. rewrite <- toF_mul in H. apply toF_0_divide in H.
  apply prime_mult in H; [|exact prime_p]. destruct H; [left|right]; now apply toF_0_divide.
Qed.
Lemma fmul_neq0 a b : a <> f0 -> b <> f0 -> fmul a b <> f0.
Proof. intros Ha Hb H. apply fmul_eq0 in H. tauto. Qed.
Lemma f1_neq0 : f1 <> f0.
Proof. intros H. apply toF_inj in H. discriminate H. Qed.

Lemma fpow_toF z n : 0 <= n -> fpow (toF z) n = toF (z ^ n).
Proof.
  intros Hn. rewrite fpow_pown by lia. rewrite <- (Z2Nat.id n) at 2 by lia. generalize (Z.to_nat n). clear n Hn.
  induction n as [|n IH]; [reflexivity|]. cbn [pown]. rewrite Nat2Z.inj_succ, Z.pow_succ_r by lia.
  now rewrite toF_mul, IH.
Qed.
Theorem fermat a : a <> f0 -> fpow a (p - 1) = f1.
Proof.
  intros Ha. rewrite <- (toF_fz a) in *. rewrite fpow_toF by (unfold p; lia).
  apply toF_eq. assert (D : ~ (p | fz a)) by (intros D; apply Ha; now apply toF_0_divide).
  apply (proj1 (eqm_mod p _ _ p_nz)). exact (flt p _ prime_p D).
Qed.
Lemma finv_l a : a <> f0 -> fmul (finv a) a = f1.
Proof.
  intros Ha. unfold finv. rewrite <- (fermat a Ha). replace (p - 1) with ((p - 2) + 1) by lia.
  rewrite fpow_add by (unfold p; lia). now rewrite fpow_1_r.
Qed.
Lemma finv_0 : finv f0 = f0. Proof. unfold finv. apply fpow_0_l. reflexivity. Qed.

Lemma F_field : field_theory f0 f1 fadd fmul fsub fopp fdiv finv (@eq F).
Proof.
  constructor; [exact F_ring|exact f1_neq0|reflexivity|exact finv_l].
Qed.
Add Field F_field_inst : F_field (morphism F_morph, constants [Fcst]).

Local Open Scope F_scope.
Lemma fsub_eq0 a b : a - b = 0 -> a = b.
Proof. intros H. replace a with ((a - b) + b) by ring. rewrite H. ring. Qed.
Lemma fmul_cancel a b c : a <> 0 -> a * b = a * c -> b = c.
Proof.
  intros Ha H. assert (E : a * (b - c) = 0) by (replace (a * (b - c)) with (a * b - a * c) by ring; rewrite H; ring).
  apply fmul_eq0 in E. destruct E; [contradiction|]. now apply fsub_eq0.
Qed.
Lemma fsq_eq a b : a * a = b * b -> a = b \/ a = - b.
Proof.
  intros H. assert (E : (a - b) * (a + b) = 0) by (ring [H]).
  apply fmul_eq0 in E. destruct E as [E|E]; [left; now apply fsub_eq0|right].
  replace a with ((a + b) - b) by ring. rewrite E. ring.
Qed.
Lemma fsq_eq0 a : a * a = 0 -> a = 0.
Proof. intros H. apply fmul_eq0 in H. tauto. Qed.
Lemma fopp_neq0 a : a <> 0 -> - a <> 0.
Proof. intros H E. apply H. replace a with (- - a) by ring. rewrite E. ring. Qed.
Lemma finv_neq0 a : a <> 0 -> finv a <> 0.
Proof. intros H E. pose proof (finv_l a H) as G. rewrite E in G. apply f1_neq0. rewrite <- G. ring. Qed.
Lemma finv_mul a b : finv (a * b) = finv a * finv b.
Proof. unfold finv. apply fpow_mul. unfold p. lia. Qed.

Lemma const_neq0 z : (z mod p =? 0)%Z = false -> toF z <> 0.
Proof. intros H E. apply toF_inj in E. apply Z.eqb_neq in H. apply H. rewrite E. reflexivity. Qed.

(** Fast reduction, for computations. *)
Local Open Scope Z_scope.
Definition red (x : Z) : Z :=
  let x := Z.land x (Z.ones 255) + 19 * Z.shiftr x 255 in
  Z.land x (Z.ones 255) + 19 * Z.shiftr x 255.
Lemma red1_ok x : toF (Z.land x (Z.ones 255) + 19 * Z.shiftr x 255) = toF x.
Proof.
  rewrite Z.land_ones, Z.shiftr_div_pow2 by lia. apply toF_eq. apply (proj1 (eqm_mod p _ _ p_nz)).
  exists (- (x / 2 ^ 255)). pose proof (Z.div_mod x (2 ^ 255) ltac:(lia)). unfold p. lia.
Qed.
Lemma red_ok x : toF (red x) = toF x.
Proof. unfold red. cbv zeta. now rewrite !red1_ok. Qed.
Definition mulr (x y : Z) : Z := red (x * y).
Lemma mulr_ok x y : toF (mulr x y) = fmul (toF x) (toF y).
Proof. unfold mulr. now rewrite red_ok, toF_mul. Qed.
(** Power of a small base. *)
Fixpoint powr (a : Z) (e : positive) : Z :=
  match e with
  | xH => a
  | xO e' => let r := powr a e' in mulr r r
  | xI e' => let r := powr a e' in red (a * mulr r r)
  end.
Lemma powr_ok a e : toF (powr a e) = fpow (toF a) (Zpos e).
Proof.
  cbn [fpow]. induction e as [e IH|e IH|]; cbn [powr fpow_pos]; [|rewrite mulr_ok, IH; reflexivity|reflexivity].
  now rewrite red_ok, toF_mul, mulr_ok, IH.
Qed.

Lemma euler_nonsquare z : fpow (toF z) ((p - 1) / 2) = toF (-1) -> forall x, fmul x x <> toF z.
Proof.
  intros H x E. rewrite <- E in H.
  assert (Hx : x <> f0).
  { intros ->. assert (Z0 : fmul f0 f0 = f0) by ring. rewrite Z0, fpow_0_l in H by reflexivity.
    apply toF_inj in H. discriminate H. }
  pose proof (fermat x Hx) as G. replace (p - 1) with ((p - 1) / 2 + (p - 1) / 2) in G by reflexivity.
  rewrite fpow_add, <- fpow_mul in G by (vm_compute; discriminate). rewrite G in H. apply toF_inj in H. discriminate H.
Qed.
(** 121665 * 121666 is not a square. *)
Lemma N_nonsquare : forall x, fmul x x <> toF (121665 * 121666).
Proof.
  apply euler_nonsquare. change ((p - 1) / 2) with (Zpos (2 ^ 254 - 10)). rewrite <- powr_ok. apply toF_eq.
  vm_compute. reflexivity.
Qed.
