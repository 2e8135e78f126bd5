(** Facts about S_Gf2. *)
From Verif Require Import BaseFacts S_Gf2.

Definition mulx (d p y : Z) : Z := if Z.testbit y (d - 1) then Z.lxor (2 * y) p else 2 * y.

Lemma lxor_swap a b c e : Z.lxor (Z.lxor a b) (Z.lxor c e) = Z.lxor (Z.lxor a c) (Z.lxor b e).
Proof. rewrite !Z.lxor_assoc. f_equal. rewrite <- !Z.lxor_assoc. f_equal. apply Z.lxor_comm. Qed.

Lemma pmod_lxor d p n : forall a b, pmod d p n (Z.lxor a b) = Z.lxor (pmod d p n a) (pmod d p n b).
Proof.
  induction n as [|n IH]; intros a b; [reflexivity|]. cbn [pmod]. rewrite <- IH. f_equal.
  rewrite Z.lxor_spec. destruct (Z.testbit a _), (Z.testbit b _); cbn [xorb].
  - rewrite lxor_swap, Z.lxor_nilpotent, Z.lxor_0_r. reflexivity.
  - rewrite !Z.lxor_assoc. f_equal. apply Z.lxor_comm.
  - now rewrite Z.lxor_assoc.
  - reflexivity.
Qed.

Lemma pmod_small d p n a : 0 <= d -> 0 <= a < 2 ^ d -> pmod d p n a = a.
Proof.
  intros Hd Ha. induction n as [|n IH]; [reflexivity|]. cbn [pmod].
  rewrite (testbit_high a d) by lia. exact IH.
Qed.

Lemma testbit_double x i : Z.testbit (2 * x) i = Z.testbit x (i - 1).
Proof.
  destruct (Z.lt_ge_cases i 0) as [H|H].
  - rewrite !Z.testbit_neg_r by lia. reflexivity.
  - destruct (Z.eq_dec i 0) as [->|]; [rewrite Z.testbit_even_0, Z.testbit_neg_r by lia; reflexivity|].
    replace i with (Z.succ (i - 1)) at 1 by lia. apply Z.testbit_even_succ. lia.
Qed.
Lemma lxor_double a b : Z.lxor (2 * a) (2 * b) = 2 * Z.lxor a b.
Proof. apply Z.bits_inj'. intros n _. rewrite Z.lxor_spec, !testbit_double, Z.lxor_spec. reflexivity. Qed.

Lemma pmod_double d p n : forall x, pmod d p (S n) (2 * x) = mulx d p (pmod d p n x).
Proof.
  induction n as [|n IH]; intros x.
  - cbn [pmod]. rewrite Z.add_0_r, testbit_double, Z.shiftl_0_r. reflexivity.
  - change (pmod d p (S (S n)) (2 * x)) with
      (pmod d p (S n) (if Z.testbit (2 * x) (d + Z.of_nat (S n)) then Z.lxor (2 * x) (Z.shiftl p (Z.of_nat (S n))) else 2 * x)).
    change (pmod d p (S n) x) with
      (pmod d p n (if Z.testbit x (d + Z.of_nat n) then Z.lxor x (Z.shiftl p (Z.of_nat n)) else x)).
    rewrite <- IH. f_equal. rewrite testbit_double. replace (d + Z.of_nat (S n) - 1) with (d + Z.of_nat n) by lia.
    destruct (Z.testbit x _); [|reflexivity]. rewrite <- lxor_double. f_equal.
    rewrite !Z.shiftl_mul_pow2 by lia. replace (Z.of_nat (S n)) with (Z.of_nat n + 1) by lia.
    rewrite Z.pow_add_r by lia. ring.
Qed.

Lemma pmod_shiftl d p n a : 0 <= d -> 0 <= a < 2 ^ d -> forall i, (i <= n)%nat ->
  pmod d p n (Z.shiftl a (Z.of_nat i)) = Nat.iter i (mulx d p) a.
Proof.
  intros Hd Ha i. revert n. induction i as [|i IH]; intros n Hi.
  - rewrite Z.shiftl_0_r. cbn [Nat.iter nat_rect]. now apply pmod_small.
  - destruct n as [|n]; [lia|].
    replace (Z.shiftl a (Z.of_nat (S i))) with (2 * Z.shiftl a (Z.of_nat i)).
    + rewrite pmod_double, IH by lia. reflexivity.
    + rewrite !Z.shiftl_mul_pow2 by lia. replace (Z.of_nat (S i)) with (Z.of_nat i + 1) by lia.
      rewrite Z.pow_add_r by lia. ring.
Qed.

Lemma pmod_0 d p n : pmod d p n 0 = 0.
Proof. induction n as [|n IH]; [reflexivity|]. cbn [pmod]. now rewrite Z.testbit_0_l. Qed.

Lemma fmul_eq d p a b : 0 <= a < 2 ^ Z.of_nat d ->
  fmul d p a b = fold_right Z.lxor 0
    (map (fun i => if Z.testbit b (Z.of_nat i) then Nat.iter i (mulx (Z.of_nat d) p) a else 0) (seq 0 d)).
Proof.
  intros Ha. unfold fmul, pmul.
  assert (G : forall l, (forall i, In i l -> (i <= d)%nat) ->
    pmod (Z.of_nat d) p d (fold_right Z.lxor 0 (map (fun i => if Z.testbit b (Z.of_nat i) then Z.shiftl a (Z.of_nat i) else 0) l)) =
    fold_right Z.lxor 0 (map (fun i => if Z.testbit b (Z.of_nat i) then Nat.iter i (mulx (Z.of_nat d) p) a else 0) l)).
  { induction l as [|i l IH]; intros Hl; [apply pmod_0|]. cbn [map fold_right]. rewrite pmod_lxor, IH.
    - f_equal. destruct (Z.testbit b _); [|apply pmod_0]. apply pmod_shiftl; [lia|assumption|]. apply Hl. now left.
    - intros j Hj. apply Hl. now right. }
  apply G. intros i Hi. apply in_seq in Hi. lia.
Qed.

Lemma mulx_range d p y : 0 < d -> 2 ^ d <= p < 2 ^ (d + 1) -> 0 <= y < 2 ^ d -> 0 <= mulx d p y < 2 ^ d.
Proof.
  intros Hd Hp Hy. unfold mulx.
  assert (Hd2 : 2 ^ (d + 1) = 2 * 2 ^ d) by (rewrite Z.pow_add_r by lia; lia).
  assert (Hd1 : 2 ^ d = 2 * 2 ^ (d - 1)) by (replace d with ((d - 1) + 1) at 1 by lia; rewrite Z.pow_add_r by lia; lia).
  destruct (Z.testbit y (d - 1)) eqn:E.
  - assert (0 <= Z.lxor (2 * y) p) by (apply Z.lxor_nonneg; lia). split; [assumption|].
    apply range_testbit; [lia|assumption|]. intros n Hn. rewrite Z.lxor_spec, testbit_double.
    destruct (Z.eq_dec n d) as [->|].
    + rewrite E. assert (Z.testbit p d = true) as ->; [|reflexivity].
      apply Z.testbit_true; [lia|]. replace (p / 2 ^ d) with 1; [reflexivity|].
      apply (Z.div_unique p (2 ^ d) 1 (p - 2 ^ d)); lia.
    + rewrite (testbit_high y d), (testbit_high p (d + 1)) by lia. reflexivity.
  - split; [lia|]. enough (y < 2 ^ (d - 1)) by lia.
    apply range_testbit; [lia|lia|]. intros n Hn. destruct (Z.eq_dec n (d - 1)) as [->|]; [assumption|].
    apply (testbit_high y d); lia.
Qed.

Lemma iter_succ_r {A} (f : A -> A) n x : Nat.iter (S n) f x = Nat.iter n f (f x).
Proof. induction n as [|n IH]; [reflexivity|]. change (f (Nat.iter (S n) f x) = f (Nat.iter n f (f x))). now rewrite IH. Qed.
Lemma fold_left_cons' {A B} (f : A -> B -> A) x l a : fold_left f (x :: l) a = fold_left f l (f a x).
Proof. reflexivity. Qed.
Lemma fold_left_nil' {A B} (f : A -> B -> A) a : fold_left f [] a = a.
Proof. reflexivity. Qed.

(** [fmul] is the remainder of the division of the product by [p]. *)
Lemma testbit_fold_lxor (l : list Z) n : Z.testbit (fold_right Z.lxor 0 l) n = fold_right xorb false (map (fun x => Z.testbit x n) l).
Proof. induction l as [|x l IH]; [apply Z.testbit_0_l|]. cbn [fold_right map]. now rewrite Z.lxor_spec, IH. Qed.

Lemma pmul_add_bit n p q : 0 <= q < 2 ^ Z.of_nat n ->
  pmul (S n) p (q + 2 ^ Z.of_nat n) = Z.lxor (pmul n p q) (Z.shiftl p (Z.of_nat n)).
Proof.
  intros Hq. unfold pmul. rewrite seq_S, map_app, fold_right_app. cbn [map fold_right Nat.add].
  assert (Tn : Z.testbit (q + 2 ^ Z.of_nat n) (Z.of_nat n) = true).
  { apply Z.testbit_true; [lia|]. replace ((q + 2 ^ Z.of_nat n) / 2 ^ Z.of_nat n) with 1; [reflexivity|].
    apply (Z.div_unique _ _ 1 q); lia. }
  rewrite Tn, Z.lxor_0_r.
  assert (G : forall l z, fold_right Z.lxor z l = Z.lxor (fold_right Z.lxor 0 l) z).
  { induction l as [|x l IH]; intros z; cbn [fold_right]; [now rewrite Z.lxor_0_l|]. now rewrite IH, Z.lxor_assoc. }
  rewrite G. f_equal. f_equal. apply map_ext_in. intros i Hi. apply in_seq in Hi.
  assert (Z.testbit (q + 2 ^ Z.of_nat n) (Z.of_nat i) = Z.testbit q (Z.of_nat i)) as ->; [|reflexivity].
  rewrite <- (Z.mod_pow2_bits_low (q + 2 ^ Z.of_nat n) (Z.of_nat n)) by lia.
  replace (q + 2 ^ Z.of_nat n) with (q + 1 * 2 ^ Z.of_nat n) by lia. rewrite Z.mod_add, Z.mod_small by lia. reflexivity.
Qed.
Lemma pmul_skip n p q : 0 <= q < 2 ^ Z.of_nat n -> pmul (S n) p q = pmul n p q.
Proof.
  intros Hq. unfold pmul. rewrite seq_S, map_app, fold_right_app. cbn [map fold_right Nat.add].
  rewrite (testbit_high q (Z.of_nat n)) by lia. reflexivity.
Qed.

Lemma pmod_div d p n : 0 < d -> 2 ^ d <= p < 2 ^ (d + 1) -> forall a, 0 <= a < 2 ^ (d + Z.of_nat n) ->
  0 <= pmod d p n a < 2 ^ d /\ exists q, 0 <= q < 2 ^ Z.of_nat n /\ a = Z.lxor (pmul n p q) (pmod d p n a).
Proof.
  intros Hd Hp. induction n as [|n IH]; intros a Ha.
  - cbn [pmod]. rewrite Z.add_0_r in Ha. split; [assumption|]. exists 0. split; [lia|]. reflexivity.
  - cbn [pmod]. destruct (Z.testbit a (d + Z.of_nat n)) eqn:T.
    + destruct (IH (Z.lxor a (Z.shiftl p (Z.of_nat n)))) as [R (q & Hq & E)].
      { assert (0 <= Z.shiftl p (Z.of_nat n)) by (apply Z.shiftl_nonneg; lia).
        assert (H0 : 0 <= Z.lxor a (Z.shiftl p (Z.of_nat n))) by (apply Z.lxor_nonneg; lia).
        split; [exact H0|]. apply range_testbit; [lia|exact H0|]. intros m Hm.
        rewrite Z.lxor_spec, Z.shiftl_spec by lia. destruct (Z.eq_dec m (d + Z.of_nat n)) as [->|].
        - rewrite T. replace (d + Z.of_nat n - Z.of_nat n) with d by lia.
          assert (Z.testbit p d = true) as ->; [|reflexivity].
          apply Z.testbit_true; [lia|]. replace (p / 2 ^ d) with 1; [reflexivity|].
          assert (2 ^ (d + 1) = 2 * 2 ^ d) by (rewrite Z.pow_add_r; lia).
          apply (Z.div_unique p (2 ^ d) 1 (p - 2 ^ d)); lia.
        - rewrite (testbit_high a (d + Z.of_nat (S n))) by lia. rewrite (testbit_high p (d + 1)) by lia. reflexivity. }
      split; [exact R|]. exists (q + 2 ^ Z.of_nat n).
      assert (P2 : 2 ^ Z.of_nat (S n) = 2 * 2 ^ Z.of_nat n) by (rewrite Nat2Z.inj_succ, Z.pow_succ_r; lia).
      split; [lia|]. rewrite pmul_add_bit by assumption.
      rewrite Z.lxor_assoc, (Z.lxor_comm (Z.shiftl p _)), <- Z.lxor_assoc, <- E.
      now rewrite lxor_cancel.
    + destruct (IH a) as [R (q & Hq & E)].
      { split; [lia|]. apply range_testbit; [lia|lia|]. intros m Hm. destruct (Z.eq_dec m (d + Z.of_nat n)) as [->|]; [assumption|].
        apply (testbit_high a (d + Z.of_nat (S n))); lia. }
      split; [exact R|]. exists q.
      assert (P2 : 2 ^ Z.of_nat (S n) = 2 * 2 ^ Z.of_nat n) by (rewrite Nat2Z.inj_succ, Z.pow_succ_r; lia).
      split; [lia|]. rewrite pmul_skip by assumption. exact E.
Qed.

Lemma pmul_range n a b w : 0 <= w -> 0 <= a < 2 ^ w -> 0 <= pmul n a b < 2 ^ (w + Z.of_nat n).
Proof.
  intros Hw Ha. unfold pmul.
  assert (G : forall l, (forall i, In i l -> (i < n)%nat) ->
    0 <= fold_right Z.lxor 0 (map (fun i => if Z.testbit b (Z.of_nat i) then Z.shiftl a (Z.of_nat i) else 0) l) < 2 ^ (w + Z.of_nat n)).
  { assert (0 < 2 ^ (w + Z.of_nat n)) by (apply Z.pow_pos_nonneg; lia).
    induction l as [|i l IH]; intros Hl; cbn [map fold_right]; [lia|]. apply lxor_range; [lia| |].
    - destruct (Z.testbit b _); [|lia]. specialize (Hl i (or_introl eq_refl)). rewrite Z.shiftl_mul_pow2 by lia.
      rewrite Z.pow_add_r by lia. assert (2 ^ Z.of_nat i <= 2 ^ Z.of_nat n) by (apply Z.pow_le_mono_r; lia).
      assert (0 < 2 ^ Z.of_nat i) by (apply Z.pow_pos_nonneg; lia). nia.
    - apply IH. intros j Hj. apply Hl. now right. }
  apply G. intros i Hi. apply in_seq in Hi. lia.
Qed.

Lemma fmul_div d p a b : (0 < d)%nat -> 2 ^ Z.of_nat d <= p < 2 ^ (Z.of_nat d + 1) ->
  0 <= a < 2 ^ Z.of_nat d -> 0 <= b < 2 ^ Z.of_nat d ->
  0 <= fmul d p a b < 2 ^ Z.of_nat d /\
  exists q, 0 <= q < 2 ^ Z.of_nat d /\ pmul d a b = Z.lxor (pmul d p q) (fmul d p a b).
Proof.
  intros Hd Hp Ha Hb. apply pmod_div; [lia|assumption|]. apply pmul_range; [lia|assumption].
Qed.
