(** The integers modulo p form a commutative ring (primality comes later). *)
From Verif Require Import BaseFacts S_Field.
From Coq Require Import Eqdep_dec Ring.

Lemma p_pos : 0 < p. Proof. reflexivity. Qed.
Lemma p_nz : p <> 0. Proof. discriminate. Qed.

Lemma F_ext a b : fz a = fz b -> a = b.
Proof.
  destruct a as [x Hx], b as [y Hy]; cbn. intros <-. f_equal. apply UIP_dec. apply Bool.bool_dec.
Qed.
Lemma fz_mod a : fz a mod p = fz a.
Proof. apply Z.eqb_eq, fz_ok. Qed.
Lemma fz_range a : 0 <= fz a < p.
Proof. rewrite <- fz_mod. apply Z.mod_pos_bound, p_pos. Qed.
Lemma fz_toF z : fz (toF z) = z mod p. Proof. reflexivity. Qed.
Lemma toF_fz a : toF (fz a) = a.
Proof. apply F_ext. rewrite fz_toF. apply fz_mod. Qed.
Lemma toF_eq x y : x mod p = y mod p -> toF x = toF y.
Proof. intros H. apply F_ext. now rewrite !fz_toF. Qed.
Lemma toF_inj x y : toF x = toF y -> x mod p = y mod p.
Proof. intros H. now rewrite <- !fz_toF, H. Qed.

Lemma toF_add x y : toF (x + y) = fadd (toF x) (toF y).
Proof. unfold fadd. apply toF_eq. rewrite !fz_toF. apply Zplus_mod. Qed.
Lemma toF_sub x y : toF (x - y) = fsub (toF x) (toF y).
Proof. unfold fsub. apply toF_eq. rewrite !fz_toF. apply Zminus_mod. Qed.
Lemma toF_mul x y : toF (x * y) = fmul (toF x) (toF y).
Proof. unfold fmul. apply toF_eq. rewrite !fz_toF. apply Zmult_mod. Qed.
Lemma toF_opp x : toF (- x) = fopp (toF x).
Proof.
  unfold fopp. apply toF_eq. rewrite !fz_toF. rewrite <- !Z.sub_0_l.
  rewrite (Zminus_mod 0 (x mod p)), Z.mod_mod by exact p_nz. apply Zminus_mod.
Qed.

Lemma F_ring : ring_theory f0 f1 fadd fmul fsub fopp (@eq F).
Proof.
  constructor; intros;
    repeat match goal with a : F |- _ => rewrite <- (toF_fz a); generalize (fz a); clear a; intros a end;
    unfold f0, f1; rewrite <- ?toF_add, <- ?toF_mul, <- ?toF_opp, <- ?toF_sub, <- ?toF_add, <- ?toF_mul;
    rewrite <- ?toF_add, <- ?toF_mul, <- ?toF_opp;
    f_equal; ring.
Qed.

Lemma F_morph : ring_morph f0 f1 fadd fmul fsub fopp (@eq F) 0 1 Z.add Z.mul Z.sub Z.opp Z.eqb toF.
Proof.
  constructor; try reflexivity; intros.
  - apply toF_add. - apply toF_sub. - apply toF_mul. - apply toF_opp.
  - f_equal. now apply Z.eqb_eq.
Qed.

Ltac Fcst t :=
  match t with
  | f0 => constr:(0)
  | f1 => constr:(1)
  | toF ?z => match isZcst z with true => z | _ => constr:(InitialRing.NotConstant) end
  | _ => constr:(InitialRing.NotConstant)
  end.
Add Ring F_ring_inst : F_ring (morphism F_morph, constants [Fcst]).

Lemma feqb_spec a b : reflect (a = b) (feqb a b).
Proof.
  unfold feqb. destruct (Z.eqb_spec (fz a) (fz b)) as [E|N]; constructor.
  - now apply F_ext. - intros ->. now apply N.
Qed.
Lemma F_eq_dec (a b : F) : {a = b} + {a <> b}.
Proof. destruct (feqb_spec a b); [left|right]; assumption. Qed.

(** ** Powers *)
Fixpoint pown (a : F) (n : nat) : F := match n with O => f1 | S n' => fmul a (pown a n') end.
Lemma pown_add a m n : pown a (m + n) = fmul (pown a m) (pown a n).
Proof. induction m as [|m IH]; cbn [pown Nat.add]; [ring|]. rewrite IH. ring. Qed.
Lemma pown_mul a b n : pown (fmul a b) n = fmul (pown a n) (pown b n).
Proof. induction n as [|n IH]; cbn [pown]; [ring|]. rewrite IH. ring. Qed.
Lemma pown_pown a m n : pown (pown a m) n = pown a (m * n).
Proof.
  induction n as [|n IH]; cbn [pown]; [now rewrite Nat.mul_0_r|].
  rewrite IH, <- pown_add. f_equal. lia.
Qed.
Lemma pown_1 n : pown f1 n = f1.
Proof. induction n as [|n IH]; cbn [pown]; [reflexivity|]. rewrite IH. ring. Qed.
Lemma pown_0 n : (0 < n)%nat -> pown f0 n = f0.
Proof. destruct n; [lia|]. intros _. cbn [pown]. ring. Qed.

Lemma fpow_pos_pown a n : fpow_pos a n = pown a (Pos.to_nat n).
Proof.
  induction n as [n IH|n IH|]; cbn [fpow_pos].
  - rewrite IH, Pos2Nat.inj_xI. cbn [pown Nat.mul]. rewrite Nat.add_0_r, pown_add. reflexivity.
  - rewrite IH, Pos2Nat.inj_xO. cbn [Nat.mul]. rewrite Nat.add_0_r, pown_add. reflexivity.
  - change (Pos.to_nat 1) with 1%nat. cbn [pown]. ring.
Qed.
Lemma fpow_pown a n : 0 <= n -> fpow a n = pown a (Z.to_nat n).
Proof. intros H. destruct n as [|n|n]; [reflexivity|apply fpow_pos_pown|lia]. Qed.
Lemma fpow_add a m n : 0 <= m -> 0 <= n -> fpow a (m + n) = fmul (fpow a m) (fpow a n).
Proof. intros. rewrite !fpow_pown by lia. rewrite Z2Nat.inj_add by lia. apply pown_add. Qed.
Lemma fpow_mul a b n : 0 <= n -> fpow (fmul a b) n = fmul (fpow a n) (fpow b n).
Proof. intros. rewrite !fpow_pown by lia. apply pown_mul. Qed.
Lemma fpow_fpow a m n : 0 <= m -> 0 <= n -> fpow (fpow a m) n = fpow a (m * n).
Proof. intros. rewrite !fpow_pown by lia. rewrite Z2Nat.inj_mul by lia. apply pown_pown. Qed.
Lemma fpow_1_l n : fpow f1 n = f1.
Proof. destruct n as [|n|n]; try reflexivity. cbn [fpow]. rewrite fpow_pos_pown. apply pown_1. Qed.
Lemma fpow_0_l n : 0 < n -> fpow f0 n = f0.
Proof. intros. rewrite fpow_pown by lia. apply pown_0. lia. Qed.
Lemma fpow_1_r a : fpow a 1 = a. Proof. reflexivity. Qed.
Lemma fpow_2_r a : fpow a 2 = fmul a a. Proof. reflexivity. Qed.
